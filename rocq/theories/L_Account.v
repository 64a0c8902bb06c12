(** The energy account of an hour and of a run. *)
From Verif Require Import Base BaseL M_Battery S_Battery L_Battery M_HeatPump S_HeatPump L_HeatPump M_Tools L_Tools M_FixedOrder S_FixedOrder L_FixedOrder L_FixedOrderHour
  L_FixedOrderProps L_FixedOrderMore L_FixedOrderRun S_Account.

(** A back-up that is not electric takes no renewable electricity. *)
Lemma fuel_no_RES P I t n ps c r c' r' : is_electric P = false -> foldM (run_process P I t n) ps (c, r) = Ok (c', r') ->
  r AUX_RES_to_demand == 0 -> r AUX_RES_to_TS == 0 -> r' AUX_RES_to_demand == 0 /\ r' AUX_RES_to_TS == 0.
Proof.
  intro El. revert c r. induction ps as [|p ps IH]; intros c r H Z1 Z2.
  - injection H as <- <-. auto.
  - cbn [foldM] in H. unfold run_process at 1 in H. destruct (amount P I t n p c) as [[h e]|] eqn:A; cbn [bind] in H; [|discriminate].
    apply (IH _ _ H); clear IH H.
    + destruct (process_eq_dec p EAUX_RES_to_demand) as [->|N].
      * cbn [amount] in A. rewrite El in A. injection A as <- <-. reflexivity.
      * rewrite write_other; [exact Z1|]. destruct p; cbn [writes In]; (intuition (discriminate || congruence)).
    + destruct (process_eq_dec p EAUX_RES_to_TS) as [->|N].
      * cbn [amount] in A. rewrite El in A. injection A as <- <-. reflexivity.
      * rewrite write_other; [exact Z2|]. destruct p; cbn [writes In]; (intuition (discriminate || congruence)).
Qed.

Lemma hour_electricity P I t n soc rc :
  good_hour P I soc -> contains P I Import_to_demand -> contains P I RES_to_export -> quiet P I t n soc -> hour_step P I t n soc = Ok rc ->
  (a_fuel (p_aux P) = ELECTRIC -> a_efficiency (p_aux P) == 1) ->
  electricity_in (rf rc) == electricity_out (is_electric P) (rf rc) + battery_net (rf rc).
Proof.
  intros G Hi Hx Hq H Ea.
  destruct (hour_open P I t n soc rc G H) as (ps & c & r & u & pr & de & rc0 & rc1 & Hps & Ho & Hf & A & Sg & W & Z & Hu & Hpr & Hrf & Hun & Hco & ->).
  assert (E1 := quiet_corrected P I t n soc c rc0 rc1 Hq Hun Hco). subst rc1.
  assert (Zi : elec_unmet c == 0) by (apply Z; apply -> in_rev; apply Hi; exact Hps).
  assert (Zx : RES_left c == 0) by (apply Z; apply -> in_rev; apply Hx; exact Hps).
  pose proof (acc_elec _ _ _ _ _ A) as E. pose proof (acc_res _ _ _ _ _ A) as R. cbn [init_checks elec_unmet RES_left] in E, R.
  destruct (surplus_deficit_hour_spec (i_wind I + i_PV I) (i_elec_demand I)) as (_ & _ & _ & _ & B1 & B2 & _).
  assert (Eu : is_electric P = true -> u == total_aux r).
  { intro El. unfold is_electric in El. assert (F : a_fuel (p_aux P) = ELECTRIC) by (destruct (a_fuel (p_aux P)); try discriminate; reflexivity).
    specialize (Ea F). unfold fuel_usage in Hu. destruct (qeq_spec (a_efficiency (p_aux P)) 0); [discriminate|]. injection Hu as <-. rewrite Ea. field. }
  assert (Nf : is_electric P = false -> r AUX_RES_to_demand == 0 /\ r AUX_RES_to_TS == 0).
  { intro El. apply (fuel_no_RES P I t n ps _ _ c r El Hf); rewrite start_zero; try reflexivity; cbn; tauto. }
  pose proof (mir1 _ _ _ _ _ A) as M1. pose proof (mir2 _ _ _ _ _ A) as M2. pose proof (mir4 _ _ _ _ _ A) as M4. pose proof (mir6 _ _ _ _ _ A) as M6.
  pose proof (mir9 _ _ _ _ _ A) as M9. pose proof (mir10 _ _ _ _ _ A) as M10. pose proof (mir13 _ _ _ _ _ A) as M13. pose proof (mir15 _ _ _ _ _ A) as M15.
  pose proof (mir16 _ _ _ _ _ A) as M16. pose proof (mir17 _ _ _ _ _ A) as M17. clear A Sg W Z Hf Hco Hun Hq H G.
  rewrite M1, M2 in E. rewrite M4, M10, M15, M17 in R.
  unfold electricity_in, electricity_out, battery_net. fld. rewrite Hrf. unfold finish_fields. unfold total_aux in Eu.
  destruct (is_electric P) eqn:El; [specialize (Eu eq_refl); clear Nf|clear Eu; destruct (Nf eq_refl) as (N1 & N2); clear Nf]; (destruct (hi P I); fld; rewrite ?El, ?M6, ?M9, ?M13, ?M16; lra).
Qed.

Lemma hour_heat P I t n soc rc :
  good_hour P I soc -> contains P I AUX_to_demand -> quiet P I t n soc -> hour_step P I t n soc = Ok rc ->
  heat_in (rf rc) == heat_out (rf rc).
Proof.
  intros G Hi Hq H.
  destruct (hour_open P I t n soc rc G H) as (ps & c & r & u & pr & de & rc0 & rc1 & Hps & Ho & Hf & A & Sg & W & Z & Hu & Hpr & Hrf & Hun & Hco & ->).
  assert (E1 := quiet_corrected P I t n soc c rc0 rc1 Hq Hun Hco). subst rc1.
  assert (Zi : heat_unmet c == 0) by (apply Z; apply -> in_rev; apply Hi; exact Hps).
  pose proof (acc_heat _ _ _ _ _ A) as E. cbn [init_checks heat_unmet] in E.
  pose proof (mir3 _ _ _ _ _ A) as M3. pose proof (mir5 _ _ _ _ _ A) as M5. pose proof (mir7 _ _ _ _ _ A) as M7. pose proof (mir8 _ _ _ _ _ A) as M8.
  pose proof (mir11 _ _ _ _ _ A) as M11. pose proof (mir12 _ _ _ _ _ A) as M12. pose proof (mir14 _ _ _ _ _ A) as M14. clear A Sg W Z Hf Hco Hun Hq H G.
  rewrite M3, M5, M7, M8 in E. unfold heat_in, heat_out. fld. rewrite Hrf. unfold finish_fields.
  destruct (hi P I); fld; rewrite ?M11, ?M12, ?M14; lra.
Qed.

(** ** Sums over a run *)
Lemma over_run_eq (q g : fields -> Q) rs : (forall i rc, nth_error rs i = Some rc -> q (rf rc) == g (rf rc)) -> over_run q rs == over_run g rs.
Proof.
  unfold over_run. induction rs as [|rc rs IH]; intro H; [reflexivity|]. cbn [map]. rewrite !qsum_cons, IH.
  - rewrite (H 0%nat rc eq_refl). reflexivity.
  - intros i x E. exact (H (S i) x E).
Qed.
Lemma over_run_plus q g rs : over_run (fun f => q f + g f) rs == over_run q rs + over_run g rs.
Proof. unfold over_run. induction rs as [|rc rs IH]; [reflexivity|]. cbn [map]. rewrite !qsum_cons, IH. ring. Qed.
Lemma over_run_minus q g rs : over_run (fun f => q f - g f) rs == over_run q rs - over_run g rs.
Proof. unfold over_run. induction rs as [|rc rs IH]; [reflexivity|]. cbn [map]. rewrite !qsum_cons, IH. ring. Qed.

(** Levels telescope. *)
Lemma state_before_app P rs rc i : (i <= length rs)%nat -> state_before P (rs ++ [rc]) i = state_before P rs i.
Proof. intro H. destruct i as [|i]; [reflexivity|]. cbn [state_before]. rewrite nth_error_app1 by lia. reflexivity. Qed.
Lemma telescope P rs (q : fields -> Q) :
  (forall i rc, nth_error rs i = Some rc -> rf rc ES_final_soc - snd (state_before P rs i) <= q (rf rc)) ->
  level_after P rs - init_state (p_battery P) <= over_run q rs.
Proof.
  unfold level_after. induction rs as [|rc rs IH] using rev_ind; intro H.
  - change (over_run q []) with 0. cbn [length state_before snd]. lra.
  - assert (E : over_run q (rs ++ [rc]) == over_run q rs + q (rf rc)).
    { unfold over_run. rewrite map_app, qsum_app. cbn [map]. rewrite qsum_cons. change (qsum []) with 0. ring. }
    rewrite E. clear E.
    assert (A : snd (state_before P rs (length rs)) - init_state (p_battery P) <= over_run q rs).
    { apply IH. intros i x Hx. assert (L : (i < length rs)%nat) by (apply nth_error_Some; congruence).
      rewrite <- (state_before_app P rs rc i) by lia. apply H. rewrite nth_error_app1 by lia. exact Hx. }
    specialize (H (length rs) rc). rewrite nth_error_app2, Nat.sub_diag in H by lia. specialize (H eq_refl).
    rewrite state_before_app in H by lia. rewrite app_length, Nat.add_comm. cbn [length plus state_before].
    rewrite nth_error_app2, Nat.sub_diag by lia. cbn [nth_error snd]. lra.
Qed.

(** Every hour of a sound run is a good hour. *)
Lemma level_before P year first m rs i : sound_year P year -> run_timesteps P year first m = Ok rs -> level_ok (p_battery P) (snd (state_before P rs i)).
Proof.
  intros (HP & Hin & _) H. destruct HP as ((Bc & _) & _).
  assert (L0 : level_ok (p_battery P) (init_state (p_battery P))) by (unfold level_ok, init_state; nra).
  pose proof (run_soc_range P year first m rs Bc H) as F. rewrite Forall_forall in F.
  destruct i as [|i]; cbn [state_before snd]; [exact L0|]. destruct (nth_error rs i) as [rc|] eqn:E; cbn [snd]; [|exact L0]. apply F. exact (nth_error_In _ _ E).
Qed.
Lemma sound_hours P year first m rs : sound_year P year -> run_timesteps P year first m = Ok rs -> quiet_run P year first rs ->
  forall i rc, nth_error rs i = Some rc -> exists I t n soc, n = fst (state_before P rs i) /\ soc = snd (state_before P rs i) /\
    hour_step P I t n soc = Ok rc /\ good_hour P I soc /\ quiet P I t n soc /\
    contains P I Import_to_demand /\ contains P I AUX_to_demand /\ contains P I RES_to_export.
Proof.
  intros SY H Q i rc E. destruct (run_steps P year first m rs i rc H E) as (I & _ & EI & St).
  exists I, (first + Z.of_nat i)%Z, (fst (state_before P rs i)), (snd (state_before P rs i)). split; [reflexivity|]. split; [reflexivity|]. split; [exact St|].
  pose proof SY as (HP & _ & HY). destruct (HY I (nth_error_In _ _ EI)) as (HI & HO & C1 & C2 & C3).
  split; [split; [exact HP|split; [exact HI|split; [exact (level_before P year first m rs i SY H)|exact HO]]]|].
  split; [apply Q; [apply nth_error_Some; congruence|exact EI]|]. auto.
Qed.
