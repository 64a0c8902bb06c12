(** Lemmas on the predictive controller: the loop over the hours. *)
From Verif Require Import Base BaseL M_Battery S_Battery M_HeatPump S_HeatPump M_Tools L_HeatPump L_Tools M_FixedOrder S_FixedOrder
  L_FixedOrderRun L_Grid M_Mpc S_Mpc L_Mpc.

Lemma nth_error_snoc {A} (l : list A) x i :
  nth_error (l ++ [x]) i = if Nat.eqb i (length l) then Some x else nth_error l i.
Proof.
  destruct (Nat.eqb_spec i (length l)) as [->|H].
  - rewrite nth_error_app2 by lia. rewrite Nat.sub_diag. reflexivity.
  - destruct (Nat.lt_ge_cases i (length l)); [apply nth_error_app1; assumption|].
    rewrite nth_error_app2 by lia. destruct (nth_error l i) eqn:E.
    + assert (nth_error l i <> None) by congruence. apply nth_error_Some in H1. lia.
    + destruct (i - length l)%nat as [|k] eqn:Ek; [lia|]. cbn. destruct k; reflexivity.
Qed.

Section Loop.
Variables (X : mpc) (opt : optimiser) (year : list hour_in) (mc : list Q) (first : Z).

Definition state_of_prev (pv : prev) : nodes * Q := (pr_nodes pv, v_soc_ES (pr_point pv)).

(** Invariant of the loop before hour [h]. *)
Definition inv (h : Z) (acc : list record * list prev) : Prop :=
  let (rs, ns) := acc in
  (h = first /\ rs = [] /\ ns = []) \/
  ((first < h)%Z /\ Z.of_nat (length rs) = (h - first + 1)%Z /\ length ns = length rs /\
   (forall i rc pv, nth_error rs i = Some rc -> nth_error ns i = Some pv -> recorded_state rc = state_of_prev pv) /\
   (exists I, label year first = Ok I /\ nth_error rs 0 = Some (made_up_record X I)) /\
   (forall i rc, nth_error rs (S i) = Some rc ->
      exists before, nth_error rs i = Some before /\
        continues X opt year mc first (first + Z.of_nat i)%Z before rc)).

Lemma inv_step h acc acc' : (first <= h)%Z -> (h <= 8758)%Z -> inv h acc ->
  hour_pass X opt year mc first acc h = Ok acc' -> inv (h + 1) acc'.
Proof.
  destruct acc as [rs ns]. unfold hour_pass, inv at 1. intros Hf Hmax HI.
  assert (HOk : forall A (x y : A), Ok x = Ok y -> x = y) by congruence.
  destruct HI as [(-> & -> & ->)|HI].
  - rewrite Z.eqb_refl. cbn [orb app].
    destruct (label year first) as [I|e] eqn:EI; cbn [bind]; [|discriminate].
    destruct (solve _ _ _ _ _ _ _ _) as [[r n]|e] eqn:ES; cbn [bind]; [|discriminate].
    intro H. apply HOk in H. subst acc'. right. cbn [length]. split; [lia|]. split; [lia|]. split; [reflexivity|].
    split; [|split].
    + intros [|[|i]] rc pv; cbn [nth_error].
      * intros H1 H2. assert (rc = made_up_record X I) by congruence. assert (pv = initial_prev X) by congruence. subst. reflexivity.
      * intros H1 H2. assert (rc = r) by congruence. assert (pv = n) by congruence. subst. exact (solve_state _ _ _ _ _ _ _ _ _ _ ES).
      * destruct i; discriminate.
    + exists I. split; [exact EI|reflexivity].
    + intros [|i] rc; cbn [nth_error]; [|destruct i; discriminate]. intro H. assert (rc = r) by congruence. subst rc.
      exists (made_up_record X I). split; [reflexivity|]. left. exists (initial_prev X), n.
      split; [reflexivity|]. split; [reflexivity|]. replace (first + Z.of_nat 0)%Z with first by lia. exact ES.
  - destruct HI as (Hlt & HL & HLn & HS & H0 & HC).
    destruct (Z.eqb_spec h first) as [Hx|Hx]; [lia|].
    (* appending a record [r] with state [n] *)
    assert (App : forall r n, recorded_state r = state_of_prev n ->
      (forall before, nth_error rs (Z.to_nat (h - first)) = Some before -> continues X opt year mc first h before r) ->
      inv (h + 1) (rs ++ [r], ns ++ [n])).
    { intros r n HR HCn. right. rewrite !app_length. cbn [length]. split; [lia|]. split; [lia|]. split; [lia|].
      split; [|split].
      - intros i rc pv. rewrite !nth_error_snoc, HLn. destruct (Nat.eqb_spec i (length rs)) as [Hi|Hi]; [|apply HS].
        intros H1 H2. assert (rc = r) by congruence. assert (pv = n) by congruence. subst. exact HR.
      - destruct H0 as [I [HI0 H0]]. exists I. split; [exact HI0|]. rewrite nth_error_snoc.
        destruct (Nat.eqb_spec 0 (length rs)) as [Hi|Hi]; [lia|exact H0].
      - intros i rc. rewrite !nth_error_snoc. destruct (Nat.eqb_spec (S i) (length rs)) as [Hi|Hi].
        + intro H. assert (rc = r) by congruence. subst rc. destruct (Nat.eqb_spec i (length rs)); [lia|].
          destruct (nth_error rs i) as [before|] eqn:EB.
          * exists before. split; [reflexivity|]. replace (first + Z.of_nat i)%Z with h by lia. apply HCn.
            replace (Z.to_nat (h - first)) with i by lia. exact EB.
          * apply nth_error_None in EB. lia.
        + intro H. destruct (HC i rc H) as [before [HB1 HB2]]. exists before. split; [|exact HB2].
          destruct (Nat.eqb_spec i (length rs)) as [Hj|Hj]; [|exact HB1].
          assert (nth_error rs i <> None) by congruence. apply nth_error_Some in H1. lia. }
    cbn [orb]. destruct (Z.eqb_spec h 8758) as [He|He].
    + destruct (label year first) as [I|e] eqn:EI; cbn [bind]; [|discriminate].
      intro H. apply HOk in H. subst acc'. apply App; [reflexivity|].
      intros before _. right. right. split; [exact He|]. split; [lia|]. exists I. split; [exact EI|reflexivity].
    + assert (Hn : exists pv, nth_error ns (Z.to_nat (h - first)) = Some pv).
      { destruct (nth_error ns (Z.to_nat (h - first))) eqn:E; [eexists; reflexivity|]. apply nth_error_None in E. lia. }
      destruct Hn as [pv Hpv]. unfold pidx. rewrite Hpv. cbn [bind].
      destruct (solve X opt year mc h first (horizon_end X h) pv) as [[r n]|e] eqn:ES.
      * intro H. apply HOk in H. subst acc'. apply App; [exact (solve_state _ _ _ _ _ _ _ _ _ _ ES)|].
        intros before HB. left. assert (Hst := HS _ _ _ HB Hpv). exists pv, n.
        rewrite Hst. split; [reflexivity|]. split; [reflexivity|]. exact ES.
      * destruct (solve X opt year mc h first (horizon_end X h) (initial_prev X)) as [[r n]|e'] eqn:ES'; cbn [bind]; [|discriminate].
        intro H. apply HOk in H. subst acc'. apply App; [exact (solve_state _ _ _ _ _ _ _ _ _ _ ES')|].
        intros before HB. right. left. split; [lia|]. assert (Hst := HS _ _ _ HB Hpv). split.
        -- exists pv, e. rewrite Hst. split; [reflexivity|]. split; [reflexivity|exact ES].
        -- exists (initial_prev X), n. split; [reflexivity|]. split; [reflexivity|exact ES'].
Qed.

Lemma moving_horizon_inv n rs : moving_horizon X opt year mc first n = Ok rs ->
  (first + n <= 8760)%Z /\
  ((n <= 1)%Z -> rs = []) /\
  ((2 <= n)%Z -> Z.of_nat (length rs) = n /\
     (exists I, label year first = Ok I /\ nth_error rs 0 = Some (made_up_record X I)) /\
     (forall i rc, nth_error rs (S i) = Some rc ->
      exists before, nth_error rs i = Some before /\
        continues X opt year mc first (first + Z.of_nat i)%Z before rc)).
Proof.
  unfold moving_horizon. destruct (Z.ltb_spec 8760 (first + n)) as [H|H]; [discriminate|].
  destruct (foldM _ _ _) as [[rs' ns]|e] eqn:EF; cbn [bind]; [|discriminate].
  intro E. assert (rs' = rs) by congruence. subst rs'. clear E. split; [lia|].
  split.
  - intro Hn. rewrite zrange_nil in EF by lia. cbn in EF. congruence.
  - intro Hn. pose proof (foldM_zrange_inv (hour_pass X opt year mc first) inv first (first + n - 1) ([], []) (rs, ns)) as HF.
    assert (HI : inv (first + n - 1) (rs, ns)).
    { apply HF; [lia| | |exact EF].
      - left. auto.
      - intros t y y' Ht Hy Hs. apply (inv_step t y y'); auto; lia. }
    destruct HI as [(Hz & _ & _)|(_ & HL & _ & _ & H0 & HC)]; [lia|].
    split; [lia|]. split; [exact H0|exact HC].
Qed.
End Loop.

(** ** The pre-calculation *)
Section Pre.
Variables (X : mpc) (year : list hour_in) (first n : Z).
Hypothesis (HY : full_year year) (HT : tank_total (p_tank (m_plant X))).
Notation h := (m_horizon X).

Lemma full_charge_total t : (0 <= t < 8760)%Z -> exists c, full_charge X year t c.
Proof.
  intro Ht. unfold full_year in HY. destruct (label_ok year t) as [I HI]; [lia|].
  destruct (proj1 HT Charging (m_return_nodes X) (i_source_temp I) (i_flow_temp I) t) as [c Hc].
  exists c, I. auto.
Qed.
Lemma full_charge_fun t c c' : full_charge X year t c -> full_charge X year t c' -> c = c'.
Proof. intros (I & H1 & H2) (I' & H1' & H2'). assert (I' = I) by congruence. subst I'. congruence. Qed.

Lemma max_cap_step_ok arr t c : full_charge X year t c ->
  max_cap_step X year first arr t = set_nth (Z.to_nat (t - first)) c arr.
Proof. intros (I & H1 & H2). unfold max_cap_step. rewrite H1. cbn [bind]. rewrite H2. reflexivity. Qed.

Definition pre_inv (t : Z) (arr : list Q) : Prop :=
  length arr = Z.to_nat (n + h) /\
  forall u, (first <= u < t)%Z -> exists c, full_charge X year u c /\ nth_error arr (Z.to_nat (u - first)) = Some c.

Lemma year_balance_ok : exists l,
  surplus_deficit_year (map (fun i => i_wind i + i_PV i) year) (map i_elec_demand year) = Ok l.
Proof.
  unfold full_year in HY. unfold surplus_deficit_year. rewrite !map_length.
  assert (HA : length year = ANNUAL_HOURS) by (pose proof ANNUAL_HOURS_Z; lia).
  rewrite HA, Nat.min_id, Nat.max_id, Nat.ltb_irrefl. eexists; reflexivity.
Qed.

Lemma pre_step t arr : (0 <= first)%Z -> (first <= t < 8760)%Z -> (t - first < n + h)%Z -> pre_inv t arr ->
  exists arr', max_cap_step X year first arr t = Ok arr' /\ pre_inv (t + 1) arr'.
Proof.
  intros H0 Ht Hi [HL HC]. destruct (full_charge_total t) as [c Hc]; [lia|].
  rewrite (max_cap_step_ok arr t c Hc).
  destruct (set_nth_ok c arr (Z.to_nat (t - first))) as [arr' E]; [lia|].
  exists arr'. split; [exact E|]. destruct (set_nth_spec _ _ _ _ E) as (L & N & O).
  split; [lia|]. intros u Hu. destruct (Z.eq_dec u t) as [->|Hne].
  - exists c. auto.
  - destruct (HC u) as [c' [Hc' Hn']]; [lia|]. exists c'. split; [exact Hc'|]. rewrite O by lia. exact Hn'.
Qed.

Lemma pre_calculation_ok :
  (0 <= first)%Z -> (0 <= n)%Z -> (0 <= h)%Z ->
  ((first + n + h < 8759 - h) \/ (8759 <= first + n + h))%Z ->
  exists arr, pre_calculation X year first n = Ok arr /\ length arr = Z.to_nat (n + h) /\
    forall u, (first <= u < Z.min (first + n + h) 8759)%Z ->
      exists c, full_charge X year u c /\ nth_error arr (Z.to_nat (u - first)) = Some c.
Proof.
  intros H0 Hn Hh Hw. unfold pre_calculation. destruct (Z.ltb_spec (n + h) 0); [lia|].
  set (F := pre_final_hour X first n).
  assert (HF : (F = Z.min (first + n + h) 8759)%Z).
  { unfold F, pre_final_hour. destruct (Z.leb_spec (8759 - h) (first + (n + h))); lia. }
  assert (H1 : pre_inv first (repeat 0 (Z.to_nat (n + h)))).
  { split; [apply repeat_length|]. intros u Hu. lia. }
  assert (HE : exists arr, foldM (max_cap_step X year first) (zrange first F) (repeat 0 (Z.to_nat (n + h))) = Ok arr /\
    pre_inv (Z.max first F) arr).
  { destruct (Z.le_gt_cases first F) as [Hle|Hgt].
    - destruct (foldM_zrange_total (max_cap_step X year first) pre_inv first F _ Hle H1) as [r [E1 E2]].
      + intros t y Ht Hy. apply pre_step; auto; lia.
      + exists r. split; [exact E1|]. replace (Z.max first F) with F by lia. exact E2.
    - rewrite zrange_nil by lia. eexists. split; [reflexivity|]. replace (Z.max first F) with first by lia. exact H1. }
  destruct HE as [arr [E [HL HC]]]. rewrite E. cbn [bind]. destruct year_balance_ok as [l El]. rewrite El. cbn [bind].
  exists arr. split; [reflexivity|]. split; [exact HL|]. intros u Hu. apply HC. lia.
Qed.

Lemma pre_calculation_crashes :
  (0 <= first)%Z -> (0 <= n)%Z -> (0 <= h)%Z ->
  (8759 - h <= first + n + h < 8759)%Z ->
  pre_calculation X year first n = Err IndexError.
Proof.
  intros H0 Hn Hh Hw. unfold pre_calculation. destruct (Z.ltb_spec (n + h) 0); [lia|].
  assert (HF : pre_final_hour X first n = 8759%Z).
  { unfold pre_final_hour. destruct (Z.leb_spec (8759 - h) (first + (n + h))); lia. }
  rewrite HF.
  assert (HS : zrange first 8759 = zrange first (first + n + h) ++ zrange (first + n + h) 8759).
  { apply zrange_split; lia. }
  rewrite HS, foldM_app.
  assert (H1 : pre_inv first (repeat 0 (Z.to_nat (n + h)))).
  { split; [apply repeat_length|]. intros u Hu. lia. }
  destruct (foldM_zrange_total (max_cap_step X year first) pre_inv first (first + n + h) _ ltac:(lia) H1) as [r [E1 [HL _]]].
  { intros t y Ht Hy. apply pre_step; auto; lia. }
  rewrite E1. cbn [bind]. rewrite zrange_cons by lia. cbn [foldM].
  destruct (full_charge_total (first + n + h)) as [c Hc]; [lia|].
  rewrite (max_cap_step_ok r _ c Hc), set_nth_err by lia. reflexivity.
Qed.
End Pre.

(** ** Totality *)
Section Total.
Variables (X : mpc) (opt : optimiser) (year : list hour_in) (mc : list Q) (first : Z).
Hypothesis (HY : full_year year) (HT : tank_total (p_tank (m_plant X))) (HB : backup_complete X).
Hypothesis (HE : electric_backup X \/ t_capacity (p_tank (m_plant X)) == 0).

Lemma row_ok t : (0 <= t < 8760)%Z -> exists I, label year t = Ok I.
Proof. intro H. unfold full_year in HY. apply label_ok. lia. Qed.

Lemma net_tank_ok n v : exists c d s, net_tank X year n v = Ok (c, d, s).
Proof.
  unfold net_tank. destruct (row_ok 1) as [I1 E1]; [lia|]. rewrite E1.
  destruct (qlt _ _); [|destruct (qlt _ _)]; cbn [bind].
  - destruct (proj1 HT Charging n (i_source_temp I1) (i_flow_temp I1) 1%Z) as [m ->]. cbn [bind]. do 3 eexists. reflexivity.
  - destruct (proj1 HT Discharging n (i_source_temp I1) (i_flow_temp I1) 1%Z) as [m ->]. cbn [bind]. do 3 eexists. reflexivity.
  - do 3 eexists. reflexivity.
Qed.

Lemma electric_iff : electric_backup X <-> is_electric (m_plant X) = true.
Proof. unfold electric_backup, is_electric. destruct (a_fuel (p_aux (m_plant X))); cbn; split; congruence. Qed.

Lemma final_nodes_ok hour n cds : exists n', final_nodes X year hour n cds = Ok (Some n').
Proof.
  destruct cds as [[c d] s]. unfold final_nodes. destruct (qeq_spec (t_capacity (p_tank (m_plant X))) 0) as [Hc|Hc].
  - eexists; reflexivity.
  - destruct HE as [He|He]; [|contradiction]. apply electric_iff in He. rewrite He.
    destruct (row_ok 1) as [I1 E1]; [lia|]. rewrite E1. cbn [bind].
    destruct (proj2 HT Hc s n (i_source_temp I1) (i_flow_temp I1) c d (hour + 1)%Z) as [n' ->]. eexists; reflexivity.
Qed.

Lemma aux_ok r : exists r', mpc_aux_accounts X r = Ok r'.
Proof.
  destruct HB as [H1 H2]. unfold mpc_aux_accounts. unfold fuel_usage.
  destruct (qeq_spec (a_efficiency (p_aux (m_plant X))) 0) as [Hc|Hc]; [contradiction|]. cbn [bind].
  destruct (is_electric (m_plant X)) eqn:E; cbn [bind]; [eexists; reflexivity|].
  destruct H2 as [Ha Hb]. { intro C. apply electric_iff in C. congruence. }
  destruct (a_cost (p_aux (m_plant X))); [|congruence]. destruct (a_energy_density (p_aux (m_plant X))); [|congruence].
  cbn [bind]. eexists; reflexivity.
Qed.

Lemma make_problem_ok hour fh pv : (0 <= hour)%Z -> (hour <= fh)%Z -> (hour < 8760)%Z -> (fh <= 8760)%Z ->
  exists b, make_problem X year mc hour first fh pv = Ok b.
Proof.
  intros H0 H1 H2 H3. unfold make_problem. destruct (Z.ltb_spec (fh - hour) 0); [lia|].
  destruct (mapM_ok (label year) (zrange hour fh)) as [rows ->].
  { intros t Ht. apply zrange_In in Ht. destruct (row_ok t) as [I EI]; [lia|]. eexists; exact EI. }
  cbn [bind]. destruct (row_ok hour) as [I ->]; [lia|]. cbn [bind].
  destruct (proj1 HT Discharging (pr_nodes pv) (i_source_temp I) (i_flow_temp I) hour) as [m ->]. cbn [bind].
  eexists; reflexivity.
Qed.

Lemma solve_ok hour fh pv : (0 <= hour)%Z -> (hour + 2 <= fh)%Z -> (fh <= 8759)%Z ->
  (forall b, v_soc_ES (b_start b) = v_soc_ES (pr_point pv) -> exists vs, opt b = Ok vs /\ length vs = length (b_hours b)) ->
  exists rc nx, solve X opt year mc hour first fh pv = Ok (rc, nx).
Proof.
  intros H0 H1 H2 HA. unfold solve. destruct (make_problem_ok hour fh pv) as [b Eb]; try lia.
  rewrite Eb. cbn [bind].
  destruct (make_problem_inv _ _ _ _ _ _ _ _ Eb) as (_ & HL & _ & (I0 & soc & _ & _ & Hst) & _).
  destruct (HA b) as [vs [Ev Lv]]; [rewrite Hst; reflexivity|]. rewrite Ev. cbn [bind].
  unfold post_process. unfold pidx.
  destruct (nth_error vs 1) as [v|] eqn:E1; [|apply nth_error_None in E1; lia]. cbn [bind].
  destruct (net_tank_ok (pr_nodes pv) v) as (c & d & s & En). rewrite En. cbn [bind].
  destruct (final_nodes_ok hour (pr_nodes pv) (c, d, s)) as [n' Ef]. rewrite Ef. cbn [bind].
  destruct (row_ok (hour + 1)) as [I EI]; [lia|]. rewrite EI. cbn [bind].
  destruct (nth_error (b_hours b) 1) as [p|] eqn:Ep; [|apply nth_error_None in Ep; lia]. cbn [bind].
  match goal with |- context [mpc_aux_accounts X ?r] => destruct (aux_ok r) as [r' Er] end. rewrite Er. cbn [bind].
  do 2 eexists. reflexivity.
Qed.

Lemma horizon_ok hour pv : (0 <= hour)%Z -> (hour <= 8757)%Z -> (2 <= m_horizon X)%Z ->
  (forall b, v_soc_ES (b_start b) = v_soc_ES (pr_point pv) -> exists vs, opt b = Ok vs /\ length vs = length (b_hours b)) ->
  exists rc nx, solve X opt year mc hour first (horizon_end X hour) pv = Ok (rc, nx).
Proof.
  intros. unfold horizon_end. destruct (Z.ltb_spec 8759 (hour + m_horizon X)); apply solve_ok; auto; lia.
Qed.

Lemma moving_horizon_ok n : answers_from_initial X opt ->
  (0 <= first)%Z -> (first <= 8757)%Z -> (2 <= m_horizon X)%Z -> (2 <= n)%Z -> (first + n <= 8760)%Z ->
  exists rs, moving_horizon X opt year mc first n = Ok rs.
Proof.
  intros HA H0 H1 H2 H3 H4. unfold moving_horizon. destruct (Z.ltb_spec 8760 (first + n)); [lia|].
  destruct (foldM_zrange_total (hour_pass X opt year mc first) (fun _ _ => True) first (first + n - 1) ([], []) ltac:(lia) Logic.I) as [[rs ns] [E _]].
  - intros t [rs ns] Ht _. unfold hour_pass. destruct (row_ok first) as [I EI]; [lia|].
    assert (HH : (t <= 8757)%Z -> exists rc nx, solve X opt year mc t first (horizon_end X t) (initial_prev X) = Ok (rc, nx)).
    { intros Hle. apply horizon_ok; auto; lia. }
    destruct (Z.eqb_spec t first) as [->|Hne]; cbn [orb].
    + rewrite EI. cbn [bind]. destruct (HH ltac:(lia)) as (rc & nx & ->). cbn [bind]. eexists. split; [reflexivity|exact Logic.I].
    + destruct (Z.eqb_spec t 8758) as [He|He].
      * rewrite EI. cbn [bind]. eexists. split; [reflexivity|exact Logic.I].
      * destruct (HH ltac:(lia)) as (rc & nx & Ei). rewrite Ei. cbn [bind].
        destruct (pidx ns (Z.to_nat (t - first))) as [pv|e]; cbn [bind];
          [destruct (solve X opt year mc t first (horizon_end X t) pv) as [[rc' nx']|e]|];
          eexists; (split; [reflexivity|exact Logic.I]).
  - rewrite E. cbn [bind]. eexists; reflexivity.
Qed.
End Total.

(** A run starting at the last but one hour of the year, or with a horizon of one hour,
    asks for the second point of a problem with a single one. *)
Lemma solve_needs_two_points X opt year mc hour first fh pv :
  (fh <= hour + 1)%Z -> exists e, solve X opt year mc hour first fh pv = Err e.
Proof.
  intro H. destruct (solve X opt year mc hour first fh pv) as [[rc nx]|e] eqn:E; [|exists e; reflexivity].
  destruct (solve_inv _ _ _ _ _ _ _ _ _ _ E) as (b & vs & v & c & d & s & I & p & n & r & HB & _ & _ & _ & _ & _ & Hp & _).
  destruct (make_problem_inv _ _ _ _ _ _ _ _ HB) as (H1 & HL & _).
  assert (nth_error (b_hours b) 1 <> None) by congruence. apply nth_error_Some in H0. lia.
Qed.

(** No optimisation succeeds with a tank and a back-up that is not electric. *)
Lemma solve_fuel_fails X opt year mc hour first fh pv :
  ~ electric_backup X -> ~ t_capacity (p_tank (m_plant X)) == 0 ->
  exists e, solve X opt year mc hour first fh pv = Err e.
Proof.
  intros He Hc. destruct (solve X opt year mc hour first fh pv) as [[rc nx]|e] eqn:E; [|exists e; reflexivity].
  destruct (solve_inv _ _ _ _ _ _ _ _ _ _ E) as (b & vs & v & c & d & s & I & p & n & r & HB & _ & _ & _ & HF & _).
  unfold final_nodes in HF. destruct (qeq_spec (t_capacity (p_tank (m_plant X))) 0) as [H|H]; [contradiction|].
  destruct (is_electric (m_plant X)) eqn:Ee; [|discriminate]. apply electric_iff in Ee. contradiction.
Qed.

Lemma first_solve_fails X opt year mc first n e :
  (2 <= n)%Z -> (forall pv, exists e', solve X opt year mc first first (horizon_end X first) pv = Err e') ->
  moving_horizon X opt year mc first n <> Ok e.
Proof.
  intros Hn H. unfold moving_horizon. destruct (8760 <? first + n)%Z; [discriminate|].
  rewrite zrange_cons by lia. cbn [foldM]. unfold hour_pass at 1. rewrite Z.eqb_refl. cbn [orb].
  destruct (label year first) as [I|]; cbn [bind]; [|discriminate].
  destruct (H (initial_prev X)) as [e' ->]. cbn [bind]. discriminate.
Qed.

(** ** The storage capacities handed to the optimiser *)
Lemma precalculation_covers X year first n arr hour pv b :
  full_year year -> tank_total (p_tank (m_plant X)) ->
  (0 <= first)%Z -> (0 <= m_horizon X)%Z ->
  pre_calculation X year first n = Ok arr ->
  (first <= hour <= first + n - 2)%Z ->
  make_problem X year arr hour first (horizon_end X hour) pv = Ok b ->
  length (b_max_cap b) = length (b_hours b) /\
  forall k c, nth_error (b_max_cap b) k = Some c -> full_charge X year (hour + Z.of_nat k) c.
Proof.
  intros HY HT H0 Hh Hpre Hh1 Hb.
  assert (Hw : ((first + n + m_horizon X < 8759 - m_horizon X) \/ (8759 <= first + n + m_horizon X))%Z).
  { destruct (Z.lt_ge_cases (first + n + m_horizon X) (8759 - m_horizon X)); [left; assumption|].
    destruct (Z.le_gt_cases 8759 (first + n + m_horizon X)); [right; assumption|].
    rewrite (pre_calculation_crashes X year first n) in Hpre; try assumption; try lia. discriminate. }
  destruct (pre_calculation_ok X year first n HY HT H0 ltac:(lia) Hh Hw) as (arr' & E & HL & HC).
  assert (arr' = arr) by congruence. subst arr'.
  destruct (make_problem_inv _ _ _ _ _ _ _ _ Hb) as (Hle & HLb & _ & _ & Hmc & _).
  set (fh := horizon_end X hour) in *.
  assert (Hfh : (fh <= Z.min (first + n + m_horizon X) 8759)%Z).
  { unfold fh, horizon_end. destruct (Z.ltb_spec 8759 (hour + m_horizon X)); lia. }
  assert (Hlen : (Z.of_nat (length arr) = n + m_horizon X)%Z) by lia.
  rewrite Hmc. unfold pslice. split.
  - rewrite firstn_length, skipn_length. lia.
  - intros k c Hk.
    assert (Hkl : (k < Z.to_nat (fh - first) - Z.to_nat (hour - first))%nat).
    { assert (Hn : nth_error (firstn (Z.to_nat (fh - first) - Z.to_nat (hour - first)) (skipn (Z.to_nat (hour - first)) arr)) k <> None) by congruence.
      apply nth_error_Some in Hn. rewrite firstn_length in Hn. lia. }
    assert (Hka : nth_error arr (Z.to_nat (hour - first) + k) = Some c).
    { rewrite <- Hk. clear Hk.
      rewrite <- (firstn_skipn (Z.to_nat (hour - first)) arr) at 1.
      rewrite nth_error_app2; rewrite firstn_length; [|lia].
      replace (Z.to_nat (hour - first) + k - Nat.min (Z.to_nat (hour - first)) (length arr))%nat with k by lia.
      rewrite <- (firstn_skipn (Z.to_nat (fh - first) - Z.to_nat (hour - first)) (skipn (Z.to_nat (hour - first)) arr)) at 1.
      rewrite nth_error_app1; [reflexivity|]. rewrite firstn_length, skipn_length. lia. }
    destruct (HC (hour + Z.of_nat k)%Z) as [c' [Hc' Hn']]; [lia|].
    replace (Z.to_nat (hour + Z.of_nat k - first)) with (Z.to_nat (hour - first) + k)%nat in Hn' by lia.
    assert (c' = c) by congruence. subst c'. exact Hc'.
Qed.

Lemma mpc_run_inv X opt year first n rs : mpc_run X opt year first n = Ok rs ->
  exists mc, pre_calculation X year first n = Ok mc /\ moving_horizon X opt year mc first n = Ok rs.
Proof.
  unfold mpc_run. destruct (pre_calculation X year first n) as [mc|e]; cbn [bind]; [|discriminate].
  intro H. exists mc. auto.
Qed.

Lemma mpc_run_too_long X opt year first n :
  full_year year -> tank_total (p_tank (m_plant X)) -> (0 <= first)%Z -> (0 <= n)%Z -> (0 <= m_horizon X)%Z ->
  (8760 < first + n)%Z -> mpc_run X opt year first n = Err ValueError.
Proof.
  intros HY HT H0 Hn Hh Hl. unfold mpc_run.
  destruct (pre_calculation_ok X year first n HY HT H0 Hn Hh) as (arr & E & _); [right; lia|].
  rewrite E. cbn [bind]. unfold moving_horizon. destruct (Z.ltb_spec 8760 (first + n)); [reflexivity|lia].
Qed.

Lemma mpc_run_completes X opt year first n :
  full_year year -> tank_total (p_tank (m_plant X)) -> backup_complete X ->
  (electric_backup X \/ t_capacity (p_tank (m_plant X)) == 0) -> answers_from_initial X opt ->
  (0 <= first <= 8757)%Z -> (2 <= n)%Z -> (first + n <= 8760)%Z -> (2 <= m_horizon X)%Z ->
  ((first + n + m_horizon X < 8759 - m_horizon X) \/ (8759 <= first + n + m_horizon X))%Z ->
  exists rs, mpc_run X opt year first n = Ok rs /\ Z.of_nat (length rs) = n.
Proof.
  intros HY HT HB HE HA H0 Hn Hl Hh Hw. unfold mpc_run.
  destruct (pre_calculation_ok X year first n HY HT) as (arr & E & _); try lia.
  rewrite E. cbn [bind].
  destruct (moving_horizon_ok X opt year arr first HY HT HB HE n HA) as [rs Er]; try lia.
  exists rs. split; [exact Er|]. destruct (moving_horizon_inv _ _ _ _ _ _ _ Er) as (_ & _ & H). apply H. lia.
Qed.

Lemma mpc_run_kept X opt year first n rs mc :
  full_year year -> tank_total (p_tank (m_plant X)) -> backup_complete X -> always_answers opt ->
  (electric_backup X \/ t_capacity (p_tank (m_plant X)) == 0) ->
  (0 <= first)%Z -> (2 <= m_horizon X)%Z -> (2 <= n)%Z -> (first + n <= 8759)%Z ->
  moving_horizon X opt year mc first n = Ok rs ->
  forall i before rc, nth_error rs i = Some before -> nth_error rs (S i) = Some rc ->
    starts_from X opt year mc (first + Z.of_nat i) first (recorded_state before) rc.
Proof.
  intros HY HT HB HA HE H0 Hh Hn Hl Hr i before rc Hi HSi.
  destruct (moving_horizon_inv _ _ _ _ _ _ _ Hr) as (_ & _ & H). destruct (H Hn) as (HL & _ & HC).
  destruct (HC i rc HSi) as [before' [Hb Hc]]. assert (before' = before) by congruence. subst before'.
  assert (Hlt : (S i < length rs)%nat) by (apply nth_error_Some; congruence).
  destruct Hc as [Hc|[Hc|Hc]]; [exact Hc| |].
  - destruct Hc as (_ & (pv & e & _ & _ & He) & _).
    destruct (horizon_ok X opt year mc first HY HT HB HE (first + Z.of_nat i)%Z pv) as (r & nx & Hok); try lia.
    { intros b _. apply HA. }
    congruence.
  - destruct Hc as (Hc & _). lia.
Qed.
