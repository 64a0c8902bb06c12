From Coq Require Import Sorting.Sorted Permutation String Setoid Qabs.
From Verif Require Import Base BaseL M_Battery M_HeatPump M_Tools M_FixedOrder S_FixedOrder S_HeatPump S_Tools L_Tools L_FixedOrderHour L_FixedOrderRun
  M_Tank S_Tank L_Tank L_TankFlow L_TankProps.

(** ** Shape over a run *)
Lemma tank_step_nodes P I t n x r nn :
  tank_step P I t n x r = Ok nn ->
  (t_capacity (p_tank P) == 0 /\ nn = n) \/
  (~ t_capacity (p_tank P) == 0 /\ exists s o d, t_new (p_tank P) s n (i_source_temp I) (i_flow_temp I) o d t = Ok nn).
Proof.
  unfold tank_step. destruct (qeq_spec (t_capacity (p_tank P)) 0) as [Hc|Hc].
  - intro H. injection H as <-. left; auto.
  - intro H. right. split; [assumption|]. eexists _, _, _. exact H.
Qed.

Definition moved (P : plant) (I : hour_in) t (n nn : nodes) : Prop :=
  (t_capacity (p_tank P) == 0 /\ nn = n) \/
  (~ t_capacity (p_tank P) == 0 /\ exists s o d, t_new (p_tank P) s n (i_source_temp I) (i_flow_temp I) o d t = Ok nn).

Lemma uncorrected_nodes P I t n soc c rc :
  uncorrected P I t n soc = Ok (c, rc) -> moved P I t n (r_nodes rc).
Proof.
  unfold uncorrected. destruct (qlt _ _); intro H.
  - unfold above_uncorrected in H. destruct (run_order _ _ _ _ _ _ _) as [[c' r]|]; cbn [bind] in H; [|discriminate].
    destruct (aux_accounts _ _) as [r2|]; cbn [bind] in H; [|discriminate].
    destruct (tank_step _ _ _ _ _ _) as [nn|] eqn:E; cbn [bind] in H; [|discriminate].
    injection H as <- <-. cbn. eapply tank_step_nodes, E.
  - unfold below_uncorrected in H. destruct (run_order _ _ _ _ _ _ _) as [[c' r]|]; cbn [bind] in H; [|discriminate].
    destruct (aux_accounts _ _) as [r2|]; cbn [bind] in H; [|discriminate].
    destruct (tank_step _ _ _ _ _ _) as [nn|] eqn:E; cbn [bind] in H; [|discriminate].
    injection H as <- <-. cbn. eapply tank_step_nodes, E.
Qed.

Lemma correct_nodes P I t n th off tsm c rc0 rc1 :
  (forall rc, off rc = Ok rc1 -> moved P I t n (r_nodes rc) -> moved P I t n (r_nodes rc1)) ->
  moved P I t n (r_nodes rc0) -> correct P I t n th off tsm c rc0 = Ok rc1 -> moved P I t n (r_nodes rc1).
Proof.
  intros Hoff H0 H. unfold correct in H. destruct (_ && _); [|injection H as <-; exact H0].
  destruct (t_max _ _ _ _ _ _) as [m|]; cbn [bind] in H; [|discriminate].
  destruct (qlt _ _); [eapply Hoff; eassumption|].
  unfold top_up in H. destruct (qeq_spec (t_capacity (p_tank P)) 0) as [Hc|Hc].
  - injection H as <-. exact H0.
  - destruct (t_new _ _ _ _ _ _ _ _) as [nn|] eqn:E; cbn [bind] in H; [|discriminate].
    injection H as <-. right. split; [assumption|]. eexists _, _, _. exact E.
Qed.

Lemma hour_nodes P I t n soc rc : hour_step P I t n soc = Ok rc -> moved P I t n (r_nodes rc).
Proof.
  unfold hour_step, above_setpoint, below_setpoint. intro H.
  pose proof (uncorrected_nodes P I t n soc) as U. unfold uncorrected in U. destruct (qlt _ _).
  - destruct (above_uncorrected _ _ _ _ _) as [[c r0]|]; cbn [bind] in H; [|discriminate].
    destruct (correct _ _ _ _ _ _ _ _ _) as [r1|] eqn:E; cbn [bind] in H; [|discriminate].
    injection H as <-. change (moved P I t n (r_nodes r1)). eapply correct_nodes; [|eapply U; reflexivity|exact E].
    intros rc H H0. unfold switch_off_above in H.
    destruct (qeq_spec (t_capacity (p_tank P)) 0) as [Hc|Hc]; cbn [bind] in H.
    + injection H as <-. exact H0.
    + destruct (t_new _ _ _ _ _ _ _ _) as [nn|] eqn:En; cbn [bind] in H; [|discriminate].
      injection H as <-. right. split; [assumption|]. eexists _, _, _. exact En.
  - destruct (below_uncorrected _ _ _ _ _) as [[c r0]|]; cbn [bind] in H; [|discriminate].
    destruct (correct _ _ _ _ _ _ _ _ _) as [r1|] eqn:E; cbn [bind] in H; [|discriminate].
    injection H as <-. change (moved P I t n (r_nodes r1)). eapply correct_nodes; [|eapply U; reflexivity|exact E].
    intros rc H H0. unfold switch_off_below in H.
    destruct (t_max _ _ _ _ _ _) as [m|]; cbn [bind] in H; [|discriminate].
    destruct (qeq_spec (t_capacity (p_tank P)) 0) as [Hc|Hc]; cbn [bind] in H.
    + injection H as <-. exact H0.
    + destruct (t_new _ _ _ _ _ _ _ _) as [nn|] eqn:En; cbn [bind] in H; [|discriminate].
      injection H as <-. right. split; [assumption|]. eexists _, _, _. exact En.
Qed.

Lemma run_tank_shape K ret delta P year s n rs :
  p_tank P = tank_instance K ret delta -> run_timesteps P year s n = Ok rs ->
  Forall (fun rc => length (r_nodes rc) = k_nodes K /\ stratified (r_nodes rc)) rs.
Proof.
  intros HP H. apply Forall_forall. intros rc Hin. apply In_nth_error in Hin. destruct Hin as [i Hi].
  revert rc Hi. induction i as [|i IH]; intros rc Hi;
    destruct (run_steps _ _ _ _ _ _ _ H Hi) as (I & _ & _ & E); apply hour_nodes in E; unfold moved in E; rewrite HP in E.
  - destruct E as [(_ & ->)|(_ & s' & o & d & E)]; rewrite ?HP in *.
    + cbn. rewrite HP. cbn. apply init_temps_shape.
    + cbn in E. eapply new_nodes_shape, E.
  - destruct E as [(_ & ->)|(_ & s' & o & d & E)]; rewrite ?HP in *.
    + cbn. destruct (nth_error rs i) as [rc'|] eqn:Er; cbn; [apply IH; reflexivity|]. rewrite HP. cbn. apply init_temps_shape.
    + cbn in E. eapply new_nodes_shape, E.
Qed.

Lemma run_unfold P year s n :
  full_year year -> (s + n <= 8760)%Z ->
  run_timesteps P year s n = run_loop P year (zrange s (s + n)) (t_init (p_tank P), init_state (p_battery P)).
Proof.
  intros Hy Hn. unfold run_timesteps.
  pose proof (surplus_deficit_year_spec (map (fun i => i_wind i + i_PV i) year) (map i_elec_demand year)) as Y.
  unfold full_year in *.
  destruct (surplus_deficit_year _ _) as [l|e]; cbn [bind].
  - destruct (Z.ltb_spec 8760 (s + n)); [lia|]. reflexivity.
  - exfalso. destruct e; rewrite ?map_length in Y; lia || assumption.
Qed.

(** ** Standby *)
Lemma inner_count_standby K T source delta flow ret o d c :
  inner_count K Standby T source delta flow ret o d = Ok c -> c = 1%nat.
Proof.
  unfold inner_count. cbn [mass_flow_calc bind]. destruct (node_mass K) as [m|]; cbn [bind]; [|discriminate].
  unfold fdiv. destruct (qeq_spec m 0); cbn [bind]; [discriminate|]. intro HH. injection HH as <-.
  assert (E : pceil (0 * 3600 / m) = 0%Z) by (unfold pceil; rewrite Qmult_0_l; unfold Qdiv; rewrite Qmult_0_l; reflexivity).
  rewrite E. destruct (k_nodes K); reflexivity.
Qed.

Lemma nth_map_seq (f : nat -> Q) n i : (i < n)%nat -> nth i (map f (seq 0 n)) 0 = f i.
Proof.
  intro H. rewrite (nth_indep _ 0 (f (n + 0)%nat)) by (rewrite map_length, seq_length; lia).
  rewrite map_nth, seq_nth by lia. reflexivity.
Qed.

Lemma standby_nodes K T source delta flow ret o d t T' :
  tank_ok K -> (r <- new_nodes_temp K Standby T source delta flow ret o d t ;; last_state r) = Ok T' ->
  exists k Ta cps U, k_value K = Ok k /\ amb_temp K t = Ok Ta /\ mapM (specific_heat K) T = Ok cps /\
    Permutation U T' /\ length U = length T /\
    forall i, (i < length T)%nat ->
      0 < nth i cps 0 /\
      nth i U 0 == nth i T 0 + (UA K k * (Ta - nth i T 0) + k_Fe K * connections K) / (nmass K * nth i cps 0).
Proof.
  intros HK H. pose proof (nmass_pos K HK) as Hm.
  destruct (new_nodes_temp _ _ _ _ _ _ _ _ _ _) as [r|] eqn:E; cbn [bind] in H; [|discriminate].
  apply new_nodes_inv in E. destruct E as [(l & -> & _)|(c & l & -> & _ & _ & _ & Ec & _ & Lc & El)]; [discriminate|].
  apply inner_count_standby in Ec. subst c. cbn [inner_loop] in El.
  destruct (inner_step _ _ _ _ _ _ _ _ _ T) as [T1|] eqn:E1; cbn [bind] in El; [|discriminate].
  injection El as <-. cbn in H. injection H as <-.
  apply inner_step_inv in E1. destruct E1 as (m1 & U & cps & k & Ta & A1 & A2 & A3 & A4 & A5 & A6 & A7 & ->).
  destruct (mapM_specific_pos K T cps HK A4) as [Fc Lcp].
  exists k, Ta, cps, U. do 3 (split; [assumption|]). split; [apply Permutation_sym, sort_desc_perm|].
  rewrite A7. split; [rewrite map_length, seq_length; congruence|].
  intros i Hi. pose proof (cps_nth_pos cps (k_nodes K) i Fc ltac:(lia) ltac:(lia)) as Hc. split; [exact Hc|].
  rewrite nth_map_seq, Qred_correct by lia.
  rewrite dT_standby by (lia || lra). unfold standing_i.
  rewrite loss_factor_UA by (destruct HK as (_ & _ & Hw & _); lra). rewrite connection_losses_eq. reflexivity.
Qed.

Lemma towards_scale a x la : 0 <= la -> la <= 1 -> towards a x (a + (1 - la) * (x - a)).
Proof. intros H1 H2. unfold towards. destruct (Qlt_le_dec x a); [left|right]; split; nra. Qed.

Lemma mapM_nth {A B} (f : A -> res B) l r i da db :
  mapM f l = Ok r -> (i < length l)%nat -> f (nth i l da) = Ok (nth i r db).
Proof.
  revert r i. induction l as [|x l IH]; intros r i H Hi; [cbn in Hi; lia|]. cbn [mapM] in H.
  destruct (f x) as [y|] eqn:E; cbn [bind] in H; [|discriminate].
  destruct (mapM f l) as [ys|] eqn:E2; cbn [bind] in H; [|discriminate]. injection H as <-.
  destruct i as [|i]; [exact E|]. apply (IH ys i); [reflexivity|cbn in Hi; lia].
Qed.
Lemma Forall2_nth (R : Q -> Q -> Prop) l1 l2 :
  length l1 = length l2 -> (forall i, (i < length l1)%nat -> R (nth i l1 0) (nth i l2 0)) -> Forall2 R l1 l2.
Proof.
  revert l2. induction l1 as [|x l1 IH]; intros [|y l2] L H; try discriminate; constructor.
  - apply (H 0%nat). cbn. lia.
  - apply IH; [injection L; auto|]. intros i Hi. apply (H (S i)). cbn. lia.
Qed.
Lemma towards_eq a x y z : y == z -> towards a x y -> towards a x z.
Proof. unfold towards. intros E [H|H]; [left|right]; split; lra. Qed.

Lemma standby_towards K ret delta T source flow o d t T' :
  tank_ok K -> sealed K ->
  (forall k x c, k_value K = Ok k -> In x T -> specific_heat K x = Ok c -> lossfrac K k c <= 1) ->
  t_new (tank_instance K ret delta) Standby T source flow o d t = Ok T' ->
  exists Ta U, amb_temp K t = Ok Ta /\ Permutation U T' /\ Forall2 (towards Ta) T U.
Proof.
  intros HK Hs Hl H. pose proof (nmass_pos K HK) as Hm.
  destruct (standby_nodes K T source delta flow ret o d t T' HK H) as (k & Ta & cps & U & A1 & A2 & A3 & A4 & A5 & A6).
  exists Ta, U. do 2 (split; [assumption|]). apply Forall2_nth; [symmetry; assumption|].
  intros i Hi. destruct (A6 i Hi) as [Hc E]. rewrite (sealed_connections K Hs) in E.
  apply (towards_eq _ _ (Ta + (1 - lossfrac K k (nth i cps 0)) * (nth i T 0 - Ta))).
  - rewrite E. unfold lossfrac. field. lra.
  - apply towards_scale; [apply lossfrac_nonneg; assumption|].
    apply (Hl k (nth i T 0)); [assumption|apply nth_In; assumption|]. apply mapM_nth; assumption.
Qed.

(** ** Capability queries *)
Lemma max_loop_nonneg K s source flow ret mass cp t c T l :
  0 <= mass -> 0 <= cp -> ret <= flow ->
  max_loop K s source flow ret mass cp t c T = Ok l -> 0 <= qsum l.
Proof.
  intros Hm Hc Hf. revert T l. induction c as [|c IH]; intros T l; cbn [max_loop].
  - intro H. injection H as <-. cbn. lra.
  - destruct (euler _ _ _ _ _ _ _ _) as [T'|]; cbn [bind]; [|discriminate].
    destruct (max_loop _ _ _ _ _ _ _ _ c T') as [rest|] eqn:E; cbn [bind]; [|discriminate].
    intro H. injection H as <-. specialize (IH _ _ E). cbn [qsum fold_right].
    change (fold_right Qplus 0 rest) with (qsum rest).
    match goal with |- 0 <= ?e + _ => assert (0 <= e) end; [|lra].
    destruct s.
    + destruct (qlt_spec (bottom K T) source); [|lra]. repeat apply Qmult_le_0_compat; lra.
    + destruct (qlt_spec flow (top T)); [|lra]. repeat apply Qmult_le_0_compat; lra.
    + lra.
Qed.

Lemma max_energy_nonneg K s T source flow ret t m :
  0 <= k_capacity K -> (forall d c, k_cp K d = Some c -> 0 < c) -> ret <= flow ->
  max_energy_in_out K s T source flow ret t = Ok m -> 0 <= m.
Proof.
  intros Hc Hp Hf. unfold max_energy_in_out.
  destruct (_ && _); [intro H; injection H as <-; lra|].
  destruct (_ && _); [intro H; injection H as <-; lra|].
  destruct (qeq _ 0); [intro H; injection H as <-; lra|].
  unfold node_mass. destruct (k_nodes K) as [|n] eqn:En; cbn [bind]; [discriminate|].
  destruct (specific_heat K source) as [cp|] eqn:Ep; cbn [bind]; [|discriminate].
  destruct (max_loop _ _ _ _ _ _ _ _ _ _) as [l|] eqn:E; cbn [bind]; [|discriminate].
  intro H. injection H as <-.
  assert (0 <= qsum l).
  { eapply max_loop_nonneg; [| |exact Hf|exact E].
    - apply Qle_shift_div_l; [change 0 with (inject_Z 0); rewrite <- Zlt_Qlt; lia|lra].
    - unfold specific_heat in Ep. destruct (_ && _); [|discriminate].
      destruct (k_cp K _) eqn:Ek; [|discriminate]. injection Ep as <-. apply Qlt_le_weak. eapply Hp, Ek. }
  apply Qle_shift_div_l; lra.
Qed.

Lemma max_energy_zero_capacity K s T source flow ret t :
  k_capacity K == 0 -> max_energy_in_out K s T source flow ret t = Ok 0.
Proof.
  intro H. unfold max_energy_in_out. destruct (_ && _); [reflexivity|]. destruct (_ && _); [reflexivity|].
  destruct (qeq_spec (k_capacity K) 0); [reflexivity|contradiction].
Qed.
Lemma mean_total T x : T <> [] -> (x <= mean_temp T <-> x * inject_Z (Z.of_nat (length T)) <= content T) /\
                       (mean_temp T <= x <-> content T <= x * inject_Z (Z.of_nat (length T))).
Proof.
  intro H. unfold mean_temp.
  assert (L : 0 < inject_Z (Z.of_nat (length T))).
  { change 0 with (inject_Z 0). rewrite <- Zlt_Qlt. destruct T; [contradiction|cbn; lia]. }
  assert (E : content T == content T / inject_Z (Z.of_nat (length T)) * inject_Z (Z.of_nat (length T))) by (field; lra).
  set (q := content T / inject_Z (Z.of_nat (length T))) in *. set (len := inject_Z (Z.of_nat (length T))) in *.
  rewrite E. split; split; intro A; try (apply Qmult_le_compat_r; lra); apply (Qmult_le_r _ _ len L); exact A.
Qed.
Lemma max_energy_hot K T source flow ret t :
  T <> [] -> source <= mean_temp T -> max_energy_in_out K Charging T source flow ret t = Ok 0.
Proof.
  intros Hn H. apply (mean_total T source Hn) in H. unfold max_energy_in_out.
  change (qsum T) with (content T). destruct (qle_spec (source * inject_Z (Z.of_nat (length T))) (content T)); [reflexivity|lra].
Qed.
Lemma max_energy_cold K T source flow ret t :
  T <> [] -> mean_temp T <= ret -> max_energy_in_out K Discharging T source flow ret t = Ok 0.
Proof.
  intros Hn H. apply (mean_total T ret Hn) in H. unfold max_energy_in_out.
  change (qsum T) with (content T). rewrite andb_false_r.
  destruct (qle_spec (content T) (ret * inject_Z (Z.of_nat (length T)))); [reflexivity|lra].
Qed.

(** ** Energy of an hour *)
Lemma standing_lossless K k Ta mass T cps : k_Fe K == 0 -> standing K k Ta mass T cps == 0.
Proof.
  intro H. revert cps. induction T as [|x T IH]; intros [|c cps]; try reflexivity. cbn [standing]. rewrite IH. unfold UA. rewrite H.
  unfold Qdiv. ring.
Qed.

Lemma chain_sum (f : list Q -> res (list Q)) (cr : list Q -> Prop) (e : Q) c T l :
  (forall x y, cr x -> f x = Ok y -> content y == content x - e) ->
  inner_loop f c T = Ok l -> Forall cr (removelast (T :: l)) ->
  content (last l T) == content T - inject_Z (Z.of_nat c) * e.
Proof.
  intro Hf. revert T l. induction c as [|c IH]; intros T l H Hc; cbn in H.
  - injection H as <-. cbn [last]. change (inject_Z (Z.of_nat 0)) with 0. ring.
  - destruct (f T) as [T'|] eqn:E; cbn [bind] in H; [|discriminate].
    destruct (inner_loop f c T') as [rest|] eqn:E2; cbn [bind] in H; [|discriminate].
    injection H as <-. change (removelast (T :: T' :: rest)) with (T :: removelast (T' :: rest)) in Hc.
    inversion Hc as [|? ? C1 C2]; subst. specialize (IH T' rest E2 C2).
    assert (E3 : last (T' :: rest) T = last rest T').
    { clear. destruct rest as [|y r]; [reflexivity|]. change (last (T' :: y :: r) T) with (last (y :: r) T).
      generalize y. induction r as [|z r IH]; intro w; [reflexivity|]. apply (IH z). }
    rewrite E3, IH, (Hf T T' C1 E). rewrite Nat2Z.inj_succ. unfold Z.succ. rewrite inject_Z_plus. ring.
Qed.
Lemma chain_sum_le (g : list Q -> Q) (f : list Q -> res (list Q)) (cr : list Q -> Prop) (e : Q) c T l :
  (forall x y, cr x -> f x = Ok y -> g x - e <= g y) ->
  inner_loop f c T = Ok l -> Forall cr (removelast (T :: l)) ->
  g T - inject_Z (Z.of_nat c) * e <= g (last l T).
Proof.
  intro Hf. revert T l. induction c as [|c IH]; intros T l H Hc; cbn in H.
  - injection H as <-. cbn [last]. change (inject_Z (Z.of_nat 0)) with 0. lra.
  - destruct (f T) as [T'|] eqn:E; cbn [bind] in H; [|discriminate].
    destruct (inner_loop f c T') as [rest|] eqn:E2; cbn [bind] in H; [|discriminate].
    injection H as <-. change (removelast (T :: T' :: rest)) with (T :: removelast (T' :: rest)) in Hc.
    inversion Hc as [|? ? C1 C2]; subst. specialize (IH T' rest E2 C2).
    assert (E3 : last (T' :: rest) T = last rest T').
    { clear. destruct rest as [|y r]; [reflexivity|]. change (last (T' :: y :: r) T) with (last (y :: r) T).
      generalize y. induction r as [|z r IH]; intro w; [reflexivity|]. apply (IH z). }
    rewrite E3. pose proof (Hf T T' C1 E).
    assert (X : inject_Z (Z.of_nat (S c)) * e == inject_Z (Z.of_nat c) * e + e)
      by (rewrite Nat2Z.inj_succ; unfold Z.succ; rewrite inject_Z_plus; ring).
    lra.
Qed.

Lemma specific_heat_const K C T c : constant_cp K C -> specific_heat K T = Ok c -> c == C.
Proof.
  intros H. unfold specific_heat. destruct (_ && _); [|discriminate].
  destruct (k_cp K _) eqn:E; [|discriminate]. intro X. injection X as <-. eapply H, E.
Qed.

Lemma discharge_step_exact K C source delta flow ret o d c t x y :
  tank_ok K -> constant_cp K C -> 0 < C -> k_Fe K == 0 -> 0 < c -> o <= d -> ret < flow ->
  stratified x -> flow <= hd 0 x ->
  inner_step K Discharging source delta flow ret (o * 3600 / c) (d * 3600 / c) t x = Ok y ->
  content x - degrees K C (d - o) / c <= content y /\
  (3600000 * (d - o) <= c * (nmass K * C * (hd 0 x - ret)) -> content y == content x - degrees K C (d - o) / c).
Proof.
  intros HK Hcp HC He Hc Hod Hrf HS Hf H. pose proof (nmass_pos K HK) as Hm.
  destruct (discharging_content _ _ _ _ _ _ _ _ _ _ HK HS H)
    as (m1 & cps & k & Ta & cs & cf & A1 & A2 & A3 & A4 & A5 & A6 & A7 & A8 & _).
  specialize (A8 Hf). rewrite standing_lossless in A8 by assumption.
  apply (specific_heat_const K C) in A4; [|assumption]. apply (specific_heat_const K C) in A5; [|assumption].
  rewrite A4, A5 in A7.
  assert (D : 0 < hd 0 x - ret) by lra.
  rewrite (Qabs_pos (hd 0 x - ret)) in A7 by lra.
  assert (X : d * 3600 / c / C - o * 3600 / c / C == 3600 * (d - o) / (c * C)) by (field; lra).
  assert (P : 0 <= 3600 * (d - o) / (c * C)) by (apply Qle_shift_div_l; [apply Qmult_lt_0_compat; assumption|lra]).
  rewrite X, (Qabs_pos _ P) in A7.
  assert (Y : degrees K C (d - o) / c == m1 * (hd 0 x - ret) / nmass K) by (rewrite A7; unfold degrees; field; lra).
  assert (Z : m1 / nmass K * (hd 0 x - ret) == degrees K C (d - o) / c) by (rewrite Y; field; lra).
  split.
  - rewrite A8. assert (Qmin m1 (nmass K) / nmass K * (hd 0 x - ret) <= m1 / nmass K * (hd 0 x - ret)); [|lra].
    apply Qmult_le_compat_r; [|lra]. unfold Qdiv. apply Qmult_le_compat_r; [apply Q.le_min_l|].
    apply Qlt_le_weak, Qinv_lt_0_compat, Hm.
  - intro Hcap. rewrite A8.
    assert (L : m1 <= nmass K).
    { apply (Qmult_le_r _ _ (hd 0 x - ret) D). rewrite A7.
      setoid_replace (1000 * (3600 * (d - o) / (c * C))) with (3600000 * (d - o) / (c * C)) by (field; lra).
      apply Qle_shift_div_r; [apply Qmult_lt_0_compat; assumption|]. 
      setoid_replace (nmass K * (hd 0 x - ret) * (c * C)) with (c * (nmass K * C * (hd 0 x - ret))) by ring. exact Hcap. }
    rewrite (Q.min_l _ _ L), Z. ring.
Qed.

Lemma discharge_step_cold K source delta flow ret o d t x y :
  tank_ok K -> k_Fe K == 0 -> stratified x -> hd 0 x < flow ->
  inner_step K Discharging source delta flow ret o d t x = Ok y -> content y == content x.
Proof.
  intros HK He HS Hf H.
  destruct (discharging_content _ _ _ _ _ _ _ _ _ _ HK HS H)
    as (m1 & cps & k & Ta & cs & cf & A1 & A2 & A3 & A4 & A5 & A6 & A7 & _ & A8).
  specialize (A8 Hf). rewrite standing_lossless in A8 by assumption. rewrite A8. ring.
Qed.

Lemma charge_step_exact K C source delta flow ret o d c t x y :
  tank_ok K -> constant_cp K C -> 0 < C -> k_Fe K == 0 -> 0 < c -> d <= o ->
  stratified x -> last x 0 < source -> no_tie source x ->
  inner_step K Charging source delta flow ret (o * 3600 / c) (d * 3600 / c) t x = Ok y ->
  content y <= content x + degrees K C (o - d) / c /\
  (3600000 * (o - d) <= c * (nmass K * C * (source - last x 0)) -> content y == content x + degrees K C (o - d) / c).
Proof.
  intros HK Hcp HC He Hc Hod HS Hf Ht H. pose proof (nmass_pos K HK) as Hm.
  destruct (charging_content _ _ _ _ _ _ _ _ _ _ HK HS H)
    as (m1 & cps & k & Ta & cs & cf & A1 & A2 & A3 & A4 & A5 & A7 & A8 & _).
  specialize (A8 ltac:(lra)). rewrite standing_lossless in A8 by assumption. rewrite (no_tie_ties _ _ Ht) in A8.
  change (inject_Z (Z.of_nat 1)) with 1 in A8.
  apply (specific_heat_const K C) in A4; [|assumption]. apply (specific_heat_const K C) in A5; [|assumption].
  rewrite A4, A5 in A7.
  assert (D : 0 < source - last x 0) by lra.
  assert (X : o * 3600 / c / C - d * 3600 / c / C == 3600 * (o - d) / (c * C)) by (field; lra).
  rewrite X in A7.
  assert (Y : degrees K C (o - d) / c == m1 * (source - last x 0) / nmass K) by (rewrite A7; unfold degrees; field; lra).
  assert (Z : m1 / nmass K * (source - last x 0) == degrees K C (o - d) / c) by (rewrite Y; field; lra).
  assert (W : 1 * source - last x 0 == source - last x 0) by ring. rewrite W in A8.
  split.
  - rewrite A8. assert (Qmin m1 (nmass K) / nmass K * (source - last x 0) <= m1 / nmass K * (source - last x 0)); [|lra].
    apply Qmult_le_compat_r; [|lra]. unfold Qdiv. apply Qmult_le_compat_r; [apply Q.le_min_l|].
    apply Qlt_le_weak, Qinv_lt_0_compat, Hm.
  - intro Hcap. rewrite A8.
    assert (L : m1 <= nmass K).
    { apply (Qmult_le_r _ _ (source - last x 0) D). rewrite A7.
      setoid_replace (1000 * (3600 * (o - d) / (c * C))) with (3600000 * (o - d) / (c * C)) by (field; lra).
      apply Qle_shift_div_r; [apply Qmult_lt_0_compat; assumption|]. 
      setoid_replace (nmass K * (source - last x 0) * (c * C)) with (c * (nmass K * C * (source - last x 0))) by ring. exact Hcap. }
    rewrite (Q.min_l _ _ L), Z. ring.
Qed.

Lemma inner_loop_strat K s source delta flow ret o d t c T l :
  stratified T -> inner_loop (inner_step K s source delta flow ret o d t) c T = Ok l ->
  Forall stratified (removelast (T :: l)).
Proof.
  intros HS H. assert (F : Forall stratified (T :: l)).
  { constructor; [exact HS|]. eapply inner_loop_Forall; [|exact H]. intros. eapply inner_step_shape; eassumption. }
  clear H. revert F. generalize (T :: l). clear. intros L F. induction F as [|x L Hx F IH]; [constructor|].
  destruct L as [|y L]; [constructor|]. cbn [removelast]. constructor; [exact Hx|exact IH].
Qed.

Lemma count_pos (c : nat) : (1 <= c)%nat -> 0 < inject_Z (Z.of_nat c).
Proof. intro H. change 0 with (inject_Z 0). rewrite <- Zlt_Qlt. lia. Qed.

Lemma last_default (l : list (list Q)) a b : l <> [] -> last l a = last l b.
Proof. induction l as [|x l IH]; [contradiction|]. intros _. destruct l as [|y l]; [reflexivity|]. apply IH. discriminate. Qed.

Lemma discharge_hour K C source delta flow ret o d t T l :
  tank_ok K -> constant_cp K C -> 0 < C -> k_Fe K == 0 -> o <= d -> ret < flow -> stratified T ->
  new_nodes_temp K Discharging T source delta flow ret o d t = Ok (States l) ->
  content T - degrees K C (d - o) <= content (last l T) /\
  (Forall (fun x => flow <= hd 0 x /\
                    3600000 * (d - o) <= inject_Z (Z.of_nat (length l)) * (nmass K * C * (hd 0 x - ret))) (removelast (T :: l)) ->
   content (last l T) == content T - degrees K C (d - o)).
Proof.
  intros HK Hcp HC He Hod Hrf HS H. apply new_nodes_inv in H.
  destruct H as [(l' & X & _)|(c & l' & X & _ & _ & _ & _ & Hc & Lc & H)]; [discriminate|]. injection X as <-. subst c.
  pose proof (count_pos _ Hc) as Hcq. set (c := inject_Z (Z.of_nat (length l))) in *.
  pose proof (inner_loop_strat _ _ _ _ _ _ _ _ _ _ _ _ HS H) as F.
  assert (E : c * (degrees K C (d - o) / c) == degrees K C (d - o)) by (field; lra).
  assert (Dn : 0 <= degrees K C (d - o)).
  { unfold degrees. apply Qle_shift_div_l; [apply Qmult_lt_0_compat; [apply nmass_pos; assumption|assumption]|lra]. }
  split.
  - rewrite <- E at 1. unfold c at 1.
    eapply (chain_sum_le content _ stratified); [|exact H|exact F]. intros x y Sx Hxy.
    destruct (Qlt_le_dec (hd 0 x) flow) as [G|G].
    + rewrite (discharge_step_cold K _ _ _ _ _ _ _ _ _ HK He Sx G Hxy).
      assert (0 <= degrees K C (d - o) / c) by (apply Qle_shift_div_l; [exact Hcq|lra]). lra.
    + apply (proj1 (discharge_step_exact K C source delta flow ret o d c t x y HK Hcp HC He Hcq Hod Hrf Sx G Hxy)).
  - intro Hcap. rewrite <- E. unfold c at 1.
    eapply (chain_sum _ (fun x => stratified x /\ (flow <= hd 0 x /\
                    3600000 * (d - o) <= c * (nmass K * C * (hd 0 x - ret))))); [|exact H|].
    + intros x y (Sx & Fx & Cx) Hxy. apply (proj2 (discharge_step_exact K C source delta flow ret o d c t x y HK Hcp HC He Hcq Hod Hrf Sx Fx Hxy)). exact Cx.
    + apply Forall_forall. intros x Hx. rewrite Forall_forall in F, Hcap. auto.
Qed.

Lemma charge_hour K C source delta flow ret o d t T l :
  tank_ok K -> constant_cp K C -> 0 < C -> k_Fe K == 0 -> d <= o -> stratified T ->
  new_nodes_temp K Charging T source delta flow ret o d t = Ok (States l) ->
  Forall (fun x => last x 0 < source /\ no_tie source x) (removelast (T :: l)) ->
  content (last l T) <= content T + degrees K C (o - d) /\
  (Forall (fun x => 3600000 * (o - d) <= inject_Z (Z.of_nat (length l)) * (nmass K * C * (source - last x 0))) (removelast (T :: l)) ->
   content (last l T) == content T + degrees K C (o - d)).
Proof.
  intros HK Hcp HC He Hod HS H Hs. apply new_nodes_inv in H.
  destruct H as [(l' & X & _)|(c & l' & X & _ & _ & _ & _ & Hc & Lc & H)]; [discriminate|]. injection X as <-. subst c.
  pose proof (count_pos _ Hc) as Hcq. set (c := inject_Z (Z.of_nat (length l))) in *.
  pose proof (inner_loop_strat _ _ _ _ _ _ _ _ _ _ _ _ HS H) as F.
  set (e := - (degrees K C (o - d) / c)).
  assert (E : c * e == - degrees K C (o - d)) by (unfold e; field; lra).
  split.
  - assert (X : - content T - inject_Z (Z.of_nat (length l)) * (degrees K C (o - d) / c) <= - content (last l T)).
    { apply (chain_sum_le (fun x => - content x) (inner_step K Charging source delta flow ret (o * 3600 / c) (d * 3600 / c) t)
               (fun x => stratified x /\ last x 0 < source /\ no_tie source x) _ _ _ _); [|exact H|].
      - intros x y (Sx & Fx & Cx) Hxy.
        pose proof (proj1 (charge_step_exact K C source delta flow ret o d c t x y HK Hcp HC He Hcq Hod Sx Fx Cx Hxy)) as B. lra.
      - apply Forall_forall. intros x Hx. rewrite Forall_forall in F, Hs. auto. }
    fold c in X. assert (Y : c * (degrees K C (o - d) / c) == degrees K C (o - d)) by (field; lra). lra.
  - intro Hcap. setoid_replace (content T + degrees K C (o - d)) with (content T - c * e) by (rewrite E; ring).
    unfold c at 1.
    apply (chain_sum (inner_step K Charging source delta flow ret (o * 3600 / c) (d * 3600 / c) t)
             (fun x => stratified x /\ (last x 0 < source /\ no_tie source x) /\
                    3600000 * (o - d) <= c * (nmass K * C * (source - last x 0)))); [|exact H|].
    + intros x y (Sx & (Fx & Tx) & Cx) Hxy.
      pose proof (proj2 (charge_step_exact K C source delta flow ret o d c t x y HK Hcp HC He Hcq Hod Sx Fx Tx Hxy)) as B.
      rewrite (B Cx). unfold e. ring.
    + apply Forall_forall. intros x Hx. rewrite Forall_forall in F, Hs, Hcap. auto.
Qed.
