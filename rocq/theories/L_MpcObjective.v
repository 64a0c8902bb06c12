(** Lemmas on the predictive controller: the problem stated to the optimiser. *)
From Verif Require Import Base BaseL M_Battery S_Battery M_HeatPump S_HeatPump M_Tools M_FixedOrder S_FixedOrder
  L_Grid M_Mpc S_Mpc L_Mpc L_MpcRecord.

Section Objective.
Variable b : problem.

Lemma electric_cost_bounded p cap v : b_electric b = true -> b_aux_cost b = None -> 0 <= b_export_cost b ->
  0 < q_cop p -> 0 <= q_price p -> constraints b p cap v ->
  - (q_RES p * b_export_cost b * (1 # 1000)) <= running_cost b p v.
Proof.
  intros He Ha Hx Hc Hp [HS [HE _]]. rewrite He in HE.
  apply signs_inv in HS. destruct HS as (S1 & S2 & S3 & S4 & S5 & S6 & S7 & S8 & S9 & S10 & S11 & S12 & S13 & S14 & S15 & S16 & S17 & S18 & S19 & S20 & S21 & S22 & S23 & S24).
  destruct HE as (_ & _ & _ & _ & _ & H6 & H7 & _ & H9).
  unfold running_cost. rewrite Ha.
  assert (E1 : v_export v <= q_RES p).
  { rewrite H9. assert (0 <= (v_HPtrs v + v_HPtrd v) / q_cop p) by (apply Qle_shift_div_l; lra). lra. }
  assert (E2 : 0 <= (v_HPt v - v_HPtrd v - v_HPtesd v - v_HPtrs v) / q_cop p + v_imp_ed v + v_ESc_imp v).
  { assert (0 <= (v_HPt v - v_HPtrd v - v_HPtesd v - v_HPtrs v) / q_cop p).
    { apply Qle_shift_div_l; [exact Hc|]. unfold v_HPt. rewrite H6. lra. }
    lra. }
  assert (E3 : 0 <= v_aux v - v_aux_rs v - v_aux_rd v - v_ESd_aux v) by (rewrite H7; lra).
  generalize dependent ((v_HPt v - v_HPtrd v - v_HPtesd v - v_HPtrs v) / q_cop p + v_imp_ed v + v_ESc_imp v).
  intros a Ha0.
  generalize dependent (v_aux v - v_aux_rs v - v_aux_rd v - v_ESd_aux v). intros a' Ha'.
  assert (M1 : 0 <= q_price p * a) by (apply Qmult_le_0_compat; assumption).
  assert (M2 : 0 <= a' * q_price p) by (apply Qmult_le_0_compat; assumption).
  assert (M3 : v_export v * b_export_cost b <= q_RES p * b_export_cost b) by (apply Qmult_le_compat_r; assumption).
  setoid_replace (q_price p / 1000 * a + a' * q_price p / 1000 - v_export v * b_export_cost b / 1000 + (1 # 100000) * v_ESc_res v)
    with ((1 # 1000) * (q_price p * a) + (1 # 1000) * (a' * q_price p) - (1 # 1000) * (v_export v * b_export_cost b) + (1 # 100000) * v_ESc_res v) by field.
  lra.
Qed.

Lemma electric_costs_bounded ps vs : b_electric b = true -> b_aux_cost b = None -> 0 <= b_export_cost b ->
  Forall (fun p => 0 < q_cop p /\ 0 <= q_price p) ps -> length vs = length ps ->
  (forall k v, nth_error vs k = Some v -> exists p c, nth_error ps k = Some p /\ constraints b p c v) ->
  - (qsum (map q_RES ps) * b_export_cost b * (1 # 1000)) <= running_costs b ps vs.
Proof.
  intros He Ha Hx. revert vs. induction ps as [|p ps IH]; intros vs HP HL HF.
  - cbn. destruct vs; [|discriminate]. lra.
  - destruct vs as [|v vs]; [discriminate|]. apply Forall_cons_iff in HP. destruct HP as [[Hc Hp] HP].
    cbn [running_costs map qsum fold_right]. destruct (HF O v eq_refl) as (p' & c & Ep & HC). cbn in Ep.
    assert (p' = p) by congruence. subst p'.
    pose proof (electric_cost_bounded p c v He Ha Hx Hc Hp HC) as H1.
    assert (H2 : - (qsum (map q_RES ps) * b_export_cost b * (1 # 1000)) <= running_costs b ps vs).
    { apply IH; [exact HP|cbn in HL; lia|]. intros k v' Hk. exact (HF (S k) v' Hk). }
    setoid_replace ((q_RES p + qsum (map q_RES ps)) * b_export_cost b * (1 # 1000))
      with (q_RES p * b_export_cost b * (1 # 1000) + qsum (map q_RES ps) * b_export_cost b * (1 # 1000)) by ring.
    generalize dependent (q_RES p * b_export_cost b * (1 # 1000)). intros x H1.
    generalize dependent (qsum (map q_RES ps) * b_export_cost b * (1 # 1000)). intros y H2. lra.
Qed.

Lemma nth_error_tl {A} (l : list A) k : nth_error (tl l) k = nth_error l (S k).
Proof. destruct l; [destruct k; reflexivity|reflexivity]. Qed.
Lemma length_tl {A} (l : list A) : length (tl l) = pred (length l).
Proof. destruct l; reflexivity. Qed.

Lemma electric_objective_bounded dyn vs : b_electric b = true -> b_aux_cost b = None -> 0 <= b_export_cost b ->
  Forall (fun p => 0 < q_cop p /\ 0 <= q_price p) (b_hours b) -> feasible dyn b vs ->
  - (planned_generation b * b_export_cost b * (1 # 1000)) <= objective b vs.
Proof.
  intros He Ha Hx HP (HL & _ & HF). unfold objective, planned_generation. apply electric_costs_bounded; auto.
  - destruct (b_hours b); [constructor|]. apply Forall_cons_iff in HP. apply HP.
  - rewrite !length_tl, HL. reflexivity.
  - intros k v. rewrite nth_error_tl. intro Hv. destruct (HF k v Hv) as (p & c & H1 & _ & H2).
    exists p, c. rewrite nth_error_tl. auto.
Qed.

(** The same answer with more "renewable" back-up heat at the first decided hour. *)
Definition more_aux_rd (v : point) (x : Q) : point :=
  {| v_RES_ed := v_RES_ed v; v_export := v_export v; v_imp_ed := v_imp_ed v;
     v_HPtrd := v_HPtrd v; v_HPtrs := v_HPtrs v; v_HPtid := v_HPtid v; v_HPtis := v_HPtis v;
     v_HPtesd := v_HPtesd v; v_HP_status := v_HP_status v; v_HPt_var := v_HPt_var v;
     v_TSc := v_TSc v; v_TSd := v_TSd v; v_soc := v_soc v;
     v_ESc := v_ESc v; v_ESc_res := v_ESc_res v; v_ESc_imp := v_ESc_imp v;
     v_ESd := v_ESd v; v_ESd_hp := v_ESd_hp v; v_ESd_aux := v_ESd_aux v; v_ESd_ed := v_ESd_ed v;
     v_soc_ES := v_soc_ES v;
     v_aux_rd := v_aux_rd v + x; v_aux_rs := v_aux_rs v; v_aux_d := v_aux_d v; v_aux_s := v_aux_s v;
     v_aux := v_aux v |}.

Lemma fuel_constraints p cap v x : b_electric b = false -> 0 <= x -> constraints b p cap v ->
  constraints b p cap (more_aux_rd v x).
Proof.
  intros He Hx [[HS H1] [HE HL]]. split; [|split].
  - split; [|exact H1]. cbn [more_aux_rd v_RES_ed v_export v_imp_ed v_HPtrd v_HPtrs v_HPtid v_HPtis v_HPtesd v_HP_status v_HPt_var v_TSc v_TSd v_soc v_ESc v_ESc_res v_ESc_imp v_ESd v_ESd_hp v_ESd_aux v_ESd_ed v_soc_ES v_aux_rd v_aux_rs v_aux_d v_aux_s v_aux].
    repeat match goal with H : Forall _ (_ :: _) |- _ => apply Forall_cons_iff in H; let H' := fresh in destruct H as [H' H] end.
    repeat constructor; try assumption. lra.
  - rewrite He in HE |- *. exact HE.
  - exact HL.
Qed.


Lemma fuel_cost_drops p v x c : b_aux_cost b = Some c ->
  running_cost b p (more_aux_rd v x) == running_cost b p v - x * c * (1 # 1000).
Proof.
  intro Ha. unfold running_cost. rewrite Ha. unfold v_HPt.
  cbn [more_aux_rd v_RES_ed v_export v_imp_ed v_HPtrd v_HPtrs v_HPtid v_HPtis v_HPtesd v_HP_status v_HPt_var v_TSc v_TSd v_soc v_ESc v_ESc_res v_ESc_imp v_ESd v_ESd_hp v_ESd_aux v_ESd_ed v_soc_ES v_aux_rd v_aux_rs v_aux_d v_aux_s v_aux].
  generalize (((v_HP_status v * v_HPt_var v - v_HPtrd v - v_HPtesd v - v_HPtrs v) / q_cop p)). intro q. field.
Qed.

Lemma fuel_objective_unbounded dyn vs c : b_electric b = false -> b_aux_cost b = Some c -> 0 < c ->
  (2 <= length (b_hours b))%nat -> feasible dyn b vs ->
  forall M, exists vs', feasible dyn b vs' /\ objective b vs' < M.
Proof.
  intros He Ha Hc Hl (HL & HD & HF) M.
  destruct vs as [|v0 [|v1 rest]]; [cbn in HL; lia|cbn in HL; lia|].
  set (d := objective b (v0 :: v1 :: rest) - M).
  set (x := (pmax d 0 + 1) * 1000 / c).
  assert (Hmax : 0 <= pmax d 0 /\ d <= pmax d 0).
  { unfold pmax. destruct (qlt_spec d 0); lra. }
  assert (Hx : 0 <= x).
  { unfold x. apply Qle_shift_div_l; [exact Hc|]. lra. }
  assert (Hxc : x * c * (1 # 1000) == pmax d 0 + 1) by (unfold x; field; lra).
  exists (v0 :: more_aux_rd v1 x :: rest). split.
  - split; [exact HL|]. split; [exact HD|]. intros [|k] v Hv.
    + cbn in Hv. assert (v = more_aux_rd v1 x) by congruence. subst v.
      destruct (HF O v1 eq_refl) as (p & cap & H1 & H2 & H3). exists p, cap. split; [exact H1|]. split; [exact H2|].
      apply fuel_constraints; assumption.
    + exact (HF (S k) v Hv).
  - destruct (b_hours b) as [|p0 [|p1 ps]] eqn:Eh; [cbn in Hl; lia|cbn in Hl; lia|].
    assert (Hd : objective b (v0 :: v1 :: rest) == d + M) by (unfold d; ring).
    unfold objective in *. rewrite Eh in *. cbn [tl running_costs] in *.
    rewrite (fuel_cost_drops p1 v1 x c Ha), Hxc.
    generalize dependent (running_cost b p1 v1). generalize (running_costs b ps rest). intros; lra.
Qed.
End Objective.
