(** Lemmas on the best plans of the predictive controller. *)
From Verif Require Import Base BaseL M_Battery S_Battery M_HeatPump S_HeatPump M_Tools M_FixedOrder S_FixedOrder L_FixedOrderRun
  L_Grid M_Mpc S_Mpc L_Mpc L_MpcRecord L_MpcObjective S_MpcOptimal.

Ltac pt := cbn [v_RES_ed v_export v_imp_ed v_HPtrd v_HPtrs v_HPtid v_HPtis v_HPtesd v_HP_status v_HPt_var v_TSc v_TSd v_soc v_ESc v_ESc_res v_ESc_imp v_ESd v_ESd_hp v_ESd_aux v_ESd_ed v_soc_ES v_aux_rd v_aux_rs v_aux_d v_aux_s v_aux].
Ltac all_signs HS := let H1 := fresh "Hst" in destruct HS as [HS H1]; repeat match type of HS with Forall _ (_ :: _) => let H' := fresh "Sg" in apply Forall_cons_iff in HS; destruct HS as [H' HS] end; clear HS.

(** ** Own generation instead of bought power *)
(** A share [t] of everything bought is taken from the export instead. *)
Definition use_own (p : phour) (v : point) (t : Q) : point :=
  {| v_RES_ed := v_RES_ed v + t * v_imp_ed v; v_export := v_export v - t * bought p v; v_imp_ed := v_imp_ed v - t * v_imp_ed v;
     v_HPtrd := v_HPtrd v + t * v_HPtid v; v_HPtrs := v_HPtrs v + t * v_HPtis v; v_HPtid := v_HPtid v - t * v_HPtid v; v_HPtis := v_HPtis v - t * v_HPtis v;
     v_HPtesd := v_HPtesd v; v_HP_status := v_HP_status v; v_HPt_var := v_HPt_var v;
     v_TSc := v_TSc v; v_TSd := v_TSd v; v_soc := v_soc v;
     v_ESc := v_ESc v; v_ESc_res := v_ESc_res v + t * v_ESc_imp v; v_ESc_imp := v_ESc_imp v - t * v_ESc_imp v;
     v_ESd := v_ESd v; v_ESd_hp := v_ESd_hp v; v_ESd_aux := v_ESd_aux v; v_ESd_ed := v_ESd_ed v;
     v_soc_ES := v_soc_ES v;
     v_aux_rd := v_aux_rd v + t * v_aux_d v; v_aux_rs := v_aux_rs v + t * v_aux_s v; v_aux_d := v_aux_d v - t * v_aux_d v; v_aux_s := v_aux_s v - t * v_aux_s v;
     v_aux := v_aux v |}.
Lemma share_bounds t x : 0 <= t <= 1 -> 0 <= x -> 0 <= t * x <= x.
Proof. intros. nra. Qed.
Lemma own_constraints b p cap v t : b_electric b = true -> 0 < q_cop p -> 0 <= t <= 1 -> t * bought p v <= v_export v ->
  constraints b p cap v -> constraints b p cap (use_own p v t).
Proof.
  intros He Hc Ht Hx [HS [HE HL]]. split; [|split].
  - all_signs HS. split; [|exact Hst]. unfold use_own. pt.
    pose proof (share_bounds t (v_imp_ed v) Ht ltac:(assumption)). pose proof (share_bounds t (v_ESc_imp v) Ht ltac:(assumption)). pose proof (share_bounds t (v_HPtid v) Ht ltac:(assumption)). pose proof (share_bounds t (v_HPtis v) Ht ltac:(assumption)).
    pose proof (share_bounds t (v_aux_d v) Ht ltac:(assumption)). pose proof (share_bounds t (v_aux_s v) Ht ltac:(assumption)).
    generalize dependent (t * bought p v). intros. repeat (apply Forall_cons; [lra|]). apply Forall_nil.
  - rewrite He in HE |- *. destruct HE as (E1 & E2 & E3 & E4 & E5 & E6 & E7 & E8 & E9). unfold electric_equations, use_own. pt. unfold bought.
    repeat match goal with |- _ /\ _ => split end.
    + exact E1.
    + rewrite E2. ring.
    + rewrite E3. ring.
    + rewrite E4. ring.
    + exact E5.
    + rewrite E6. ring.
    + rewrite E7. ring.
    + rewrite E8. ring.
    + rewrite E9. field. lra.
  - exact HL.
Qed.
Lemma own_cost b p v t : b_aux_cost b = None -> 0 < q_cop p -> v_HPt v == v_HPtrs v + v_HPtrd v + v_HPtid v + v_HPtis v + v_HPtesd v ->
  running_cost b p (use_own p v t) == running_cost b p v - t * ((q_price p - b_export_cost b) * (1 # 1000) * bought p v - (1 # 100000) * v_ESc_imp v).
Proof.
  intros Ha Hc Hh. unfold running_cost. rewrite Ha. change (v_HPt (use_own p v t)) with (v_HPt v). unfold use_own. pt. rewrite Hh. unfold bought. field. lra.
Qed.

(** ** Replacing one point *)
Fixpoint replace {A} (k : nat) (x : A) (l : list A) : list A :=
  match l, k with [], _ => [] | _ :: r, O => x :: r | y :: r, S k' => y :: replace k' x r end.
Lemma replace_length {A} k (x : A) l : length (replace k x l) = length l.
Proof. revert k. induction l as [|y l IH]; intros [|k]; cbn; auto. Qed.
Lemma replace_nth {A} k (x : A) l j : nth_error (replace k x l) j = if Nat.eqb j k then match nth_error l j with Some _ => Some x | None => None end else nth_error l j.
Proof.
  revert k j. induction l as [|y l IH]; intros [|k] [|j]; cbn [replace nth_error Nat.eqb]; try reflexivity; [destruct (Nat.eqb j k); reflexivity|]. apply IH.
Qed.
Lemma replace_map {A B} (f : A -> B) k x l v : nth_error l k = Some v -> f x = f v -> map f (replace k x l) = map f l.
Proof.
  revert k. induction l as [|y l IH]; intros [|k] H E; cbn in *; try discriminate; [congruence|]. rewrite (IH k H E). reflexivity.
Qed.
Lemma replace_costs b ps vs k p v x : nth_error ps k = Some p -> nth_error vs k = Some v ->
  running_costs b ps (replace k x vs) == running_costs b ps vs - running_cost b p v + running_cost b p x.
Proof.
  revert ps k. induction vs as [|y vs IH]; intros [|q ps] [|k] Hp Hv; cbn [nth_error] in *; try discriminate; cbn [replace running_costs].
  - injection Hp as ->. injection Hv as ->. ring.
  - rewrite (IH ps k Hp Hv). ring.
Qed.
Lemma replace_feasible dyn b vs k p cap v x : feasible dyn b vs -> nth_error vs (S k) = Some v -> nth_error (b_hours b) (S k) = Some p -> nth_error (b_max_cap b) (S k) = Some cap ->
  (v_soc x, v_TSc x, v_TSd x, v_soc_ES x, v_ESc x, v_ESd x) = (v_soc v, v_TSc v, v_TSd v, v_soc_ES v, v_ESc v, v_ESd v) -> constraints b p cap x -> feasible dyn b (replace (S k) x vs).
Proof.
  intros (HL & HD & HF) Hv Hp Hc E HC. split; [rewrite replace_length; exact HL|]. split.
  - unfold storage_columns. rewrite (replace_map _ (S k) x vs v Hv E). exact HD.
  - intros j w. rewrite replace_nth. destruct (Nat.eqb_spec (S j) (S k)) as [Ej|Ej].
    + injection Ej as ->. rewrite Hv. intro Ew. injection Ew as <-. exists p, cap. auto.
    + intro Ew. exact (HF j w Ew).
Qed.

(** ** More room *)
Definition adapt (p p' : phour) (v : point) : point :=
  let w := pmax (v_HPt_var v) (q_HP_min p') in
  {| v_RES_ed := v_RES_ed v; v_export := v_export v + (q_RES p' - q_RES p); v_imp_ed := v_imp_ed v;
     v_HPtrd := v_HPtrd v; v_HPtrs := v_HPtrs v; v_HPtid := v_HPtid v; v_HPtis := v_HPtis v;
     v_HPtesd := v_HPtesd v; v_HP_status := v_HP_status v * v_HPt_var v / w; v_HPt_var := w;
     v_TSc := v_TSc v; v_TSd := v_TSd v; v_soc := v_soc v;
     v_ESc := v_ESc v; v_ESc_res := v_ESc_res v; v_ESc_imp := v_ESc_imp v;
     v_ESd := v_ESd v; v_ESd_hp := v_ESd_hp v; v_ESd_aux := v_ESd_aux v; v_ESd_ed := v_ESd_ed v;
     v_soc_ES := v_soc_ES v;
     v_aux_rd := v_aux_rd v; v_aux_rs := v_aux_rs v; v_aux_d := v_aux_d v; v_aux_s := v_aux_s v;
     v_aux := v_aux v |}.
Lemma pmax_ge a b : a <= pmax a b /\ b <= pmax a b.
Proof. unfold pmax. destruct (qlt_spec a b); lra. Qed.
Lemma pmax_le a b c : a <= c -> b <= c -> pmax a b <= c.
Proof. unfold pmax. destruct (qlt_spec a b); lra. Qed.
(** Output and status of the heat pump when it is described with another variable output [w] *)
Lemma other_status s x w : 0 <= s <= 1 -> 0 <= x <= w -> s * x / w * w == s * x /\ 0 <= s * x / w <= 1.
Proof.
  intros Hs Hx. destruct (Qlt_le_dec 0 w) as [W|W].
  - split; [field; lra|]. split; [apply Qle_shift_div_l; [exact W|]; nra|]. apply Qle_shift_div_r; [exact W|]. nra.
  - assert (E : w == 0) by lra. assert (Ex : x == 0) by lra. split; [rewrite E, Ex; ring|]. assert (Z : s * x / w == 0) by (rewrite Ex; unfold Qdiv; ring). rewrite Z. lra.
Qed.
Lemma adapt_output p p' v : signs v -> v_HPt (adapt p p' v) == v_HPt v /\ 0 <= v_HP_status (adapt p p' v) <= 1.
Proof.
  intro HS. apply signs_inv in HS. destruct HS as (_ & _ & _ & _ & _ & _ & _ & _ & S9 & S10 & H). assert (v_HP_status v <= 1) by tauto. clear H.
  unfold v_HPt, adapt. cbv zeta. pt. apply other_status; [lra|]. split; [assumption|apply pmax_ge].
Qed.
Lemma adapt_constraints b b' p p' cap cap' v : b_electric b = b_electric b' -> roomier (b_battery b) (b_battery b') -> 0 <= b_charge_eff (b_battery b) ->
  b_aux_cap b <= b_aux_cap b' -> no_worse p p' -> cap <= cap' -> constraints b p cap v -> constraints b' p' cap' (adapt p p' v).
Proof.
  intros He (B1 & B2 & B3 & B4 & B5 & B6) Hce Hac (P1 & P2 & P3 & P4 & P5 & P6 & P7) Hcap [HS [HE HL]].
  destruct (adapt_output p p' v HS) as (AO & AS). pose proof (pmax_ge (v_HPt_var v) (q_HP_min p')) as (G1 & G2). split; [|split].
  - all_signs HS. split; [|exact (proj2 AS)]. unfold adapt in *. cbv zeta in *. pt. cbn [v_HP_status] in AS.
    generalize dependent (pmax (v_HPt_var v) (q_HP_min p')). intros w AO AS G1 G2. generalize dependent (v_HP_status v * v_HPt_var v / w). intros st AO AS.
    repeat (apply Forall_cons; [lra|]). apply Forall_nil.
  - rewrite <- He, <- B5.
    assert (AO' : v_HP_status (adapt p p' v) * v_HPt_var (adapt p p' v) == v_HP_status v * v_HPt_var v) by exact AO. clear AO AS. destruct (b_electric b).
    + destruct HE as (E1 & E2 & E3 & E4 & E5 & E6 & E7 & E8 & E9). unfold electric_equations. rewrite AO'. clear AO'. unfold adapt. cbv zeta. pt. rewrite <- P3, <- P4, <- P5.
      repeat match goal with |- _ /\ _ => split end; try assumption. setoid_replace (q_RES p') with (q_RES p + (q_RES p' - q_RES p)) by ring. rewrite E9 at 1. ring.
    + destruct HE as (E1 & E2 & E3 & E4 & E6 & E7 & E8 & E9). unfold fuel_equations. rewrite AO'. clear AO'. unfold adapt. cbv zeta. pt. rewrite <- P3, <- P4, <- P5.
      repeat match goal with |- _ /\ _ => split end; try assumption. setoid_replace (q_RES p') with (q_RES p + (q_RES p' - q_RES p)) by ring. rewrite E9 at 1. ring.
  - destruct HL as (L1 & L2 & L3 & L4 & L5 & L6 & L7 & L8 & L9 & L10). unfold limits, adapt. cbv zeta. pt. rewrite <- B4.
    assert (b_charge_max (b_battery b) * b_charge_eff (b_battery b) <= b_charge_max (b_battery b') * b_charge_eff (b_battery b)) by (apply Qmult_le_compat_r; assumption).
    assert (pmax (v_HPt_var v) (q_HP_min p') <= q_duty p') by (apply pmax_le; [lra|assumption]).
    clear HS AO AS. repeat match goal with |- _ /\ _ => split end; try lra.
Qed.
Lemma adapt_cost b b' p p' cap v : b_electric b = true -> b_aux_cost b = None -> b_aux_cost b' = None -> 0 <= b_export_cost b -> b_export_cost b <= b_export_cost b' ->
  0 < q_cop p -> no_worse p p' -> constraints b p cap v -> running_cost b' p' (adapt p p' v) <= running_cost b p v.
Proof.
  intros He Ha Ha' Hx Hxx Hc (P1 & P2 & P3 & P4 & P5 & P6 & P7) [HS [HE _]]. rewrite He in HE.
  destruct (adapt_output p p' v HS) as (AO & _). unfold running_cost. rewrite Ha, Ha', AO, <- P5. clear AO. unfold adapt. cbv zeta. pt.
  destruct HE as (_ & _ & _ & _ & _ & H6 & H7 & _ & _).
  apply signs_inv in HS. destruct HS as (S1 & S2 & S3 & S4 & S5 & S6 & S7 & S8 & S9 & S10 & S11 & S12 & S13 & S14 & S15 & S16 & S17 & S18 & S19 & S20 & S21 & S22 & S23 & S24).
  assert (E2 : 0 <= (v_HPt v - v_HPtrd v - v_HPtesd v - v_HPtrs v) / q_cop p + v_imp_ed v + v_ESc_imp v).
  { assert (0 <= (v_HPt v - v_HPtrd v - v_HPtesd v - v_HPtrs v) / q_cop p).
    { apply Qle_shift_div_l; [exact Hc|]. unfold v_HPt. rewrite H6. lra. }
    lra. }
  assert (E3 : 0 <= v_aux v - v_aux_rs v - v_aux_rd v - v_ESd_aux v) by (rewrite H7; lra).
  generalize dependent ((v_HPt v - v_HPtrd v - v_HPtesd v - v_HPtrs v) / q_cop p + v_imp_ed v + v_ESc_imp v). intros a Ha0.
  clear H7. generalize dependent (v_aux v - v_aux_rs v - v_aux_rd v - v_ESd_aux v). intros a' Ha0'.
  assert (M1 : q_price p' * a <= q_price p * a) by (apply Qmult_le_compat_r; assumption).
  assert (M2 : q_price p' * a' <= q_price p * a') by (apply Qmult_le_compat_r; assumption).
  assert (M3 : v_export v * b_export_cost b <= (v_export v + (q_RES p' - q_RES p)) * b_export_cost b').
  { apply Qle_trans with (v_export v * b_export_cost b'); [rewrite (Qmult_comm _ (b_export_cost b)), (Qmult_comm _ (b_export_cost b')); apply Qmult_le_compat_r; assumption|]. apply Qmult_le_compat_r; lra. }
  setoid_replace (q_price p / 1000 * a + a' * q_price p / 1000 - v_export v * b_export_cost b / 1000 + (1 # 100000) * v_ESc_res v)
    with ((1 # 1000) * (q_price p * a) + (1 # 1000) * (q_price p * a') - (1 # 1000) * (v_export v * b_export_cost b) + (1 # 100000) * v_ESc_res v) by field.
  setoid_replace (q_price p' / 1000 * a + a' * q_price p' / 1000 - (v_export v + (q_RES p' - q_RES p)) * b_export_cost b' / 1000 + (1 # 100000) * v_ESc_res v)
    with ((1 # 1000) * (q_price p' * a) + (1 # 1000) * (q_price p' * a') - (1 # 1000) * ((v_export v + (q_RES p' - q_RES p)) * b_export_cost b') + (1 # 100000) * v_ESc_res v) by field.
  lra.
Qed.
Fixpoint adapt_all (ps ps' : list phour) (vs : list point) : list point :=
  match ps, ps', vs with p :: ps, p' :: ps', v :: vs => adapt p p' v :: adapt_all ps ps' vs | _, _, _ => [] end.
Lemma adapt_all_length ps ps' vs : length ps = length ps' -> length vs = length ps -> length (adapt_all ps ps' vs) = length vs.
Proof. revert ps' vs. induction ps as [|p ps IH]; intros [|p' ps'] [|v vs] H1 H2; cbn in *; try discriminate; auto. Qed.
Lemma adapt_all_nth ps ps' vs k w : nth_error (adapt_all ps ps' vs) k = Some w -> exists p p' v, nth_error ps k = Some p /\ nth_error ps' k = Some p' /\ nth_error vs k = Some v /\ w = adapt p p' v.
Proof.
  revert ps' vs k. induction ps as [|p ps IH]; intros [|p' ps'] [|v vs] [|k] H; cbn in *; try discriminate; [|eapply IH; eassumption]. injection H as <-. exists p, p', v. auto.
Qed.
Lemma adapt_all_columns ps ps' vs : length ps = length ps' -> length vs = length ps -> storage_columns (adapt_all ps ps' vs) = storage_columns vs.
Proof. revert ps' vs. induction ps as [|p ps IH]; intros [|p' ps'] [|v vs] H1 H2; cbn in *; try discriminate; [reflexivity|]. f_equal. apply IH; lia. Qed.
Lemma Forall2_nth {A B} (R : A -> B -> Prop) l l' : Forall2 R l l' -> forall k x y, nth_error l k = Some x -> nth_error l' k = Some y -> R x y.
Proof. induction 1 as [|a b l l' E F IH]; intros [|k] x y Hx Hy; cbn in *; try discriminate; [congruence|]. eapply IH; eassumption. Qed.
Lemma Forall2_nth_some {A B} (R : A -> B -> Prop) l l' : Forall2 R l l' -> forall k x, nth_error l k = Some x -> exists y, nth_error l' k = Some y /\ R x y.
Proof. induction 1 as [|a b l l' E F IH]; intros [|k] x Hx; cbn in *; try discriminate; [injection Hx as <-; eauto|]. eapply IH; eassumption. Qed.
Lemma adapt_costs b b' ps ps' vs : b_electric b = true -> b_aux_cost b = None -> b_aux_cost b' = None -> 0 <= b_export_cost b -> b_export_cost b <= b_export_cost b' ->
  Forall2 no_worse ps ps' -> Forall (fun p => 0 < q_cop p) ps -> length vs = length ps -> (forall k p v, nth_error ps k = Some p -> nth_error vs k = Some v -> exists cap, constraints b p cap v) ->
  running_costs b' ps' (adapt_all ps ps' vs) <= running_costs b ps vs.
Proof.
  intros He Ha Ha' Hx Hxx F. revert vs. induction F as [|p p' ps ps' E F IH]; intros [|v vs] HC HL HF; cbn in HL; try discriminate HL; [cbn; lra|].
  cbn [adapt_all running_costs]. apply Forall_cons_iff in HC. destruct HC as [Hc HC]. destruct (HF O p v eq_refl eq_refl) as (cap & C).
  pose proof (adapt_cost b b' p p' cap v He Ha Ha' Hx Hxx Hc E C) as A.
  assert (B : running_costs b' ps' (adapt_all ps ps' vs) <= running_costs b ps vs) by (apply IH; [exact HC|lia|]; intros k q w; exact (HF (S k) q w)).
  apply Qplus_le_compat; assumption.
Qed.
(** The plan of the smaller plant, adapted *)
Definition adapt_plan (b b' : problem) (vs : list point) : list point :=
  match vs with [] => [] | v :: r => v :: adapt_all (tl (b_hours b)) (tl (b_hours b')) r end.
Lemma Forall2_length_eq {A B} (R : A -> B -> Prop) l l' : Forall2 R l l' -> length l = length l'.
Proof. induction 1; cbn; congruence. Qed.
Lemma adapt_feasible dyn b b' vs : Forall2 no_worse (b_hours b) (b_hours b') -> Forall2 Qle (b_max_cap b) (b_max_cap b') -> roomier (b_battery b) (b_battery b') -> b_electric b = b_electric b' ->
  b_aux_cap b <= b_aux_cap b' -> 0 <= b_charge_eff (b_battery b) -> feasible dyn b vs -> feasible dyn b' (adapt_plan b b' vs).
Proof.
  intros F Fc R He Hac Hce (HL & HD & HF). pose proof (Forall2_length_eq _ _ _ F) as Hlen.
  destruct vs as [|v0 vs]; [split; [cbn in *; congruence|split; [exact HD|intros [|k] v; discriminate]]|].
  destruct (b_hours b) as [|p0 ps] eqn:Eh; [discriminate HL|]. destruct (b_hours b') as [|p0' ps'] eqn:Eh'; [discriminate Hlen|]. cbn in HL, Hlen.
  unfold adapt_plan. rewrite Eh, Eh'. cbn [tl]. split; [|split].
  - cbn [length]. rewrite Eh'. cbn [length]. rewrite adapt_all_length; lia.
  - unfold storage_columns in *. cbn [map] in *. replace (map _ (adapt_all ps ps' vs)) with (storage_columns vs); [exact HD|]. symmetry. apply adapt_all_columns; lia.
  - intros k w Hw. cbn [nth_error] in Hw. destruct (adapt_all_nth _ _ _ _ _ Hw) as (p & p' & v & Hp & Hp' & Hv & ->).
    destruct (HF k v Hv) as (q & cap & Hq & Hcap & C). cbn [nth_error] in Hq. assert (q = p) by congruence. subst q.
    destruct (Forall2_nth_some _ _ _ Fc _ _ Hcap) as (cap' & Hcap' & Hle). exists p', cap'. rewrite Eh'. cbn [nth_error]. split; [exact Hp'|]. split; [exact Hcap'|].
    apply (adapt_constraints b b' p p' cap cap' v); try assumption. exact (Forall2_nth _ _ _ F (S k) p p' Hp Hp').
Qed.
Lemma adapt_objective dyn b b' vs : no_smaller b b' -> 0 <= b_export_cost b -> Forall (fun p => 0 < q_cop p) (b_hours b) -> feasible dyn b vs -> objective b' (adapt_plan b b' vs) <= objective b vs.
Proof.
  intros (_ & F & Fc & R & He & He' & Ha & Ha' & Hac & Hxx) Hx HC (HL & HD & HF).
  unfold objective. destruct vs as [|v0 vs]; [cbn; destruct (tl (b_hours b')), (tl (b_hours b)); cbn; lra|].
  destruct (b_hours b) as [|p0 ps] eqn:Eh; [discriminate HL|]. cbn in HL. destruct (b_hours b') as [|p0' ps'] eqn:Eh'; [inversion F|]. unfold adapt_plan. rewrite Eh, Eh'. cbn [tl]. inversion F; subst.
  apply adapt_costs; try assumption; [apply Forall_cons_iff in HC; apply HC|lia|].
  intros k p v Hp Hv. destruct (HF k v Hv) as (q & cap & Hq & _ & C). cbn [nth_error] in Hq. assert (q = p) by congruence. subst q. exists cap. exact C.
Qed.
