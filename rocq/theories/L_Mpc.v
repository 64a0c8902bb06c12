(** Lemmas on the predictive controller: one optimisation and its record. *)
From Verif Require Import Base BaseL M_Battery S_Battery M_HeatPump S_HeatPump M_Tools M_FixedOrder S_FixedOrder
  L_Grid M_Mpc S_Mpc.

(** ** Loops over ranges *)
Lemma zrange_cons a b : (a < b)%Z -> zrange a b = a :: zrange (a + 1) b.
Proof.
  intro H. unfold zrange. replace (Z.to_nat (b - a)) with (S (Z.to_nat (b - (a + 1)))) by lia.
  cbn [seq map]. f_equal; [lia|]. rewrite <- seq_shift, map_map. apply map_ext. intro i. lia.
Qed.
Lemma zrange_nil a b : (b <= a)%Z -> zrange a b = [].
Proof. intro H. unfold zrange. replace (Z.to_nat (b - a)) with O by lia. reflexivity. Qed.

Lemma foldM_zrange_inv {A} (f : A -> Z -> res A) (R : Z -> A -> Prop) a b x r :
  (a <= b)%Z -> R a x ->
  (forall t y y', (a <= t < b)%Z -> R t y -> f y t = Ok y' -> R (t + 1)%Z y') ->
  foldM f (zrange a b) x = Ok r -> R b r.
Proof.
  remember (Z.to_nat (b - a)) as n eqn:En. revert a x En.
  induction n as [|n IH]; intros a x En Hab Ha Hs Hf.
  - assert (a = b) by lia. subst b. rewrite zrange_nil in Hf by lia. cbn in Hf. apply Ok_inj in Hf || injection Hf as Hf.
    subst r. exact Ha.
  - rewrite zrange_cons in Hf by lia. cbn [foldM] in Hf. destruct (f x a) as [y|e] eqn:E; cbn [bind] in Hf; [|discriminate].
    apply (IH (a + 1)%Z y); [lia|lia| |intros; apply (Hs t y0 y'); auto; lia|exact Hf].
    apply (Hs a x); [lia|exact Ha|exact E].
Qed.

Lemma foldM_zrange_total {A} (f : A -> Z -> res A) (R : Z -> A -> Prop) a b x :
  (a <= b)%Z -> R a x ->
  (forall t y, (a <= t < b)%Z -> R t y -> exists y', f y t = Ok y' /\ R (t + 1)%Z y') ->
  exists r, foldM f (zrange a b) x = Ok r /\ R b r.
Proof.
  remember (Z.to_nat (b - a)) as n eqn:En. revert a x En.
  induction n as [|n IH]; intros a x En Hab Ha Hs.
  - assert (a = b) by lia. subst b. rewrite zrange_nil by lia. exists x. split; [reflexivity|exact Ha].
  - rewrite zrange_cons by lia. cbn [foldM]. destruct (Hs a x) as [y [Ey Hy]]; [lia|exact Ha|].
    rewrite Ey. cbn [bind]. apply (IH (a + 1)%Z y); [lia|lia|exact Hy|]. intros; apply Hs; [lia|assumption].
Qed.

(** ** Arrays *)
Lemma set_nth_ok {A} (x : A) l i : (i < length l)%nat -> exists l', set_nth i x l = Ok l'.
Proof.
  revert i. induction l as [|y l IH]; intros i H; cbn in H; [lia|].
  destruct i as [|i]; cbn [set_nth]; [eexists; reflexivity|].
  destruct (IH i) as [l' E]; [lia|]. rewrite E. cbn [bind]. eexists; reflexivity.
Qed.
Lemma set_nth_err {A} (x : A) l i : (length l <= i)%nat -> set_nth i x l = Err IndexError.
Proof.
  revert i. induction l as [|y l IH]; intros i H; cbn in H; [reflexivity|].
  destruct i as [|i]; [lia|]. cbn [set_nth]. rewrite IH by lia. reflexivity.
Qed.
Lemma set_nth_spec {A} (x : A) l i l' : set_nth i x l = Ok l' ->
  length l' = length l /\ nth_error l' i = Some x /\ forall j, j <> i -> nth_error l' j = nth_error l j.
Proof.
  revert i l'. induction l as [|y l IH]; intros i l' H; [discriminate|].
  destruct i as [|i]; cbn [set_nth] in H.
  - apply (f_equal (fun r => match r with Ok z => z | Err _ => [] end)) in H. cbn in H. subst l'.
    split; [reflexivity|]. split; [reflexivity|]. intros [|j] Hj; [congruence|reflexivity].
  - destruct (set_nth i x l) as [r|e] eqn:E; cbn [bind] in H; [|discriminate].
    apply (f_equal (fun r => match r with Ok z => z | Err _ => [] end)) in H. cbn in H. subst l'.
    destruct (IH i r E) as [H1 [H2 H3]]. split; [cbn; lia|]. split; [exact H2|].
    intros [|j] Hj; [reflexivity|]. cbn. apply H3. congruence.
Qed.

(** ** The problem *)
Section Solve.
Variables (X : mpc) (year : list hour_in).
Let P := m_plant X.

Lemma make_problem_inv mc hour first fh pv b : make_problem X year mc hour first fh pv = Ok b ->
  (hour <= fh)%Z /\
  Z.of_nat (length (b_hours b)) = (fh - hour)%Z /\
  (forall k p, nth_error (b_hours b) k = Some p ->
     exists I, label year (hour + Z.of_nat k)%Z = Ok I /\ p = phour_of X I) /\
  (exists I soc, label year hour = Ok I /\
     t_max (p_tank P) Discharging (pr_nodes pv) (i_source_temp I) (i_flow_temp I) hour = Ok soc /\
     b_start b = start_point (pr_point pv) soc) /\
  b_max_cap b = pslice (Z.to_nat (hour - first)) (Z.to_nat (fh - first)) mc /\
  b_battery b = p_battery P /\ b_electric b = is_electric P /\
  b_aux_cost b = (if is_electric P then None else a_cost (p_aux P)) /\
  b_aux_cap b = p_max_heat P /\ b_export_cost b = p_export_price P.
Proof.
  unfold make_problem. destruct (Z.ltb_spec (fh - hour) 0) as [Hn|Hn]; [discriminate|].
  destruct (mapM (label year) (zrange hour fh)) as [rows|e] eqn:ER; cbn [bind]; [|discriminate].
  destruct (label year hour) as [I|e] eqn:EI; cbn [bind]; [|discriminate].
  fold P. destruct (t_max _ _ _ _ _ _) as [soc|e] eqn:ES; cbn [bind]; [|discriminate].
  intro H. assert (Hb := f_equal (fun r => match r with Ok z => Some z | Err _ => None end) H). cbn beta iota in Hb.
  assert (Hs : forall A (x y : A), Some x = Some y -> x = y) by congruence. apply Hs in Hb. subst b.
  cbn [b_hours b_start b_max_cap b_battery b_electric b_aux_cost b_aux_cap b_export_cost].
  split; [lia|]. split.
  { rewrite map_length. rewrite (mapM_length _ _ _ ER), zrange_length. lia. }
  split.
  { intros k p Hp. rewrite nth_error_map in Hp. destruct (nth_error rows k) as [I'|] eqn:EK; cbn in Hp; [|discriminate].
    exists I'. split; [|congruence].
    assert (Hk : (k < Z.to_nat (fh - hour))%nat).
    { rewrite <- zrange_length, <- (mapM_length _ _ _ ER). apply nth_error_Some. congruence. }
    destruct (mapM_nth_error (label year) _ _ k (hour + Z.of_nat k)%Z ER) as [y [Hy1 Hy2]].
    { apply nth_error_zrange. lia. }
    congruence. }
  split; [exists I, soc; repeat split; assumption|].
  repeat split.
Qed.

Lemma solve_inv opt mc hour first fh pv rc nx : solve X opt year mc hour first fh pv = Ok (rc, nx) ->
  exists b vs v c d s I p n r,
    make_problem X year mc hour first fh pv = Ok b /\ opt b = Ok vs /\ nth_error vs 1 = Some v /\
    net_tank X year (pr_nodes pv) v = Ok (c, d, s) /\
    final_nodes X year hour (pr_nodes pv) (c, d, s) = Ok (Some n) /\
    label year (hour + 1)%Z = Ok I /\ nth_error (b_hours b) 1 = Some p /\ p = phour_of X I /\
    mpc_aux_accounts X (flows X (is_electric P) I p v c d) = Ok r /\
    rc = {| rf := mpc_grid_accounts X I p r; r_nodes := n |} /\
    nx = {| pr_point := with_tank v c d; pr_nodes := n |}.
Proof.
  unfold solve. destruct (make_problem _ _ _ _ _ _ _) as [b|e] eqn:EB; cbn [bind]; [|discriminate].
  destruct (opt b) as [vs|e] eqn:EV; cbn [bind]; [|discriminate].
  unfold post_process. destruct (pidx vs 1) as [v|e] eqn:E1; cbn [bind]; [|discriminate].
  apply pidx_some in E1.
  destruct (net_tank _ _ _ _) as [[[c d] s]|e] eqn:EN; cbn [bind]; [|discriminate].
  destruct (final_nodes _ _ _ _ _) as [fn|e] eqn:EF; cbn [bind]; [|discriminate].
  destruct (label year (hour + 1)) as [I|e] eqn:EI; cbn [bind]; [|discriminate].
  destruct (pidx (b_hours b) 1) as [p|e] eqn:EP; cbn [bind]; [|discriminate].
  apply pidx_some in EP.
  destruct fn as [n|]; cbn [bind]; [|discriminate].
  destruct (mpc_aux_accounts _ _) as [r|e] eqn:EA; cbn [bind]; [|discriminate].
  intro H. exists b, vs, v, c, d, s, I, p, n, r.
  assert (Hp : p = phour_of X I).
  { destruct (make_problem_inv _ _ _ _ _ _ EB) as [_ [_ [Hk _]]].
    destruct (Hk 1%nat p EP) as [I' [HI' ->]]. change (Z.of_nat 1) with 1%Z in HI'. congruence. }
  assert (Hs : forall A (x y : A), Ok x = Ok y -> x = y) by congruence. apply Hs in H.
  assert (H1 := f_equal fst H). assert (H2 := f_equal snd H). cbn [fst snd] in H1, H2.
  repeat split; auto.
Qed.

(** Fields the back-up accounts do not touch. *)
Lemma mpc_aux_frame r r' k : mpc_aux_accounts X r = Ok r' ->
  k <> AUX_usage -> k <> AUX_cost -> k <> AUX_mass -> r' k = r k.
Proof.
  unfold mpc_aux_accounts. destruct (fuel_usage _ _) as [u|e]; cbn [bind]; [|discriminate].
  assert (Hf : forall x y z, k <> AUX_usage -> k <> AUX_cost -> k <> AUX_mass ->
    upd (upd (upd r AUX_usage x) AUX_cost y) AUX_mass z k = r k).
  { intros. destruct k; try reflexivity; congruence. }
  assert (Hs : forall A (x y : A), Ok x = Ok y -> x = y) by congruence.
  destruct (is_electric _); cbn [bind].
  - intro H. apply Hs in H. subst r'. apply Hf.
  - destruct (a_cost _); cbn [bind]; [|discriminate]. destruct (a_energy_density _); cbn [bind]; [|discriminate].
    intro H. apply Hs in H. subst r'. apply Hf.
Qed.

Lemma solve_state opt mc hour first fh pv rc nx : solve X opt year mc hour first fh pv = Ok (rc, nx) ->
  recorded_state rc = (pr_nodes nx, v_soc_ES (pr_point nx)).
Proof.
  intro H. destruct (solve_inv _ _ _ _ _ _ _ _ H) as (b & vs & v & c & d & s & I & p & n & r & _ & _ & _ & _ & _ & _ & _ & _ & HA & -> & ->).
  unfold recorded_state. cbn [rf r_nodes pr_nodes pr_point]. f_equal.
  transitivity (r ES_final_soc); [reflexivity|].
  rewrite (mpc_aux_frame _ _ ES_final_soc HA) by discriminate.
  reflexivity.
Qed.
End Solve.
