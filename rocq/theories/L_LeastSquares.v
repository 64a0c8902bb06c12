(** The contract of [LinearRegression.fit] can be met: an executable least-squares fit
    (Gram-Schmidt over the rationals). *)
From Verif Require Import Base BaseL M_Regression S_Regression.
Open Scope Q_scope.
Local Open Scope list_scope.

Section SPAN.
Context {P : Type}.
Variable l : list P.

Definition sum (h : P -> Q) : Q := qsum (map h l).
Lemma sum_ext h h' : (forall p, In p l -> h p == h' p) -> sum h == sum h'.
Proof.
  unfold sum. induction l as [|m pts IH]; intro H; [reflexivity|]. cbn [map]. rewrite !qsum_cons, IH, (H m (or_introl eq_refl)); [reflexivity|].
  intros x Hx. apply H. right. exact Hx.
Qed.
Lemma sum_plus h h' : sum (fun m => h m + h' m) == sum h + sum h'.
Proof. unfold sum. induction l as [|m pts IH]; [reflexivity|]. cbn [map]. rewrite !qsum_cons, IH. ring. Qed.
Lemma sum_scale c h : sum (fun m => c * h m) == c * sum h.
Proof. unfold sum. induction l as [|m pts IH]; [unfold qsum; cbn; ring|]. cbn [map]. rewrite !qsum_cons, IH. ring. Qed.
Lemma sum_sq_nonneg h : 0 <= sum (fun m => h m * h m).
Proof. unfold sum. induction l as [|m pts IH]; [apply Qle_refl|]. cbn [map]. rewrite qsum_cons. assert (0 <= h m * h m) by nra. lra. Qed.
Lemma sum_sq_zero h : sum (fun m => h m * h m) == 0 -> forall m, In m l -> h m == 0.
Proof.
  unfold sum. induction l as [|x pts IH]; intros H m []; cbn [map] in H; rewrite qsum_cons in H;
    assert (N : 0 <= h x * h x) by nra;
    assert (N2 : 0 <= qsum (map (fun m => h m * h m) pts)) by (clear; induction pts as [|m pts IH]; [apply Qle_refl|]; cbn [map]; rewrite qsum_cons; assert (0 <= h m * h m) by nra; lra).
  - subst x. assert (Z : h m * h m == 0) by lra. apply Qmult_integral in Z. destruct Z; assumption.
  - apply IH; [lra|assumption].
Qed.

Definition ip (u v : P -> Q) : Q := sum (fun p => u p * v p).

Fixpoint comb (c : list Q) (vs : list (P -> Q)) (p : P) : Q :=
  match c, vs with a :: c', v :: vs' => a * v p + comb c' vs' p | _, _ => 0 end.

Fixpoint sub_scaled (w : list Q) (t : Q) (c : list Q) : list Q :=
  match w, c with a :: w', b :: c' => (a - t * b) :: sub_scaled w' t c' | _, _ => [] end.

Fixpoint project (vs : list (P -> Q)) (y : P -> Q) : list Q :=
  match vs with
  | [] => []
  | v :: vs' =>
      let c := project vs' v in
      let w := project vs' y in
      let u := fun p => v p - comb c vs' p in
      let r := fun p => y p - comb w vs' p in
      if Qeq_bool (ip u u) 0 then 0 :: w
      else let t := ip r u / ip u u in t :: sub_scaled w t c
  end.

Lemma project_length vs y : length (project vs y) = length vs.
Proof.
  revert y. induction vs as [|v vs IH]; intro y; [reflexivity|]. cbn [project].
  destruct (Qeq_bool _ 0); cbn [length]; f_equal; [apply IH|].
  set (t := _ / _). clearbody t. assert (H : length (project vs y) = length (project vs v)) by (rewrite !IH; reflexivity).
  rewrite <- (IH y). revert H. generalize (project vs y) (project vs v). clear. intros w.
  induction w as [|a w IH]; intros [|b c] H; try discriminate; [reflexivity|]. cbn [sub_scaled length]. f_equal. apply IH. injection H. trivial.
Qed.

Lemma comb_sub_scaled w t c vs p : length w = length c ->
  comb (sub_scaled w t c) vs p == comb w vs p - t * comb c vs p.
Proof.
  revert c vs. induction w as [|a w IH]; intros [|b c] [|v vs] H; try discriminate; cbn [sub_scaled comb]; try ring.
  rewrite IH by (injection H; trivial). ring.
Qed.

Lemma ip_comb r c vs : (forall v, In v vs -> ip r v == 0) -> ip r (comb c vs) == 0.
Proof.
  revert c. induction vs as [|v vs IH]; intros c H.
  - unfold ip. transitivity (sum (fun _ => 0 * 0)); [apply sum_ext; intros p _; destruct c; cbn; ring|].
    rewrite sum_scale. ring.
  - destruct c as [|a c].
    + unfold ip. transitivity (sum (fun _ => 0 * 0)); [apply sum_ext; intros p _; cbn; ring|]. rewrite sum_scale. ring.
    + unfold ip. transitivity (sum (fun p => a * (r p * v p) + r p * comb c vs p)); [apply sum_ext; intros p _; cbn [comb]; ring|].
      rewrite sum_plus, sum_scale. fold (ip r v) (ip r (comb c vs)). rewrite (H v (or_introl eq_refl)), IH; [ring|].
      intros x Hx. apply H. right. exact Hx.
Qed.

(** The residual of the projection is orthogonal to every basis function. *)
Lemma project_orthogonal vs y v : In v vs -> ip (fun p => y p - comb (project vs y) vs p) v == 0.
Proof.
  revert y v. induction vs as [|v0 vs IH]; intros y v I; [destruct I|].
  cbn [project]. set (c := project vs v0). set (w := project vs y).
  set (u := fun p => v0 p - comb c vs p). set (r := fun p => y p - comb w vs p).
  assert (Ru : forall x, In x vs -> ip u x == 0) by (intros x Hx; apply IH, Hx).
  assert (Rr : forall x, In x vs -> ip r x == 0) by (intros x Hx; apply IH, Hx).
  assert (Hv0 : forall q, ip q v0 == ip q u + ip q (comb c vs)).
  { intro q. unfold ip. rewrite <- sum_plus. apply sum_ext. intros p _. unfold u. ring. }
  destruct (Qeq_bool (ip u u) 0) eqn:E.
  - apply Qeq_bool_eq in E.
    assert (Z : forall p, In p l -> u p == 0) by (apply sum_sq_zero; exact E).
    assert (S : forall x, ip (fun p => y p - comb (0 :: w) (v0 :: vs) p) x == ip r x).
    { intro x. unfold ip. apply sum_ext. intros p _. unfold r. cbn [comb]. ring. }
    rewrite S. destruct I as [<-|I]; [|apply Rr, I].
    rewrite Hv0, (ip_comb r c vs Rr).
    assert (K : ip r u == 0).
    { unfold ip. transitivity (sum (fun _ => 0 * 0)); [|rewrite sum_scale; ring]. apply sum_ext. intros p Ip. rewrite (Z p Ip). ring. }
    rewrite K. ring.
  - assert (NZ : ~ ip u u == 0) by (intro H; apply Qeq_bool_iff in H; congruence).
    set (t := ip r u / ip u u).
    assert (S : forall x, ip (fun p => y p - comb (t :: sub_scaled w t c) (v0 :: vs) p) x == ip r x - t * ip u x).
    { intro x. unfold ip. setoid_replace (sum (fun p => r p * x p) - t * sum (fun p => u p * x p))
        with (sum (fun p => r p * x p) + (- t) * sum (fun p => u p * x p)) by ring.
      rewrite <- sum_scale, <- sum_plus. apply sum_ext. intros p _. cbn [comb].
      rewrite comb_sub_scaled by (unfold w, c; rewrite !project_length; reflexivity). unfold r, u. ring. }
    rewrite S. destruct I as [<-|I].
    + rewrite !Hv0, (ip_comb r c vs Rr), (ip_comb u c vs Ru). unfold t. field. exact NZ.
    + rewrite (Rr v I), (Ru v I). ring.
Qed.

Lemma comb_minus c c' vs p : length c = length c' -> comb c vs p - comb c' vs p == comb (sub_scaled c 1 c') vs p.
Proof. intro H. rewrite comb_sub_scaled by exact H. ring. Qed.

Lemma project_least vs y c : length c = length vs ->
  sum (fun p => (comb (project vs y) vs p - y p) * (comb (project vs y) vs p - y p)) <=
  sum (fun p => (comb c vs p - y p) * (comb c vs p - y p)).
Proof.
  intro L. set (w := project vs y). set (r := fun p => y p - comb w vs p). set (d := sub_scaled c 1 w).
  assert (Lw : length c = length w) by (unfold w; rewrite project_length; exact L).
  assert (E : sum (fun p => (comb c vs p - y p) * (comb c vs p - y p)) ==
              sum (fun p => (comb w vs p - y p) * (comb w vs p - y p)) + (-2) * ip r (comb d vs) + sum (fun p => comb d vs p * comb d vs p)).
  { unfold ip. rewrite <- sum_scale, <- !sum_plus. apply sum_ext. intros p _. unfold r, d. rewrite <- comb_minus by exact Lw. ring. }
  rewrite E. assert (O : ip r (comb d vs) == 0) by (apply ip_comb; intros v Hv; apply project_orthogonal, Hv).
  rewrite O. pose proof (sum_sq_nonneg (comb d vs)). lra.
Qed.
End SPAN.

(** ** The fit *)
Definition columns (n : nat) : list (list Q * Q -> Q) := (fun _ => 1) :: map (fun k p => nth k (fst p) 0) (seq 0 n).
Definition gram_schmidt : fitter := fun X y =>
  let n := match X with x :: _ => length x | [] => 0%nat end in
  let c := project (combine X y) (columns n) snd in
  {| l_intercept := hd 0 c; l_coef := tl c |}.

Lemma comb_coords (w : list Q) j (x : list Q) v :
  comb w (map (fun k (p : list Q * Q) => nth k (fst p) 0) (seq j (length w))) (x, v) == dot w (skipn j x).
Proof.
  revert j. induction w as [|a w IH]; intro j; [reflexivity|]. cbn [length seq map comb]. rewrite IH. cbn [fst].
  clear IH. revert j. induction x as [|b x IH]; intro j.
  - destruct j; cbn; destruct w; cbn; ring.
  - destruct j; cbn [skipn nth]; [cbn [dot]; reflexivity|]. apply IH.
Qed.

Lemma comb_columns b w n (p : list Q * Q) : length w = n -> comb (b :: w) (columns n) p == predict {| l_intercept := b; l_coef := w |} (fst p).
Proof.
  intros <-. destruct p as [x v]. unfold columns, predict. cbn [comb l_intercept l_coef fst].
  rewrite comb_coords. cbn [skipn]. ring.
Qed.

Lemma residuals_sum m X y : length X = length y ->
  residuals m X y == sum (combine X y) (fun p => (predict m (fst p) - snd p) * (predict m (fst p) - snd p)).
Proof.
  revert y. induction X as [|x X IH]; intros [|v y] H; try discriminate; [reflexivity|].
  cbn [residuals combine]. unfold sum. cbn [map]. rewrite qsum_cons, IH by (injection H; trivial). cbn [fst snd].
  change ((predict m x - v) ^ 2) with ((predict m x - v) * (predict m x - v)). reflexivity.
Qed.

Theorem gram_schmidt_least_squares : least_squares gram_schmidt.
Proof.
  intros X y n HX NX Ly. unfold gram_schmidt.
  assert (Hn : match X with x :: _ => length x | [] => 0%nat end = n) by (destruct X as [|x X]; [contradiction|apply HX; left; reflexivity]).
  rewrite Hn. set (c := project (combine X y) (columns n) snd).
  assert (Lc : length c = S n) by (unfold c; rewrite project_length; unfold columns; cbn [length]; rewrite map_length, seq_length; reflexivity).
  destruct c as [|b w] eqn:Ec; [discriminate|]. cbn [hd tl l_coef]. injection Lc as Lw. split; [exact Lw|].
  intros [b' w'] Lm. cbn [l_coef] in Lm. rewrite !residuals_sum by exact Ly.
  pose proof (project_least (combine X y) (columns n) snd (b' :: w')) as G.
  fold c in G. rewrite Ec in G.
  assert (T : forall b w, length w = n ->
    sum (combine X y) (fun p => (predict {| l_intercept := b; l_coef := w |} (fst p) - snd p) * (predict {| l_intercept := b; l_coef := w |} (fst p) - snd p)) ==
    sum (combine X y) (fun p => (comb (b :: w) (columns n) p - snd p) * (comb (b :: w) (columns n) p - snd p))).
  { intros b0 w0 L0. apply sum_ext. intros p _. rewrite (comb_columns b0 w0 n p L0). reflexivity. }
  rewrite (T b w Lw), (T b' w' Lm).
  apply G. cbn [length]. unfold columns. cbn [length]. rewrite map_length, seq_length, Lm. reflexivity.
Qed.
