(** Lemmas on the standard test regression. *)
From Verif Require Import Base BaseL M_HeatPump M_Regression S_Regression.
Open Scope Q_scope.
Local Open Scope list_scope.

Lemma Ok_inj {A} (x y : A) : Ok x = Ok y -> x = y.
Proof. intro H. injection H. trivial. Qed.

Definition msum (h : measurement -> Q) (pts : list measurement) : Q := qsum (map h pts).
Lemma msum_ext h h' pts : (forall m, In m pts -> h m == h' m) -> msum h pts == msum h' pts.
Proof.
  unfold msum. induction pts as [|m pts IH]; intro H; [reflexivity|]. cbn [map]. rewrite !qsum_cons, IH, (H m (or_introl eq_refl)); [reflexivity|].
  intros x Hx. apply H. right. exact Hx.
Qed.
Lemma msum_plus h h' pts : msum (fun m => h m + h' m) pts == msum h pts + msum h' pts.
Proof. unfold msum. induction pts as [|m pts IH]; [reflexivity|]. cbn [map]. rewrite !qsum_cons, IH. ring. Qed.
Lemma msum_scale c h pts : msum (fun m => c * h m) pts == c * msum h pts.
Proof. unfold msum. induction pts as [|m pts IH]; [unfold qsum; cbn; ring|]. cbn [map]. rewrite !qsum_cons, IH. ring. Qed.
Lemma sq_nonneg x : 0 <= x ^ 2.
Proof. change (0 <= x * x). nra. Qed.
Lemma msum_sq_nonneg h pts : 0 <= msum (fun m => h m ^ 2) pts.
Proof. unfold msum. induction pts as [|m pts IH]; [apply Qle_refl|]. cbn [map]. rewrite qsum_cons. pose proof (sq_nonneg (h m)). lra. Qed.
Lemma sq_zero x : x ^ 2 <= 0 -> x == 0.
Proof. intro H. change (x * x <= 0) in H. destruct (Qlt_le_dec x 0); [|destruct (Qlt_le_dec 0 x)]; nra. Qed.
Lemma msum_sq_zero h pts : msum (fun m => h m ^ 2) pts <= 0 -> forall m, In m pts -> h m == 0.
Proof.
  induction pts as [|x pts IH]; intros H m []; unfold msum in H; cbn [map] in H; rewrite qsum_cons in H;
    fold (msum (fun m => h m ^ 2) pts) in H; pose proof (sq_nonneg (h x)); pose proof (msum_sq_nonneg h pts).
  - subst x. apply sq_zero. lra.
  - apply IH; [lra|assumption].
Qed.

Definition at_m (g : Q -> Q -> Q) (m : measurement) : Q := g (fst (fst m)) (snd (fst m)).
Definition resid (g : Q -> Q -> Q) (m : measurement) : Q := at_m g m - snd m.
Lemma squared_error_msum g pts : squared_error g pts = msum (fun m => resid g m ^ 2) pts.
Proof. reflexivity. Qed.

Lemma quadratic_plus g d t : quadratic g -> quadratic d -> quadratic (fun a f => g a f + t * d a f).
Proof.
  intros (c0 & c1 & c2 & c3 & c4 & c5 & H) (d0 & d1 & d2 & d3 & d4 & d5 & D).
  exists (c0 + t * d0), (c1 + t * d1), (c2 + t * d2), (c3 + t * d3), (c4 + t * d4), (c5 + t * d5).
  intros a f. rewrite H, D. ring.
Qed.
Lemma quadratic_scale g t : quadratic g -> quadratic (fun a f => t * g a f).
Proof.
  intros (c0 & c1 & c2 & c3 & c4 & c5 & H).
  exists (t * c0), (t * c1), (t * c2), (t * c3), (t * c4), (t * c5). intros a f. rewrite H. ring.
Qed.
Lemma quadratic_const c : quadratic (fun _ _ => c).
Proof. exists c, 0, 0, 0, 0, 0. intros. ring. Qed.
Lemma quadratic_minus g d : quadratic g -> quadratic d -> quadratic (fun a f => g a f - d a f).
Proof.
  intros (c0 & c1 & c2 & c3 & c4 & c5 & H) (d0 & d1 & d2 & d3 & d4 & d5 & D).
  exists (c0 - d0), (c1 - d1), (c2 - d2), (c3 - d3), (c4 - d4), (c5 - d5). intros a f. rewrite H, D. ring.
Qed.

Lemma squared_error_plus g d t pts :
  squared_error (fun a f => g a f + t * d a f) pts ==
  squared_error g pts + 2 * t * msum (fun m => resid g m * at_m d m) pts + t ^ 2 * msum (fun m => at_m d m ^ 2) pts.
Proof.
  rewrite !squared_error_msum, <- !msum_scale, <- !msum_plus. apply msum_ext. intros m _. unfold resid, at_m. ring.
Qed.

(** Residuals of the best surface are orthogonal to every quadratic surface. *)
Lemma best_orthogonal g pts d : best_surface g pts -> quadratic d -> msum (fun m => resid g m * at_m d m) pts == 0.
Proof.
  intros [Hg Hb] Hd. set (S := msum (fun m => resid g m * at_m d m) pts). set (D := msum (fun m => at_m d m ^ 2) pts).
  assert (HD : 0 <= D) by apply msum_sq_nonneg.
  pose proof (Hb _ (quadratic_plus g d (- S / (D + 1)) Hg Hd)) as H. rewrite squared_error_plus in H. fold S D in H.
  set (t := - S / (D + 1)) in *.
  assert (T : t * (D + 1) == - S) by (unfold t; field; lra).
  change (t ^ 2) with (t * t) in H.
  assert (K : 2 * t * S + t * t * D >= 0) by lra. clearbody t. clear H Hb.
  assert (S == - (t * (D + 1))) as ES by lra. rewrite ES in K. rewrite ES.
  assert (K2 : t * t * (D + 2) <= 0) by (setoid_replace (t * t * (D + 2)) with (- (2 * t * - (t * (D + 1)) + t * t * D)) by ring; lra).
  assert (t == 0) as ->; [|ring].
  apply sq_zero. change (t * t <= 0). nra.
Qed.

Lemma best_unique g g' pts : best_surface g pts -> best_surface g' pts ->
  forall a f y, In (a, f, y) pts -> g a f == g' a f.
Proof.
  intros B B' a f y I. set (d := fun a f => g' a f - g a f).
  assert (Qd : quadratic d) by (apply quadratic_minus; [apply (proj1 B')|apply (proj1 B)]).
  assert (E : squared_error g' pts == squared_error g pts + msum (fun m => at_m d m ^ 2) pts).
  { transitivity (squared_error (fun a f => g a f + 1 * d a f) pts).
    - rewrite !squared_error_msum. apply msum_ext. intros m _. unfold resid, at_m, d. ring.
    - rewrite squared_error_plus, (best_orthogonal g pts d B Qd). change (1 ^ 2) with (1 * 1). ring. }
  assert (L : squared_error g' pts <= squared_error g pts) by (apply (proj2 B'), (proj1 B)).
  assert (Z : msum (fun m => at_m d m ^ 2) pts <= 0) by lra.
  pose proof (msum_sq_zero _ _ Z _ I) as K. unfold at_m, d in K. cbn [fst snd] in K. lra.
Qed.

Lemma best_passes g pts : best_surface g pts -> (exists g', quadratic g' /\ passes g' pts) -> passes g pts.
Proof.
  intros [Hg Hb] (g' & Hg' & P) a f y I.
  assert (Z : squared_error g' pts == 0).
  { rewrite squared_error_msum. transitivity (msum (fun _ => 0) pts).
    - apply msum_ext. intros [[a' f'] y'] I'. unfold resid, at_m. cbn [fst snd]. rewrite (P _ _ _ I'). ring.
    - unfold msum. clear. induction pts as [|x pts IH]; [reflexivity|]. cbn [map]. rewrite qsum_cons, IH. ring. }
  pose proof (Hb g' Hg') as L. rewrite Z, squared_error_msum in L.
  pose proof (msum_sq_zero _ _ L _ I) as K. unfold resid, at_m in K. cbn [fst snd] in K. lra.
Qed.

Lemma squared_error_ext g g' pts : (forall a f, g a f == g' a f) -> squared_error g pts == squared_error g' pts.
Proof. intro H. rewrite !squared_error_msum. apply msum_ext. intros m _. unfold resid, at_m. rewrite H. reflexivity. Qed.

Definition rescale (r : Q) (pts : list measurement) : list measurement := map (fun m => (fst m, snd m * r)) pts.

Lemma squared_error_rescale g r pts : squared_error (fun a f => r * g a f) (rescale r pts) == r ^ 2 * squared_error g pts.
Proof.
  rewrite !squared_error_msum, <- msum_scale. unfold msum, rescale. rewrite map_map.
  apply (msum_ext (fun m => resid (fun a f => r * g a f) (fst m, snd m * r) ^ 2) (fun m => r ^ 2 * resid g m ^ 2)).
  intros m _. unfold resid, at_m. cbn [fst snd]. ring.
Qed.

Lemma best_rescale g r pts : best_surface g pts -> best_surface (fun a f => r * g a f) (rescale r pts).
Proof.
  intros [Hg Hb]. split; [apply quadratic_scale; exact Hg|]. intros g' Hg'.
  destruct (Qeq_dec r 0) as [Z|Z].
  - rewrite squared_error_rescale. assert (E : r ^ 2 * squared_error g pts == 0) by (change (r ^ 2) with (r * r); rewrite (Qmult_comp r 0 Z r r (Qeq_refl r)); ring).
    rewrite E.
    rewrite squared_error_msum. apply msum_sq_nonneg.
  - rewrite squared_error_rescale.
    assert (E : squared_error g' (rescale r pts) == r ^ 2 * squared_error (fun a f => / r * g' a f) pts).
    { rewrite <- squared_error_rescale. apply squared_error_ext. intros a f. field. exact Z. }
    rewrite E. assert (0 <= r ^ 2) by apply sq_nonneg.
    pose proof (Hb _ (quadratic_scale g' (/ r) Hg')) as L.
    assert (r ^ 2 * squared_error g pts <= r ^ 2 * squared_error (fun a f => / r * g' a f) pts) by (rewrite (Qmult_comm (r ^ 2)), (Qmult_comm (r ^ 2)); apply Qmult_le_compat_r; assumption).
    exact H0.
Qed.

(** ** The fitted model *)
Lemma predict_poly2 b w a f : length w = 5%nat ->
  predict {| l_intercept := b; l_coef := w |} (poly2 a f) ==
  b + nth 0 w 0 * a + nth 1 w 0 * f + nth 2 w 0 * a ^ 2 + nth 3 w 0 * a * f + nth 4 w 0 * f ^ 2.
Proof.
  destruct w as [|w0 [|w1 [|w2 [|w3 [|w4 [|]]]]]]; try discriminate. intros _. unfold predict, poly2. cbn [l_intercept l_coef dot nth].
  change (a ^ 2) with (a * a). change (f ^ 2) with (f * f). ring.
Qed.

Lemma predict_quadratic m : length (l_coef m) = 5%nat -> quadratic (fun a f => predict m (poly2 a f)).
Proof.
  destruct m as [b w]. cbn [l_coef]. intro L. exists b, (nth 0 w 0), (nth 1 w 0), (nth 2 w 0), (nth 3 w 0), (nth 4 w 0).
  intros a f. apply predict_poly2, L.
Qed.

Lemma residuals_squared_error m (pts : list measurement) :
  residuals m (map (fun p => poly2 (fst (fst p)) (snd (fst p))) pts) (map snd pts) == squared_error (fun a f => predict m (poly2 a f)) pts.
Proof.
  induction pts as [|p pts IH]; [reflexivity|]. cbn [map residuals]. unfold squared_error in *. cbn [map]. rewrite qsum_cons, IH. reflexivity.
Qed.

Lemma ols_best ols (pts : list measurement) : least_squares ols -> pts <> [] ->
  best_surface (fun a f => predict (ols (map (fun p => poly2 (fst (fst p)) (snd (fst p))) pts) (map snd pts)) (poly2 a f)) pts.
Proof.
  intros HL N. set (X := map (fun p => poly2 (fst (fst p)) (snd (fst p))) pts).
  destruct (HL X (map snd pts) 5%nat) as [L B].
  { intros x Hx. unfold X in Hx. apply in_map_iff in Hx as (p & <- & _). reflexivity. }
  { unfold X. destruct pts; [contradiction|discriminate]. }
  { unfold X. rewrite !map_length. reflexivity. }
  split; [apply predict_quadratic; exact L|]. intros g' (c0 & c1 & c2 & c3 & c4 & c5 & H).
  rewrite <- residuals_squared_error. fold X.
  assert (E : squared_error g' pts == residuals {| l_intercept := c0; l_coef := [c1; c2; c3; c4; c5] |} X (map snd pts)).
  { unfold X. rewrite residuals_squared_error. apply squared_error_ext. intros a f. rewrite H.
    unfold predict, poly2. cbn [l_intercept l_coef dot]. change (a ^ 2) with (a * a). change (f ^ 2) with (f * f). ring. }
  rewrite E. apply B. reflexivity.
Qed.

Lemma ols_points_best ols pts (sel : test_point -> Q) : least_squares ols -> pts <> [] ->
  best_surface (fun a f => predict (ols (map (fun p => poly2 (fst p) (snd p)) (map (fun p => (p_ambient p, p_flow p)) pts))
                                        (map (fun v => nth 0 (poly1 v) 0) (map sel pts))) (poly2 a f))
               (map (fun p => (p_ambient p, p_flow p, sel p)) pts).
Proof.
  intros HL N. pose proof (ols_best ols (map (fun p => (p_ambient p, p_flow p, sel p)) pts) HL) as B.
  rewrite !map_map in B. rewrite !map_map. cbn [fst snd poly1 nth] in B |- *. apply B. destruct pts; [contradiction|discriminate].
Qed.

Lemma train_points_ok ols pts r : train_points ols pts = Ok r ->
  pts <> [] /\
  r = {| r_cop := fit_targets ols (map (fun p => poly2 (fst p) (snd p)) (map (fun p => (p_ambient p, p_flow p)) pts)) (map p_COSP pts);
         r_duty := fit_targets ols (map (fun p => poly2 (fst p) (snd p)) (map (fun p => (p_ambient p, p_flow p)) pts)) (map p_duty pts) |}.
Proof.
  intro E. unfold train_points, train in E. rewrite !map_length, Nat.eqb_refl in E. cbn [negb orb] in E.
  destruct (Nat.eqb_spec (length pts) 0) as [Z|Z]; [discriminate|]. apply Ok_inj in E. split; [|symmetry; exact E].
  intros ->. apply Z. reflexivity.
Qed.

Lemma train_points_best ols pts r : least_squares ols -> train_points ols pts = Ok r ->
  pts <> [] /\ best_surface (predict_cop r) (cop_points pts) /\ best_surface (predict_duty r) (duty_points pts).
Proof.
  intros HL E. apply train_points_ok in E as [N ->]. split; [exact N|]. split; apply (ols_points_best ols pts _ HL N).
Qed.

Lemma duty_points_rescale r pts pts' :
  map (fun p => (p_ambient p, p_flow p)) pts' = map (fun p => (p_ambient p, p_flow p)) pts ->
  map p_duty pts' = map (fun p => p_duty p * r) pts -> duty_points pts' = rescale r (duty_points pts).
Proof.
  revert pts'. induction pts as [|p pts IH]; intros [|p' pts'] H1 H2; try discriminate; [reflexivity|].
  cbn [map] in H1, H2. injection H1 as E1 E2 E3. injection H2 as F1 F2.
  unfold duty_points, rescale in *. cbn [map]. rewrite (IH pts' E3 F2), E1, E2, F1. reflexivity.
Qed.

(** ** Data *)
Lemma flat_map_map {A B C} (f : A -> B) (g : B -> list C) l : flat_map g (map f l) = flat_map (fun x => g (f x)) l.
Proof. induction l as [|x l IH]; [reflexivity|]. cbn [map flat_map]. rewrite IH. reflexivity. Qed.

Lemma complete_row_In r p : In p (complete_row r) <->
  t_ambient (fst r) = Some (p_ambient p) /\ t_COSP (fst r) = Some (p_COSP p) /\ t_duty (fst r) = Some (p_duty p) /\
  (exists pc, t_percent (fst r) = Some pc) /\ snd r = Some (p_flow p).
Proof.
  destruct r as [[a c d pc] f]. unfold complete_row. cbn [fst snd t_ambient t_COSP t_duty t_percent]. split.
  - destruct a as [a|]; [|intros []]. destruct c as [c|]; [|intros []]. destruct d as [d|]; [|intros []].
    destruct pc as [pc|]; [|intros []]. destruct f as [f|]; [|intros []]. intros [<-|[]]. cbn. repeat split; try reflexivity. exists pc. reflexivity.
  - intros (-> & -> & -> & (q & ->) & ->). left. destruct p; reflexivity.
Qed.

Lemma with_flow_In rows flow p : (exists r, In r (with_flow rows flow) /\ In p (complete_row r)) <-> measured rows flow p.
Proof.
  unfold with_flow, measured. split.
  - intros (r & I & C). apply in_map_iff in I as (k & <- & K). apply complete_row_In in C as (C1 & C2 & C3 & (pc & C4) & C5).
    cbn [fst snd] in *.
    assert (K8 : (k < 8)%nat).
    { destruct (le_lt_dec 8 k) as [H|H]; [|exact H]. rewrite nth_overflow in C5 by (rewrite repeat_length; exact H). discriminate. }
    assert (Kn : (k < length rows)%nat).
    { destruct (le_lt_dec (length rows) k) as [H|H]; [|exact H]. rewrite nth_overflow in C1 by exact H. discriminate. }
    exists k, (nth k rows missing_row), pc. split; [exact K8|]. split; [apply nth_error_nth'; exact Kn|].
    split; [|repeat split; assumption].
    assert (R : forall n, (k < n)%nat -> nth k (repeat flow n) None = flow).
    { clear. intros n. revert k. induction n as [|n IH]; intros [|k] H; try lia; [reflexivity|]. cbn [repeat nth]. apply IH. lia. }
    rewrite R in C5 by exact K8. exact C5.
  - intros (k & r & pc & K8 & N & F & C1 & C2 & C3 & C4).
    assert (Kn : (k < length rows)%nat) by (apply nth_error_Some; congruence).
    exists (r, flow). split.
    + apply in_map_iff. exists k. split; [|apply in_seq; lia].
      assert (R : forall n, (k < n)%nat -> nth k (repeat flow n) None = flow).
      { clear. intros n. revert k. induction n as [|n IH]; intros [|k] H; try lia; [reflexivity|]. cbn [repeat nth]. apply IH. lia. }
      rewrite R by exact K8. rewrite (nth_error_nth rows k missing_row N). reflexivity.
    + apply complete_row_In. cbn [fst snd]. repeat split; try assumption. exists pc. exact C4.
Qed.

Definition scale_point (r : Q) (p : test_point) : test_point :=
  {| p_ambient := p_ambient p; p_flow := p_flow p; p_COSP := p_COSP p; p_duty := p_duty p * r |}.

Lemma complete_scale r row f : complete_row (scale_duty r row, f) = map (scale_point r) (complete_row (row, f)).
Proof.
  unfold complete_row, scale_duty. cbn [fst snd t_ambient t_COSP t_duty t_percent].
  destruct (t_ambient row), (t_COSP row), (t_duty row), (t_percent row), f; reflexivity.
Qed.

Lemma flat_map_ext' {A B} (f g : A -> list B) l : (forall x, f x = g x) -> flat_map f l = flat_map g l.
Proof. intro H. induction l as [|x l IH]; [reflexivity|]. cbn [flat_map]. rewrite H, IH. reflexivity. Qed.
Lemma map_flat_map {A B C} (f : B -> C) (g : A -> list B) l : map f (flat_map g l) = flat_map (fun x => map f (g x)) l.
Proof. induction l as [|x l IH]; [reflexivity|]. cbn [flat_map]. rewrite map_app, IH. reflexivity. Qed.

Lemma flat_map_app' {A B} (g : A -> list B) l l' : flat_map g (l ++ l') = flat_map g l ++ flat_map g l'.
Proof. induction l as [|x l IH]; [reflexivity|]. cbn [app flat_map]. rewrite IH, app_assoc. reflexivity. Qed.

Lemma regression_data_scale r tables : regression_data (scale_tables r tables) = map (scale_point r) (regression_data tables).
Proof.
  unfold regression_data, scale_tables. induction tables as [|[rows flow] tables IH]; [reflexivity|].
  cbn [map flat_map fst snd]. rewrite !flat_map_app', map_app, IH. f_equal.
  unfold with_flow. rewrite map_length, !flat_map_map, map_flat_map. apply flat_map_ext'. intro k. rewrite <- complete_scale. f_equal. f_equal.
  rewrite <- (map_nth (scale_duty r)). reflexivity.
Qed.
