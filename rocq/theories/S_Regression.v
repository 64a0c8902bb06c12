(** Specification vocabulary for the standard test regression. *)
From Verif Require Import Base M_HeatPump M_Regression.
Open Scope Q_scope.

(** A quadratic surface over ambient and flow temperature. *)
Definition quadratic (g : Q -> Q -> Q) : Prop :=
  exists c0 c1 c2 c3 c4 c5, forall a f, g a f == c0 + c1 * a + c2 * f + c3 * a ^ 2 + c4 * a * f + c5 * f ^ 2.

(** Measurements: ambient, flow, value *)
Definition measurement := (Q * Q * Q)%type.
Definition squared_error (g : Q -> Q -> Q) (pts : list measurement) : Q :=
  qsum (map (fun m => (g (fst (fst m)) (snd (fst m)) - snd m) ^ 2) pts).
(** [g] is a quadratic surface and no other fits the measurements better. *)
Definition best_surface (g : Q -> Q -> Q) (pts : list measurement) : Prop :=
  quadratic g /\ forall g', quadratic g' -> squared_error g pts <= squared_error g' pts.
(** [g] passes through all measurements. *)
Definition passes (g : Q -> Q -> Q) (pts : list measurement) : Prop :=
  forall a f y, In (a, f, y) pts -> g a f == y.
(** The temperatures of the measurements determine a quadratic surface. *)
Definition determined (pts : list measurement) : Prop :=
  forall g, quadratic g -> (forall a f y, In (a, f, y) pts -> g a f == 0) -> forall a f, g a f == 0.

Definition cop_points (pts : list test_point) : list measurement := map (fun p => (p_ambient p, p_flow p, p_COSP p)) pts.
Definition duty_points (pts : list test_point) : list measurement := map (fun p => (p_ambient p, p_flow p, p_duty p)) pts.

(** Contract of [LinearRegression.fit]: one coefficient per column, least sum of squares. *)
Fixpoint residuals (m : linear) (X : list (list Q)) (y : list Q) : Q :=
  match X, y with x :: X', v :: y' => (predict m x - v) ^ 2 + residuals m X' y' | _, _ => 0 end.
Definition least_squares (ols : fitter) : Prop :=
  forall X y n, (forall x, In x X -> length x = n) -> X <> [] -> length X = length y ->
    length (l_coef (ols X y)) = n /\
    forall m, length (l_coef m) = n -> residuals (ols X y) X y <= residuals m X y.

(** A table row that takes part: among the first eight rows, nothing missing. *)
Definition measured (rows : list test_row) (flow : option Q) (p : test_point) : Prop :=
  exists k r pc, (k < 8)%nat /\ nth_error rows k = Some r /\ flow = Some (p_flow p) /\
    t_ambient r = Some (p_ambient p) /\ t_COSP r = Some (p_COSP p) /\ t_duty r = Some (p_duty p) /\ t_percent r = Some pc.

(** The value of every hour of a year of performance. *)
Definition hour_perf (ps : list perf) (h : nat) (c d : Q) : Prop :=
  exists p, nth_error ps h = Some p /\ cop p == c /\ duty p == d.
