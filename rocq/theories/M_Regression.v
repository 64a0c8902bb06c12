(** Model of heat/models/standard_regression.py, of the collection of its data in
    io/inputs.py:247-326 and of the scaling of the duties in parametric_analysis.py:86-116.

    Simplifications: numbers are exact rationals, a missing cell (nan) is [None].
    [sklearn.linear_model.LinearRegression] is a parameter: a function from the table of
    features and one column of targets to an intercept and coefficients (several target
    columns are fitted independently). *)
From Verif Require Import Base M_HeatPump.
Open Scope Q_scope.

(** ** Data *)
(** io/read_excel.py:564-628: One row of a test table: ambient temperature, COSP, duty, capacity percentage *)
Record test_row := { t_ambient : option Q; t_COSP : option Q; t_duty : option Q; t_percent : option Q }.
(** A row of missing values, io/inputs.py:262, 277, 292, 307 *)
Definition missing_row : test_row := {| t_ambient := None; t_COSP := None; t_duty := None; t_percent := None |}.

(** io/inputs.py:309-320: A complete row with its flow temperature *)
Record test_point := { p_ambient : Q; p_flow : Q; p_COSP : Q; p_duty : Q }.

(** [pd.concat([regression, df], axis=1)] with [df] a column of eight flow temperatures,
    inputs.py:252-262 (and the three repetitions): aligned by row number, the shorter side is
    filled with missing values. *)
Definition with_flow (rows : list test_row) (flow : option Q) : list (test_row * option Q) :=
  map (fun k => (nth k rows missing_row, nth k (repeat flow 8) None))
      (seq 0 (Nat.max (length rows) 8)).

(** [dropna()] on the five columns and the selection of columns, io/inputs.py:309-320 *)
Definition complete_row (r : test_row * option Q) : list test_point :=
  match t_ambient (fst r), t_COSP (fst r), t_duty (fst r), t_percent (fst r), snd r with
  | Some a, Some c, Some d, Some _, Some f => [{| p_ambient := a; p_flow := f; p_COSP := c; p_duty := d |}]
  | _, _, _, _, _ => []
  end.

(** [heatpump_standard_regression], io/inputs.py:247-326: four tables with their flow temperatures *)
Definition regression_data (tables : list (list test_row * option Q)) : list test_point :=
  flat_map complete_row (flat_map (fun t => with_flow (fst t) (snd t)) tables).

(** [reg['duty'] = reg['duty'] * ratio], parametric_analysis.py:94, 101, 108, 115 *)
Definition scale_duty (ratio : Q) (r : test_row) : test_row :=
  {| t_ambient := t_ambient r; t_COSP := t_COSP r; t_duty := option_map (fun d => d * ratio) (t_duty r); t_percent := t_percent r |}.
(** parametric_analysis.py:86-116 *)
Definition scale_tables (ratio : Q) (tables : list (list test_row * option Q)) : list (list test_row * option Q) :=
  map (fun t => (map (scale_duty ratio) (fst t), snd t)) tables.

(** ** Regression *)
(** heat/models/standard_regression.py:85-87: [PolynomialFeatures(degree=2, include_bias=False)] on one and on two columns *)
Definition poly1 (y : Q) : list Q := [y; y * y].
(** [PolynomialFeatures] on two columns, heat/models/standard_regression.py:85 and 98-100 *)
Definition poly2 (a f : Q) : list Q := [a; f; a * a; a * f; f * f].

(** A fitted model, heat/models/standard_regression.py:89-93 *)
Record linear := { l_intercept : Q; l_coef : list Q }.
(** The scalar product of [predict], heat/models/standard_regression.py:114 and 129 *)
Fixpoint dot (w x : list Q) : Q :=
  match w, x with u :: w', v :: x' => u * v + dot w' x' | _, _ => 0 end.
(** heat/models/standard_regression.py:114 and 129: [LinearRegression.predict] for one row *)
Definition predict (m : linear) (x : list Q) : Q := l_intercept m + dot (l_coef m) x.

(** [LinearRegression.fit] for one target, heat/models/standard_regression.py:89-93: a parameter *)
Definition fitter := list (list Q) -> list Q -> linear.

Section FIT.
Variable ols : fitter.

(** heat/models/standard_regression.py:89-93: [LinearRegression().fit(X, poly1(y))]: one model per target column *)
Definition fit_targets (X : list (list Q)) (y : list Q) : list linear :=
  [ols X (map (fun v => nth 0 (poly1 v) 0) y); ols X (map (fun v => nth 1 (poly1 v) 0) y)].

(** heat/models/standard_regression.py:95-96 *)
Record regression := { r_cop : list linear; r_duty : list linear }.

(** [_train], standard_regression.py:43-96, for the arrays built by inputs.py: two columns of
    temperatures, one column each of COSP and duty.  sklearn refuses an empty table. *)
Definition train (x : list (Q * Q)) (cosp duty : list Q) : res regression :=
  if negb (Nat.eqb (length x) (length cosp)) || negb (Nat.eqb (length x) (length duty)) then Err IndexError
  else if Nat.eqb (length x) 0 then Err ValueError
  else
    let X := map (fun p => poly2 (fst p) (snd p)) x in
    Ok {| r_cop := fit_targets X cosp; r_duty := fit_targets X duty |}.

(** [model.predict(...)[:, heat/models/standard_regression.py:0]], 98-130 *)
Definition column0 (ms : list linear) (x : list Q) : Q := predict (nth 0 ms {| l_intercept := 0; l_coef := [] |}) x.
(** heat/models/standard_regression.py:102-115 *)
Definition predict_cop (r : regression) (ambient flow : Q) : Q := column0 (r_cop r) (poly2 ambient flow).
(** heat/models/standard_regression.py:117-130 *)
Definition predict_duty (r : regression) (ambient flow : Q) : Q := column0 (r_duty r) (poly2 ambient flow).

(** heatpump.py:177-183 with the inputs of inputs.py:322-326: the ambient temperature is the
    first column, the flow temperature the second. *)
Definition train_points (pts : list test_point) : res regression :=
  train (map (fun p => (p_ambient p, p_flow p)) pts) (map p_COSP pts) (map p_duty pts).

(** heat/models/standard_regression.py:102-130: The oracle used by [M_HeatPump.performance] *)
Definition standard_oracle (r : regression) : std_oracle :=
  {| std_cop := zip2 (predict_cop r); std_duty := zip2 (predict_duty r) |}.
End FIT.
