(** Specification vocabulary for the tariffs. *)
From Coq Require Import String.
From Verif Require Import Base M_Grid.

(** The Gregorian calendar, counted year by year from Monday, 1 January of year 1. *)
Definition leap (y : Z) : Prop := (4 | y)%Z /\ (~ (100 | y)%Z \/ (400 | y)%Z).
Definition leapb (y : Z) : bool :=
  if Znumtheory.Zdivide_dec 4 y then
    if Znumtheory.Zdivide_dec 100 y then if Znumtheory.Zdivide_dec 400 y then true else false else true
  else false.
Fixpoint days_before (years : nat) : Z :=
  match years with
  | O => 0
  | S n => days_before n + 365 + (if leapb (Z.of_nat (S n)) then 1 else 0)
  end%Z.
(** Weekday (0 = Monday) of day [k] (0 = 1 January) of year [y]. *)
Definition weekday (y k : Z) : Z := ((days_before (Z.to_nat (y - 1)) + k) mod 7)%Z.
Definition weekday_name (d : Z) : string :=
  nth (Z.to_nat d) ["Monday"; "Tuesday"; "Wednesday"; "Thursday"; "Friday"; "Saturday"; "Sunday"]%string ""%string.

(** [p] is the price entered for that weekday and hour of the day. *)
Definition entered (G : grid) (name : string) (hour : Z) (p : Q) : Prop :=
  exists col, find (fun c => String.eqb (fst c) name) (g_periods G) = Some (name, col) /\
              nth_error col (Z.to_nat hour) = Some p.
(** A complete table: 24 prices for each of the seven days. *)
Definition complete_table (G : grid) : Prop :=
  forall d, (0 <= d < 7)%Z -> exists col,
    find (fun c => String.eqb (fst c) (weekday_name d)) (g_periods G) = Some (weekday_name d, col) /\ length col = 24%nat.

Definition price_at (l : list Q) (hour : Z) (p : Q) : Prop := nth_error l (Z.to_nat hour) = Some p.
Definition whole_year (l : list Q) : Prop := Z.of_nat (length l) = 8760%Z.
Definition count (f : Q -> bool) (l : list Q) : Q := inject_Z (Z.of_nat (length (filter f l))).
(** The same inputs under another tariff name. *)
Definition with_tariff (name : string) (G : grid) : grid :=
  {| g_tariff := name; g_flat := g_flat G; g_periods := g_periods G; g_year := g_year G; g_market := g_market G;
     g_premium := g_premium G; g_maximum := g_maximum G; g_lower_percent := g_lower_percent G;
     g_higher_percent := g_higher_percent G; g_lower_penalty := g_lower_penalty G;
     g_higher_discount := g_higher_discount G; g_wind := g_wind G |}.
(** Each power purchase agreement is laid over one plain tariff. *)
Inductive agreement_over : string -> string -> Prop :=
| over_flat : agreement_over "Time of use - PPA + FR" "Flat rates"
| over_periods : agreement_over "Time of use - PPA + VP" "Variable periods"
| over_market : agreement_over "Time of use - PPA + WM" "Time of use - WM".
(** A whole number of percent between 0 and 100. *)
Definition whole_percent (p : Q) : Prop := exists k, (0 <= k <= 100)%Z /\ p == inject_Z k / 100.
(** Inputs read completely: a full price table, a market price and a wind output for
    every hour, bands in whole percent. *)
Definition complete_inputs (G : grid) : Prop :=
  complete_table G /\ (1 <= g_year G <= 9999)%Z /\ (8760 <= Z.of_nat (length (g_market G)))%Z /\
  (8760 <= Z.of_nat (length (g_wind G)))%Z /\ whole_percent (g_lower_percent G) /\ whole_percent (g_higher_percent G).
