(** Specification vocabulary for the demand profiles. *)
From Coq Require Import String.
From Verif Require Import Base M_Kpi S_Kpi M_Demand.

(** The value of an hour. *)
Definition at_ (y : list Q) (h : nat) : Q := nth h y 0.

(** Mean of the four (seven) hours up to and including [h]. *)
Definition mean4 (y : list Q) (h : nat) : Q := (at_ y (h - 3) + at_ y (h - 2) + at_ y (h - 1) + at_ y h) / 4.
Definition mean7 (y : list Q) (h : nat) : Q :=
  (at_ y (h - 6) + at_ y (h - 5) + at_ y (h - 4) + at_ y (h - 3) + at_ y (h - 2) + at_ y (h - 1) + at_ y h) / 7.

(** [m] is the highest of the values [f h], [a <= h < b]. *)
Definition highest (f : nat -> Q) (a b : nat) (m : Q) : Prop :=
  (exists h, (a <= h < b)%nat /\ f h == m) /\ forall h, (a <= h < b)%nat -> f h <= m.

(** All values of the series lie between [lo] and [hi]. *)
Definition bounded (lo hi : Q) (y : list Q) : Prop := forall h, (h < length y)%nat -> lo <= at_ y h <= hi.
Definition within (lo hi : Q) (x : num) : Prop := exists q, x = Fin q /\ lo <= q <= hi.

(** A smoothed series: hour [h] shows [f h]. *)
Definition shows (out : list num) (h : nat) (v : num) : Prop := exists x, nth_error out h = Some x /\ num_eq x v.

(** ** Dwellings *)
(** Floor-area factors for one to five bedrooms. *)
Definition factors (type1 : string) : list Q :=
  if String.eqb type1 "detached" then [54#100; 69#100; 85#100; 1; 115#100]
  else if String.eqb type1 "mid-terrace" then [1; 129#100; 157#100; 186#100; 214#100]
  else [78#100; 1; 122#100; 144#100; 167#100].
Definition known_dwelling (d : dwelling) : Prop :=
  In (d_type d) house_types /\ In (d_age d) house_ages /\ (1 <= d_bedrooms d <= 5)%Z.

(** Mean air temperature of a day, to the nearest degree (ties to even). *)
Definition day_mean (air : list Q) (day : nat) : Q := qsum (map (at_ air) (seq (24 * day) 24)) / 24.
Definition nearest (z : Z) (q : Q) : Prop :=
  inject_Z z - (1 # 2) <= q <= inject_Z z + (1 # 2) /\
  (q == inject_Z z - (1 # 2) \/ q == inject_Z z + (1 # 2) -> Z.even z = true).

(** The sheet for a temperature: the sheets cover -3 ... 14 degrees. *)
Definition sheet_for (t : Z) : string := nth (Z.to_nat (Z.max (-3) (Z.min 14 t) + 3)) sheets EmptyString.

(** What one row of dwellings uses in an hour. *)
Definition group_hour (df : string -> string -> string -> res (list Q)) (air : list Q) (h : nat) (d : dwelling) (v : Q) : Prop :=
  exists t p x,
    nearest t (day_mean air (h / 24)) /\
    df (sheet_for t) (d_type d) (d_age d) = Ok p /\ length p = 24%nat /\
    nth_error p (h mod 24) = Some x /\ known_dwelling d /\
    v == d_number d * nth (Z.to_nat (d_bedrooms d - 1)) (factors (d_type d)) 0 * x.

Definition numbers (heating : list dwelling) : Q := qsum (map d_number heating).
(** One and a half persons per bedroom. *)
Definition persons (heating : list dwelling) : Q :=
  (3 # 2) * qsum (map (fun d => inject_Z (d_bedrooms d) * d_number d) heating).

(** The table of standard profiles has a day of 24 values for every sheet, type and age. *)
Definition complete_table (df : string -> string -> string -> res (list Q)) : Prop :=
  forall s ty ag, In s sheets -> In ty house_types -> In ag house_ages ->
    exists p, df s ty ag = Ok p /\ length p = 24%nat.

Definition more (k : Q) (d : dwelling) : dwelling :=
  {| d_type := d_type d; d_age := d_age d; d_bedrooms := d_bedrooms d; d_number := k * d_number d |}.

(** ** Electricity *)
(** The first day (counted from 0) of each period of the year. *)
Definition periods : list (Z * season) :=
  [(0, Wtr); (90, Spr); (90 + 77, Smr); (90 + 77 + 70, Hsr); (90 + 77 + 70 + 44, Aut); (90 + 77 + 70 + 44 + 64, Wtr)]%Z.
(** The period a day belongs to: the last one that has begun. *)
Definition in_period (day : Z) (s : season) : Prop :=
  exists pre d post, periods = (pre ++ (d, s) :: post)%list /\ (d <= day)%Z /\ Forall (fun p => (day < fst p)%Z) post.

(** Gregorian leap years. *)
Definition leap (year : Z) : bool :=
  ((year mod 4 =? 0) && (negb (year mod 100 =? 0) || (year mod 400 =? 0)))%Z%bool.
Definition days_in (year : Z) : Z := if leap year then 366 else 365.

Definition of_weekday (w : Z) : daytype := if (w =? 5)%Z then Sat else if (w =? 6)%Z then Sun else Wd.

(** The first weekdays of the years: 2017 began on a Sunday, a year later the weekday has
    moved on by the days of the year. *)
Definition calendar (jan1 : Z -> Z) : Prop :=
  jan1 2017%Z = 6%Z /\ forall y, (0 <= jan1 y < 7)%Z /\ jan1 (y + 1)%Z = ((jan1 y + days_in y) mod 7)%Z.

(** What one dwelling uses in an hour: the mean of the two half hours in the column of the
    season and the kind of day. *)
Definition elec_hour (df : season -> daytype -> res (list Q)) (jan1 : Z -> Z) (year : Z) (h : nat) (v : Q) : Prop :=
  exists s col, in_period (Z.of_nat (h / 24)) s /\
    df s (of_weekday ((jan1 year + Z.of_nat (h / 24)) mod 7)) = Ok col /\
    (2 * (h mod 24) + 1 < length col)%nat /\
    v == (at_ col (2 * (h mod 24)) + at_ col (2 * (h mod 24) + 1)) / 2.
Definition complete_columns (df : season -> daytype -> res (list Q)) : Prop :=
  forall s d, exists col, df s d = Ok col /\ length col = 48%nat.
