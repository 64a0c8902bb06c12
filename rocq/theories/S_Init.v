(** Specification vocabulary for the objects set up from a workbook. *)
From Coq Require Import String Ascii.
From Verif Require Import Base M_HeatPump M_Sweep M_Excel S_Excel.
From Verif Require M_Renewables.

(** A cell holds a number, a text *)
Definition holds (wb : workbook) (sheet : string) (c : ascii) (r : nat) (q : Q) : Prop := xl wb sheet c r = Some (Number q).
Definition says (wb : workbook) (sheet : string) (c : ascii) (r : nat) (s : string) : Prop :=
  exists t, xl wb sheet c r = Some (Text t) /\ s = string_of_list_ascii t.
(** A list of numbers is a column of a sheet, from a row to the end. *)
Definition holds_down (wb : workbook) (sheet : string) (c : ascii) (from : nat) (l : list Q) : Prop :=
  length l = (last_row wb sheet + 1 - from)%nat /\
  forall t, (t < length l)%nat -> exists q, nth_error l t = Some q /\ holds wb sheet c (from + t) q.
(** The same, at most [n] rows *)
Definition holds_down_to (wb : workbook) (sheet : string) (c : ascii) (from n : nat) (l : list Q) : Prop :=
  length l = Nat.min n (last_row wb sheet + 1 - from)%nat /\
  forall t, (t < length l)%nat -> exists q, nth_error l t = Some q /\ holds wb sheet c (from + t) q.
(** A value that may be missing is a cell that is a number or empty. *)
Definition maybe (wb : workbook) (sheet : string) (c : ascii) (r : nat) (x : option Q) : Prop :=
  match x with Some q => holds wb sheet c r q | None => xl wb sheet c r = None end.

(** The weather of PV and wind: one row of the sheet per hour *)
Definition sunny_rows (wb : workbook) (l : list M_Renewables.wrow) : Prop :=
  let N := "Weather resources"%string in
  length l = (last_row wb N - 5)%nat /\
  forall t w, nth_error l t = Some w ->
    maybe wb N "D" (6 + t) (M_Renewables.w_DHI w) /\ maybe wb N "E" (6 + t) (M_Renewables.w_GHI w) /\ maybe wb N "F" (6 + t) (M_Renewables.w_DNI w) /\
    maybe wb N "G" (6 + t) (M_Renewables.w_wind_10 w) /\ maybe wb N "H" (6 + t) (M_Renewables.w_wind_50 w) /\
    maybe wb N "I" (6 + t) (M_Renewables.w_roughness w) /\ maybe wb N "J" (6 + t) (M_Renewables.w_pressure w) /\
    maybe wb N "K" (6 + t) (M_Renewables.w_air w).
Definition farm_rows (wb : workbook) (l : list M_Renewables.wrow) : Prop :=
  let N := "Wind farm"%string in
  length l = (last_row wb N - 19)%nat /\
  forall t w, nth_error l t = Some w ->
    maybe wb N "C" (20 + t) (M_Renewables.w_wind_10 w) /\ maybe wb N "D" (20 + t) (M_Renewables.w_wind_50 w) /\
    maybe wb N "E" (20 + t) (M_Renewables.w_roughness w) /\ maybe wb N "F" (20 + t) (M_Renewables.w_pressure w) /\
    maybe wb N "G" (20 + t) (M_Renewables.w_air w).

(** Text without its surrounding white space, in small letters *)
Definition blank (c : ascii) : Prop := is_space c = true.
Definition trimmed (t s : list ascii) : Prop :=
  exists a b, t = (a ++ s ++ b)%list /\ Forall blank a /\ Forall blank b /\
    (forall c, hd_error s = Some c -> ~ blank c) /\ (forall c, hd_error (rev s) = Some c -> ~ blank c).
(** The drop-down choice of a cell, whatever its case *)
Definition chooses {A} (members : list A) (text : A -> string) (wb : workbook) (sheet : string) (c : ascii) (r : nat) (x : A) : Prop :=
  In x members /\ exists s, says wb sheet c r s /\ upper s = text x.
(** A text in small letters: capitals have codes 65 to 90, the small letters are 32 further on. *)
Definition small (c d : ascii) : Prop :=
  if (65 <=? nat_of_ascii c)%nat && (nat_of_ascii c <=? 90)%nat then nat_of_ascii d = (nat_of_ascii c + 32)%nat else d = c.
Definition tidied (wb : workbook) (sheet : string) (c : ascii) (r : nat) (x : string) : Prop :=
  exists s l, says wb sheet c r s /\ Forall2 small (list_ascii_of_string s) l /\ trimmed l (list_ascii_of_string x).
(** A whole number *)
Definition counts (wb : workbook) (sheet : string) (c : ascii) (r : nat) (z : Z) : Prop :=
  exists q, holds wb sheet c r q /\ q == inject_Z z.
(** The factor of the duties for a size: two decimals of size over stated capacity; 0 for capacity 0 *)
Definition size_factor (size : Z) (capacity ratio : Q) : Prop :=
  (capacity == 0 -> ratio = 0) /\ (~ capacity == 0 -> ratio = round2 (inject_Z size / capacity)).

(** ** A workbook that is filled in *)
Definition numeric (wb : workbook) (sheet : string) (c : ascii) (r : nat) : Prop := exists q, holds wb sheet c r q.
Definition worded (wb : workbook) (sheet : string) (c : ascii) (r : nat) : Prop := exists s, says wb sheet c r s.
Definition wordless (wb : workbook) (sheet : string) (c : ascii) (r : nat) : Prop := ~ worded wb sheet c r.
Definition rows_of (wb : workbook) (sheet : string) (from r : nat) : Prop := (from <= r <= last_row wb sheet)%nat.
Definition weather_filled (wb : workbook) : Prop := let N := "Weather resources"%string in
  Z.of_nat (last_row wb N) = 8765%Z /\
  forall r, rows_of wb N 6 r -> (forall c, In c ["D"; "E"; "F"; "G"; "H"; "I"; "J"]%char -> wordless wb N c r) /\ numeric wb N "K" r /\ numeric wb N "M" r.
Definition demand_filled (wb : workbook) : Prop := let N := "Demand input"%string in
  Z.of_nat (last_row wb N) = 8765%Z /\ (forall r, rows_of wb N 6 r -> numeric wb N "G" r) /\ numeric wb N "I" 6.
Definition PV_filled_in (wb : workbook) (known : string -> Prop) : Prop := let N := "PV inputs"%string in
  (exists r, first_complete wb N 2 [6; 7]%nat [15; 19; 20]%nat r /\ worded wb N "C" r /\ numeric wb N "D" r /\ numeric wb N "E" r /\ numeric wb N "F" r) /\
  (exists r m, first_complete wb N 2 [] [19]%nat r /\ says wb N "C" r m /\ known m /\ worded wb N "D" r /\ numeric wb N "E" r /\ numeric wb N "F" r /\
     numeric wb N "G" r /\ worded wb N "H" r).
Definition wind_filled (wb : workbook) : Prop := let N := "Wind inputs"%string in
  (exists r, first_complete wb N 2 [6]%nat [14; 19; 20]%nat r /\ worded wb N "C" r /\ numeric wb N "D" r /\ numeric wb N "E" r /\ numeric wb N "F" r) /\
  (exists r, first_complete wb N 2 [] [19]%nat r /\ worded wb N "C" r /\ numeric wb N "D" r /\ numeric wb N "E" r /\ numeric wb N "F" r /\ numeric wb N "G" r) /\
  (forall r, complete wb N 2 [4; 5; 6]%nat r -> ~ In r [14; 15; 19; 20; 23]%nat -> numeric wb N "C" r /\ numeric wb N "D" r).
Definition battery_filled (wb : workbook) : Prop := let N := "Electrical storage"%string in
  exists r, first_complete wb N 2 [] [5]%nat r /\ forall c, In c ["C"; "D"; "E"; "F"; "G"; "H"; "I"]%char -> numeric wb N c r.
Definition backup_filled (wb : workbook) : Prop := let N := "Aux heat"%string in
  numeric wb N "D" 6 /\ (forall r, In r [9; 10; 11]%nat -> numeric wb N "D" r /\ numeric wb N "E" r) /\
  (chooses fuels fuel_value wb N "C" 6 ELECTRIC \/
   exists f r, In r [9; 10; 11]%nat /\ chooses fuels fuel_value wb N "C" 6 f /\ chooses fuels fuel_value wb N "C" r f).
Definition tank_filled (wb : workbook) : Prop := let N := "Thermal storage"%string in
  worded wb N "D" 6 /\ worded wb N "D" 7 /\ (exists z, counts wb N "D" 8 z) /\ forall r, In r [14; 15; 16; 17; 18; 19; 22; 23]%nat -> numeric wb N "D" r.
Definition heat_pump_filled (wb : workbook) (trains : Prop) : Prop := let N := "Heat pump"%string in
  (exists x, chooses hp_kinds hp_kind_value wb N "D" 3 x) /\ (exists x, chooses data_inputs data_input_value wb N "D" 9 x) /\
  (forall r, In r [5; 6; 7; 8]%nat -> numeric wb N "D" r) /\
  (forall c r, In c ["E"; "I"]%char -> (27 <= r <= 34)%nat \/ (41 <= r <= 47)%nat -> wordless wb N c r) /\
  exists ap, chooses model_names model_name_value wb N "D" 4 ap /\
    match ap with
    | SIMPLE => numeric wb N "D" 12
    | LORENTZ => forall r, In r [15; 16; 17; 18; 19; 20]%nat -> numeric wb N "D" r
    | GENERIC => False
    | STANDARD => trains
    end.
Definition periods_filled (wb : workbook) : Prop := let N := "Grid"%string in
  (forall c r, In c ["H"; "I"; "J"; "K"; "L"; "M"; "N"]%char -> (18 <= r <= 41)%nat -> numeric wb N c r) /\ exists y, counts wb N "N" 42 y.
Definition market_filled (wb : workbook) : Prop := let N := "Grid"%string in
  (forall r, rows_of wb N 12 r -> (Z.of_nat r < 12 + 8760)%Z -> numeric wb N "C" r) /\ numeric wb N "G" 9 /\ numeric wb N "H" 9.
Definition tariff_filled (wb : workbook) : Prop := let N := "Grid"%string in
  (says wb N "D" 5 "Flat rates" /\ numeric wb N "C" 9) \/
  (says wb N "D" 5 "Variable periods" /\ periods_filled wb) \/
  (says wb N "D" 5 "Time of use - WM" /\ market_filled wb).
