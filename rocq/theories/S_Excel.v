(** Specification vocabulary for the workbook: cells in spreadsheet notation. *)
From Coq Require Import String Ascii.
From Verif Require Import Base M_HeatPump M_Sweep M_Regression M_Excel.

(** The number of a column letter *)
Definition letter (c : ascii) : nat := (nat_of_ascii c - 65)%nat.
(** The cell in column [c] and (counted from one) row [r]; the first row is the header. *)
Definition xl (wb : workbook) (name : string) (c : ascii) (r : nat) : value :=
  match wb name with Some s => nth (letter c) (nth (r - 2) (s_cells s) []) None | None => None end.
(** The number of the last row *)
Definition last_row (wb : workbook) (name : string) : nat :=
  match wb name with Some s => (length (s_cells s) + 1)%nat | None => 0%nat end.
Definition width (wb : workbook) (name : string) : nat :=
  match wb name with Some s => length (s_header s) | None => 0%nat end.

(** No headings in the first row *)
Definition plain (wb : workbook) : Prop :=
  forall name s, wb name = Some s -> exists w, s_header s = map Unnamed (seq 0 w).
(** A sheet reaching at least to a column and row *)
Definition reaches (wb : workbook) (name : string) (c : ascii) (r : nat) : Prop :=
  exists s, wb name = Some s /\ (letter c < length (s_header s))%nat /\ (r <= length (s_cells s) + 1)%nat.
(** Every sheet reaches as far as the program reads. *)
Definition big_enough (wb : workbook) : Prop :=
  reaches wb "Parametric" "F" 7 /\ reaches wb "Controller" "G" 9 /\ reaches wb "Weather resources" "O" 5 /\
  reaches wb "Demand gen" "H" 37 /\ reaches wb "Demand input" "I" 8 /\ reaches wb "PV inputs" "H" 20 /\
  reaches wb "Wind inputs" "G" 23 /\ reaches wb "Wind farm" "G" 19 /\ reaches wb "Electrical storage" "I" 5 /\
  reaches wb "Grid" "W" 42 /\ reaches wb "Aux heat" "E" 11 /\ reaches wb "Thermal storage" "N" 23 /\
  reaches wb "Heat pump" "S" 47.
(** The cells that must hold text hold readable text. *)
Definition readable_fuel (v : value) : Prop := exists f, cell_fuel v = Ok f.
Definition readable (wb : workbook) : Prop :=
  (exists l, order_of (xl wb "Controller" "D" 9) = Ok l) /\ (exists l, order_of (xl wb "Controller" "D" 8) = Ok l) /\
  readable_fuel (xl wb "Aux heat" "C" 6) /\ readable_fuel (xl wb "Aux heat" "C" 9) /\
  readable_fuel (xl wb "Aux heat" "C" 10) /\ readable_fuel (xl wb "Aux heat" "C" 11).

(** Column [col] of the series holds the cells from row [from] to the end of the sheet. *)
Definition reads_down (wb : workbook) (name : string) (c : ascii) (from : nat) (col : list value) : Prop :=
  length col = (last_row wb name + 1 - from)%nat /\
  forall h, (h < length col)%nat -> nth_error col h = Some (xl wb name c (from + h)).
(** The same, at most [n] rows. *)
Definition reads_down_to (wb : workbook) (name : string) (c : ascii) (from n : nat) (col : list value) : Prop :=
  length col = Nat.min n (last_row wb name + 1 - from)%nat /\
  forall h, (h < length col)%nat -> nth_error col h = Some (xl wb name c (from + h)).

(** Row [r] is the first row (of those not in [skip]) without an empty cell from column [from] on,
    leaving out columns [but]. *)
Definition complete (wb : workbook) (name : string) (from : nat) (but : list nat) (r : nat) : Prop :=
  (2 <= r <= last_row wb name)%nat /\
  forall c, (from <= c < width wb name)%nat -> ~ In c but ->
    match wb name with Some s => nth c (nth (r - 2) (s_cells s) []) None <> None | None => False end.
Definition first_complete (wb : workbook) (name : string) (from : nat) (but skip : list nat) (r : nat) : Prop :=
  complete wb name from but r /\ ~ In r skip /\
  forall r', (r' < r)%nat -> ~ In r' skip -> ~ complete wb name from but r'.

(** A named column of a stored table holds a column of a sheet, from a row to the end of the sheet;
    or at most so many rows. *)
Definition series (wb : workbook) (f : frame) (heading : string) (name : string) (c : ascii) (from : nat) : Prop :=
  exists col, named_column f heading = Ok col /\ reads_down wb name c from col.
Definition series_to (wb : workbook) (f : frame) (heading : string) (name : string) (c : ascii) (from n : nat) : Prop :=
  exists col, named_column f heading = Ok col /\ reads_down_to wb name c from n col.
(** The rows of a table of fuels *)
Definition fuel_row (wb : workbook) (r : nat) (x : fuel * (value * value)) : Prop :=
  cell_fuel (xl wb "Aux heat" "C" r) = Ok (fst x) /\ snd x = (xl wb "Aux heat" "D" r, xl wb "Aux heat" "E" r).
(** A named column holds the cells of a column of a sheet in the given rows. *)
Definition picks (wb : workbook) (f : frame) (heading : string) (name : string) (c : ascii) (rows : list nat) : Prop :=
  named_column f heading = Ok (map (xl wb name c) rows).
(** The rows of a table of test results: four columns of the sheet, over the given rows *)
Definition table_rows (wb : workbook) (c1 c2 c3 c4 : ascii) (rows : list nat) : list test_row :=
  map (fun r => {| t_ambient := number_of (xl wb "Heat pump" c1 r); t_COSP := number_of (xl wb "Heat pump" c2 r);
                   t_duty := number_of (xl wb "Heat pump" c3 r); t_percent := number_of (xl wb "Heat pump" c4 r) |}) rows.
