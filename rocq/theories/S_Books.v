(** Specification vocabulary: two workbooks that differ in the capacity of the battery only. *)
From Coq Require Import String Ascii.
From Verif Require Import Base M_FixedOrder S_FixedOrder S_Sizing M_Excel S_Excel M_Init S_Init M_Program.
From Verif Require M_Sweep.
Local Open Scope string_scope.

(** The content of a cell of a sheet *)
Definition content_at (s : sheet) (r c : nat) : value := nth c (nth r (s_cells s) []) None.
(** The same content, or a number that is no smaller *)
Definition no_smaller (v v' : value) : Prop := v = v' \/ exists x x', v = Some (M_Sweep.Number x) /\ v' = Some (M_Sweep.Number x') /\ (x <= x')%Q.
(** Only numbers in column C of the sheet 'Electrical storage', the capacity, differ. *)
Definition bigger_battery_cell (wb wb' : workbook) : Prop :=
  (forall N, N <> "Electrical storage" -> wb N = wb' N) /\
  exists s s', wb "Electrical storage" = Some s /\ wb' "Electrical storage" = Some s' /\ s_header s = s_header s' /\ length (s_cells s) = length (s_cells s') /\
    (forall r c, c <> letter "C" -> content_at s r c = content_at s' r c) /\ forall r, no_smaller (content_at s r (letter "C")) (content_at s' r (letter "C")).
(** Both orders use the battery last, for the electrical demand only and filled by own generation only. *)
Definition battery_last_cells (wb : workbook) : Prop :=
  (forall l ps, order_of (xl wb "Controller" "D" 8) = Ok l -> mapM above_key l = Ok ps -> battery_last ps) /\
  (forall l ps, order_of (xl wb "Controller" "D" 9) = Ok l -> mapM below_key l = Ok ps -> battery_last ps).
(** What the battery of a workbook contains at the start: capacity times initial state *)
Definition content_at_start (wb : workbook) (e : Q) : Prop := let N := "Electrical storage" in
  exists r c f, first_complete wb N 2 [] [5%nat] r /\ holds wb N "C" r c /\ holds wb N "D" r f /\ (e == f * c)%Q.
(** A flat rate that selling does not beat, and a battery that loses nothing by standing *)
Definition selling_pays_less_cells (wb : workbook) : Prop :=
  says wb "Grid" "D" 5 "Flat rates" /\ forall p x, holds wb "Grid" "C" 9 p -> holds wb "Grid" "D" 9 x -> (0 <= x <= p)%Q.
Definition no_leak_cell (wb : workbook) : Prop := forall r x, holds wb "Electrical storage" "I" r x -> (x == 0)%Q.
(** The first run ends with a battery no emptier than it started, the second with one no fuller. *)
Definition ends_no_emptier (wb : workbook) (d : done) : Prop :=
  forall e rc, content_at_start wb e -> nth_error (d_records d) (length (d_records d) - 1) = Some rc -> (e <= rf rc ES_final_soc)%Q.
Definition ends_no_fuller (wb : workbook) (d : done) : Prop :=
  forall e rc, content_at_start wb e -> nth_error (d_records d) (length (d_records d) - 1) = Some rc -> (rf rc ES_final_soc <= e)%Q.
