(** Specification vocabulary for whole runs of the program. *)
From Coq Require Import String Ascii.
From Verif Require Import Base M_HeatPump M_FixedOrder M_Excel S_Excel M_Init S_Init M_Program.
From Verif Require M_Mpc M_Renewables.

(** A combination [d] of a completed run on the workbook [wb] with the controller [c] *)
Definition ran (L : libraries) run_pv lc opt price (wb : workbook) (c : string) (out : outcome) (d : done) : Prop :=
  plain wb /\ big_enough wb /\ says wb "Controller" "D" 5 c /\ program L run_pv lc opt price wb = Ok out /\ In d (r_done out).
(** The hour of the year that record [i] is about: the stated first hour plus [i] *)
Definition hour_number (wb : workbook) (i : nat) (t : Z) : Prop :=
  exists s, counts wb "Controller" "G" 5 s /\ t = (s + Z.of_nat i)%Z /\ (0 <= s)%Z /\ (t < 8760)%Z.
(** A record shows the electrical and heat demand of a row of the sheet 'Demand input'. *)
Definition shows_row (wb : workbook) (r : nat) (f : fields) : Prop :=
  (exists e, holds wb "Demand input" "E" r e /\ f ED_elec_demand == e) /\
  (exists h, holds wb "Demand input" "D" r h /\ f HD_heat_demand == h).
(** The demand sheet has exactly the rows 6 to 8765, and a number in each of them. *)
Definition covers_the_year (wb : workbook) : Prop :=
  let N := "Demand input"%string in Z.of_nat (last_row wb N) = 8765%Z /\
  forall r, rows_of wb N 6 r -> numeric wb N "D" r /\ numeric wb N "E" r /\ numeric wb N "F" r /\ numeric wb N "G" r.
(** An order cell lists every process at most once, the import for the electrical demand among
    them, and the battery not after it. *)
Definition sensible_order (key : Z -> res process) (v : value) : Prop :=
  forall l ps, order_of v = Ok l -> mapM key l = Ok ps ->
    NoDup ps /\ In Import_to_demand ps /\ forall l1 l2, ps = (l1 ++ ES_to_demand :: l2)%list -> ~ In Import_to_demand l1.
(** Two workbooks that differ in the sizes to be tried only *)
Definition same_but_sizes (wb wb' : workbook) : Prop := forall N, N <> "Parametric"%string -> wb N = wb' N.
(** Two workbooks that differ in the number of simulated hours only *)
Definition same_but_hours (wb wb' : workbook) : Prop :=
  (forall N, N <> "Controller"%string -> wb N = wb' N) /\
  forall c r, (c, r) <> ("G"%char, 6%nat) -> xl wb "Controller" c r = xl wb' "Controller" c r.
