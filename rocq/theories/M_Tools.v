(** Model of /repo/pylesa/tools.py and of the identical helper class at the end of
    /repo/pylesa/controllers/fixed_order.py:1254-1393. *)
From Verif Require Import Base M_HeatPump.

(** tools.py:20-37: Slice with large bounds kept in [Z] so that they stay readable. *)
Definition zslice {A} (a b : Z) (l : list A) : list A := pslice (Z.to_nat a) (Z.to_nat b) l.

(** tools.py:23-34 (also 42-53, 61-72): the hour ranges of the twelve months. *)
Definition month_bounds : list (Z * Z) :=
  [(0, 744); (744, 1416); (1416, 2160); (2160, 2880); (2880, 3624); (3624, 4344);
   (4344, 5088); (5088, 5832); (5832, 6552); (6552, 7296); (7296, 8016); (8016, 8760)]%Z.

(** tools.py:20-36.  The ordered dictionary is the list of its values. *)
Definition month_split {A} (year : list A) : list (list A) :=
  map (fun ab => zslice (fst ab) (snd ab) year) month_bounds.

(** tools.py:39-55 *)
Definition sum_monthly (year : list Q) : list Q :=
  map (fun ab => qsum (zslice (fst ab) (snd ab) year) / 1000) month_bounds.

(** tools.py:58-83: numpy mean; the mean of an empty slice is nan in Python and 0 here, hence the
    theorems assume a full year. *)
Definition qmean (l : list Q) : Q := qsum l / inject_Z (Z.of_nat (length l)).

(** tools.py:58-74 *)
Definition mean_monthly (year : list Q) : list Q :=
  map (fun ab => qmean (zslice (fst ab) (snd ab) year)) month_bounds.

(** tools.py:77-82 *)
Definition sum_year (year : list Q) : Q := qsum year.
(** tools.py:81-83 *)
Definition mean_year (year : list Q) : Q := qmean year.

(** tools.py:130-145 = fixed_order.py:1286-1301, one hour.
    Fields of the data frame row: match, deficit, surplus, RES_used. *)
Record balance := { bal_match : Q; bal_deficit : Q; bal_surplus : Q; bal_RES_used : Q }.
(** tools.py:106-151 = controllers/fixed_order.py:1262-1307, one hour *)
Definition surplus_deficit_hour (res_ elec : Q) : balance :=
  let m := res_ - elec in
  let used := pmin res_ elec in
  if qle m 0 then {| bal_match := m; bal_deficit := - (1) * m; bal_surplus := 0; bal_RES_used := used |}
  else {| bal_match := m; bal_deficit := 0; bal_surplus := m; bal_RES_used := used |}.

(** tools.py:106-151 = fixed_order.py:1262-1307, the whole year.  A series shorter
    than 8760 raises KeyError at the first missing label; a longer one makes the
    data frame constructor raise ValueError (columns of different lengths).
    Simplification: both series have the same index 0, 1, 2, ... *)
Definition surplus_deficit_year (gen dem : list Q) : res (list balance) :=
  let n := Nat.min (length gen) (length dem) in
  if Nat.ltb n ANNUAL_HOURS then Err KeyError
  else if Nat.ltb ANNUAL_HOURS (Nat.max (length gen) (length dem)) then Err ValueError
  else Ok (zip2 surplus_deficit_hour gen dem).

(** fixed_order.py:1309-1339 *)
Definition heat_demand_check (demand generated : Q) : res bool :=
  let heat_met := round1 (round2 demand - round2 generated) in
  if qeq heat_met 0 then Ok true
  else if qlt 0 heat_met then Ok false
  else Err SystemExit.

(** fixed_order.py:1341-1367 and 1369-1393 have the same body. *)
Definition surplus_check (surplus used : Q) : res bool :=
  let left := round2 (round2 surplus - round2 used) in
  if qlt 0 left then Ok true
  else if qeq left 0 then Ok false
  else Err SystemExit.
(** tools.py:221-231 *)
Definition deficit_check (deficit supplied : Q) : res bool := surplus_check deficit supplied.

(** tools.py:153-185, the other copy of the check: in the third case the function ends without a return, that is with None.
    Nothing in the package calls this copy; the predictive controller uses the class for [surplus_deficit_year] only. *)
Definition tools_heat_demand_check (demand generated : Q) : option bool :=
  let heat_met := round1 (round2 demand - round2 generated) in
  if qeq heat_met 0 then Some true else if qlt 0 heat_met then Some false else None.
(** tools.py:187-219 and 221-236, likewise *)
Definition tools_surplus_check (surplus used : Q) : option bool :=
  let left := round2 (round2 surplus - round2 used) in
  if qlt 0 left then Some true else if qeq left 0 then Some false else None.
(** tools.py:90-96 *)
Definition name_error (variable : option Q) : Q := match variable with None => 0 | Some x => x end.
