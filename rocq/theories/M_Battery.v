(** Model of /repo/pylesa/storage/electrical_storage.py. *)
From Verif Require Import Base.

(** electrical_storage.py:12-35, constructor attributes. *)
Record battery := {
  b_capacity : Q;
  b_initial_state : Q;
  b_charge_max : Q;
  b_discharge_max : Q;
  b_charge_eff : Q;
  b_discharge_eff : Q;
  b_self_discharge : Q }.

Section Battery.
Variable b : battery.

(** electrical_storage.py:37-39 *)
Definition init_state : Q := b_initial_state b * b_capacity b.

(** electrical_storage.py:41-68.  The third test of the [elif] chain is always
    true when reached (numbers are totally ordered), so it is the final [else]. *)
Definition max_charging (mtch soc : Q) : Q :=
  let max_change_soc := b_capacity b - soc in
  let max_p_charge := mtch in
  let max_charge :=
    if qle 0 max_p_charge && qle max_p_charge (b_charge_max b) then max_p_charge
    else if qle 0 max_p_charge && qle (b_charge_max b) max_p_charge then b_charge_max b
    else 0 in
  pmin max_charge max_change_soc.

(** electrical_storage.py:70-93; same remark on the last [elif]. *)
Definition max_discharging (mtch soc : Q) : Q :=
  let max_p_dis := mtch * b_discharge_eff b in
  let discharge :=
    if qlt max_p_dis 0 && qle (-1 * b_discharge_max b) max_p_dis then max_p_dis
    else if qle max_p_dis (-1 * b_discharge_max b) then -1 * b_discharge_max b
    else 0 in
  pmin discharge soc.

(** electrical_storage.py:95-107 *)
Definition self_loss (soc : Q) : Q := soc * b_self_discharge b.

(** electrical_storage.py:109-138 *)
Definition new_soc (mtch soc : Q) : Q :=
  let max_new_soc :=
    soc + max_charging mtch soc + max_discharging mtch soc - self_loss soc in
  if qle (b_capacity b) max_new_soc then b_capacity b
  else if qle max_new_soc 0 then 0
  else max_new_soc.

(** electrical_storage.py:140-156 *)
Definition charging (mtch soc : Q) : Q :=
  let max_charging := new_soc mtch soc - soc in
  if qle max_charging 0 then mtch else max_charging.

(** electrical_storage.py:158-175.  Line 173 calls [self.new_soc(match)] with one
    argument although two are required: Python raises TypeError. *)
Definition discharging (mtch soc : Q) : res Q :=
  if qle 0 mtch then Ok 0 else Err TypeError.

(** electrical_storage.py:177-190 *)
Definition charge_to_capacity (soc : Q) : Q :=
  let charging := b_capacity b - soc in
  let losses := self_loss soc + charging * b_charge_eff b in
  let total_charging := charging + losses in
  pmin total_charging (b_charge_max b).

(** electrical_storage.py:192-211 *)
Definition total_losses (mtch soc : Q) : res Q :=
  d <- discharging mtch soc ;;
  Ok ((1 - b_charge_eff b) * charging mtch soc + (1 - b_discharge_eff b) * d - self_loss soc).

(** The charge level after each request of a history, as the controllers use
    [new_soc] hour after hour (fixed_order.py:111-136, 295-299 and 569-573). *)
Fixpoint soc_history (soc : Q) (requests : list Q) : list Q :=
  match requests with
  | [] => []
  | m :: ms => let soc' := new_soc m soc in soc' :: soc_history soc' ms
  end.
(** The charge after a sequence of calls of [new_soc], storage/electrical_storage.py:109-138 (as threaded by controllers/fixed_order.py:59-164) *)
Definition soc_final (soc : Q) (requests : list Q) : Q :=
  fold_left (fun s m => new_soc m s) requests soc.

End Battery.
