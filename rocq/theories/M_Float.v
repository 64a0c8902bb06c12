(** Binary64 floating point, the arithmetic of Python's [float], and the battery of
    /repo/pylesa/storage/electrical_storage.py computed with it.

    Everywhere else the models compute with exact rationals; this file is the same class once more with
    rounding, overflow, infinities and NaN.  Simplification: the attributes are taken to be floats.  A whole
    number read from the workbook is a Python int, whose sums and comparisons with floats are the same as
    those of the equal float up to 2^53. *)
From Coq Require Import ZArith Reals.
From Flocq Require Import Core IEEE754.BinarySingleNaN.
From Verif Require Import Base.
Local Open Scope Z_scope.

(** The float type of Python, IEEE 754 binary64 with one NaN (used throughout storage/electrical_storage.py:1-211) *)
Definition double : Type := binary_float 53 1024.
Definition prec_gt : Prec_gt_0 53 := eq_refl.
Definition prec_lt : Prec_lt_emax 53 1024 := eq_refl.
#[global] Existing Instances prec_gt prec_lt.
(** The operators +, -, * and the comparisons of storage/electrical_storage.py:55-68 *)
Definition fadd (x y : double) : double := Bplus mode_NE x y.
Definition fsub (x y : double) : double := Bminus mode_NE x y.
Definition fmul (x y : double) : double := Bmult mode_NE x y.
Definition fle (x y : double) : bool := Bleb x y.
Definition flt (x y : double) : bool := Bltb x y.
(** Python's [min(a, b)], storage/electrical_storage.py:68: the first argument unless the second is smaller *)
Definition fmin (x y : double) : double := if flt y x then y else x.
(** 0.0 and the int 0, storage/electrical_storage.py:66 and 133 *)
Definition f0 : double := B754_zero false.
(** The int -1, storage/electrical_storage.py:84 *)
Definition fm1 : double := @B754_finite 53 1024 true 4503599627370496 (-52) eq_refl.

(** storage/electrical_storage.py:12-35 *)
Record fbattery := {
  fb_capacity : double;
  fb_initial_state : double;
  fb_charge_max : double;
  fb_discharge_max : double;
  fb_charge_eff : double;
  fb_discharge_eff : double;
  fb_self_discharge : double }.

Section FLOAT_BATTERY.
Variable b : fbattery.
(** storage/electrical_storage.py:37-39 *)
Definition finit_state : double := fmul (fb_initial_state b) (fb_capacity b).
(** storage/electrical_storage.py:41-68; no branch is taken for a NaN, and [max_charge] is unbound *)
Definition fmax_charging (mtch soc : double) : res double :=
  let max_change_soc := fsub (fb_capacity b) soc in
  let max_p_charge := mtch in
  max_charge <-
    (if fle f0 max_p_charge && fle max_p_charge (fb_charge_max b) then Ok max_p_charge
     else if fle f0 max_p_charge && fle (fb_charge_max b) max_p_charge then Ok (fb_charge_max b)
     else if fle max_p_charge f0 then Ok f0
     else Err UnboundLocalError) ;;
  Ok (fmin max_charge max_change_soc).
(** storage/electrical_storage.py:70-93 *)
Definition fmax_discharging (mtch soc : double) : res double :=
  let max_p_dis := fmul mtch (fb_discharge_eff b) in
  discharge <-
    (if flt max_p_dis f0 && fle (fmul fm1 (fb_discharge_max b)) max_p_dis then Ok max_p_dis
     else if fle max_p_dis (fmul fm1 (fb_discharge_max b)) then Ok (fmul fm1 (fb_discharge_max b))
     else if fle f0 max_p_dis then Ok f0
     else Err UnboundLocalError) ;;
  Ok (fmin discharge soc).
(** storage/electrical_storage.py:95-107 *)
Definition fself_loss (soc : double) : double := fmul soc (fb_self_discharge b).
(** storage/electrical_storage.py:109-138 *)
Definition fnew_soc (mtch soc : double) : res double :=
  c <- fmax_charging mtch soc ;;
  d <- fmax_discharging mtch soc ;;
  let max_new_soc := fsub (fadd (fadd soc c) d) (fself_loss soc) in
  Ok (if fle (fb_capacity b) max_new_soc then fb_capacity b
      else if fle max_new_soc f0 then f0
      else max_new_soc).
(** storage/electrical_storage.py:177-190 *)
Definition fcharge_to_capacity (soc : double) : double :=
  let charging := fsub (fb_capacity b) soc in
  let losses := fadd (fself_loss soc) (fmul charging (fb_charge_eff b)) in
  let total_charging := fadd charging losses in
  fmin total_charging (fb_charge_max b).
(** The level after a sequence of calls of [new_soc], as threaded by controllers/fixed_order.py:59-164 *)
Fixpoint fsoc_history (soc : double) (requests : list double) : res (list double) :=
  match requests with
  | [] => Ok []
  | m :: ms => soc' <- fnew_soc m soc ;; l <- fsoc_history soc' ms ;; Ok (soc' :: l)
  end.
End FLOAT_BATTERY.
