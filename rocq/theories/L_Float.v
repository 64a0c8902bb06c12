(** Lemmas about binary64 arithmetic. *)
From Coq Require Import ZArith Reals Psatz.
From Flocq Require Import Core IEEE754.BinarySingleNaN.
From Verif Require Import Base M_Battery M_Float S_Float.
From Coq Require Import Lra Psatz.
Local Open Scope R_scope.

Definition rnd (x : R) : R := round radix2 (SpecFloat.fexp 53 1024) ZnearestE x.
Definition big : R := bpow radix2 1024.
#[global] Instance fexp_valid : Valid_exp (SpecFloat.fexp 53 1024).
Proof. apply fexp_correct. reflexivity. Qed.
Lemma rnd_le x y : x <= y -> rnd x <= rnd y.
Proof. apply round_le; typeclasses eauto. Qed.
Lemma rnd_val x : rnd (val x) = val x.
Proof. apply round_generic; [typeclasses eauto|]. apply generic_format_B2R. Qed.
Lemma rnd_0 : rnd 0 = 0.
Proof. apply round_0. typeclasses eauto. Qed.
Lemma val_small x : Rabs (val x) < big.
Proof. apply abs_B2R_lt_emax. Qed.
Lemma val_f0 : val f0 = 0.
Proof. reflexivity. Qed.
Lemma finite_f0 : finite f0.
Proof. reflexivity. Qed.

Lemma add_ok x y : finite x -> finite y -> Rabs (rnd (val x + val y)) < big -> finite (fadd x y) /\ val (fadd x y) = rnd (val x + val y).
Proof.
  intros X Y B. pose proof (Bplus_correct 53 1024 _ _ mode_NE x y X Y) as H. cbn [round_mode] in H. fold (rnd (B2R x + B2R y)) in H.
  rewrite Rlt_bool_true in H by exact B. destruct H as (H1 & H2 & _). split; assumption.
Qed.
Lemma sub_ok x y : finite x -> finite y -> Rabs (rnd (val x - val y)) < big -> finite (fsub x y) /\ val (fsub x y) = rnd (val x - val y).
Proof.
  intros X Y B. pose proof (Bminus_correct 53 1024 _ _ mode_NE x y X Y) as H. cbn [round_mode] in H. fold (rnd (B2R x - B2R y)) in H.
  rewrite Rlt_bool_true in H by exact B. destruct H as (H1 & H2 & _). split; assumption.
Qed.
Lemma mul_ok x y : finite x -> finite y -> Rabs (rnd (val x * val y)) < big -> finite (fmul x y) /\ val (fmul x y) = rnd (val x * val y).
Proof.
  intros X Y B. pose proof (Bmult_correct 53 1024 _ _ mode_NE x y) as H. cbn [round_mode] in H. fold (rnd (B2R x * B2R y)) in H.
  rewrite Rlt_bool_true in H by exact B. destruct H as (H1 & H2 & _). rewrite X, Y in H2. split; assumption.
Qed.
Lemma SF_infinity (x : double) s : B2SF x = SpecFloat.S754_infinity s -> x = B754_infinity s.
Proof. destruct x; cbn; intro H; try discriminate. injection H as ->. reflexivity. Qed.
Lemma overflow_infinity s : binary_overflow 53 1024 mode_NE s = SpecFloat.S754_infinity s.
Proof. reflexivity. Qed.
(** A product too big for a number is the infinity of its sign. *)
Lemma mul_big x y : finite x -> finite y -> big <= Rabs (rnd (val x * val y)) -> fmul x y = B754_infinity (xorb (Bsign x) (Bsign y)).
Proof.
  intros X Y B. pose proof (Bmult_correct 53 1024 _ _ mode_NE x y) as H. cbn [round_mode] in H. fold (rnd (B2R x * B2R y)) in H.
  rewrite Rlt_bool_false in H by exact B. rewrite overflow_infinity in H. apply SF_infinity. exact H.
Qed.
Lemma mul_not_nan x y : finite x -> finite y -> is_nan (fmul x y) = false.
Proof.
  intros X Y. destruct (Rlt_or_le (Rabs (rnd (val x * val y))) big) as [B|B].
  - destruct (mul_ok x y X Y B) as (F & _). unfold finite in F. destruct (fmul x y); try discriminate; reflexivity.
  - rewrite (mul_big x y X Y B). reflexivity.
Qed.
Lemma add_not_nan x y : is_nan x = false -> finite y -> is_nan (fadd x y) = false.
Proof.
  intros X Y. destruct (is_finite x) eqn:FX.
  - destruct (Rlt_or_le (Rabs (rnd (val x + val y))) big) as [B|B].
    + destruct (add_ok x y FX Y B) as (F & _). unfold finite in F. destruct (fadd x y); try discriminate; reflexivity.
    + pose proof (Bplus_correct 53 1024 _ _ mode_NE x y FX Y) as H. cbn [round_mode] in H. fold (rnd (B2R x + B2R y)) in H.
      rewrite Rlt_bool_false in H by exact B. rewrite overflow_infinity in H. destruct H as (H & _). unfold fadd. rewrite (SF_infinity _ _ H). reflexivity.
  - destruct x; try discriminate. unfold finite in Y. destruct y; try discriminate; reflexivity.
Qed.
Lemma sub_not_nan x y : is_nan x = false -> finite y -> is_nan (fsub x y) = false.
Proof.
  intros X Y. destruct (is_finite x) eqn:FX.
  - destruct (Rlt_or_le (Rabs (rnd (val x - val y))) big) as [B|B].
    + destruct (sub_ok x y FX Y B) as (F & _). unfold finite in F. destruct (fsub x y); try discriminate; reflexivity.
    + pose proof (Bminus_correct 53 1024 _ _ mode_NE x y FX Y) as H. cbn [round_mode] in H. fold (rnd (B2R x - B2R y)) in H.
      rewrite Rlt_bool_false in H by exact B. rewrite overflow_infinity in H. destruct H as (H & _). unfold fsub. rewrite (SF_infinity _ _ H). reflexivity.
  - destruct x; try discriminate. unfold finite in Y. destruct y; try discriminate; reflexivity.
Qed.
Lemma finite_not_nan x : finite x -> is_nan x = false.
Proof. unfold finite. destruct x; try discriminate; reflexivity. Qed.

(** ** Comparisons *)
Lemma fle_spec x y : finite x -> finite y -> if fle x y then val x <= val y else val y < val x.
Proof. intros X Y. unfold fle. rewrite (Bleb_correct 53 1024 x y X Y). destruct (Rle_bool_spec (B2R x) (B2R y)); assumption. Qed.
Lemma flt_spec x y : finite x -> finite y -> if flt x y then val x < val y else val y <= val x.
Proof. intros X Y. unfold flt. rewrite (Bltb_correct 53 1024 x y X Y). destruct (Rlt_bool_spec (B2R x) (B2R y)); assumption. Qed.
Lemma fmin_ok x y : finite x -> finite y -> finite (fmin x y) /\ val (fmin x y) = Rmin (val x) (val y).
Proof.
  intros X Y. unfold fmin. pose proof (flt_spec y x Y X) as H. destruct (flt y x); cbv iota in H.
  - split; [exact Y|]. rewrite Rmin_right by lra. reflexivity.
  - split; [exact X|]. rewrite Rmin_left by lra. reflexivity.
Qed.
Lemma fle_infinity x s : finite x -> fle x (B754_infinity s) = negb s /\ fle (B754_infinity s) x = s.
Proof. unfold finite. destruct x as [[]| | |[]], s; try discriminate; intros _; split; reflexivity. Qed.
Lemma flt_infinity x s : finite x -> flt x (B754_infinity s) = negb s /\ flt (B754_infinity s) x = s.
Proof. unfold finite. destruct x as [[]| | |[]], s; try discriminate; intros _; split; reflexivity. Qed.
Lemma clamped v c : is_nan v = false -> finite c -> fle c v = false -> fle v f0 = false -> finite v /\ 0 < val v < val c.
Proof.
  intros N C H1 H2. destruct (is_finite v) eqn:F.
  - split; [exact F|]. pose proof (fle_spec c v C F) as A. pose proof (fle_spec v f0 F finite_f0) as B. rewrite H1 in A. rewrite H2, val_f0 in B. cbv iota in A, B. lra.
  - destruct v as [|[]| |]; try discriminate. destruct (fle_infinity c false C) as (E & _). rewrite E in H1. discriminate.
Qed.
(** Comparisons with NaN fail. *)
Lemma nan_compare x : fle B754_nan x = false /\ fle x B754_nan = false /\ flt B754_nan x = false /\ flt x B754_nan = false.
Proof. destruct x as [| | |[]]; repeat split; reflexivity. Qed.

(** ** Signs and bounds of results *)
Lemma rnd_nonneg x : 0 <= x -> 0 <= rnd x.
Proof. intro H. rewrite <- rnd_0. apply rnd_le, H. Qed.
(** A difference of two levels is a level. *)
Lemma sub_between x y : finite x -> finite y -> 0 <= val y <= val x -> finite (fsub x y) /\ val (fsub x y) = rnd (val x - val y) /\ 0 <= val (fsub x y) <= val x.
Proof.
  intros X Y H. assert (B : 0 <= rnd (val x - val y) <= val x).
  { split; [apply rnd_nonneg; lra|]. rewrite <- (rnd_val x) at 2. apply rnd_le. lra. }
  pose proof (val_small x) as S. rewrite Rabs_pos_eq in S by lra.
  destruct (sub_ok x y X Y) as (F & V); [rewrite Rabs_pos_eq; lra|]. split; [exact F|]. split; [exact V|]. rewrite V. exact B.
Qed.
Lemma mul_between x y : finite x -> finite y -> 0 <= val x -> 0 <= val y <= 1 -> finite (fmul x y) /\ val (fmul x y) = rnd (val x * val y) /\ 0 <= val (fmul x y) <= val x.
Proof.
  intros X Y H H1. assert (B : 0 <= rnd (val x * val y) <= val x).
  { split; [apply rnd_nonneg; nra|]. rewrite <- (rnd_val x) at 2. apply rnd_le. nra. }
  pose proof (val_small x) as S. rewrite Rabs_pos_eq in S by lra.
  destruct (mul_ok x y X Y) as (F & V); [rewrite Rabs_pos_eq; lra|]. split; [exact F|]. split; [exact V|]. rewrite V. exact B.
Qed.
Lemma val_fm1 : val fm1 = -1.
Proof.
  change (IZR (Z.opp 4503599627370496) * bpow radix2 (-52) = -1). assert (E : IZR 4503599627370496 = bpow radix2 52) by reflexivity.
  rewrite opp_IZR, E, <- Ropp_mult_distr_l, <- bpow_plus. reflexivity.
Qed.
Lemma neg_ok x : finite x -> finite (fmul fm1 x) /\ val (fmul fm1 x) = - val x.
Proof.
  intro X. assert (E : rnd (val fm1 * val x) = - val x).
  { rewrite val_fm1. replace (-1 * val x) with (- val x) by ring. unfold rnd. rewrite round_NE_opp. f_equal. exact (rnd_val x). }
  destruct (mul_ok fm1 x eq_refl X) as (F & V); [rewrite E, Rabs_Ropp; apply val_small|]. split; [exact F|]. rewrite V. exact E.
Qed.
