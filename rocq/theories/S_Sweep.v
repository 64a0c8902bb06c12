(** Specification vocabulary for the sweep, its names and the order strings. *)
From Coq Require Import String Ascii.
From Verif Require Import Base M_Sweep.
Local Open Scope list_scope.

(** [x] is reached from [a] in whole steps without passing [b]. *)
Definition in_steps (a b step x : Z) : Prop := exists k, (0 <= k)%Z /\ (x = a + k * step)%Z /\ (x <= b)%Z.
(** The grid a user asks for. *)
Definition requested (p : sweep) (c : Z * Z) : Prop :=
  in_steps (hp_min p) (hp_max p) (hp_step p) (fst c) /\ in_steps (ts_min p) (ts_max p) (ts_step p) (snd c).

(** Integer literals. *)
Definition space (c : ascii) : Prop :=
  In (N_of_ascii c) [9; 10; 11; 12; 13; 28; 29; 30; 31; 32; 133; 160]%N.
Definition digit_of (c : ascii) (d : nat) : Prop := nth_error (list_ascii_of_string "0123456789") d = Some c.
Inductive digits : list ascii -> Z -> Prop :=
| digits_one c d : digit_of c d -> digits [c] (Z.of_nat d)
| digits_more s n c d : digits s n -> digit_of c d -> digits (s ++ [c]) (10 * n + Z.of_nat d)
| digits_underscore s n c d : digits s n -> digit_of c d -> digits (s ++ ["_"%char; c]) (10 * n + Z.of_nat d).
Definition literal (s : list ascii) (z : Z) : Prop :=
  exists before sign body after n, s = before ++ sign ++ body ++ after /\
    Forall space before /\ Forall space after /\ digits body n /\
    ((sign = [] \/ sign = ["+"%char]) /\ z = n \/ sign = ["-"%char] /\ z = (- n)%Z).
(** Text made of pieces with a separator between them. *)
Fixpoint joined (sep : ascii) (pieces : list (list ascii)) : list ascii :=
  match pieces with
  | [] => []
  | [p] => p
  | p :: ps => p ++ sep :: joined sep ps
  end.

(** [y] is [x] resized: the two capacities are replaced, every duty is multiplied by the
    same ratio, and nothing else changes. *)
Definition resized {rest} (c : Z * Z) (ratio : Q) (x y : inputs rest) : Prop :=
  let scaled a b := Forall2 (fun d d' => d' == d * ratio) a b in
  c_rest _ y = c_rest _ x /\
  hd_error (hp_capacity _ y) = Some (inject_Z (fst c)) /\ tl (hp_capacity _ y) = tl (hp_capacity _ x) /\
  hd_error (ts_capacity _ y) = Some (inject_Z (snd c)) /\ tl (ts_capacity _ y) = tl (ts_capacity _ x) /\
  scaled (duty1 _ x) (duty1 _ y) /\ scaled (duty2 _ x) (duty2 _ y) /\
  scaled (duty3 _ x) (duty3 _ y) /\ scaled (duty4 _ x) (duty4 _ y).
