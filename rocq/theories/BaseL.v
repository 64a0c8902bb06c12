(** Lemmas about the Python primitives of [Base]. *)
From Coq Require Import FinFun.
From Verif Require Import Base.

Lemma pmin_le_l a b : pmin a b <= a.
Proof. unfold pmin. qcases; lra. Qed.
Lemma pmin_le_r a b : pmin a b <= b.
Proof. unfold pmin. qcases; lra. Qed.
Lemma pmin_glb a b c : c <= a -> c <= b -> c <= pmin a b.
Proof. unfold pmin. intros. qcases; lra. Qed.
Lemma pmin_cases a b : (pmin a b == a /\ a <= b) \/ (pmin a b == b /\ b <= a).
Proof. unfold pmin. qcases; [right|left]; split; lra. Qed.
Lemma pmax_cases a b : (pmax a b == a /\ b <= a) \/ (pmax a b == b /\ a <= b).
Proof. unfold pmax. qcases; [right|left]; split; lra. Qed.
Lemma pmin_Qmin a b : pmin a b == Qmin a b.
Proof. destruct (pmin_cases a b) as [[E H]|[E H]]; rewrite E; symmetry; [apply Q.min_l|apply Q.min_r]; exact H. Qed.
Lemma pmax_Qmax a b : pmax a b == Qmax a b.
Proof. destruct (pmax_cases a b) as [[E H]|[E H]]; rewrite E; symmetry; [apply Q.max_l|apply Q.max_r]; exact H. Qed.

Lemma Qfloor_bounds x : inject_Z (Qfloor x) <= x /\ x < inject_Z (Qfloor x) + 1.
Proof.
  split; [apply Qfloor_le|].
  pose proof (Qlt_floor x) as H. rewrite inject_Z_plus in H. exact H.
Qed.

Lemma round_half_even_bounds x :
  x - (1 # 2) <= inject_Z (round_half_even x) /\ inject_Z (round_half_even x) <= x + (1 # 2).
Proof.
  unfold round_half_even. destruct (Qfloor_bounds x) as [H1 H2].
  qcases; [lra| |].
  - rewrite inject_Z_plus. cbn [inject_Z]. change (inject_Z 1) with 1. lra.
  - destruct (Z.even (Qfloor x)); [lra|]. rewrite inject_Z_plus. change (inject_Z 1) with 1. lra.
Qed.

Lemma pround_bounds n x :
  x - (1 # 2) / inject_Z (Zpos n) <= pround n x <= x + (1 # 2) / inject_Z (Zpos n).
Proof.
  unfold pround.
  assert (Hn : 0 < inject_Z (Zpos n)) by reflexivity.
  set (m := inject_Z (Zpos n)) in *.
  destruct (round_half_even_bounds (x * m)) as [H1 H2].
  set (r := inject_Z (round_half_even (x * m))) in *.
  split.
  - apply Qle_shift_div_l; [exact Hn|].
    setoid_replace ((x - (1 # 2) / m) * m) with (x * m - (1#2)); [exact H1|field; lra].
  - apply Qle_shift_div_r; [exact Hn|].
    setoid_replace ((x + (1 # 2) / m) * m) with (x * m + (1#2)); [exact H2|field; lra].
Qed.

Lemma round2_bounds x : x - (1 # 200) <= round2 x <= x + (1 # 200).
Proof. pose proof (pround_bounds 100 x) as H. unfold round2. setoid_replace ((1#2) / inject_Z 100) with (1#200) in H by reflexivity. exact H. Qed.
Lemma round1_bounds x : x - (1 # 20) <= round1 x <= x + (1 # 20).
Proof. pose proof (pround_bounds 10 x) as H. unfold round1. setoid_replace ((1#2) / inject_Z 10) with (1#20) in H by reflexivity. exact H. Qed.

Lemma round_half_even_nonneg x : 0 <= x -> (0 <= round_half_even x)%Z.
Proof.
  intro H. unfold round_half_even.
  assert (Hf : (0 <= Qfloor x)%Z).
  { change 0%Z with (Qfloor 0). apply Qfloor_resp_le. exact H. }
  destruct (qlt _ _); [lia|]. destruct (qlt _ _); [lia|]. destruct (Z.even _); lia.
Qed.

Lemma pround_nonneg n x : 0 <= x -> 0 <= pround n x.
Proof.
  intro H. unfold pround.
  apply Qle_shift_div_l; [reflexivity|].
  rewrite Qmult_0_l. change 0 with (inject_Z 0). rewrite <- Zle_Qle.
  apply round_half_even_nonneg.
  apply Qmult_le_0_compat; [exact H|discriminate].
Qed.

Lemma foldM_app {A B} (f : A -> B -> res A) l1 l2 a :
  foldM f (l1 ++ l2) a = (x <- foldM f l1 a ;; foldM f l2 x).
Proof.
  revert a. induction l1 as [|x l1 IH]; intro a; cbn [foldM app bind]; [reflexivity|].
  destruct (f a x) as [a'|e]; cbn [bind]; [apply IH|reflexivity].
Qed.

(** Invariant rule for loops that may raise. *)
Lemma foldM_ind {A B} (f : A -> B -> res A) (P : A -> Prop) l a r :
  P a -> (forall a x a', In x l -> P a -> f a x = Ok a' -> P a') ->
  foldM f l a = Ok r -> P r.
Proof.
  revert a. induction l as [|x l IH]; intros a Ha Hs; cbn [foldM bind].
  - intros [= <-]. exact Ha.
  - destruct (f a x) as [a'|e] eqn:E; cbn [bind]; [|discriminate].
    apply IH.
    + apply (Hs a x); [left; reflexivity|exact Ha|exact E].
    + intros b y b' Hy. apply Hs. right; exact Hy.
Qed.

Lemma mapM_length {A B} (f : A -> res B) l r : mapM f l = Ok r -> length r = length l.
Proof.
  revert r. induction l as [|x l IH]; intros r; cbn [mapM bind].
  - intros [= <-]. reflexivity.
  - destruct (f x); cbn [bind]; [|discriminate].
    destruct (mapM f l) as [ys|]; cbn [bind]; [|discriminate].
    intros [= <-]. cbn. f_equal. apply IH. reflexivity.
Qed.

Lemma zrange_length a b : length (zrange a b) = Z.to_nat (b - a).
Proof. unfold zrange. rewrite map_length, seq_length. reflexivity. Qed.

Lemma zrange_In a b x : In x (zrange a b) <-> (a <= x < b)%Z.
Proof.
  unfold zrange. rewrite in_map_iff. split.
  - intros [i [<- Hi]]. apply in_seq in Hi. lia.
  - intros H. exists (Z.to_nat (x - a)). split; [lia|]. apply in_seq. lia.
Qed.

(** [range] with a positive step lists exactly the arithmetic progression below [b]. *)
Lemma zrange_step_pos a b s l :
  (0 < s)%Z -> zrange_step a b s = Ok l ->
  forall x, In x l <-> exists k, (0 <= k)%Z /\ (x = a + k * s)%Z /\ (x < b)%Z.
Proof.
  intros Hs E x. unfold zrange_step in E.
  destruct (Z.eqb_spec s 0); [lia|].
  destruct (Z.ltb_spec 0 s); [|lia].
  injection E as <-. rewrite in_map_iff. split.
  - intros [i [<- Hi]]. apply in_seq in Hi. exists (Z.of_nat i).
    split; [lia|]. split; [reflexivity|].
    set (q := ((b - a + s - 1) / s)%Z) in *.
    assert (Hq : (q * s <= b - a + s - 1)%Z) by (subst q; rewrite Z.mul_comm; apply Z.mul_div_le; lia).
    assert ((Z.of_nat i <= q - 1)%Z) by lia. nia.
  - intros [k [Hk [-> Hb]]]. exists (Z.to_nat k). split; [rewrite Z2Nat.id by lia; reflexivity|].
    apply in_seq. split; [lia|].
    assert (k < (b - a + s - 1) / s)%Z.
    { assert (k + 1 <= (b - a + s - 1) / s)%Z; [|lia].
      apply Z.div_le_lower_bound; nia. }
    lia.
Qed.

Lemma zrange_step_NoDup a b s l : (s <> 0)%Z -> zrange_step a b s = Ok l -> NoDup l.
Proof.
  intros Hs E. unfold zrange_step in E. destruct (Z.eqb_spec s 0); [lia|].
  injection E as <-. apply Injective_map_NoDup; [|apply seq_NoDup].
  intros i j H. nia.
Qed.

Lemma qsum_cons x l : qsum (x :: l) = x + qsum l.
Proof. reflexivity. Qed.
Lemma qsum_app l1 l2 : qsum (l1 ++ l2) == qsum l1 + qsum l2.
Proof.
  induction l1 as [|x l1 IH].
  - cbn [app]. change (qsum []) with 0. lra.
  - cbn [app]. rewrite !qsum_cons, IH. lra.
Qed.

Lemma last_cons_default {A} (x d : A) l : last (x :: l) d = last l x.
Proof. revert x d. induction l as [|y l IH]; intros x d; [reflexivity|]. change (last (x :: y :: l) d) with (last (y :: l) d). rewrite !IH. reflexivity. Qed.
