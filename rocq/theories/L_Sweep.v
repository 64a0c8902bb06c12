From Coq Require Import String Ascii Decimal DecimalN NArith Setoid.
From Verif Require Import Base BaseL M_Sweep S_Sweep L_Grid.
Open Scope string_scope.
Local Open Scope list_scope.

(** ** Sizes *)
Lemma zrange_step_total a b s : (s <> 0)%Z -> exists l, zrange_step a b s = Ok l.
Proof. intro H. unfold zrange_step. destruct (Z.eqb_spec s 0); [contradiction|]. eexists; reflexivity. Qed.
Definition stepped (a b lim step x : Z) : Prop :=
  (a = b /\ x = a) \/ (a <> b /\ exists k, (0 <= k)%Z /\ (x = a + k * step)%Z /\ (x < lim)%Z).
Lemma hp_sizes_spec p hs : (0 < hp_step p \/ hp_min p = hp_max p)%Z -> hp_sizes p = Ok hs ->
  NoDup hs /\ forall x, In x hs <-> stepped (hp_min p) (hp_max p) (hp_max p + hp_step p) (hp_step p) x.
Proof.
  intros Hs H. unfold hp_sizes in H. unfold stepped. destruct (Z.eqb_spec (hp_min p) (hp_max p)) as [E|E].
  - injection H as <-. split; [repeat constructor; intros []|]. intro x. cbn. intuition.
  - assert (0 < hp_step p)%Z by tauto. split; [eapply zrange_step_NoDup; [|exact H]; lia|].
    intro x. rewrite (zrange_step_pos _ _ _ _ ltac:(eassumption) H). intuition.
Qed.
Lemma ts_sizes_spec p ts : (0 < ts_step p \/ ts_min p = ts_max p)%Z -> ts_sizes p = Ok ts ->
  NoDup ts /\ forall x, In x ts <-> stepped (ts_min p) (ts_max p) (ts_max p + hp_step p) (ts_step p) x.
Proof.
  intros Hs H. unfold ts_sizes in H. unfold stepped. destruct (Z.eqb_spec (ts_min p) (ts_max p)) as [E|E].
  - injection H as <-. split; [repeat constructor; intros []|]. intro x. cbn. intuition.
  - assert (0 < ts_step p)%Z by tauto. split; [eapply zrange_step_NoDup; [|exact H]; lia|].
    intro x. rewrite (zrange_step_pos _ _ _ _ ltac:(eassumption) H). intuition.
Qed.
Lemma NoDup_app {A} (l1 l2 : list A) : NoDup l1 -> NoDup l2 -> (forall x, In x l1 -> In x l2 -> False) -> NoDup (l1 ++ l2).
Proof.
  induction 1 as [|x l1 Hx _ IH]; cbn; [auto|]. intros H2 D. constructor.
  - rewrite in_app_iff. intros [?|?]; [contradiction|]. apply (D x); [left; reflexivity|assumption].
  - apply IH; [assumption|]. intros y I1 I2. apply (D y); [right|]; assumption.
Qed.
Lemma NoDup_prod {A B} (l1 : list A) (l2 : list B) : NoDup l1 -> NoDup l2 -> NoDup (flat_map (fun h => map (fun t => (h, t)) l2) l1).
Proof.
  intros H1 H2. induction H1 as [|x l1 Hx _ IH]; cbn; [constructor|]. apply NoDup_app; [|exact IH|].
  - apply FinFun.Injective_map_NoDup; [|exact H2]. intros a b [=]. assumption.
  - intros [a b] I1 I2. apply in_map_iff in I1 as (t & [= <- <-] & _). apply in_flat_map in I2 as (y & Iy & I2).
    apply in_map_iff in I2 as (t' & [= -> _] & _). contradiction.
Qed.
Definition usable (p : sweep) : Prop :=
  (0 < hp_step p \/ hp_min p = hp_max p)%Z /\ (0 < ts_step p \/ ts_min p = ts_max p)%Z.
Lemma combos_total p : usable p -> exists cs, combos p = Ok cs.
Proof.
  intros [H1 H2]. unfold combos, hp_sizes, ts_sizes.
  destruct (Z.eqb_spec (hp_min p) (hp_max p)) as [E|E]; [|destruct (zrange_step_total (hp_min p) (hp_max p + hp_step p) (hp_step p)) as [? ->]; [lia|]];
  (destruct (Z.eqb_spec (ts_min p) (ts_max p)) as [E'|E']; [|destruct (zrange_step_total (ts_min p) (ts_max p + hp_step p) (ts_step p)) as [? ->]; [lia|]]);
  cbn [bind]; eexists; reflexivity.
Qed.
Lemma combos_spec p cs : usable p -> combos p = Ok cs ->
  NoDup cs /\ forall h t, In (h, t) cs <->
    stepped (hp_min p) (hp_max p) (hp_max p + hp_step p) (hp_step p) h /\
    stepped (ts_min p) (ts_max p) (ts_max p + hp_step p) (ts_step p) t.
Proof.
  intros [U1 U2] H. unfold combos in H. destruct (hp_sizes p) as [hs|] eqn:E1; cbn [bind] in H; [|discriminate].
  destruct (ts_sizes p) as [ts|] eqn:E2; cbn [bind] in H; [|discriminate]. injection H as <-.
  destruct (hp_sizes_spec p hs U1 E1) as [N1 S1]. destruct (ts_sizes_spec p ts U2 E2) as [N2 S2].
  split; [apply NoDup_prod; assumption|]. intros h t. rewrite <- S1, <- S2. rewrite in_flat_map. split.
  - intros (x & Ix & I). apply in_map_iff in I as (y & [= -> ->] & Iy). auto.
  - intros [Ih It]. exists h. split; [exact Ih|]. apply in_map. exact It.
Qed.
Lemma stepped_exact a b lim step x : (a <= b)%Z -> (a = b \/ 0 < step /\ (step | b - a) /\ b < lim <= b + step)%Z ->
  stepped a b lim step x <-> in_steps a b (if (a =? b)%Z then 1 else step)%Z x.
Proof.
  intros Hab H. unfold stepped, in_steps. destruct (Z.eqb_spec a b) as [->|N].
  - split.
    + intros [[_ ->]|[C _]]; [|congruence]. exists 0%Z. lia.
    + intros (k & Hk & E & L). left. lia.
  - destruct H as [C|(Hs & (m & Em) & Hl)]; [congruence|]. split.
    + intros [[C _]|[_ (k & Hk & E & L)]]; [congruence|]. exists k. split; [exact Hk|]. split; [exact E|].
      assert (k <= m)%Z by nia. nia.
    + intros (k & Hk & E & L). right. split; [exact N|]. exists k. split; [exact Hk|]. split; [exact E|]. lia.
Qed.
(** Conditions under which the sweep is the requested grid. *)
Definition regular (p : sweep) : Prop :=
  (hp_min p <= hp_max p)%Z /\ (ts_min p <= ts_max p)%Z /\
  (0 < hp_step p)%Z /\ (0 < ts_step p)%Z /\
  (hp_step p | hp_max p - hp_min p)%Z /\ (ts_step p | ts_max p - ts_min p)%Z /\
  (ts_min p = ts_max p \/ hp_step p <= ts_step p)%Z.
Lemma in_steps_single a step x : (0 < step)%Z -> in_steps a a 1 x <-> in_steps a a step x.
Proof.
  intro H. split; intros (k & Hk & E & L); exists 0%Z; (split; [lia|]); split; try lia; nia.
Qed.
Lemma combos_requested p cs : regular p -> combos p = Ok cs ->
  forall h t, In (h, t) cs <-> requested p (h, t).
Proof.
  intros (H1 & H2 & S1 & S2 & D1 & D2 & HT) H h t.
  rewrite (proj2 (combos_spec p cs (conj (or_introl S1) (or_introl S2)) H) h t).
  rewrite (stepped_exact (hp_min p) (hp_max p) _ _ h H1) by (destruct (Z.eq_dec (hp_min p) (hp_max p)); [left; assumption|right; repeat split; (assumption || lia)]).
  rewrite (stepped_exact (ts_min p) (ts_max p) _ _ t H2) by (destruct (Z.eq_dec (ts_min p) (ts_max p)); [left; assumption|right; repeat split; (assumption || lia)]).
  unfold requested. cbn [fst snd].
  destruct (Z.eqb_spec (hp_min p) (hp_max p)) as [E|]; [rewrite E, (in_steps_single _ (hp_step p)) by exact S1|];
  (destruct (Z.eqb_spec (ts_min p) (ts_max p)) as [E'|]; [rewrite E', (in_steps_single _ (ts_step p)) by exact S2|]); reflexivity.
Qed.
Lemma requested_ends p : regular p ->
  requested p (hp_min p, ts_min p) /\ requested p (hp_max p, ts_max p).
Proof.
  intros (H1 & H2 & S1 & S2 & (m & D1) & (n & D2) & _). unfold requested, in_steps; cbn [fst snd].
  split; split; [exists 0%Z|exists 0%Z|exists m|exists n]; repeat split; try lia; nia.
Qed.

(** ** Characters *)
Lemma code_inj a b : code a = code b -> a = b.
Proof. intro H. rewrite <- (ascii_N_embedding a), <- (ascii_N_embedding b). unfold code in H. congruence. Qed.
Lemma forall_ascii (P : ascii -> bool) : (forallb P (map ascii_of_nat (seq 0 256)) = true) -> forall c, P c = true.
Proof.
  intros H c. rewrite forallb_forall in H. apply H. rewrite <- (ascii_nat_embedding c). apply in_map. apply in_seq.
  pose proof (nat_ascii_bounded c). lia.
Qed.
Lemma is_space_spec c : is_space c = true <-> space c.
Proof.
  unfold is_space, space, code. set (n := N_of_ascii c). cbn [In]. split.
  - intro H. assert (E : (9 <= n <= 13 \/ 28 <= n <= 32 \/ n = 133 \/ n = 160)%N).
    { repeat rewrite Bool.orb_true_iff in H. repeat rewrite Bool.andb_true_iff in H. repeat rewrite N.leb_le in H. repeat rewrite N.eqb_eq in H. lia. }
    lia.
  - intro H. repeat rewrite Bool.orb_true_iff. repeat rewrite Bool.andb_true_iff. repeat rewrite N.leb_le. repeat rewrite N.eqb_eq. lia.
Qed.
Lemma digit_of_spec c d : digit_of c d <-> is_decimal c = true /\ digit_value c = Z.of_nat d.
Proof.
  unfold digit_of, is_decimal, digit_value. split.
  - intro H. do 10 (destruct d as [|d]; [cbn in H; injection H as <-; split; reflexivity|]).
    cbn in H. destruct d; discriminate.
  - rewrite Bool.andb_true_iff, !N.leb_le. intros [[A B] E].
    assert (Hc : c = ascii_of_N (48 + N.of_nat d)) by (apply code_inj; unfold code in *; rewrite N_ascii_embedding; lia).
    rewrite Hc. assert (L : (d < 10)%nat) by lia.
    do 10 (destruct d as [|d]; [reflexivity|]). lia.
Qed.
Lemma decimal_digit_of c : is_decimal c = true -> digit_of c (Z.to_nat (digit_value c)).
Proof.
  intro H. apply digit_of_spec. split; [exact H|]. rewrite Z2Nat.id; [reflexivity|]. unfold digit_value, is_decimal in *.
  apply andb_prop in H as [H _]. apply N.leb_le in H. lia.
Qed.
Lemma decimal_value_nonneg c : is_decimal c = true -> (0 <= digit_value c)%Z.
Proof. intro H. unfold digit_value, is_decimal in *. apply andb_prop in H as [H _]. apply N.leb_le in H. lia. Qed.
Lemma decimal_not_space c : is_decimal c = true -> is_space c = false.
Proof.
  intro H. pose proof (forall_ascii (fun c => implb (is_decimal c) (negb (is_space c))) eq_refl c) as E. cbn beta in E.
  rewrite H in E. cbn in E. destruct (is_space c); [discriminate|reflexivity].
Qed.
Lemma decimal_is_digit c : is_decimal c = true -> is_digit c = true.
Proof. intro H. unfold is_digit. rewrite H. reflexivity. Qed.
Lemma decimal_neq c a : is_decimal c = true -> is_decimal a = false -> Ascii.eqb c a = false.
Proof. intros H H'. destruct (Ascii.eqb_spec c a); [congruence|reflexivity]. Qed.

(** ** int() *)
Lemma digits_run s n t : digits s n -> int_digits (s ++ t) 0 false = int_digits t n true.
Proof.
  intro H. revert t. induction H as [c d Hc|s n c d Hs IH Hc|s n c d Hs IH Hc]; intro t; apply digit_of_spec in Hc as [Hc Hv].
  - cbn [app int_digits]. rewrite Hc, Hv. f_equal.
  - rewrite <- app_assoc, IH. cbn [app int_digits]. rewrite Hc, Hv. reflexivity.
  - rewrite <- app_assoc, IH. cbn [app int_digits]. rewrite Hc, Hv. reflexivity.
Qed.
Lemma run_digits s p acc b z :
  int_digits s acc b = Ok z ->
  (if b then digits p acc else (p = [] /\ acc = 0%Z) \/ exists p', p = p' ++ ["_"%char] /\ digits p' acc) ->
  digits (p ++ s) z.
Proof.
  revert p acc b. induction s as [|c s IH]; intros p acc b H Hp; cbn [int_digits] in H.
  - destruct b; [|discriminate]. injection H as <-. rewrite app_nil_r. exact Hp.
  - destruct (is_decimal c) eqn:Ec.
    + replace (p ++ c :: s) with ((p ++ [c]) ++ s) by (rewrite <- app_assoc; reflexivity). apply (IH _ _ _ H). cbn.
      pose proof (decimal_digit_of c Ec) as Hd. pose proof (decimal_value_nonneg c Ec) as Hn.
      replace (digit_value c) with (Z.of_nat (Z.to_nat (digit_value c))) by lia.
      destruct b.
      * apply digits_more; assumption.
      * destruct Hp as [[-> ->]|(p' & -> & Hp)].
        -- apply digits_one. exact Hd.
        -- rewrite <- app_assoc. apply digits_underscore; assumption.
    + destruct (Ascii.eqb_spec c "_"); cbn [andb] in H; [|discriminate]. subst c. destruct b; [|discriminate].
      replace (p ++ "_"%char :: s) with ((p ++ ["_"%char]) ++ s) by (rewrite <- app_assoc; reflexivity).
      apply (IH _ _ _ H). right. eauto.
Qed.
Lemma int_digits_spec s z : int_digits s 0 false = Ok z <-> digits s z.
Proof.
  split; intro H.
  - apply (run_digits s [] 0 false z H). left; auto.
  - pose proof (digits_run s z [] H) as E. rewrite app_nil_r in E. exact E.
Qed.
Lemma digits_ends s n : digits s n -> exists c s', s = c :: s' /\ is_decimal c = true /\ (exists s'' e, s = s'' ++ [e] /\ is_decimal e = true).
Proof.
  induction 1 as [c d Hc|s n c d Hs (c0 & s' & -> & H0 & _) Hc|s n c d Hs (c0 & s' & -> & H0 & _) Hc]; apply digit_of_spec in Hc as [Hc _].
  - exists c, []. repeat split; [exact Hc|]. exists [], c. auto.
  - exists c0, (s' ++ [c]). repeat split; [exact H0|]. exists (c0 :: s'), c. auto.
  - exists c0, (s' ++ ["_"%char; c]). repeat split; [exact H0|]. exists (c0 :: s' ++ ["_"%char]), c.
    split; [|exact Hc]. cbn. rewrite <- app_assoc. reflexivity.
Qed.
Lemma lstrip_split s : exists pre, s = pre ++ lstrip s /\ Forall space pre.
Proof.
  induction s as [|c s (pre & E & F)]; cbn; [exists []; auto|]. destruct (is_space c) eqn:Ec.
  - exists (c :: pre). split; [cbn; congruence|]. constructor; [apply is_space_spec, Ec|exact F].
  - exists []. auto.
Qed.
Lemma lstrip_skip pre s : Forall space pre -> lstrip (pre ++ s) = lstrip s.
Proof. induction 1 as [|c pre Hc _ IH]; cbn; [reflexivity|]. apply is_space_spec in Hc. rewrite Hc. exact IH. Qed.
Lemma lstrip_fix c s : is_space c = false -> lstrip (c :: s) = c :: s.
Proof. intro H. cbn. rewrite H. reflexivity. Qed.
Lemma strip_split s : exists pre post, s = pre ++ strip s ++ post /\ Forall space pre /\ Forall space post.
Proof.
  destruct (lstrip_split s) as (pre & E & F). destruct (lstrip_split (rev (lstrip s))) as (post & E' & F').
  exists pre, (rev post). split; [|split; [exact F|apply Forall_rev, F']].
  unfold strip. rewrite <- rev_app_distr, <- E', rev_involutive. exact E.
Qed.
Lemma strip_core pre c s e post : Forall space pre -> Forall space post -> is_space c = false ->
  (exists s'', c :: s = s'' ++ [e]) -> is_space e = false -> strip (pre ++ (c :: s) ++ post) = c :: s.
Proof.
  intros Fp Fq Hc (s'' & E) He. unfold strip. rewrite lstrip_skip by exact Fp. cbn [app]. rewrite lstrip_fix by exact Hc.
  rewrite app_comm_cons, rev_app_distr, lstrip_skip by (apply Forall_rev, Fq). rewrite E, rev_app_distr. cbn [rev app].
  rewrite lstrip_fix by exact He. cbn [rev]. rewrite rev_involutive. reflexivity.
Qed.
Lemma int_of_spec s z : int_of s = Ok z <-> literal s z.
Proof.
  split.
  - unfold int_of. destruct (strip_split s) as (pre & post & E & Fp & Fq). destruct (strip s) as [|c s'] eqn:Es; [discriminate|].
    destruct (Ascii.eqb_spec c "+"); [|destruct (Ascii.eqb_spec c "-")]; intro H.
    + apply int_digits_spec in H. subst c. exists pre, ["+"%char], s', post, z. repeat split; auto.
    + destruct (int_digits s' 0 false) as [n0|] eqn:En; cbn [bind] in H; [|discriminate]. injection H as <-.
      apply int_digits_spec in En. subst c. exists pre, ["-"%char], s', post, n0. repeat split; auto.
    + apply int_digits_spec in H. exists pre, [], (c :: s'), post, z. repeat split; auto.
  - intros (pre & sign & body & post & n & E & Fp & Fq & Hd & Hz). subst s.
    destruct (digits_ends body n Hd) as (c & s' & Eb & Hc & s'' & e & Ee & He).
    apply int_digits_spec in Hd. unfold int_of.
    destruct Hz as [[[->| ->] ->]|[-> ->]].
    + cbn [app]. rewrite Eb at 1. rewrite (strip_core pre c s' e post Fp Fq (decimal_not_space _ Hc)); [| |apply decimal_not_space, He].
      2:{ exists s''. congruence. }
      rewrite (decimal_neq c "+" Hc eq_refl), (decimal_neq c "-" Hc eq_refl). rewrite <- Eb. exact Hd.
    + change (["+"%char] ++ body ++ post) with (("+"%char :: body) ++ post).
      rewrite (strip_core pre "+"%char body e post Fp Fq eq_refl); [| |apply decimal_not_space, He].
      2:{ exists ("+"%char :: s''). cbn. congruence. }
      exact Hd.
    + change (["-"%char] ++ body ++ post) with (("-"%char :: body) ++ post).
      rewrite (strip_core pre "-"%char body e post Fp Fq eq_refl); [| |apply decimal_not_space, He].
      2:{ exists ("-"%char :: s''). cbn. congruence. }
      cbn. rewrite Hd. reflexivity.
Qed.
Lemma int_digits_err s acc b e : int_digits s acc b = Err e -> e = ValueError.
Proof.
  revert acc b. induction s as [|c s IH]; intros acc b; cbn [int_digits].
  - destruct b; congruence.
  - destruct (is_decimal c); [apply IH|]. destruct (_ && _)%bool; [apply IH|congruence].
Qed.
Lemma int_of_err s e : int_of s = Err e -> e = ValueError.
Proof.
  unfold int_of. destruct (strip s) as [|c s']; [congruence|]. destruct (Ascii.eqb _ _); [apply int_digits_err|].
  destruct (Ascii.eqb _ _); [|apply int_digits_err]. destruct (int_digits s' 0 false) eqn:E; cbn; [discriminate|].
  intro H. injection H as <-. eapply int_digits_err, E.
Qed.

(** ** str() of an integer *)
Definition horner (s : chars) (acc : Z) : Z := fold_left (fun a c => (10 * a + digit_value c)%Z) s acc.
Lemma int_digits_horner s acc b : Forall (fun c => is_decimal c = true) s -> s <> [] -> int_digits s acc b = Ok (horner s acc).
Proof.
  intros F. revert acc b. induction F as [|c s Hc F IH]; intros acc b N; [congruence|]. cbn [int_digits horner fold_left]. rewrite Hc.
  destruct s as [|c' s]; [reflexivity|]. apply IH. discriminate.
Qed.
Lemma uint_decimal u : Forall (fun c => is_decimal c = true) (uint_chars u).
Proof. induction u; cbn; constructor; (reflexivity || assumption). Qed.
Lemma horner_pos u p : horner (uint_chars u) (Z.pos p) = Z.pos (Pos.of_uint_acc u p).
Proof.
  unfold horner. revert p. induction u; intro p; cbn [uint_chars fold_left Pos.of_uint_acc]; [reflexivity| | | | | | | | | |];
  rewrite <- IHu; f_equal;
  match goal with |- context [digit_value ?c] => let v := eval vm_compute in (digit_value c) in change (digit_value c) with v end; lia.
Qed.
Lemma horner_uint u : horner (uint_chars u) 0 = Z.of_N (N.of_uint u).
Proof.
  unfold N.of_uint.
  induction u; cbn [uint_chars]; [reflexivity|exact IHu| | | | | | | | |];
  match goal with |- horner (?c :: ?s) 0 = _ => change (horner (c :: s) 0) with (horner s (10 * 0 + digit_value c)%Z) end;
  match goal with |- context [digit_value ?c] => let v := eval vm_compute in (digit_value c) in change (digit_value c) with v end;
  cbn [Z.mul Z.add Pos.of_uint Z.of_N]; rewrite horner_pos; reflexivity.
Qed.
Lemma uint_nonnil n : uint_chars (N.to_uint n) <> [].
Proof.
  intro E. assert (N.to_uint n = Nil).
  { destruct (N.to_uint n); cbn in E; try discriminate. reflexivity. }
  assert (n = 0%N). { rewrite <- (DecimalN.Unsigned.of_to n), H. reflexivity. } subst n. discriminate.
Qed.
Lemma digits_str n : digits (uint_chars (N.to_uint n)) (Z.of_N n).
Proof.
  apply int_digits_spec. rewrite int_digits_horner; [|apply uint_decimal|apply uint_nonnil].
  rewrite horner_uint, DecimalN.Unsigned.of_to. reflexivity.
Qed.
Lemma literal_str z : literal (str_int z) z.
Proof.
  unfold str_int. destruct (Z.ltb_spec z 0).
  - exists [], ["-"%char], (uint_chars (N.to_uint (Z.to_N (- z)))), [], (- z)%Z. rewrite app_nil_r.
    split; [reflexivity|]. split; [constructor|]. split; [constructor|]. split.
    + pose proof (digits_str (Z.to_N (- z))) as D. rewrite Z2N.id in D by lia. exact D.
    + right. split; [reflexivity|lia].
  - exists [], [], (uint_chars (N.to_uint (Z.to_N z))), [], z. rewrite app_nil_r.
    split; [reflexivity|]. split; [constructor|]. split; [constructor|]. split.
    + pose proof (digits_str (Z.to_N z)) as D. rewrite Z2N.id in D by lia. exact D.
    + auto.
Qed.
Lemma int_of_str z : int_of (str_int z) = Ok z.
Proof. apply int_of_spec, literal_str. Qed.
Lemma str_inj a b : str_int a = str_int b -> a = b.
Proof. intro H. pose proof (int_of_str a) as E. rewrite H, int_of_str in E. congruence. Qed.
Lemma str_chars z (P : ascii -> Prop) : (forall c, is_decimal c = true -> P c) -> P "-"%char -> Forall P (str_int z).
Proof.
  intros H Hm. unfold str_int.
  assert (F : forall u, Forall P (uint_chars u)) by (intro u; eapply Forall_impl; [|apply uint_decimal]; exact H).
  destruct (z <? 0)%Z; [constructor; [exact Hm|]|]; apply F.
Qed.
Lemma str_isdigit z : (0 <= z)%Z -> isdigit (str_int z) = true.
Proof.
  intro H. unfold str_int. destruct (Z.ltb_spec z 0); [lia|]. unfold isdigit. pose proof (uint_nonnil (Z.to_N z)) as N.
  pose proof (uint_decimal (N.to_uint (Z.to_N z))) as F.
  destruct (uint_chars _) as [|c0 s0]; [congruence|]. apply forallb_forall. intros c Ic.
  rewrite Forall_forall in F. apply decimal_is_digit, F, Ic.
Qed.

(** ** Splitting *)
Lemma split_on_nonnil sep s : split_on sep s <> [].
Proof. destruct s as [|c s]; cbn; [discriminate|]. destruct (Ascii.eqb c sep); [discriminate|]. destruct (split_on sep s); discriminate. Qed.
Lemma joined_cons sep p ps : ps <> [] -> joined sep (p :: ps) = p ++ sep :: joined sep ps.
Proof. destruct ps; [congruence|reflexivity]. Qed.
Lemma joined_split sep s : joined sep (split_on sep s) = s.
Proof.
  induction s as [|c s IH]; cbn [split_on]; [reflexivity|]. destruct (Ascii.eqb_spec c sep) as [->|N].
  - rewrite joined_cons by apply split_on_nonnil. cbn. congruence.
  - pose proof (split_on_nonnil sep s). destruct (split_on sep s) as [|w ws]; [congruence|].
    destruct ws as [|w' ws]; cbn in *; congruence.
Qed.
Lemma split_free sep s : Forall (fun w => ~ In sep w) (split_on sep s).
Proof.
  induction s as [|c s IH]; cbn [split_on]; [repeat constructor; intros []|]. destruct (Ascii.eqb_spec c sep) as [->|N].
  - constructor; [intros []|exact IH].
  - destruct (split_on sep s) as [|w ws]; [repeat constructor; intros [?|[]]; congruence|].
    inversion IH; subst. constructor; [|assumption]. intros [?|?]; [congruence|contradiction].
Qed.
Lemma split_app sep w s : ~ In sep w ->
  split_on sep (w ++ s) = match split_on sep s with v :: vs => (w ++ v) :: vs | [] => [] end.
Proof.
  induction w as [|c w IH]; intro N; cbn [app split_on].
  - pose proof (split_on_nonnil sep s). destruct (split_on sep s); [congruence|reflexivity].
  - destruct (Ascii.eqb_spec c sep) as [->|Hc]; [exfalso; apply N; left; reflexivity|].
    rewrite IH by (intro I; apply N; right; exact I). pose proof (split_on_nonnil sep s). destruct (split_on sep s); [congruence|reflexivity].
Qed.
Lemma split_joined sep ps : ps <> [] -> Forall (fun w => ~ In sep w) ps -> split_on sep (joined sep ps) = ps.
Proof.
  intros N F. induction F as [|p ps Hp F IH]; [congruence|]. destruct ps as [|q ps].
  - cbn [joined]. rewrite <- (app_nil_r p), split_app by exact Hp. cbn. reflexivity.
  - rewrite joined_cons by discriminate. rewrite split_app by exact Hp. cbn [split_on]. rewrite Ascii.eqb_refl.
    rewrite IH by discriminate. rewrite app_nil_r. reflexivity.
Qed.

(** ** Order strings *)
Lemma mapM_Forall2 {A B} (f : A -> res B) (R : A -> B -> Prop) l r :
  (forall x y, f x = Ok y <-> R x y) -> mapM f l = Ok r <-> Forall2 R l r.
Proof.
  intro H. revert r. induction l as [|x l IH]; intro r; cbn [mapM].
  - split; [intros [= <-]; constructor|inversion 1; reflexivity].
  - destruct (f x) as [y|] eqn:E; cbn [bind].
    + destruct (mapM f l) as [ys|] eqn:Em; cbn [bind].
      * split.
        -- intros [= <-]. constructor; [apply H, E|apply IH; reflexivity].
        -- intro F. inversion F as [|? z ? zs Hz Hzs]; subst. apply H in Hz. apply IH in Hzs. congruence.
      * split; [discriminate|]. intro F. inversion F as [|? z ? zs Hz Hzs]; subst. apply IH in Hzs. discriminate.
    + split; [discriminate|]. intro F. inversion F as [|? z ? zs Hz Hzs]; subst. apply H in Hz. congruence.
Qed.
Lemma mapM_err {A B} (f : A -> res B) l e : mapM f l = Err e -> exists x, In x l /\ f x = Err e.
Proof.
  induction l as [|x l IH]; cbn [mapM]; [discriminate|]. destruct (f x) as [y|e'] eqn:E; cbn [bind].
  - destruct (mapM f l); cbn [bind]; [discriminate|]. intro H. injection H as ->. destruct IH as (x' & I & Ex); [reflexivity|].
    exists x'. split; [right; exact I|exact Ex].
  - intro H. injection H as ->. exists x. split; [left; reflexivity|exact E].
Qed.
Lemma read_order_spec s l : read_order (Text s) = Ok l <->
  exists pieces, pieces <> [] /\ s = joined "," pieces /\ Forall (fun w => ~ In ","%char w) pieces /\ Forall2 literal pieces l.
Proof.
  cbn [read_order]. rewrite (mapM_Forall2 _ literal) by (intros; apply int_of_spec). split.
  - intro H. exists (split_on "," s). split; [apply split_on_nonnil|]. rewrite joined_split. split; [reflexivity|]. split; [apply split_free|exact H].
  - intros (ps & N & -> & F & H). rewrite split_joined by assumption. exact H.
Qed.
Lemma read_order_rejects s : (forall l, ~ exists pieces, pieces <> [] /\ s = joined "," pieces /\ Forall (fun w => ~ In ","%char w) pieces /\ Forall2 literal pieces l) ->
  read_order (Text s) = Err ValueError.
Proof.
  intro H. destruct (read_order (Text s)) as [l|e] eqn:E.
  - exfalso. apply (H l). apply read_order_spec, E.
  - cbn [read_order] in E. apply mapM_err in E as (x & _ & Ex). f_equal. eapply int_of_err, Ex.
Qed.
Lemma str_no z c : is_decimal c = false -> c <> "-"%char -> ~ In c (str_int z).
Proof.
  intros Hc Hm I. pose proof (str_chars z (fun x => x <> c)) as F. rewrite Forall_forall in F.
  apply (F ltac:(intros; congruence) ltac:(congruence) c I eq_refl).
Qed.
Lemma read_order_written l : l <> [] -> read_order (Text (joined "," (map str_int l))) = Ok l.
Proof.
  intro N. apply read_order_spec. exists (map str_int l). split; [destruct l; [congruence|discriminate]|]. split; [reflexivity|]. split.
  - apply Forall_forall. intros w Iw. apply in_map_iff in Iw as (z & <- & _). apply str_no; [reflexivity|discriminate].
  - clear N. induction l; cbn; constructor; [apply literal_str|assumption].
Qed.

(** ** Folder names *)
Lemma folder_split hp ts : ~ In "_"%char hp -> ~ In "_"%char ts ->
  split_on "_" (folder_text hp ts) = [chars_of "hp"; hp; chars_of "ts"; ts].
Proof.
  intros H1 H2. replace (folder_text hp ts) with (joined "_" [chars_of "hp"; hp; chars_of "ts"; ts]).
  - apply split_joined; [discriminate|]. repeat constructor; try assumption; cbn; intuition discriminate.
  - unfold folder_text. cbn. reflexivity.
Qed.
Lemma folder_name_inj c c' : folder_name c = folder_name c' -> c = c'.
Proof.
  intro H. unfold folder_name in H.
  assert (N : forall z, ~ In "_"%char (str_int z)) by (intro z; apply str_no; [reflexivity|discriminate]).
  pose proof (folder_split _ _ (N (fst c)) (N (snd c))) as E. rewrite H, folder_split in E by apply N.
  injection E as E1 E2. apply str_inj in E1. apply str_inj in E2. destruct c, c'; cbn in *; congruence.
Qed.
Lemma folder_not_other c : folder_name c <> chars_of "KPIs" /\ pkl_name (folder_name c) <> inputs_pkl.
Proof. split; unfold pkl_name, folder_name, folder_text, inputs_pkl; cbn; intro H; discriminate H. Qed.
Lemma split_ws_word w cur s : Forall (fun c => is_space c = false) w -> split_ws cur (w ++ s) = split_ws (rev w ++ cur) s.
Proof.
  intro F. revert cur. induction F as [|c w Hc F IH]; intro cur; [reflexivity|]. cbn [app split_ws rev]. rewrite Hc, IH, <- app_assoc. reflexivity.
Qed.
Lemma split_ws_flush cur s : cur <> [] -> split_ws cur (" "%char :: s) = rev cur :: split_ws [] s.
Proof. intro N. cbn [split_ws]. change (is_space " ") with true. cbv iota. destruct cur; [congruence|reflexivity]. Qed.
Lemma replace_app a b s t : replace a b (s ++ t) = replace a b s ++ replace a b t.
Proof. apply map_app. Qed.
Lemma replace_free a b s : ~ In a s -> replace a b s = s.
Proof.
  intro N. unfold replace. rewrite <- (map_id s) at 2. apply map_ext_in. intros c Ic. destruct (Ascii.eqb_spec c a); [congruence|reflexivity].
Qed.
(** Words that survive [split()] unchanged. *)
Definition word (w : chars) : Prop := w <> [] /\ ~ In "_"%char w /\ Forall (fun c => is_space c = false) w.
Lemma words_in_folder hp ts : word hp -> word ts ->
  split_ws [] (replace "_" " " (folder_text hp ts)) = [chars_of "hp"; hp; chars_of "ts"; ts].
Proof.
  intros (N1 & U1 & S1) (N2 & U2 & S2). unfold folder_text. rewrite !replace_app, (replace_free _ _ hp U1), (replace_free _ _ ts U2).
  change (replace "_" " " (chars_of "hp_")) with (chars_of "hp" ++ [" "%char]).
  change (replace "_" " " (chars_of "_ts_")) with (" "%char :: chars_of "ts" ++ [" "%char]).
  rewrite <- app_assoc, split_ws_word by (repeat constructor). cbn [app]. rewrite split_ws_flush by (cbn; discriminate).
  rewrite app_nil_r, rev_involutive. f_equal. rewrite split_ws_word by exact S1. rewrite app_nil_r.
  rewrite split_ws_flush by (intro E; apply (f_equal (@rev _)) in E; rewrite rev_involutive in E; cbn in E; congruence).
  rewrite rev_involutive. f_equal. rewrite <- app_assoc, split_ws_word by (repeat constructor). cbn [app].
  rewrite split_ws_flush by (cbn; discriminate). rewrite app_nil_r, rev_involutive. f_equal.
  rewrite <- (app_nil_r ts) at 1. rewrite split_ws_word by exact S2. rewrite app_nil_r. cbn [split_ws].
  destruct (rev ts) as [|c r] eqn:E; [|rewrite <- E, rev_involutive; reflexivity].
  apply (f_equal (@rev _)) in E. rewrite rev_involutive in E. cbn in E. congruence.
Qed.
Lemma str_word z : word (str_int z).
Proof.
  split; [|split].
  - unfold str_int. destruct (z <? 0)%Z; [discriminate|apply uint_nonnil].
  - apply str_no; [reflexivity|discriminate].
  - apply str_chars; [apply decimal_not_space|reflexivity].
Qed.
Lemma numbers_in_folder c : (0 <= fst c)%Z -> (0 <= snd c)%Z -> numbers_in (folder_name c) = Ok [fst c; snd c].
Proof.
  intros H1 H2. unfold numbers_in, folder_name. rewrite words_in_folder by apply str_word.
  cbn [filter]. change (isdigit (chars_of "hp")) with false. change (isdigit (chars_of "ts")) with false.
  rewrite !str_isdigit by assumption. cbn [mapM]. rewrite !int_of_str. reflexivity.
Qed.
Lemma numbers_skip hp ts : word hp -> isdigit hp = false -> (0 <= ts)%Z ->
  numbers_in (folder_text hp (str_int ts)) = Ok [ts].
Proof.
  intros W D H. unfold numbers_in. rewrite words_in_folder by (assumption || apply str_word).
  cbn [filter]. change (isdigit (chars_of "hp")) with false. change (isdigit (chars_of "ts")) with false.
  rewrite D, str_isdigit by assumption. cbn [mapM]. rewrite int_of_str. reflexivity.
Qed.

(** ** Inputs of the combinations *)
Section Pickles.
Variable rest : Type.
Local Notation inputs := (inputs rest).
Lemma scale_spec c (x y : inputs) : scale_inputs rest c x = Ok y ->
  exists capacity, hd_error (hp_capacity _ x) = Some capacity /\
    resized c (if qeq capacity 0 then 0 else round2 (inject_Z (fst c) / capacity)) x y.
Proof.
  unfold scale_inputs. destruct (hp_capacity rest x) as [|cap l] eqn:E; [discriminate|]. intro H. injection H as <-.
  exists cap. split; [reflexivity|]. unfold resized. cbn. rewrite E.
  assert (S : forall r l', Forall2 (fun d d' => d' == d * r) l' (map (fun d => d * r) l')) by (induction l'; cbn; constructor; [reflexivity|assumption]).
  repeat split; try apply S; destruct (ts_capacity rest x); reflexivity.
Qed.
Lemma list_eq_dec_refl (n : chars) (a b : option inputs) : (if list_eq_dec ascii_dec n n then a else b) = a.
Proof. destruct (list_eq_dec ascii_dec n n); [reflexivity|congruence]. Qed.
Lemma pkl_inj c c' : pkl_name (folder_name c) = pkl_name (folder_name c') -> c = c'.
Proof. unfold pkl_name. intro H. apply app_inv_tail in H. apply folder_name_inj, H. Qed.
Lemma pickles_spec cs : forall f f' x, f inputs_pkl = Some x -> create_pickles rest f cs = Ok f' ->
  f' inputs_pkl = Some x /\
  (forall c, In c cs -> exists y, scale_inputs rest c x = Ok y /\ f' (pkl_name (folder_name c)) = Some y) /\
  (forall n, (forall c, In c cs -> n <> pkl_name (folder_name c)) -> f' n = f n).
Proof.
  unfold create_pickles. induction cs as [|c cs IH]; intros f f' x Hx H; cbn [foldM] in H.
  - injection H as <-. repeat split; [exact Hx|intros c []].
  - unfold create_pickle at 1 in H. rewrite Hx in H. destruct (scale_inputs rest c x) as [y|] eqn:Ey; cbn [bind] in H; [|discriminate].
    assert (Hx' : write_file rest (pkl_name (folder_name c)) y f inputs_pkl = Some x).
    { unfold write_file. destruct (list_eq_dec _ _ _) as [E|_]; [|exact Hx]. symmetry in E. apply folder_not_other in E. destruct E. }
    destruct (IH _ _ _ Hx' H) as (A & B & C). split; [exact A|]. split.
    + intros c' [<-|I]; [|apply B, I].
      destruct (in_dec (fun a b : Z * Z => ltac:(decide equality; apply Z.eq_dec)) c cs) as [I|N]; [apply B, I|].
      exists y. split; [exact Ey|]. rewrite C.
      * unfold write_file. apply list_eq_dec_refl.
      * intros c' I E. apply pkl_inj in E. congruence.
    + intros n Hn. rewrite C by (intros c' I; apply Hn; right; exact I).
      unfold write_file. destruct (list_eq_dec _ _ _) as [E|_]; [|reflexivity]. exfalso. apply (Hn c (or_introl eq_refl) E).
Qed.
Lemma pickles_total cs : forall f x cap l, f inputs_pkl = Some x -> hp_capacity _ x = cap :: l -> exists f', create_pickles rest f cs = Ok f'.
Proof.
  unfold create_pickles. induction cs as [|c cs IH]; intros f x cap l Hx Hc; cbn [foldM]; [eexists; reflexivity|].
  unfold create_pickle at 1. rewrite Hx. unfold scale_inputs. rewrite Hc. cbn [bind]. eapply IH; [|exact Hc].
  unfold write_file. destruct (list_eq_dec _ _ _) as [E|_]; [|exact Hx]. symmetry in E. apply folder_not_other in E. destruct E.
Qed.
End Pickles.
