(** Lemmas on the demand profiles. *)
From Coq Require Import String Setoid.
From Verif Require Import Base BaseL M_Kpi S_Kpi M_Demand S_Demand L_Grid L_FixedOrderRun.

(** ** Lists *)
Lemma at_nth_error y h : (h < length y)%nat -> nth_error y h = Some (at_ y h).
Proof. intro H. apply nth_error_nth'. exact H. Qed.
Lemma skipn_at (y : list Q) h : (h < length y)%nat -> skipn h y = at_ y h :: skipn (S h) y.
Proof.
  revert h. induction y as [|a y IH]; intros h H; [cbn in H; lia|].
  destruct h as [|h]; [reflexivity|]. cbn [skipn]. rewrite IH by (cbn in H; lia). reflexivity.
Qed.
Lemma firstn_skipn_at (y : list Q) w h : (h + w <= length y)%nat ->
  firstn w (skipn h y) = map (at_ y) (seq h w).
Proof.
  revert h. induction w as [|w IH]; intros h H; [reflexivity|].
  rewrite skipn_at by lia. cbn [firstn seq map]. rewrite IH by lia. reflexivity.
Qed.

(** Mean of [w] hours from [k]. *)
Definition gmean (w : nat) (y : list Q) (k : nat) : Q := qsum (map (at_ y) (seq k w)) / inject_Z (Z.of_nat w).
Lemma gmean4 y k : gmean 4 y k == mean4 y (k + 3).
Proof.
  unfold gmean, mean4. cbn [seq map qsum fold_right]. change (inject_Z (Z.of_nat 4)) with 4.
  replace (k + 3 - 3)%nat with k by lia. replace (k + 3 - 2)%nat with (S k) by lia.
  replace (k + 3 - 1)%nat with (S (S k)) by lia. replace (k + 3)%nat with (S (S (S k))) by lia.
  field.
Qed.
Lemma gmean7 y k : gmean 7 y k == mean7 y (k + 6).
Proof.
  unfold gmean, mean7. cbn [seq map qsum fold_right]. change (inject_Z (Z.of_nat 7)) with 7.
  replace (k + 6 - 6)%nat with k by lia. replace (k + 6 - 5)%nat with (S k) by lia.
  replace (k + 6 - 4)%nat with (S (S k)) by lia. replace (k + 6 - 3)%nat with (S (S (S k))) by lia.
  replace (k + 6 - 2)%nat with (S (S (S (S k)))) by lia. replace (k + 6 - 1)%nat with (S (S (S (S (S k))))) by lia.
  replace (k + 6)%nat with (S (S (S (S (S (S k)))))) by lia. field.
Qed.
Lemma gmean_ext w y y' k k' : (forall i, (i < w)%nat -> at_ y (k + i) == at_ y' (k' + i)) -> gmean w y k == gmean w y' k'.
Proof.
  intro H. unfold gmean. apply Qdiv_comp; [|reflexivity].
  revert k k' H. induction w as [|w IH]; intros k k' H; [reflexivity|]. cbn [seq map qsum fold_right].
  pose proof (H 0%nat ltac:(lia)) as H0. rewrite !Nat.add_0_r in H0.
  rewrite H0. pose proof (IH (S k) (S k')) as IHk. unfold qsum in IHk. rewrite IHk; [reflexivity|].
  intros i Hi. specialize (H (S i) ltac:(lia)). rewrite !Nat.add_succ_r in H. exact H.
Qed.
Lemma sum_bounds (f : nat -> Q) lo hi (l : list nat) : (forall i, In i l -> lo <= f i <= hi) ->
  lo * inject_Z (Z.of_nat (length l)) <= qsum (map f l) <= hi * inject_Z (Z.of_nat (length l)).
Proof.
  induction l as [|i l IH]; intro H; [change (inject_Z (Z.of_nat (length (@nil nat)))) with 0; cbn [map qsum fold_right]; lra|].
  cbn [length map qsum fold_right]. rewrite Nat2Z.inj_succ. unfold Z.succ. rewrite inject_Z_plus.
  pose proof (H i ltac:(left; reflexivity)). specialize (IH ltac:(intros; apply H; right; assumption)).
  unfold qsum in IH. change (inject_Z 1) with 1. lra.
Qed.
Lemma gmean_bounds w y k lo hi : (0 < w)%nat -> (forall i, (k <= i < k + w)%nat -> lo <= at_ y i <= hi) ->
  lo <= gmean w y k <= hi.
Proof.
  intros Hw H. unfold gmean.
  pose proof (sum_bounds (at_ y) lo hi (seq k w)) as B. rewrite seq_length in B.
  assert (Hp : 0 < inject_Z (Z.of_nat w)) by (change 0 with (inject_Z 0); rewrite <- Zlt_Qlt; lia).
  destruct B as [B1 B2]; [intros i Hi; apply in_seq in Hi; apply H; lia|].
  split; [apply Qle_shift_div_l | apply Qle_shift_div_r]; assumption.
Qed.

(** ** The moving average *)
Lemma movingaverage_ok y w : (1 <= w <= length y)%nat ->
  movingaverage y w = Ok (map (gmean w y) (seq 0 (length y - w + 1))).
Proof.
  intros H. unfold movingaverage. destruct (Nat.eqb_spec (length y) 0) as [E|_]; [lia|].
  destruct (Nat.leb_spec w (length y)) as [_|E]; [|lia]. f_equal. apply map_ext_in.
  intros k Hk. apply in_seq in Hk. unfold gmean. rewrite firstn_skipn_at by lia. reflexivity.
Qed.

Lemma fold_pmax_spec l x : let m := fold_left pmax l x in
  x <= m /\ (forall y, In y l -> y <= m) /\ (m == x \/ exists y, In y l /\ y == m).
Proof.
  cbv zeta. revert x. induction l as [|y l IH]; intro x; cbn [fold_left].
  - split; [lra|]. split; [intros ? []|]. left. reflexivity.
  - destruct (IH (pmax x y)) as (H1 & H2 & H3).
    assert (Hx : x <= pmax x y /\ y <= pmax x y /\ (pmax x y == x \/ pmax x y == y)).
    { unfold pmax. destruct (qlt_spec x y); repeat split; try lra; auto; (left; reflexivity) || (right; reflexivity). }
    destruct Hx as (Hx & Hy & Hc). split; [lra|]. split.
    + intros z [<-|Hz]; [lra|apply H2; exact Hz].
    + destruct H3 as [H3|(z & Hz & Ez)].
      * destruct Hc as [Hc|Hc]; [left; lra|]. right. exists y. split; [left; reflexivity|]. lra.
      * right. exists z. split; [right; exact Hz|exact Ez].
Qed.
Lemma amax_spec l m : amax l = Ok m -> (forall y, In y l -> y <= m) /\ exists y, In y l /\ y == m.
Proof.
  destruct l as [|x l]; [discriminate|]. cbn [amax]. intro H.
  assert (E : pmax_list x l = m) by congruence. unfold pmax_list in E. subst m.
  destruct (fold_pmax_spec l x) as (H1 & H2 & H3). split.
  - intros y [<-|Hy]; [exact H1|apply H2; exact Hy].
  - destruct H3 as [H3|(y & Hy & Ey)]; [exists x|exists y]; (split; [|lra]); [left; reflexivity|right; exact Hy].
Qed.
Lemma amax_total l : l <> [] -> exists m, amax l = Ok m.
Proof. destruct l; [congruence|]. intros _. eexists. reflexivity. Qed.
Lemma amax_series y m : amax y = Ok m -> highest (at_ y) 0 (length y) m.
Proof.
  intro H. apply amax_spec in H as (H1 & x & Hx & Ex). split.
  - apply In_nth with (d := 0) in Hx as (h & Hh & Eh). exists h. split; [lia|]. unfold at_. rewrite Eh. exact Ex.
  - intros h Hh. apply H1. apply nth_In. lia.
Qed.
Lemma amax_map f n m : amax (map f (seq 0 n)) = Ok m -> highest f 0 n m.
Proof.
  intro H. apply amax_spec in H as (H1 & x & Hx & Ex). split.
  - apply in_map_iff in Hx as (h & Eh & Hh). apply in_seq in Hh. exists h. split; [lia|]. rewrite Eh. exact Ex.
  - intros h Hh. apply H1. apply in_map. apply in_seq. lia.
Qed.
Lemma highest_shift f g a b s m : (forall k, f k == g (k + s)%nat) -> highest f a b m -> highest g (a + s) (b + s) m.
Proof.
  intros E [(h & Hh & Eh) H2]. split.
  - exists (h + s)%nat. split; [lia|]. rewrite <- E. exact Eh.
  - intros k Hk. replace k with (k - s + s)%nat by lia. rewrite <- E. apply H2. lia.
Qed.
Lemma highest_unique f a b m m' : highest f a b m -> highest f a b m' -> m == m'.
Proof. intros [(h & Hh & Eh) U] [(h' & Hh' & Eh') U']. specialize (U h' Hh'). specialize (U' h Hh). lra. Qed.

(** ** Insertion *)
Lemma insert_nth {A} (a b : list A) h : (1 <= length a)%nat ->
  nth_error (insert_at_1 a b) h =
  if Nat.eqb h 0 then nth_error a 0
  else if Nat.leb h (length b) then nth_error b (h - 1) else nth_error a (h - length b).
Proof.
  intros Ha. destruct a as [|x a]; [cbn in Ha; lia|]. unfold insert_at_1.
  destruct (Nat.eqb_spec h 0) as [->|Hh]; [reflexivity|].
  destruct h as [|h]; [lia|]. cbn [firstn skipn app nth_error].
  replace (S h - 1)%nat with h by lia.
  destruct (Nat.leb_spec (S h) (length b)).
  - rewrite nth_error_app1 by lia. reflexivity.
  - rewrite nth_error_app2 by lia. replace (S h - length b)%nat with (S (h - length b)) by lia. reflexivity.
Qed.
Lemma insert_length {A} (a b : list A) : length (insert_at_1 a b) = (length a + length b)%nat.
Proof. destruct a; unfold insert_at_1; cbn [firstn skipn app length]; rewrite !app_length; cbn; lia. Qed.

Lemma num_eq_refl x : num_eq x x.
Proof. destruct x; cbn; [reflexivity|exact I]. Qed.

(** ** The smoothed series: window [w], the [w - 1] values [ins] inserted after the first. *)
Definition smoothed (w : nat) (y ins : list Q) : res (list num) :=
  yMA <- movingaverage y w ;;
  yMA_max <- amax yMA ;;
  y_max <- amax y ;;
  Ok (insert_at_1 (map Fin yMA) (map (scale (ndiv y_max yMA_max)) ins)).

Lemma smoothed_values w y ins : (1 <= w <= length y)%nat -> S (length ins) = w ->
  exists out p m, smoothed w y ins = Ok out /\ length out = length y /\
    highest (at_ y) 0 (length y) p /\ highest (gmean w y) 0 (length y - w + 1) m /\
    (shows out 0 (Fin (gmean w y 0))) /\
    (forall h, (w <= h < length y)%nat -> shows out h (Fin (gmean w y (h - (w - 1))))) /\
    (forall h, (1 <= h < w)%nat -> ~ m == 0 -> shows out h (Fin (p / m * at_ ins (h - 1)))) /\
    (forall h, (1 <= h < w)%nat -> m == 0 -> shows out h NotFinite).
Proof.
  intros Hw Hi. unfold smoothed. rewrite movingaverage_ok by exact Hw. cbn [bind].
  set (MA := map (gmean w y) (seq 0 (length y - w + 1))).
  assert (LMA : length MA = (length y - w + 1)%nat) by (unfold MA; rewrite map_length, seq_length; reflexivity).
  destruct (amax_total MA) as [m Hm]; [intro E; rewrite E in LMA; cbn in LMA; lia|]. rewrite Hm. cbn [bind].
  destruct (amax_total y) as [p Hp]; [intro E; rewrite E in Hw; cbn in Hw; lia|]. rewrite Hp. cbn [bind].
  assert (LF : length (map Fin MA) = length MA) by apply map_length.
  assert (LI : length (map (scale (ndiv p m)) ins) = length ins) by apply map_length.
  eexists. exists p, m. split; [reflexivity|].
  split; [rewrite insert_length, LF, LI, LMA; lia|].
  split; [exact (amax_series y p Hp)|]. split; [exact (amax_map _ _ _ Hm)|].
  assert (NMA : forall k, (k < length y - w + 1)%nat -> nth_error (map Fin MA) k = Some (Fin (gmean w y k))).
  { intros k Hk. unfold MA. rewrite map_map, nth_error_map, nth_error_seq by lia. reflexivity. }
  assert (NI : forall k, (k < length ins)%nat ->
    nth_error (map (scale (ndiv p m)) ins) k = Some (scale (ndiv p m) (at_ ins k))).
  { intros k Hk. rewrite nth_error_map, at_nth_error by exact Hk. reflexivity. }
  repeat split.
  - eexists. rewrite insert_nth by (rewrite LF, LMA; lia). cbn [Nat.eqb]. rewrite NMA by lia.
    split; [reflexivity|apply num_eq_refl].
  - intros h Hh. eexists. rewrite insert_nth by (rewrite LF, LMA; lia).
    destruct (Nat.eqb_spec h 0); [lia|]. rewrite LI. destruct (Nat.leb_spec h (length ins)); [lia|].
    rewrite NMA by lia. split; [reflexivity|]. replace (h - length ins)%nat with (h - (w - 1))%nat by lia. apply num_eq_refl.
  - intros h Hh Nm. eexists. rewrite insert_nth by (rewrite LF, LMA; lia).
    destruct (Nat.eqb_spec h 0); [lia|]. rewrite LI. destruct (Nat.leb_spec h (length ins)); [|lia].
    rewrite NI by lia. split; [reflexivity|]. unfold ndiv. destruct (qeq_spec m 0); [contradiction|]. cbn. reflexivity.
  - intros h Hh Em. eexists. rewrite insert_nth by (rewrite LF, LMA; lia).
    destruct (Nat.eqb_spec h 0); [lia|]. rewrite LI. destruct (Nat.leb_spec h (length ins)); [|lia].
    rewrite NI by lia. split; [reflexivity|]. unfold ndiv. destruct (qeq_spec m 0); [exact I|contradiction].
Qed.

Lemma smooth_heat_eq y : smooth_heat y = smoothed 4 y (firstn 3 y).
Proof. reflexivity. Qed.
Lemma at_firstn n y h : (h < n)%nat -> at_ (firstn n y) h = at_ y h.
Proof.
  revert y h. induction n as [|n IH]; intros y h H; [lia|]. destruct y as [|a y]; [destruct h; reflexivity|].
  destruct h as [|h]; [reflexivity|]. unfold at_ in *. cbn. apply IH. lia.
Qed.
Lemma smooth_elec_eq y : (7 <= length y)%nat ->
  smooth_elec y = smoothed 7 y (firstn 6 (map (gmean 7 y) (seq 0 (length y - 7 + 1)))).
Proof. intro H. unfold smooth_elec, smoothed. rewrite movingaverage_ok by lia. reflexivity. Qed.

Lemma elec_inserted_length y : (12 <= length y)%nat ->
  length (firstn 6 (map (gmean 7 y) (seq 0 (length y - 7 + 1)))) = 6%nat.
Proof. intro H. rewrite firstn_length, map_length, seq_length. lia. Qed.
Lemma elec_inserted y h : (12 <= length y)%nat -> (h < 6)%nat ->
  at_ (firstn 6 (map (gmean 7 y) (seq 0 (length y - 7 + 1)))) h = gmean 7 y h.
Proof.
  intros H Hh. rewrite at_firstn by exact Hh. unfold at_.
  rewrite (nth_indep _ 0 (gmean 7 y 0)) by (rewrite map_length, seq_length; lia).
  rewrite map_nth, seq_nth by lia. reflexivity.
Qed.

Lemma bounded_mean w lo hi y k : (1 <= w)%nat -> bounded lo hi y -> (k + w <= length y)%nat -> lo <= gmean w y k <= hi.
Proof. intros Hw H Hk. apply gmean_bounds; [lia|]. intros i Hi. apply H. lia. Qed.

Lemma shows_within out h q lo hi : shows out h (Fin q) -> lo <= q <= hi ->
  exists x, nth_error out h = Some x /\ within lo hi x.
Proof.
  intros (x & E & H) B. exists x. split; [exact E|]. destruct x as [r|]; [|contradiction H]. cbn in H.
  exists r. split; [reflexivity|]. lra.
Qed.

Lemma sum_nonneg (f : nat -> Q) l : (forall i, In i l -> 0 <= f i) -> 0 <= qsum (map f l).
Proof.
  induction l as [|j l IH]; intro H; cbn [map qsum fold_right]; [lra|].
  pose proof (H j (or_introl eq_refl)). specialize (IH (fun i Hi => H i (or_intror Hi))). unfold qsum in IH. lra.
Qed.
Lemma sum_ge_member (f : nat -> Q) l i : (forall i, In i l -> 0 <= f i) -> In i l -> f i <= qsum (map f l).
Proof.
  induction l as [|j l IH]; intros H Hi; [contradiction Hi|]. cbn [map qsum fold_right].
  pose proof (sum_nonneg f l (fun i Hi => H i (or_intror Hi))) as N. unfold qsum in *.
  pose proof (H j (or_introl eq_refl)).
  destruct Hi as [<-|Hi]; [lra|]. specialize (IH (fun i Hi => H i (or_intror Hi)) Hi). lra.
Qed.
Lemma gmean_pos w y k h : (1 <= w)%nat -> (k + w <= length y)%nat -> (k <= h < k + w)%nat ->
  (forall i, (i < length y)%nat -> 0 <= at_ y i) -> 0 < at_ y h -> 0 < gmean w y k.
Proof.
  intros Hw Hk Hh H P. unfold gmean.
  assert (Hp : 0 < inject_Z (Z.of_nat w)) by (change 0 with (inject_Z 0); rewrite <- Zlt_Qlt; lia).
  apply Qlt_shift_div_l; [exact Hp|].
  pose proof (sum_ge_member (at_ y) (seq k w) h) as B.
  assert (at_ y h <= qsum (map (at_ y) (seq k w))).
  { apply B; [intros i Hi; apply in_seq in Hi; apply H; lia|apply in_seq; lia]. }
  lra.
Qed.
Lemma mean_max_pos w y m : (1 <= w <= length y)%nat -> (forall i, (i < length y)%nat -> 0 <= at_ y i) ->
  (exists h, (h < length y)%nat /\ 0 < at_ y h) -> highest (gmean w y) 0 (length y - w + 1) m -> 0 < m.
Proof.
  intros Hw H (h & Hh & P) [_ U].
  set (k := Nat.min h (length y - w)).
  assert (Hk : (0 <= k < length y - w + 1)%nat) by (unfold k; lia).
  specialize (U k Hk). pose proof (gmean_pos w y k h) as G.
  assert (0 < gmean w y k) by (apply G; try assumption; unfold k; lia). lra.
Qed.
Lemma mean_max_le w y p m : (1 <= w <= length y)%nat -> (forall i, (i < length y)%nat -> 0 <= at_ y i) ->
  highest (at_ y) 0 (length y) p -> highest (gmean w y) 0 (length y - w + 1) m -> m <= p.
Proof.
  intros Hw H [_ U] [(k & Hk & Ek) _].
  pose proof (gmean_bounds w y k 0 p ltac:(lia)) as B. destruct B as [_ B]; [|lra].
  intros i Hi. split; [apply H; lia|apply U; lia].
Qed.
Lemma ratio_ge1 p m : 0 < m -> m <= p -> 1 <= p / m.
Proof. intros. apply Qle_shift_div_l; lra. Qed.
Lemma ratio_mul p m g : 0 < m -> 0 <= g <= m -> m <= p -> g <= p / m * g <= p.
Proof.
  intros Hm Hg Hp. pose proof (ratio_ge1 p m Hm Hp) as R. split; [nra|].
  assert (E : p / m * m == p) by (field; lra). nra.
Qed.

Lemma at_repeat c n h : (h < n)%nat -> at_ (repeat c n) h = c.
Proof. intro H. unfold at_. revert h H. induction n as [|n IH]; intros h H; [lia|]. destruct h; [reflexivity|]. apply IH. lia. Qed.
Lemma gmean_const w c n k : (1 <= w)%nat -> (k + w <= n)%nat -> gmean w (repeat c n) k == c.
Proof.
  intros Hw Hk. pose proof (gmean_bounds w (repeat c n) k c c ltac:(lia)) as B.
  destruct B as [B1 B2]; [|lra]. intros i Hi. rewrite at_repeat by lia. lra.
Qed.
Lemma highest_const f a b c m : (forall h, (a <= h < b)%nat -> f h == c) -> highest f a b m -> m == c.
Proof. intros H [(h & Hh & Eh) _]. rewrite <- Eh. apply H. exact Hh. Qed.
Lemma shows_eq out h q r : shows out h (Fin q) -> q == r -> shows out h (Fin r).
Proof. intros (x & E & H) Hq. exists x. split; [exact E|]. destruct x; cbn in *; [lra|exact H]. Qed.
