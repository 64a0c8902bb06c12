(** C49: the smoothing of the yearly demand; C69 to C71: the profiles behind it. *)
From Coq Require Import String.
From Verif Require Import Base BaseL M_Kpi S_Kpi M_Demand S_Demand L_Grid L_FixedOrderRun L_Demand.

(** ** Heat: what every hour of the smoothed series shows *)
Theorem C49_heat_values y : (4 <= length y)%nat ->
  exists out p m, smooth_heat y = Ok out /\ length out = length y /\
    highest (at_ y) 0 (length y) p /\ highest (mean4 y) 3 (length y) m /\
    shows out 0 (Fin (mean4 y 3)) /\
    (forall h, (4 <= h < length y)%nat -> shows out h (Fin (mean4 y h))) /\
    (forall h, (1 <= h <= 3)%nat -> ~ m == 0 -> shows out h (Fin (p / m * at_ y (h - 1)))) /\
    (forall h, (1 <= h <= 3)%nat -> m == 0 -> shows out h NotFinite).
Proof.
  intro Hy. rewrite smooth_heat_eq.
  destruct (smoothed_values 4 y (firstn 3 y)) as (out & p & m & E & L & Hp & Hm & H0 & H1 & H2 & H3);
    [lia|rewrite firstn_length; lia|].
  exists out, p, m. split; [exact E|]. split; [exact L|]. split; [exact Hp|]. split.
  { pose proof (highest_shift (gmean 4 y) (mean4 y) 0 (length y - 4 + 1) 3 m (gmean4 y) Hm) as S.
    replace (length y - 4 + 1 + 3)%nat with (length y) in S by lia. exact S. }
  split; [exact (shows_eq out 0 _ _ H0 (gmean4 y 0))|]. split.
  { intros h Hh. eapply shows_eq; [apply H1; lia|]. rewrite gmean4. replace (h - (4 - 1) + 3)%nat with h by lia. reflexivity. }
  split; [|intros h Hh Em; apply H3; [lia|exact Em]].
  intros h Hh Nm. eapply shows_eq; [apply H2; [lia|exact Nm]|]. rewrite at_firstn by lia. reflexivity.
Qed.
Print Assumptions C49_heat_values.

(** ** Electricity *)
Theorem C49_elec_values y : (12 <= length y)%nat ->
  exists out p m, smooth_elec y = Ok out /\ length out = length y /\
    highest (at_ y) 0 (length y) p /\ highest (mean7 y) 6 (length y) m /\
    shows out 0 (Fin (mean7 y 6)) /\
    (forall h, (7 <= h < length y)%nat -> shows out h (Fin (mean7 y h))) /\
    (forall h, (1 <= h <= 6)%nat -> ~ m == 0 -> shows out h (Fin (p / m * mean7 y (h + 5)))) /\
    (forall h, (1 <= h <= 6)%nat -> m == 0 -> shows out h NotFinite).
Proof.
  intro Hy. rewrite smooth_elec_eq by lia.
  set (ins := firstn 6 _).
  destruct (smoothed_values 7 y ins) as (out & p & m & E & L & Hp & Hm & H0 & H1 & H2 & H3);
    [lia|unfold ins; rewrite elec_inserted_length by lia; reflexivity|].
  exists out, p, m. split; [exact E|]. split; [exact L|]. split; [exact Hp|]. split.
  { pose proof (highest_shift (gmean 7 y) (mean7 y) 0 (length y - 7 + 1) 6 m (gmean7 y) Hm) as S.
    replace (length y - 7 + 1 + 6)%nat with (length y) in S by lia. exact S. }
  split; [exact (shows_eq out 0 _ _ H0 (gmean7 y 0))|]. split.
  { intros h Hh. eapply shows_eq; [apply H1; lia|]. rewrite gmean7. replace (h - (7 - 1) + 6)%nat with h by lia. reflexivity. }
  split; [|intros h Hh Em; apply H3; [lia|exact Em]].
  intros h Hh Nm. eapply shows_eq; [apply H2; [lia|exact Nm]|].
  unfold ins. rewrite elec_inserted by lia. rewrite gmean7. replace (h - 1 + 6)%nat with (h + 5)%nat by lia. reflexivity.
Qed.
Print Assumptions C49_elec_values.

(** ** Length: a year stays a year. *)
Theorem C49_length y : length y = Z.to_nat 8760 ->
  (exists out, smooth_heat y = Ok out /\ length out = Z.to_nat 8760) /\
  (exists out, smooth_elec y = Ok out /\ length out = Z.to_nat 8760).
Proof.
  intro L. split.
  - destruct (C49_heat_values y) as (out & p & m & E & Lo & _); [lia|]. exists out. split; [exact E|lia].
  - destruct (C49_elec_values y) as (out & p & m & E & Lo & _); [lia|]. exists out. split; [exact E|lia].
Qed.
Print Assumptions C49_length.

(** ** Bounds *)
(** Heat: outside hours 1, 2 and 3 the values stay between any bounds of the original. *)
Theorem C49_heat_bounds_partial y lo hi : (4 <= length y)%nat -> bounded lo hi y ->
  exists out, smooth_heat y = Ok out /\
    forall h, (h < length y)%nat -> h = 0%nat \/ (4 <= h)%nat ->
      exists x, nth_error out h = Some x /\ within lo hi x.
Proof.
  intros Hy B. destruct (C49_heat_values y Hy) as (out & p & m & E & L & Hp & Hm & H0 & H1 & _).
  exists out. split; [exact E|].
  assert (M : forall h, (3 <= h < length y)%nat -> lo <= mean4 y h <= hi).
  { intros h Hh. pose proof (gmean4 y (h - 3)) as G. replace (h - 3 + 3)%nat with h in G by lia.
    rewrite <- G. apply bounded_mean; [lia|exact B|lia]. }
  intros h Hh [->|H4]; [apply (shows_within out 0 _ lo hi H0); apply M; lia|].
  apply (shows_within out h _ lo hi (H1 h ltac:(lia))). apply M. lia.
Qed.
Print Assumptions C49_heat_bounds_partial.

(** Electricity: for a series that is never negative and not zero throughout, every hour. *)
Theorem C49_elec_bounds_partial y lo hi : (12 <= length y)%nat -> 0 <= lo -> bounded lo hi y ->
  (exists h, (h < length y)%nat /\ 0 < at_ y h) ->
  exists out, smooth_elec y = Ok out /\
    forall h, (h < length y)%nat -> exists x, nth_error out h = Some x /\ within lo hi x.
Proof.
  intros Hy Hlo B Pos.
  destruct (C49_elec_values y Hy) as (out & p & m & E & L & Hp & Hm & H0 & H1 & H2 & _).
  exists out. split; [exact E|].
  assert (M : forall h, (6 <= h < length y)%nat -> lo <= mean7 y h <= hi).
  { intros h Hh. pose proof (gmean7 y (h - 6)) as G. replace (h - 6 + 6)%nat with h in G by lia.
    rewrite <- G. apply bounded_mean; [lia|exact B|lia]. }
  assert (NN : forall i, (i < length y)%nat -> 0 <= at_ y i) by (intros i Hi; specialize (B i Hi); lra).
  assert (Hm' : highest (gmean 7 y) 0 (length y - 7 + 1) m).
  { destruct Hm as [(h & Hh & Eh) U]. split.
    - exists (h - 6)%nat. split; [lia|]. rewrite gmean7. replace (h - 6 + 6)%nat with h by lia. exact Eh.
    - intros k Hk. rewrite gmean7. apply U. lia. }
  pose proof (mean_max_pos 7 y m ltac:(lia) NN Pos Hm') as Pm.
  pose proof (mean_max_le 7 y p m ltac:(lia) NN Hp Hm') as Mp.
  assert (Hhi : p <= hi) by (destruct Hp as [(h & Hh & Eh) _]; specialize (B h ltac:(lia)); lra).
  intros h Hh. destruct (Nat.eq_dec h 0) as [->|N0]; [apply (shows_within out 0 _ lo hi H0); apply M; lia|].
  destruct (le_lt_dec 7 h) as [H7|H7]; [apply (shows_within out h _ lo hi (H1 h ltac:(lia))); apply M; lia|].
  apply (shows_within out h _ lo hi (H2 h ltac:(lia) ltac:(lra))).
  pose proof (M (h + 5)%nat ltac:(lia)) as [G1 G2].
  assert (G3 : mean7 y (h + 5) <= m) by (apply Hm; lia).
  pose proof (ratio_mul p m (mean7 y (h + 5)) Pm ltac:(lra) Mp). lra.
Qed.
Print Assumptions C49_elec_bounds_partial.

(** ** Constants other than zero are kept. *)
Theorem C49_constant_partial c n : ~ c == 0 -> (12 <= n)%nat ->
  (exists out, smooth_heat (repeat c n) = Ok out /\ length out = n /\ forall h, (h < n)%nat -> shows out h (Fin c)) /\
  (exists out, smooth_elec (repeat c n) = Ok out /\ length out = n /\ forall h, (h < n)%nat -> shows out h (Fin c)).
Proof.
  intros Hc Hn. assert (L : length (repeat c n) = n) by apply repeat_length.
  assert (C : c / c == 1) by (field; exact Hc).
  split.
  - destruct (C49_heat_values (repeat c n)) as (out & p & m & E & Lo & Hp & Hm & H0 & H1 & H2 & _); [lia|].
    rewrite L in *.
    assert (M : forall h, (3 <= h < n)%nat -> mean4 (repeat c n) h == c).
    { intros h Hh. pose proof (gmean4 (repeat c n) (h - 3)) as G. replace (h - 3 + 3)%nat with h in G by lia.
      rewrite <- G. apply gmean_const; lia. }
    pose proof (highest_const _ _ _ c _ M Hm) as Em.
    assert (Ep : p == c) by (apply (highest_const _ _ _ c _ (fun h Hh => eq_ind_r (fun z => z == c) (Qeq_refl c) (at_repeat c n h (proj2 Hh))) Hp)).
    exists out. split; [exact E|]. split; [exact Lo|]. intros h Hh.
    destruct (Nat.eq_dec h 0) as [->|N0]; [apply (shows_eq _ _ _ _ H0); apply M; lia|].
    destruct (le_lt_dec 4 h) as [H4|H4]; [apply (shows_eq _ _ _ _ (H1 h ltac:(lia))); apply M; lia|].
    apply (shows_eq _ _ _ _ (H2 h ltac:(lia) ltac:(rewrite Em; exact Hc))).
    rewrite at_repeat by lia. rewrite Em, Ep, C. lra.
  - destruct (C49_elec_values (repeat c n)) as (out & p & m & E & Lo & Hp & Hm & H0 & H1 & H2 & _); [lia|].
    rewrite L in *.
    assert (M : forall h, (6 <= h < n)%nat -> mean7 (repeat c n) h == c).
    { intros h Hh. pose proof (gmean7 (repeat c n) (h - 6)) as G. replace (h - 6 + 6)%nat with h in G by lia.
      rewrite <- G. apply gmean_const; lia. }
    pose proof (highest_const _ _ _ c _ M Hm) as Em.
    assert (Ep : p == c) by (apply (highest_const _ _ _ c _ (fun h Hh => eq_ind_r (fun z => z == c) (Qeq_refl c) (at_repeat c n h (proj2 Hh))) Hp)).
    exists out. split; [exact E|]. split; [exact Lo|]. intros h Hh.
    destruct (Nat.eq_dec h 0) as [->|N0]; [apply (shows_eq _ _ _ _ H0); apply M; lia|].
    destruct (le_lt_dec 7 h) as [H7|H7]; [apply (shows_eq _ _ _ _ (H1 h ltac:(lia))); apply M; lia|].
    apply (shows_eq _ _ _ _ (H2 h ltac:(lia) ltac:(rewrite Em; exact Hc))).
    rewrite (M (h + 5)%nat) by lia. rewrite Em, Ep, C. lra.
Qed.
Print Assumptions C49_constant_partial.

(** ** Where the property fails *)
(** A year without demand turns into a year with three (six) undefined hours. *)
Theorem C49_constant_refuted : exists out out',
  smooth_heat (repeat 0 (Z.to_nat 8760)) = Ok out /\ shows out 1 NotFinite /\
  smooth_elec (repeat 0 (Z.to_nat 8760)) = Ok out' /\ shows out' 1 NotFinite.
Proof.
  pose proof (repeat_length 0 (Z.to_nat 8760)) as L. set (n := Z.to_nat 8760) in *.
  assert (Hn : (12 <= n)%nat) by (unfold n; lia). clearbody n.
  destruct (C49_heat_values (repeat 0 n)) as (out & p & m & E & Lo & Hp & Hm & H0 & H1 & H2 & H3); [lia|].
  destruct (C49_elec_values (repeat 0 n)) as (out' & p' & m' & E' & Lo' & Hp' & Hm' & H0' & H1' & H2' & H3'); [lia|].
  exists out, out'. rewrite L in *.
  split; [exact E|]. split; [apply H3; [lia|]|split; [exact E'|apply H3'; [lia|]]].
  - apply (highest_const _ _ _ 0 _) with (2 := Hm). intros h Hh.
    pose proof (gmean4 (repeat 0 n) (h - 3)) as G. replace (h - 3 + 3)%nat with h in G by lia.
    rewrite <- G. apply gmean_const; lia.
  - apply (highest_const _ _ _ 0 _) with (2 := Hm'). intros h Hh.
    pose proof (gmean7 (repeat 0 n) (h - 6)) as G. replace (h - 6 + 6)%nat with h in G by lia.
    rewrite <- G. apply gmean_const; lia.
Qed.
Print Assumptions C49_constant_refuted.

(** A peak of 10 in hour 1 of an otherwise idle year is shown as 40 in hour 2, and hour 1
    shows nothing: out of bounds and one hour late. *)
Definition early_peak : list Q := 0 :: 10 :: repeat 0 (Z.to_nat 8758).
Lemma early_peak_at h : at_ early_peak h == if Nat.eqb h 1 then 10 else 0.
Proof.
  unfold early_peak, at_. destruct h as [|[|h]]; [reflexivity|reflexivity|]. cbn [nth Nat.eqb].
  destruct (le_lt_dec (Z.to_nat 8758) h) as [H|H].
  - rewrite nth_overflow; [reflexivity|]. rewrite repeat_length. exact H.
  - change (nth h (repeat 0 (Z.to_nat 8758)) 0) with (at_ (repeat 0 (Z.to_nat 8758)) h). rewrite at_repeat by exact H. reflexivity.
Qed.
Theorem C49_heat_bounds_refuted : exists y out,
  length y = Z.to_nat 8760 /\ bounded 0 10 y /\ at_ y 1 == 10 /\ at_ y 2 == 0 /\ smooth_heat y = Ok out /\
  shows out 1 (Fin 0) /\ shows out 2 (Fin 40).
Proof.
  assert (L : length early_peak = Z.to_nat 8760) by (unfold early_peak; cbn [length]; rewrite repeat_length; lia).
  destruct (C49_heat_values early_peak) as (out & p & m & E & Lo & Hp & Hm & H0 & H1 & H2 & H3); [lia|].
  exists early_peak, out. split; [exact L|]. split.
  { intros h Hh. rewrite early_peak_at. destruct (Nat.eqb h 1); lra. }
  split; [rewrite early_peak_at; reflexivity|]. split; [rewrite early_peak_at; reflexivity|]. split; [exact E|].
  assert (Ep : p == 10).
  { apply (highest_unique (at_ early_peak) 0 (length early_peak) p 10 Hp). split.
    - exists 1%nat. split; [lia|]. rewrite early_peak_at. reflexivity.
    - intros h Hh. rewrite early_peak_at. destruct (Nat.eqb h 1); lra. }
  assert (Em : m == 5 # 2).
  { apply (highest_unique (mean4 early_peak) 3 (length early_peak) m (5 # 2) Hm). split.
    - exists 3%nat. split; [lia|]. unfold mean4. rewrite !early_peak_at. vm_compute. reflexivity.
    - intros h Hh. unfold mean4. rewrite !early_peak_at.
      destruct (Nat.eqb_spec (h - 3) 1), (Nat.eqb_spec (h - 2) 1), (Nat.eqb_spec (h - 1) 1), (Nat.eqb_spec h 1);
        try lia; vm_compute; discriminate. }
  assert (Nm : ~ m == 0) by (rewrite Em; vm_compute; discriminate).
  split.
  - apply (shows_eq _ _ _ _ (H2 1%nat ltac:(lia) Nm)). cbn [Nat.sub]. rewrite early_peak_at. cbn [Nat.eqb]. rewrite Qmult_0_r. reflexivity.
  - apply (shows_eq _ _ _ _ (H2 2%nat ltac:(lia) Nm)). cbn [Nat.sub]. rewrite early_peak_at. cbn [Nat.eqb]. rewrite Em, Ep. vm_compute. reflexivity.
Qed.
Print Assumptions C49_heat_bounds_refuted.

(** ** Case: twelve hours *)
Definition half_day : list Q := [1; 2; 3; 4; 5; 6; 7; 8; 9; 10; 11; 12].
Example C49_case : exists out out',
  smooth_heat half_day = Ok out /\ smooth_elec half_day = Ok out' /\
  shows out 0 (Fin (5 # 2)) /\ shows out 1 (Fin (8 # 7)) /\ shows out 11 (Fin (21 # 2)) /\
  shows out' 0 (Fin 4) /\ shows out' 1 (Fin (16 # 3)) /\ shows out' 11 (Fin 9) /\ length out = 12%nat /\ length out' = 12%nat.
Proof.
  do 2 eexists. split; [vm_compute; reflexivity|]. split; [vm_compute; reflexivity|].
  repeat split; try (eexists; split; [reflexivity|vm_compute; reflexivity]).
Qed.
