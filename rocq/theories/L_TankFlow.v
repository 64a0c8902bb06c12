From Coq Require Import Sorting.Sorted Permutation String Setoid.
From Verif Require Import Base BaseL M_FixedOrder M_Tank S_Tank L_Tank.

Section Flow.
Variable K : tank.
Let n := k_nodes K.

Lemma loss_factor_UA k : ~ k_width K == 0 -> loss_factor K k == UA K k.
Proof. intro Hw. unfold loss_factor, UA, inner_radius, thickness, height. field. lra. Qed.
Lemma connection_losses_eq : connection_losses K == connections K.
Proof. unfold connection_losses, connections. field. Qed.

Definition j_c T source := last_flagged K (charging_function Charging T source).

(** Heat flux into node [i] in units of m/M while charging. *)
Definition flux_c (T : list Q) (source : Q) (i : nat) : Q :=
  flag (charging_function Charging T source i) * source
  - (if Nat.leb (j_c T source) i || Nat.eqb i (n - 1) then nth i T 0 else 0)
  + (if Nat.ltb (j_c T source) i then nth (i - 1) T 0 else 0).
(** ... and while discharging. *)
Definition flux_d (T : list Q) (flow ret : Q) (i : nat) : Q :=
  if qle flow (nth 0 T 0)
  then (if Nat.eqb i (n - 1) then ret else nth (i + 1) T 0) - nth i T 0
  else 0.
Definition standing_i (k Ta mass : Q) (T cps : list Q) (i : nat) : Q :=
  (loss_factor K k * (Ta - nth i T 0) + k_Fe K * connection_losses K) / (mass * nth i cps 0).

Lemma dT_charging T source flow ret m mass k Ta cps i :
  (2 <= n)%nat -> (i < n)%nat -> ~ mass == 0 -> ~ nth i cps 0 == 0 ->
  dT K Charging T source flow ret m mass k Ta cps i ==
    m / mass * flux_c T source i + standing_i k Ta mass T cps i.
Proof.
  intros H2 Hi Hm Hc. unfold dT, coef_A, coef_B, coef_C, coef_D, flux_c, standing_i, mixing_function.
  cbn [Fcnt Fdnt Fcnb Fdnb discharging_function charging_top_node].
  assert (ED : discharging_bottom_node K Charging T flow i = false).
  { unfold discharging_bottom_node. replace (existsb _ _) with false; [reflexivity|].
    symmetry. clear. induction (seq 0 (k_nodes K)) as [|x l IH]; [reflexivity|exact IH]. }
  rewrite ED. fold (j_c T source). fold n.
  set (cp := nth i cps 0) in *. set (fc := flag (charging_function Charging T source i)).
  set (L := loss_factor K k). set (CL := connection_losses K).
  destruct (Nat.eqb_spec i (n - 1)) as [Eb|Eb]; destruct (Nat.eqb_spec i 0) as [E0|E0];
    destruct (Nat.ltb_spec i (j_c T source)); destruct (Nat.leb_spec i (j_c T source));
    destruct (Nat.leb_spec (j_c T source) i); destruct (Nat.ltb_spec (j_c T source) i); try lia;
    cbn [negb orb flag]; try (subst i; field; auto).
  all: field; auto.
Qed.

Lemma last_flagged_zero (f : nat -> bool) :
  (1 <= n)%nat -> f O = true -> (forall i, (1 <= i < n)%nat -> f i = false) -> last_flagged K f = O.
Proof.
  intros Hn H0 H. unfold last_flagged. fold n. destruct n as [|p]; [lia|]. cbn. rewrite H0.
  replace (filter f (seq 1 p)) with (@nil nat); [reflexivity|]. symmetry.
  assert (G : forall a l, (1 <= a)%nat -> (a + l <= S p)%nat -> filter f (seq a l) = []).
  { intros a l. revert a. induction l as [|l IH]; intros a Ha Hl; [reflexivity|]. cbn. rewrite H by lia. apply IH; lia. }
  apply G; lia.
Qed.
Lemma filter_seq_none (f : nat -> bool) a l : (forall i, (a <= i < a + l)%nat -> f i = false) -> filter f (seq a l) = [].
Proof.
  revert a. induction l as [|l IH]; intros a H; [reflexivity|]. cbn. rewrite H by lia. apply IH. intros; apply H; lia.
Qed.
Lemma last_flagged_none (f : nat -> bool) : (forall i, (i < n)%nat -> f i = false) -> last_flagged K f = n.
Proof. intro H. unfold last_flagged. fold n. rewrite filter_seq_none; [reflexivity|]. intros; apply H; lia. Qed.

Lemma existsb_seq_none (f : nat -> bool) a l : (forall i, (a <= i < a + l)%nat -> f i = false) -> existsb f (seq a l) = false.
Proof.
  revert a. induction l as [|l IH]; intros a H; [reflexivity|]. cbn. rewrite H by lia. apply IH. intros; apply H; lia.
Qed.

(** In a stratified tank only the top node can deliver. *)
Lemma discharging_only_top T flow i :
  stratified T -> length T = n -> (1 <= i < n)%nat -> discharging_function Discharging T flow i = false.
Proof.
  intros S L Hi. destruct i as [|p]; [lia|]. cbn [discharging_function].
  pose proof (stratified_nth T p (Datatypes.S p) S ltac:(lia)).
  destruct (qlt_spec flow (nth (Datatypes.S p) T 0)); [|reflexivity].
  destruct (qle_spec (nth p T 0) flow); [lra|reflexivity].
Qed.

Lemma dT_discharging T source flow ret m mass k Ta cps i :
  stratified T -> length T = n ->
  (2 <= n)%nat -> (i < n)%nat -> ~ mass == 0 -> ~ nth i cps 0 == 0 ->
  dT K Discharging T source flow ret m mass k Ta cps i ==
    m / mass * flux_d T flow ret i + standing_i k Ta mass T cps i.
Proof.
  intros S L H2 Hi Hm Hc. unfold dT, coef_A, coef_B, coef_C, coef_D, flux_d, standing_i, mixing_function.
  cbn [Fcnt Fdnt Fcnb Fdnb charging_function charging_top_node flag].
  set (cp := nth i cps 0) in *. fold n.
  set (LF := loss_factor K k). set (CL := connection_losses K).
  unfold discharging_bottom_node. fold n.
  destruct (qle flow (nth 0 T 0)) eqn:E.
  - rewrite (last_flagged_zero (discharging_function Discharging T flow)); [|lia|exact E|].
    2: { intros p Hp. apply discharging_only_top; assumption. }
    replace (existsb (discharging_function Discharging T flow) (seq 0 n)) with true.
    2: { symmetry. replace n with (Datatypes.S (n - 1)) by lia. cbn. cbn in E. rewrite E. reflexivity. }
    rewrite andb_true_r, andb_true_l.
    destruct (Nat.eqb_spec i (n - 1)) as [Eb|Eb]; destruct (Nat.eqb_spec i 0) as [E0|E0]; try lia;
      destruct (Nat.leb_spec i 0); destruct (Nat.ltb_spec i 0); try lia; cbn [negb orb flag].
    + rewrite discharging_only_top by (try assumption; lia). cbn [flag]. field; auto.
    + subst i. cbn [discharging_function]. rewrite E. cbn [flag Nat.add]. field; auto.
    + rewrite discharging_only_top by (try assumption; lia). cbn [flag]. field; auto.
  - assert (N : forall p, (p < n)%nat -> discharging_function Discharging T flow p = false).
    { intros [|p] Hp; [exact E|apply discharging_only_top; [assumption|assumption|lia]]. }
    rewrite (last_flagged_none _ N). rewrite existsb_seq_none by (intros; apply N; lia). rewrite (N i Hi).
    destruct (Nat.eqb_spec i (n - 1)) as [Eb|Eb]; destruct (Nat.eqb_spec i 0) as [E0|E0]; try lia;
      destruct (Nat.leb_spec i n); destruct (Nat.ltb_spec i n); try lia; cbn [negb orb flag andb]; try (subst i; field; auto); field; auto.
Qed.

Lemma dT_standby T source flow ret m mass k Ta cps i :
  (i < n)%nat -> ~ mass == 0 -> ~ nth i cps 0 == 0 ->
  dT K Standby T source flow ret m mass k Ta cps i == standing_i k Ta mass T cps i.
Proof.
  intros Hi Hm Hc. unfold dT, coef_A, coef_B, coef_C, coef_D, standing_i, mixing_function.
  cbn [Fcnt Fdnt Fcnb Fdnb charging_function discharging_function charging_top_node flag].
  unfold discharging_bottom_node. rewrite existsb_seq_none by reflexivity. cbn [andb flag].
  destruct (Nat.eqb_spec i 0) as [E0|E0]; [subst i; field; auto|]. destruct (Nat.eqb i _); field; auto.
Qed.

(** ** Telescoping *)
Definition count_flagged (f : nat -> bool) : nat := length (filter f (seq 0 n)).
Lemma sumn_flag (f : nat -> bool) (a : Q) p :
  sumn (fun i => flag (f i) * a) p == inject_Z (Z.of_nat (length (filter f (seq 0 p)))) * a.
Proof.
  induction p as [|p IH]; [cbn; ring|]. rewrite sumn_S, IH, seq_S, filter_app, app_length. cbn [plus filter].
  rewrite Nat2Z.inj_add, inject_Z_plus. destruct (f p); cbn [flag length]; change (inject_Z (Z.of_nat 1)) with 1;
    change (inject_Z (Z.of_nat 0)) with 0; ring.
Qed.

Lemma telescope_c (T : list Q) j p :
  sumn (fun i => (if Nat.ltb j i then nth (i - 1) T 0 else 0) - (if Nat.leb j i then nth i T 0 else 0)) p
  == match p with O => 0 | S q => - (if Nat.leb j q then nth q T 0 else 0) end.
Proof.
  induction p as [|p IH]; [reflexivity|]. rewrite sumn_S, IH. destruct p as [|q].
  - destruct (Nat.ltb_spec j 0); [lia|]. lra.
  - destruct (Nat.ltb_spec j (S q)); destruct (Nat.leb_spec j q); destruct (Nat.leb_spec j (S q)); try lia;
      replace (S q - 1)%nat with q by lia; lra.
Qed.

Lemma last_flagged_le (f : nat -> bool) : (last_flagged K f <= n)%nat.
Proof.
  unfold last_flagged. fold n.
  destruct (filter f (seq 0 n)) as [|x l] eqn:E; [cbn; lia|].
  destruct (exists_last (l := x :: l)) as (l' & z & E'); [discriminate|]. rewrite E', last_last.
  assert (In z (filter f (seq 0 n))) by (rewrite E, E'; apply in_or_app; right; left; reflexivity).
  apply filter_In in H. destruct H as [H _]. apply in_seq in H. lia.
Qed.

Lemma flux_c_total T source :
  (1 <= n)%nat ->
  sumn (flux_c T source) n ==
    inject_Z (Z.of_nat (count_flagged (charging_function Charging T source))) * source - nth (n - 1) T 0.
Proof.
  intro Hn. unfold count_flagged. rewrite <- sumn_flag.
  set (f := fun i => flag (charging_function Charging T source i) * source).
  set (j := j_c T source).
  set (g := fun i => (if Nat.ltb j i then nth (i - 1) T 0 else 0) - (if Nat.leb j i then nth i T 0 else 0)).
  set (h := fun i => if Nat.eqb i (n - 1) && negb (Nat.leb j (n - 1)) then - nth (n - 1) T 0 else 0).
  rewrite (sumn_ext (flux_c T source) (fun i => (f i + g i) + h i)).
  2: { intros i Hi. unfold flux_c, f, g, h. fold j.
       destruct (Nat.leb_spec j i); destruct (Nat.eqb_spec i (n - 1)); destruct (Nat.ltb_spec j i); try lia;
         try (subst i); try (destruct (Nat.leb_spec j (n - 1)); try lia); cbn [orb andb negb]; lra. }
  rewrite sumn_plus, sumn_plus. unfold g. rewrite telescope_c.
  assert (Hh : sumn h n == if negb (Nat.leb j (n - 1)) then - nth (n - 1) T 0 else 0).
  { unfold h. assert (G : forall p, (p <= n)%nat ->
      sumn (fun i => if Nat.eqb i (n - 1) && negb (Nat.leb j (n - 1)) then - nth (n - 1) T 0 else 0) p
      == if Nat.eqb p n then (if negb (Nat.leb j (n - 1)) then - nth (n - 1) T 0 else 0) else 0).
    { induction p as [|p IH]; intro Hp; [destruct (Nat.eqb_spec 0 n); [lia|reflexivity]|].
      rewrite sumn_S, IH by lia.
      destruct (Nat.eqb_spec p n); [lia|]. destruct (Nat.eqb_spec p (n - 1)); destruct (Nat.eqb_spec (S p) n); try lia;
        cbn [andb]; destruct (negb _); lra. }
    rewrite G by lia. rewrite Nat.eqb_refl. reflexivity. }
  rewrite Hh. clear Hh h g. replace n with (S (n - 1)) at 2 by lia.
  destruct (Nat.leb j (n - 1)); cbn [negb]; lra.
Qed.

Lemma flux_d_total T flow ret :
  (1 <= n)%nat ->
  sumn (flux_d T flow ret) n == if qle flow (nth 0 T 0) then ret - nth 0 T 0 else 0.
Proof.
  intro Hn. unfold flux_d. destruct (qle flow (nth 0 T 0)); [|apply sumn_zero].
  assert (G : forall p, (p < n)%nat ->
    sumn (fun i => (if Nat.eqb i (n - 1) then ret else nth (i + 1) T 0) - nth i T 0) p == nth p T 0 - nth 0 T 0).
  { induction p as [|p IH]; intro Hp; [cbn; lra|]. rewrite sumn_S, IH by lia.
    destruct (Nat.eqb_spec p (n - 1)); [lia|]. replace (p + 1)%nat with (S p) by lia. lra. }
  assert (E : sumn (fun i => (if Nat.eqb i (n - 1) then ret else nth (i + 1) T 0) - nth i T 0) (S (n - 1))
              == ret - nth 0 T 0) by (rewrite sumn_S, G by lia; rewrite Nat.eqb_refl; lra).
  replace (S (n - 1)) with n in E by lia. exact E.
Qed.

(** The number of receiving nodes of a stratified tank. *)

Lemma count_flagged_cold T source :
  stratified T -> length T = n -> (1 <= n)%nat -> source < nth (n - 1) T 0 ->
  count_flagged (charging_function Charging T source) = O.
Proof.
  intros S L Hn H. unfold count_flagged. rewrite filter_seq_none; [reflexivity|].
  intros i Hi. pose proof (stratified_nth T i (n - 1) S ltac:(lia)).
  destruct i as [|p]; cbn [charging_function].
  - destruct (qle_spec (nth 0 T 0) source); [lra|reflexivity].
  - destruct (qle_spec (nth (Datatypes.S p) T 0) source); [lra|reflexivity].
Qed.

(** Counting by prefix: after p+1 nodes the count is 1 + ties among the first p nodes if
    node p is at or below the source temperature, else 0. *)
Lemma count_prefix T source p :
  stratified T -> (p < length T)%nat ->
  length (filter (charging_function Charging T source) (seq 0 (S p))) =
    if qle (nth p T 0) source then S (length (filter (fun i => qeq (nth i T 0) source) (seq 0 p))) else O.
Proof.
  intros HS. induction p as [|p IH]; intro Hp.
  - cbn. destruct (qle (nth 0 T 0) source); reflexivity.
  - rewrite seq_S, filter_app, app_length, IH by lia. clear IH.
    rewrite seq_S, filter_app, app_length. cbn [plus filter charging_function].
    pose proof (stratified_nth T p (S p) HS ltac:(lia)).
    assert (NT : source < nth p T 0 -> filter (fun i => qeq (nth i T 0) source) (seq 0 p) = []).
    { intro Hlt. apply filter_seq_none. intros i Hi. pose proof (stratified_nth T i p HS ltac:(lia)).
      destruct (qeq_spec (nth i T 0) source); [lra|reflexivity]. }
    destruct (qle_spec (nth p T 0) source); [|rewrite NT by assumption]; destruct (qle_spec (nth (S p) T 0) source);
      destruct (qle_spec source (nth p T 0)); destruct (qeq_spec (nth p T 0) source);
      cbn [andb length]; try lia; exfalso; first [lra | match goal with H : ~ _ == _ |- _ => apply H; lra end].
Qed.

Lemma filter_nth_seq (g : Q -> bool) (T : list Q) :
  length (filter (fun i => g (nth i T 0)) (seq 0 (length T))) = length (filter g T).
Proof.
  induction T as [|x T IH]; [reflexivity|]. cbn [length seq filter]. change (nth 0 (x :: T) 0) with x.
  assert (E : length (filter (fun i => g (nth i (x :: T) 0)) (seq 1 (length T))) =
              length (filter (fun i => g (nth i T 0)) (seq 0 (length T)))).
  { rewrite <- seq_shift.
    assert (FM : forall (f : nat -> bool) l, length (filter f (map S l)) = length (filter (fun i => f (S i)) l)).
    { intros f l. induction l as [|a l IHl]; [reflexivity|]. cbn [map filter].
      destruct (f (S a)); cbn [length]; rewrite IHl; reflexivity. }
    rewrite FM. reflexivity. }
  destruct (g x); cbn [length]; rewrite E, IH; reflexivity.
Qed.

Lemma removelast_nth (T : list Q) i : (S i < length T)%nat -> nth i (removelast T) 0 = nth i T 0.
Proof.
  revert i. induction T as [|x T IH]; intros i H; [cbn in H; lia|].
  destruct T as [|y T]; [cbn in H; lia|]. cbn [removelast]. destruct i; [reflexivity|]. cbn [nth]. apply IH. cbn in *. lia.
Qed.
Lemma removelast_length (T : list Q) : length (removelast T) = (length T - 1)%nat.
Proof. induction T as [|x T IH]; [reflexivity|]. destruct T; [reflexivity|]. cbn [removelast length] in *. lia. Qed.

Lemma count_flagged_eq T source :
  stratified T -> length T = n -> (1 <= n)%nat -> nth (n - 1) T 0 <= source ->
  count_flagged (charging_function Charging T source) = S (ties source T).
Proof.
  intros HS L Hn H. unfold count_flagged. replace n with (S (n - 1)) by lia. rewrite count_prefix by (try assumption; lia).
  destruct (qle_spec (nth (n - 1) T 0) source); [|lra]. f_equal. unfold ties.
  rewrite <- (filter_nth_seq _ (removelast T)), removelast_length, L.
  f_equal. apply filter_ext_in. intros i Hi. apply in_seq in Hi. rewrite removelast_nth by lia. reflexivity.
Qed.

Lemma no_tie_ties source T : no_tie source T -> ties source T = O.
Proof.
  unfold no_tie, ties. induction 1 as [|x l Hx Hl IH]; [reflexivity|]. cbn [filter]. change (Qeq_bool x source) with (qeq x source). destruct (qeq_spec x source); [contradiction|exact IH].
Qed.

Lemma standing_sumn k Ta mass T cps :
  ~ k_width K == 0 -> length cps = length T ->
  sumn (standing_i k Ta mass T cps) (length T) == standing K k Ta mass T cps.
Proof.
  intro Hw. revert cps. induction T as [|x T IH]; intros [|c cps] HL; try discriminate; [reflexivity|].
  cbn [length standing]. unfold sumn. cbn [seq map]. rewrite qsum_cons.
  rewrite <- seq_shift, map_map. rewrite <- (IH cps) by (cbn in HL; lia).
  unfold standing_i at 1. cbn [nth]. rewrite (loss_factor_UA k Hw), connection_losses_eq. reflexivity.
Qed.
End Flow.
