(** C33-C35, C45, C54, C55: the parametric sweep, its names and inputs, and order strings. *)
From Coq Require Import String Ascii.
From Verif Require Import Base BaseL M_Sweep S_Sweep L_Sweep.
Open Scope string_scope.
Local Open Scope list_scope.

(** ** C33 *)
(** The sweep for any positive steps: each combination once, sizes in steps from the
    minimum and strictly below the maximum plus the heat pump step. *)
Theorem C33_sweep_exact : forall p,
  (0 < hp_step p \/ hp_min p = hp_max p)%Z -> (0 < ts_step p \/ ts_min p = ts_max p)%Z ->
  exists cs, combos p = Ok cs /\ NoDup cs /\
    forall h t, In (h, t) cs <->
      ((hp_min p = hp_max p /\ h = hp_min p) \/
       (hp_min p <> hp_max p /\ exists k, 0 <= k /\ h = hp_min p + k * hp_step p /\ h < hp_max p + hp_step p))%Z /\
      ((ts_min p = ts_max p /\ t = ts_min p) \/
       (ts_min p <> ts_max p /\ exists k, 0 <= k /\ t = ts_min p + k * ts_step p /\ t < ts_max p + hp_step p))%Z.
Proof.
  intros p H1 H2. destruct (combos_total p (conj H1 H2)) as [cs Hc]. exists cs. split; [exact Hc|].
  exact (combos_spec p cs (conj H1 H2) Hc).
Qed.
Print Assumptions C33_sweep_exact.
(** Full statement: the sweep is the requested grid for every min, max and step.  Missing:
    steps that do not divide the range, and a heat pump step of zero or above the tank step. *)
Theorem C33_requested_grid_partial : forall p cs,
  (hp_min p <= hp_max p)%Z -> (ts_min p <= ts_max p)%Z -> (0 < hp_step p)%Z -> (0 < ts_step p)%Z ->
  (hp_step p | hp_max p - hp_min p)%Z -> (ts_step p | ts_max p - ts_min p)%Z ->
  (ts_min p = ts_max p \/ hp_step p <= ts_step p)%Z ->
  combos p = Ok cs ->
  (forall h t, In (h, t) cs <-> requested p (h, t)) /\ In (hp_min p, ts_min p) cs /\ In (hp_max p, ts_max p) cs.
Proof.
  intros p cs H1 H2 H3 H4 H5 H6 H7 Hc.
  assert (R : regular p) by (repeat split; assumption). pose proof (combos_requested p cs R Hc) as E.
  split; [exact E|]. pose proof (requested_ends p R) as [A B]. split; apply E; assumption.
Qed.
Print Assumptions C33_requested_grid_partial.
Example C33_case : combos {| hp_min := 10; hp_max := 20; hp_step := 5; ts_min := 0; ts_max := 1000; ts_step := 500 |} =
  Ok [(10, 0); (10, 500); (10, 1000); (15, 0); (15, 500); (15, 1000); (20, 0); (20, 500); (20, 1000)]%Z.
Proof. reflexivity. Qed.
Theorem C33_nothing_beyond_maximum_refuted : exists p cs h t, (0 < hp_step p)%Z /\ (0 < ts_step p)%Z /\
  (hp_min p <= hp_max p)%Z /\ combos p = Ok cs /\ In (h, t) cs /\ (hp_max p < h)%Z.
Proof.
  exists {| hp_min := 10; hp_max := 15; hp_step := 10; ts_min := 0; ts_max := 0; ts_step := 1 |}, [(10, 0); (20, 0)]%Z, 20%Z, 0%Z.
  cbn. repeat split; try lia. auto.
Qed.
Print Assumptions C33_nothing_beyond_maximum_refuted.
(** With a tank step smaller than the heat pump step the tank sizes run past the maximum,
    although both steps divide their ranges. *)
Theorem C33_tank_beyond_maximum_refuted : exists p cs h t, (0 < hp_step p)%Z /\ (0 < ts_step p)%Z /\
  (hp_step p | hp_max p - hp_min p)%Z /\ (ts_step p | ts_max p - ts_min p)%Z /\
  combos p = Ok cs /\ In (h, t) cs /\ (ts_max p < t)%Z.
Proof.
  exists {| hp_min := 10; hp_max := 20; hp_step := 10; ts_min := 0; ts_max := 4; ts_step := 4 |},
    [(10, 0); (10, 4); (10, 8); (10, 12); (20, 0); (20, 4); (20, 8); (20, 12)]%Z, 10%Z, 12%Z.
  cbn. repeat split; try lia; [exists 1%Z; reflexivity|exists 1%Z; reflexivity|auto 10].
Qed.
Print Assumptions C33_tank_beyond_maximum_refuted.
(** One heat pump size, entered with step 0: the largest tank is left out. *)
Theorem C33_maximum_included_refuted : exists p cs, (hp_min p = hp_max p)%Z /\ (0 < ts_step p)%Z /\
  (ts_min p <= ts_max p)%Z /\ (ts_step p | ts_max p - ts_min p)%Z /\
  combos p = Ok cs /\ forall h, ~ In (h, ts_max p) cs.
Proof.
  exists {| hp_min := 10; hp_max := 10; hp_step := 0; ts_min := 0; ts_max := 1000; ts_step := 500 |}, [(10, 0); (10, 500)]%Z.
  cbn. repeat split; try lia; [exists 2%Z; reflexivity|]. intros h [E|[E|[]]]; injection E; lia.
Qed.
Print Assumptions C33_maximum_included_refuted.
(** Steps of zero are rejected unless the range is a single size. *)
Theorem C33_zero_step : forall p, (hp_min p <> hp_max p)%Z -> hp_step p = 0%Z -> combos p = Err ValueError.
Proof.
  intros p N E. unfold combos, hp_sizes, zrange_step. destruct (Z.eqb_spec (hp_min p) (hp_max p)); [contradiction|]. rewrite E. reflexivity.
Qed.
Print Assumptions C33_zero_step.

(** ** C34 *)
Theorem C34_names_distinct : forall c c', folder_name c = folder_name c' -> c = c'.
Proof. exact folder_name_inj. Qed.
Print Assumptions C34_names_distinct.
Theorem C34_names_reserved : forall c, folder_name c <> chars_of "KPIs" /\ pkl_name (folder_name c) <> inputs_pkl.
Proof. exact folder_not_other. Qed.
Print Assumptions C34_names_reserved.
Theorem C34_sizes_read_back : forall h t, (0 <= h)%Z -> (0 <= t)%Z ->
  numbers_in (folder_name (h, t)) = Ok [h; t] /\
  size_at (folder_name (h, t)) 0 = Ok h /\ size_at (folder_name (h, t)) 1 = Ok t.
Proof.
  intros h t Hh Ht. pose proof (numbers_in_folder (h, t) Hh Ht) as E. unfold size_at. rewrite E. repeat split.
Qed.
Print Assumptions C34_sizes_read_back.
Example C34_case : folder_name (14, 500)%Z = chars_of "hp_14_ts_500" /\ size_at (chars_of "hp_14_ts_500") 1 = Ok 500%Z.
Proof. split; reflexivity. Qed.

(** ** C54 *)
(** A fractional heat pump size (a sweep with one size) has a name that is not made of
    digits, whatever its spelling: the KPI stage takes the tank size for the heat pump
    size and fails on the tank size. *)
Theorem C54_fractional_size_misread : forall (hp : chars) (t : Z),
  hp <> [] -> ~ In "_"%char hp -> Forall (fun c => is_space c = false) hp -> isdigit hp = false -> (0 <= t)%Z ->
  size_at (folder_text hp (str_int t)) 0 = Ok t /\ size_at (folder_text hp (str_int t)) 1 = Err IndexError.
Proof.
  intros hp t N U W D Ht. unfold size_at. rewrite (numbers_skip hp t (conj N (conj U W)) D Ht). split; reflexivity.
Qed.
Print Assumptions C54_fractional_size_misread.
Theorem C54_sizes_used_refuted : exists hp t, hp = chars_of "12.5" /\ size_at (folder_text hp (str_int t)) 0 = Ok t /\
  size_at (folder_text hp (str_int t)) 1 = Err IndexError.
Proof. exists (chars_of "12.5"), 500%Z. split; [reflexivity|]. apply C54_fractional_size_misread; try reflexivity; try discriminate; try lia.
  - cbn. intuition discriminate. - repeat constructor.
Qed.
Print Assumptions C54_sizes_used_refuted.

(** ** C35 *)
(** After the inputs of a sweep are written, the file of every combination is the workbook
    resized for that combination, and no other file has changed. *)
Theorem C35_inputs_independent : forall rest (before after : files rest) cs workbook,
  before inputs_pkl = Some workbook -> create_pickles rest before cs = Ok after ->
  after inputs_pkl = Some workbook /\
  (forall c, In c cs -> exists capacity y, hd_error (hp_capacity _ workbook) = Some capacity /\
     after (pkl_name (folder_name c)) = Some y /\
     resized c (if Qeq_dec capacity 0 then 0 else round2 (inject_Z (fst c) / capacity)) workbook y) /\
  (forall n, (forall c, In c cs -> n <> pkl_name (folder_name c)) -> after n = before n).
Proof.
  intros rest f f' cs x Hx H. destruct (pickles_spec rest cs f f' x Hx H) as (A & B & C). split; [exact A|]. split; [|exact C].
  intros c I. destruct (B c I) as (y & Ey & Ef). destruct (scale_spec rest c x y Ey) as (cap & Ec & R). exists cap, y.
  split; [exact Ec|]. split; [exact Ef|]. destruct (qeq_spec cap 0) as [E|E], (Qeq_dec cap 0) as [E'|E']; try contradiction; exact R.
Qed.
Print Assumptions C35_inputs_independent.
Theorem C35_inputs_written : forall rest (before : files rest) cs workbook capacity l,
  before inputs_pkl = Some workbook -> hp_capacity _ workbook = capacity :: l ->
  exists after, create_pickles rest before cs = Ok after.
Proof. intros rest f cs x cap l. exact (pickles_total rest cs f x cap l). Qed.
Print Assumptions C35_inputs_written.
Definition ex_book : inputs nat :=
  {| hp_capacity := [10]; duty1 := [5; 8]; duty2 := []; duty3 := [9]; duty4 := []; ts_capacity := [300]; c_rest := 7%nat |}.
Example C35_case : exists after,
  create_pickles nat (fun n => if list_eq_dec ascii_dec n inputs_pkl then Some ex_book else None) [(14, 500); (20, 1000)]%Z = Ok after /\
  (match after (chars_of "hp_20_ts_1000.pkl") with Some y => Qeq_bool (nth 1 (duty1 _ y) 0) 16 | None => false end) = true.
Proof. eexists. split; [reflexivity|]. vm_compute. reflexivity. Qed.

(** ** C55 *)
(** Every duty of a resized table is within half a percent of the workbook duty of the
    proportional one.  Full statement: it is the proportional one. *)
Theorem C55_duty_proportional_partial : forall rest (c : Z * Z) (x y : inputs rest) capacity,
  scale_inputs rest c x = Ok y -> hd_error (hp_capacity _ x) = Some capacity -> 0 < capacity ->
  let near d d' := 0 <= d -> d * (inject_Z (fst c) / capacity) - d / 200 <= d' <= d * (inject_Z (fst c) / capacity) + d / 200 in
  Forall2 near (duty1 _ x) (duty1 _ y) /\ Forall2 near (duty2 _ x) (duty2 _ y) /\
  Forall2 near (duty3 _ x) (duty3 _ y) /\ Forall2 near (duty4 _ x) (duty4 _ y).
Proof.
  intros rest c x y cap H E Hc near. destruct (scale_spec rest c x y H) as (cap' & E' & R). rewrite E in E'. injection E' as <-.
  destruct (qeq_spec cap 0) as [Z|_]; [lra|]. destruct R as (_ & _ & _ & _ & _ & R1 & R2 & R3 & R4).
  assert (I : forall d d', d' == d * round2 (inject_Z (fst c) / cap) -> near d d').
  { intros d d' Ed Hd. rewrite Ed. destruct (round2_bounds (inject_Z (fst c) / cap)) as [L U].
    set (q := inject_Z (fst c) / cap) in *. set (r := round2 q) in *.
    assert (d / 200 == d * (1#200)) by (field; lra). nra. }
  assert (F : forall a b, Forall2 (fun d d' => d' == d * round2 (inject_Z (fst c) / cap)) a b -> Forall2 near a b)
    by (induction 1; constructor; auto).
  repeat split; apply F; assumption.
Qed.
Print Assumptions C55_duty_proportional_partial.
Theorem C55_duty_proportional_refuted : exists (c : Z * Z) (x y : inputs nat),
  scale_inputs nat c x = Ok y /\ hd_error (hp_capacity _ x) = Some 3 /\ (0 < fst c)%Z /\
  exists d d', duty1 _ x = [d] /\ duty1 _ y = [d'] /\ ~ d' == d * (inject_Z (fst c) / 3).
Proof.
  exists (1, 0)%Z, {| hp_capacity := [3]; duty1 := [3]; duty2 := []; duty3 := []; duty4 := []; ts_capacity := []; c_rest := 0%nat |}.
  eexists. split; [reflexivity|]. split; [reflexivity|]. split; [cbn; lia|]. exists 3. eexists. split; [reflexivity|].
  split; [reflexivity|]. vm_compute. discriminate.
Qed.
Print Assumptions C55_duty_proportional_refuted.
(** A size below half a percent of the workbook capacity, or a workbook capacity of zero,
    gives a heat pump that delivers nothing. *)
Theorem C55_no_duty : forall rest (c : Z * Z) (x y : inputs rest) capacity,
  scale_inputs rest c x = Ok y -> hd_error (hp_capacity _ x) = Some capacity ->
  (capacity == 0 \/ 0 < capacity /\ (0 <= fst c)%Z /\ inject_Z (fst c) * 200 < capacity) ->
  Forall (fun d => d == 0) (duty1 _ y ++ duty2 _ y ++ duty3 _ y ++ duty4 _ y).
Proof.
  intros rest c x y cap H E Hc. destruct (scale_spec rest c x y H) as (cap' & E' & R). rewrite E in E'. injection E' as <-.
  assert (Z : (if qeq cap 0 then 0 else round2 (inject_Z (fst c) / cap)) == 0).
  { destruct (qeq_spec cap 0) as [Z|Z]; [reflexivity|]. destruct Hc as [Hc|(P & N & S)]; [contradiction|].
    unfold round2, pround. rewrite (L_Grid.round_half_even_near _ 0); [reflexivity| |].
    - assert (0 <= inject_Z (fst c)) by (change 0 with (inject_Z 0); rewrite <- Zle_Qle; exact N).
      assert (0 <= inject_Z (fst c) / cap) by (apply Qle_shift_div_l; lra).
      change (inject_Z 100) with 100. change (inject_Z 0) with 0. lra.
    - assert (inject_Z (fst c) / cap < 1#200) by (apply Qlt_shift_div_r; lra).
      change (inject_Z 100) with 100. change (inject_Z 0) with 0. lra. }
  destruct R as (_ & _ & _ & _ & _ & R1 & R2 & R3 & R4).
  set (r := if qeq cap 0 then 0 else _) in *.
  assert (G : forall a b, Forall2 (fun d d' => d' == d * r) a b -> Forall (fun d => d == 0) b).
  { induction 1 as [|d d' a b Hd _ IH]; constructor; [rewrite Hd, Z; ring|exact IH]. }
  repeat (apply Forall_app; split); eapply G; eassumption.
Qed.
Print Assumptions C55_no_duty.
Example C55_case : exists y, scale_inputs nat (1, 500)%Z {| hp_capacity := [300]; duty1 := [40]; duty2 := []; duty3 := []; duty4 := [];
    ts_capacity := [100]; c_rest := 0%nat |} = Ok y /\ (match duty1 _ y with d :: _ => Qeq_bool d 0 | [] => false end) = true /\
    hp_capacity _ y = [1].
Proof. eexists. split; [reflexivity|]. split; reflexivity. Qed.

(** ** C45 *)
Theorem C45_order_read : forall s l, read_order (Text s) = Ok l <->
  exists pieces, pieces <> [] /\ s = joined "," pieces /\ Forall (fun w => ~ In ","%char w) pieces /\ Forall2 literal pieces l.
Proof. exact read_order_spec. Qed.
Print Assumptions C45_order_read.
Theorem C45_written_order_read_back : forall l, l <> [] -> read_order (Text (joined "," (map str_int l))) = Ok l.
Proof. exact read_order_written. Qed.
Print Assumptions C45_written_order_read_back.
Theorem C45_others_rejected : forall s,
  (forall l, ~ exists pieces, pieces <> [] /\ s = joined "," pieces /\ Forall (fun w => ~ In ","%char w) pieces /\ Forall2 literal pieces l) ->
  read_order (Text s) = Err ValueError.
Proof. exact read_order_rejects. Qed.
Print Assumptions C45_others_rejected.
Theorem C45_number_cell_rejected : forall q, read_order (Number q) = Err AttributeError.
Proof. reflexivity. Qed.
Print Assumptions C45_number_cell_rejected.
Example C45_case : read_order (Text (chars_of "1, 2,+3 ,1_0,-4")) = Ok [1; 2; 3; 10; -4]%Z /\
  read_order (Text (chars_of "1,,2")) = Err ValueError /\ read_order (Text (chars_of "1;2")) = Err ValueError.
Proof. repeat split; reflexivity. Qed.
