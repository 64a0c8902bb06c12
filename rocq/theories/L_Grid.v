From Coq Require Import String Sorting.Sorted Permutation Setoid Znumtheory.
From Verif Require Import Base BaseL M_FixedOrder M_Tank S_Tank L_Tank M_Grid S_Grid.
Open Scope string_scope.

(** ** Generic list facts *)
Lemma mapM_nth_error {A B} (f : A -> res B) l r i x :
  mapM f l = Ok r -> nth_error l i = Some x -> exists y, nth_error r i = Some y /\ f x = Ok y.
Proof.
  revert r i. induction l as [|a l IH]; intros r i H E; [destruct i; discriminate|]. cbn [mapM] in H.
  destruct (f a) as [y|] eqn:Ey; cbn [bind] in H; [|discriminate].
  destruct (mapM f l) as [ys|] eqn:Eys; cbn [bind] in H; [|discriminate]. injection H as <-.
  destruct i as [|i]; cbn in E |- *.
  - injection E as ->. eauto.
  - eapply IH; eauto.
Qed.
Lemma mapM_ok {A B} (f : A -> res B) l :
  (forall x, In x l -> exists y, f x = Ok y) -> exists r, mapM f l = Ok r.
Proof.
  induction l as [|a l IH]; intro H; [eexists; reflexivity|]. cbn [mapM].
  destruct (H a) as [y ->]; [left; reflexivity|]. destruct IH as [ys ->]; [firstorder|]. eexists; reflexivity.
Qed.
Lemma mapM_ok_in {A B} (f : A -> res B) l r x : mapM f l = Ok r -> In x l -> exists y, f x = Ok y.
Proof.
  intros H I. apply In_nth_error in I as [i E]. destruct (mapM_nth_error f l r i x H E) as (y & _ & E2). eauto.
Qed.
Lemma flat_map_length_uniform {A B} (f : A -> list B) m l :
  (forall x, length (f x) = m) -> length (flat_map f l) = (length l * m)%nat.
Proof. intro H. induction l; cbn; [reflexivity|]. rewrite app_length, H, IHl. reflexivity. Qed.
Lemma nth_error_flat_map {A B} (f : A -> list B) m l i j :
  (forall x, length (f x) = m) -> (j < m)%nat ->
  nth_error (flat_map f l) (i * m + j) = match nth_error l i with Some x => nth_error (f x) j | None => None end.
Proof.
  intros H Hj. revert i. induction l as [|a l IH]; intro i; cbn [flat_map].
  - destruct i; cbn; [destruct j|destruct (m + i * m + j)%nat]; reflexivity.
  - destruct i as [|i]; cbn [nth_error].
    + cbn. rewrite nth_error_app1 by (rewrite H; lia). reflexivity.
    + rewrite nth_error_app2 by (rewrite H; cbn; lia). rewrite H.
      replace (S i * m + j - m)%nat with (i * m + j)%nat by (cbn; lia). apply IH.
Qed.
Lemma nth_error_zrange a b i : (Z.of_nat i < b - a)%Z -> nth_error (zrange a b) i = Some (a + Z.of_nat i)%Z.
Proof.
  intro H. unfold zrange. rewrite nth_error_map.
  rewrite (nth_error_nth' _ 0%nat) by (rewrite seq_length; lia). rewrite seq_nth by lia. reflexivity.
Qed.
Lemma nth_error_seq n i : (i < n)%nat -> nth_error (seq 0 n) i = Some i.
Proof. intro H. rewrite (nth_error_nth' _ 0%nat) by (rewrite seq_length; lia). rewrite seq_nth by lia. reflexivity. Qed.

(** ** Calendar *)
Lemma div_step d n : (0 < d -> (n + 1) / d = n / d + (if (n + 1) mod d =? 0 then 1 else 0))%Z.
Proof.
  intro Hd. pose proof (Z.div_mod n d ltac:(lia)). pose proof (Z.mod_pos_bound n d Hd).
  pose proof (Z.div_mod (n + 1) d ltac:(lia)). pose proof (Z.mod_pos_bound (n + 1) d Hd).
  destruct (Z.eqb_spec ((n + 1) mod d) 0); nia.
Qed.
Lemma leapb_mod y : leapb y = is_leap y.
Proof.
  unfold leapb, is_leap.
  assert (E : forall d, (0 < d)%Z -> forall (T F : bool), (if Zdivide_dec d y then T else F) = if (y mod d =? 0)%Z then T else F).
  { intros d Hd T F. destruct (Zdivide_dec d y) as [H|H]; destruct (Z.eqb_spec (y mod d) 0) as [E|E]; try reflexivity; exfalso.
    - apply E. apply Zdivide_mod. exact H.
    - apply H. apply Zmod_divide; [lia|exact E]. }
  rewrite (E 4%Z) by lia. rewrite (E 100%Z) by lia. rewrite (E 400%Z) by lia.
  destruct (y mod 4 =? 0)%Z, (y mod 100 =? 0)%Z, (y mod 400 =? 0)%Z; reflexivity.
Qed.
Lemma leapb_spec y : leapb y = true <-> leap y.
Proof.
  unfold leapb, leap. destruct (Zdivide_dec 4 y), (Zdivide_dec 100 y), (Zdivide_dec 400 y); intuition congruence.
Qed.
Lemma mod_400_100 y : (y mod 400 = 0 -> y mod 100 = 0)%Z.
Proof. intro H. apply Zdivide_mod. apply Z.divide_trans with 400%Z; [exists 4%Z; reflexivity|]. apply Zmod_divide; lia. Qed.
Lemma mod_100_4 y : (y mod 100 = 0 -> y mod 4 = 0)%Z.
Proof. intro H. apply Zdivide_mod. apply Z.divide_trans with 100%Z; [exists 25%Z; reflexivity|]. apply Zmod_divide; lia. Qed.
Lemma days_before_closed n :
  days_before n = days_before_year (Z.of_nat n + 1).
Proof.
  unfold days_before_year. replace (Z.of_nat n + 1 - 1)%Z with (Z.of_nat n) by lia.
  induction n as [|n IH]; [reflexivity|].
  cbn [days_before]. rewrite IH, leapb_mod. rewrite Nat2Z.inj_succ. unfold Z.succ.
  rewrite !(div_step _ (Z.of_nat n)) by lia. unfold is_leap.
  pose proof (mod_400_100 (Z.of_nat n + 1)). pose proof (mod_100_4 (Z.of_nat n + 1)).
  destruct (Z.eqb_spec ((Z.of_nat n + 1) mod 4) 0), (Z.eqb_spec ((Z.of_nat n + 1) mod 100) 0),
    (Z.eqb_spec ((Z.of_nat n + 1) mod 400) 0); cbn [andb orb negb]; try lia.
Qed.
Lemma days_before_year_spec y : (1 <= y)%Z -> days_before (Z.to_nat (y - 1)) = days_before_year y.
Proof. intro H. rewrite days_before_closed. f_equal. lia. Qed.

Lemma day_name_spec d : (0 <= d < 7)%Z -> day_name d = weekday_name d.
Proof.
  intro H. assert (E : (d = 0 \/ d = 1 \/ d = 2 \/ d = 3 \/ d = 4 \/ d = 5 \/ d = 6)%Z) by lia.
  decompose [or] E; subst; reflexivity.
Qed.
Lemma weekday_range y k : (0 <= weekday y k < 7)%Z.
Proof. apply Z.mod_pos_bound. lia. Qed.
Lemma january_weekday y d : (1 <= y)%Z -> weekday_of_ordinal (ordinal_january y d) = weekday y (d - 1).
Proof.
  intro H. unfold weekday_of_ordinal, ordinal_january, weekday. rewrite days_before_year_spec by exact H.
  replace (days_before_year y + d + 6)%Z with (days_before_year y + (d - 1) + 1 * 7)%Z by lia. apply Z_mod_plus_full.
Qed.
Lemma december_weekday y : (1 <= y)%Z ->
  weekday_of_ordinal (ordinal_31_december y) = weekday y (if leapb y then 365 else 364).
Proof.
  intro H. unfold weekday_of_ordinal, ordinal_31_december, weekday. rewrite days_before_year_spec, leapb_mod by exact H.
  destruct (is_leap y);
  [replace (days_before_year y + (334 + 1) + 31 + 6)%Z with (days_before_year y + 365 + 1 * 7)%Z by lia
  |replace (days_before_year y + (334 + 0) + 31 + 6)%Z with (days_before_year y + 364 + 1 * 7)%Z by lia]; apply Z_mod_plus_full.
Qed.
Lemma weekday_period y k : weekday y (k mod 7) = weekday y k.
Proof. unfold weekday. rewrite Zplus_mod_idemp_r. reflexivity. Qed.

(** ** Period tariff *)
Lemma hours_of_length n : length (hours_of n) = 24%nat.
Proof. unfold hours_of. rewrite map_length, zrange_length. reflexivity. Qed.
Lemma nth_hours_of n h : (0 <= h < 24)%Z -> nth_error (hours_of n) (Z.to_nat h) = Some (n, h).
Proof. intro H. unfold hours_of. rewrite nth_error_map, nth_error_zrange by lia. cbn. do 2 f_equal. lia. Qed.
Lemma week_length G : length (flat_map hours_of (day_list G)) = 168%nat.
Proof. rewrite (flat_map_length_uniform _ 24 _ hours_of_length). unfold day_list. rewrite map_length, zrange_length. reflexivity. Qed.
Lemma weeks_length G : length (flat_map (fun _ : nat => flat_map hours_of (day_list G)) (seq 0 52)) = Z.to_nat 8736.
Proof. rewrite (flat_map_length_uniform _ 168) by (intros; apply week_length). rewrite seq_length. lia. Qed.
Lemma slots_length G : Z.of_nat (length (slots G)) = 8760%Z.
Proof. unfold slots. rewrite app_length, weeks_length, hours_of_length. lia. Qed.

Definition calendar_day (y k : Z) : Z := if (k =? 364)%Z then weekday y (if leapb y then 365 else 364) else weekday y k.

Lemma slots_nth G k h : (1 <= g_year G)%Z -> (0 <= k <= 364)%Z -> (0 <= h < 24)%Z ->
  nth_error (slots G) (Z.to_nat (24 * k + h)) = Some (weekday_name (calendar_day (g_year G) k), h).
Proof.
  intros Hy Hk Hh. unfold slots, calendar_day. destruct (Z.eqb_spec k 364) as [->|Hne].
  - rewrite nth_error_app2 by (rewrite weeks_length; lia). rewrite weeks_length.
    replace (Z.to_nat (24 * 364 + h) - Z.to_nat 8736)%nat with (Z.to_nat h) by lia.
    rewrite nth_hours_of by exact Hh. unfold last_day. rewrite december_weekday by exact Hy.
    rewrite day_name_spec by apply weekday_range. reflexivity.
  - rewrite nth_error_app1 by (rewrite weeks_length; lia).
    pose proof (Z.div_mod k 7 ltac:(lia)). pose proof (Z.mod_pos_bound k 7 ltac:(lia)).
    pose proof (Z.div_le_upper_bound k 7 52 ltac:(lia) ltac:(lia)). pose proof (Z.div_pos k 7 ltac:(lia) ltac:(lia)).
    assert (k / 7 < 52)%Z by (apply Z.div_lt_upper_bound; lia).
    replace (Z.to_nat (24 * k + h)) with (Z.to_nat (k / 7) * 168 + (Z.to_nat (k mod 7) * 24 + Z.to_nat h))%nat by lia.
    rewrite nth_error_flat_map by (intros; (apply week_length || lia)).
    rewrite nth_error_seq by lia.
    rewrite nth_error_flat_map by (intros; (apply hours_of_length || lia)).
    unfold day_list. rewrite nth_error_map, nth_error_zrange by lia. cbn [option_map].
    rewrite nth_hours_of by exact Hh. rewrite january_weekday by exact Hy.
    replace (1 + Z.of_nat (Z.to_nat (k mod 7)) - 1)%Z with (k mod 7)%Z by lia.
    rewrite weekday_period, day_name_spec by apply weekday_range. reflexivity.
Qed.

Lemma find_name (l : list (string * list Q)) n c :
  find (fun p => String.eqb (fst p) n) l = Some c -> c = (n, snd c).
Proof. intro H. apply find_some in H as [_ H]. apply String.eqb_eq in H. destruct c; cbn in *; subst; reflexivity. Qed.
Lemma label_some {A} (l : list A) t x : label l t = Ok x -> (0 <= t)%Z /\ nth_error l (Z.to_nat t) = Some x.
Proof.
  unfold label. destruct (Z.ltb_spec t 0); [discriminate|]. destruct (nth_error l (Z.to_nat t)); [|discriminate].
  intro H'. injection H' as ->. auto.
Qed.
Lemma label_nth {A} (l : list A) t x : (0 <= t)%Z -> nth_error l (Z.to_nat t) = Some x -> label l t = Ok x.
Proof. intros H E. unfold label. rewrite E. destruct (Z.ltb_spec t 0); [lia|reflexivity]. Qed.
Lemma label_ok {A} (l : list A) t : (0 <= t < Z.of_nat (length l))%Z -> exists x, label l t = Ok x.
Proof.
  intro H. destruct (nth_error l (Z.to_nat t)) as [x|] eqn:E.
  - exists x. apply label_nth; [lia|exact E].
  - apply nth_error_None in E. lia.
Qed.
Lemma period_price_spec G n h p : period_price G (n, h) = Ok p -> entered G n h p.
Proof.
  unfold period_price, column, entered. cbn [fst snd].
  destruct (find _ _) as [c|] eqn:E; cbn [bind]; [|discriminate]. intro H. apply label_some in H as [_ H].
  exists (snd c). rewrite <- (find_name _ _ _ E). auto.
Qed.
Lemma check_year_ok y u : check_year y = Ok u -> (1 <= y <= 9999)%Z.
Proof. unfold check_year. destruct (Z.leb_spec 1 y), (Z.leb_spec y 9999); cbn; intro; try discriminate; lia. Qed.

Lemma periods_run G l : variable_periods_series G = Ok l ->
  whole_year l /\ forall k h, (0 <= k <= 364)%Z -> (0 <= h < 24)%Z ->
    exists p, nth_error l (Z.to_nat (24 * k + h)) = Some p /\ entered G (weekday_name (calendar_day (g_year G) k)) h p.
Proof.
  unfold variable_periods_series. destruct (check_year (g_year G)) as [u|] eqn:Ey; cbn [bind]; [|discriminate].
  apply check_year_ok in Ey. intro H. split.
  - unfold whole_year. rewrite (mapM_length _ _ _ H). apply slots_length.
  - intros k h Hk Hh. destruct (mapM_nth_error _ _ _ _ _ H (slots_nth G k h ltac:(lia) Hk Hh)) as (p & E & Hp).
    exists p. split; [exact E|]. apply period_price_spec, Hp.
Qed.

Lemma slot_day G s : In s (slots G) -> (1 <= g_year G)%Z ->
  exists d, (0 <= d < 7)%Z /\ fst s = weekday_name d /\ (0 <= snd s < 24)%Z.
Proof.
  intros I Hy. apply In_nth_error in I as [i E].
  assert (Hi : (i < length (slots G))%nat) by (apply nth_error_Some; congruence).
  pose proof (slots_length G) as L.
  pose proof (Z.div_mod (Z.of_nat i) 24 ltac:(lia)). pose proof (Z.mod_pos_bound (Z.of_nat i) 24 ltac:(lia)).
  assert (Z.of_nat i / 24 < 365)%Z by (apply Z.div_lt_upper_bound; lia).
  pose proof (Z.div_pos (Z.of_nat i) 24 ltac:(lia) ltac:(lia)).
  pose proof (slots_nth G (Z.of_nat i / 24) (Z.of_nat i mod 24) Hy ltac:(lia) ltac:(lia)) as E2.
  replace (Z.to_nat _) with i in E2 by lia. rewrite E in E2. injection E2 as ->. cbn [fst snd].
  eexists. split; [|split; [reflexivity|assumption]].
  unfold calendar_day. destruct (_ =? 364)%Z; apply weekday_range.
Qed.
Lemma periods_total G : complete_table G -> (1 <= g_year G <= 9999)%Z -> exists l, variable_periods_series G = Ok l.
Proof.
  intros HT Hy. unfold variable_periods_series, check_year.
  destruct (Z.leb_spec 1 (g_year G)); [|lia]. destruct (Z.leb_spec (g_year G) 9999); [|lia]. cbn [andb bind].
  apply mapM_ok. intros s I. destruct (slot_day G s I ltac:(lia)) as (d & Hd & En & Hh).
  destruct (HT d Hd) as (col & Ef & Lc). destruct s as [n h]; cbn [fst snd] in *. subst n.
  unfold period_price, column. cbn [fst snd]. rewrite Ef. cbn [bind snd]. apply label_ok. lia.
Qed.

(** ** Wholesale tariff *)
Definition day_hours : list (Z * Z) := flat_map (fun day => map (fun hour => (day, hour)) (zrange 0 24)) (zrange 0 365).
Lemma day_hours_block (d : Z) : length (map (fun hour => (d, hour)) (zrange 0 24)) = 24%nat.
Proof. rewrite map_length, zrange_length. reflexivity. Qed.
Lemma day_hours_length : Z.of_nat (length day_hours) = 8760%Z.
Proof. unfold day_hours. rewrite (flat_map_length_uniform _ 24 _ day_hours_block), zrange_length. lia. Qed.
Lemma day_hours_nth d h : (0 <= d < 365)%Z -> (0 <= h < 24)%Z -> nth_error day_hours (Z.to_nat (24 * d + h)) = Some (d, h).
Proof.
  intros Hd Hh. unfold day_hours. replace (Z.to_nat (24 * d + h)) with (Z.to_nat d * 24 + Z.to_nat h)%nat by lia.
  rewrite nth_error_flat_map by (intros; (apply day_hours_block || lia)). rewrite nth_error_zrange by lia.
  rewrite nth_error_map, nth_error_zrange by lia. cbn. do 2 f_equal; lia.
Qed.
Lemma tou_price_spec G d h p : (0 <= d)%Z -> (0 <= h)%Z -> tou_wm_price G d h = Ok p ->
  exists m, nth_error (g_market G) (Z.to_nat (24 * d + h)) = Some m /\
    p == Qmin ((22#10) * m + (if ((16 <=? h) && (h <=? 18))%Z then g_premium G else 0)) (g_maximum G).
Proof.
  intros Hd Hh. unfold tou_wm_price. destruct (label _ _) as [m|] eqn:E; cbn [bind]; [|discriminate].
  apply label_some in E as [_ E]. intro H. exists m. split; [rewrite <- E; f_equal; lia|].
  destruct (Z.eqb_spec h 16), (Z.eqb_spec h 17), (Z.eqb_spec h 18), (Z.leb_spec 16 h), (Z.leb_spec h 18); cbn [orb andb] in *; try lia;
    injection H as <-; rewrite pmin_Qmin; try reflexivity;
    (setoid_replace ((22#10) * m + 0) with ((22#10) * m) by lra; reflexivity).
Qed.
Lemma tou_run G l : tou_wm_series G = Ok l -> whole_year l /\
  forall d h, (0 <= d < 365)%Z -> (0 <= h < 24)%Z -> exists p m,
    nth_error l (Z.to_nat (24 * d + h)) = Some p /\ nth_error (g_market G) (Z.to_nat (24 * d + h)) = Some m /\
    p == Qmin ((22#10) * m + (if ((16 <=? h) && (h <=? 18))%Z then g_premium G else 0)) (g_maximum G).
Proof.
  intro H. unfold tou_wm_series in H. fold day_hours in H. split.
  - unfold whole_year. rewrite (mapM_length _ _ _ H). apply day_hours_length.
  - intros d h Hd Hh. destruct (mapM_nth_error _ _ _ _ _ H (day_hours_nth d h Hd Hh)) as (p & E & Hp).
    cbn [fst snd] in Hp. destruct (tou_price_spec G d h p ltac:(lia) ltac:(lia) Hp) as (m & Em & Ep). eauto 6.
Qed.
Lemma day_hours_In x : In x day_hours -> (0 <= fst x < 365)%Z /\ (0 <= snd x < 24)%Z.
Proof.
  unfold day_hours. intro I. apply in_flat_map in I as (d & Id & I). apply in_map_iff in I as (h & <- & Ih).
  apply zrange_In in Id, Ih. cbn. lia.
Qed.
Lemma tou_total G : (8760 <= Z.of_nat (length (g_market G)))%Z -> exists l, tou_wm_series G = Ok l.
Proof.
  intro H. unfold tou_wm_series. fold day_hours. apply mapM_ok. intros x I. apply day_hours_In in I as [Hd Hh].
  unfold tou_wm_price. destruct (label_ok (g_market G) (snd x + fst x * 24)%Z ltac:(lia)) as [m ->]. cbn [bind].
  destruct (_ || _ || _)%bool; eexists; reflexivity.
Qed.
Lemma Qmin_le_r' a b : Qmin a b <= b.
Proof. apply Q.le_min_r. Qed.
Lemma year_split i : (0 <= i < 8760)%Z -> exists d h, (0 <= d < 365)%Z /\ (0 <= h < 24)%Z /\ i = (24 * d + h)%Z.
Proof.
  intro H. exists (i / 24)%Z, (i mod 24)%Z. pose proof (Z.div_mod i 24 ltac:(lia)). pose proof (Z.mod_pos_bound i 24 ltac:(lia)).
  pose proof (Z.div_pos i 24 ltac:(lia) ltac:(lia)). assert (i / 24 < 365)%Z by (apply Z.div_lt_upper_bound; lia). lia.
Qed.
Lemma tou_capped G l : tou_wm_series G = Ok l -> Forall (fun p => p <= g_maximum G) l.
Proof.
  intro H. apply tou_run in H as [L H]. unfold whole_year in L. apply Forall_forall. intros x I. apply In_nth_error in I as [i E].
  assert (Hi : (i < length l)%nat) by (apply nth_error_Some; congruence).
  destruct (year_split (Z.of_nat i)) as (d & h & Hd & Hh & Ei); [lia|].
  destruct (H d h Hd Hh) as (p & m & Ep & _ & Hp). rewrite <- Ei, Nat2Z.id, E in Ep. injection Ep as <-.
  rewrite Hp. apply Qmin_le_r'.
Qed.

(** ** Rounding is monotone *)
Lemma round_half_even_eq x y : x == y -> round_half_even x = round_half_even y.
Proof.
  intro H. unfold round_half_even. rewrite (Qfloor_comp x y H).
  destruct (qlt_spec (x - inject_Z (Qfloor y)) (1#2)), (qlt_spec (y - inject_Z (Qfloor y)) (1#2)); try lra; try reflexivity.
  destruct (qlt_spec (1#2) (x - inject_Z (Qfloor y))), (qlt_spec (1#2) (y - inject_Z (Qfloor y))); try lra; reflexivity.
Qed.
Lemma round_half_even_mono x y : x <= y -> (round_half_even x <= round_half_even y)%Z.
Proof.
  intro H. destruct (Z.le_gt_cases (round_half_even x) (round_half_even y)) as [?|G]; [assumption|exfalso].
  destruct (round_half_even_bounds x) as [_ Hx]. destruct (round_half_even_bounds y) as [Hy _].
  assert (G' : inject_Z (round_half_even y) + 1 <= inject_Z (round_half_even x)).
  { change 1 with (inject_Z 1). rewrite <- inject_Z_plus, <- Zle_Qle. lia. }
  assert (E : x == y) by lra. rewrite (round_half_even_eq _ _ E) in G. lia.
Qed.
Lemma pround_mono n x y : x <= y -> pround n x <= pround n y.
Proof.
  intro H. unfold pround. unfold Qdiv. apply Qmult_le_compat_r; [|discriminate].
  rewrite <- Zle_Qle. apply round_half_even_mono. apply Qmult_le_compat_r; [exact H|discriminate].
Qed.

(** ** Wind bands *)
Lemma int_median_between a i : int_median a = Ok i -> exists x y, In x a /\ In y a /\ (x <= i <= y)%nat.
Proof.
  unfold int_median. destruct (length a) as [|m] eqn:E; [discriminate|].
  assert (Hh : (S m / 2 < S m)%nat) by (apply Nat.div_lt; lia).
  destruct (Nat.odd (S m)); intro H; apply Ok_inj in H; subst i.
  - set (u := nth (S m / 2) a 0%nat). assert (Iu : In u a) by (apply nth_In; lia). exists u, u. auto.
  - set (u := nth (S m / 2 - 1) a 0%nat). set (v := nth (S m / 2) a 0%nat).
    assert (Iu : In u a) by (apply nth_In; lia). assert (Iv : In v a) by (apply nth_In; lia).
    pose proof (Nat.div_mod (u + v) 2 ltac:(lia)). pose proof (Nat.mod_upper_bound (u + v) 2 ltac:(lia)).
    destruct (Nat.le_ge_cases u v); [exists u, v|exists v, u]; (split; [assumption|split; [assumption|lia]]).
Qed.
Lemma int_median_ok a : a <> [] -> exists i, int_median a = Ok i.
Proof. intro H. unfold int_median. destruct a; [congruence|]. cbn [length]. destruct (Nat.odd _); eexists; reflexivity. Qed.

Definition share (n i : nat) : Q := inject_Z (Z.of_nat (S i)) / inject_Z (Z.of_nat n).
Lemma inject_pos n : (0 < n)%nat -> 0 < inject_Z (Z.of_nat n).
Proof. intro H. change 0 with (inject_Z 0). rewrite <- Zlt_Qlt. lia. Qed.
Lemma share_mono n i j : (0 < n)%nat -> (i <= j)%nat -> share n i <= share n j.
Proof.
  intros Hn H. unfold share. apply Qmult_le_compat_r; [rewrite <- Zle_Qle; lia|].
  apply Qinv_le_0_compat, Qlt_le_weak, inject_pos, Hn.
Qed.
Lemma share_mul n i : (0 < n)%nat -> share n i * inject_Z (Z.of_nat n) == inject_Z (Z.of_nat (S i)).
Proof. intro H. apply inject_pos in H. unfold share. field. lra. Qed.
Lemma band_array_In n p i : In i (band_array n p) <-> (i < n)%nat /\ round2 (share n i) == p.
Proof.
  unfold band_array. rewrite filter_In, in_seq. unfold exceedance_rounded. fold (share n i).
  destruct (qeq_spec (round2 (share n i)) p); intuition (try lia; try congruence).
Qed.
Lemma median_share n p i : int_median (band_array n p) = Ok i ->
  (i < n)%nat /\ share n i - (1#200) <= p /\ p <= share n i + (1#200).
Proof.
  intro H. apply int_median_between in H as (x & y & Ix & Iy & Hi).
  apply band_array_In in Ix as [Lx Ex]. apply band_array_In in Iy as [Ly Ey].
  split; [lia|]. destruct (round2_bounds (share n x)) as [_ Hx]. destruct (round2_bounds (share n y)) as [Hy _].
  pose proof (share_mono n x i ltac:(lia) ltac:(lia)). pose proof (share_mono n i y ltac:(lia) ltac:(lia)). lra.
Qed.
Lemma median_order n p q i j : p < q -> int_median (band_array n p) = Ok i -> int_median (band_array n q) = Ok j -> (i < j)%nat.
Proof.
  intros Hpq Hi Hj. apply int_median_between in Hi as (x0 & y & _ & Iy & Hi). apply int_median_between in Hj as (x & y0 & Ix & _ & Hj).
  apply band_array_In in Iy as [Ly Ey]. apply band_array_In in Ix as [Lx Ex].
  destruct (Nat.lt_ge_cases y x) as [?|G]; [lia|exfalso].
  pose proof (pround_mono 100 _ _ (share_mono n x y ltac:(lia) G)) as M. fold (round2 (share n x)) in M. fold (round2 (share n y)) in M. lra.
Qed.
Lemma band_array_eq n p q : p == q -> band_array n p = band_array n q.
Proof.
  intro H. unfold band_array. apply filter_ext. intro i.
  destruct (qeq_spec (exceedance_rounded n i) p) as [A|A], (qeq_spec (exceedance_rounded n i) q) as [B|B]; try reflexivity; exfalso.
  - apply B. rewrite A. exact H.
  - apply A. rewrite B. symmetry. exact H.
Qed.

(** Order statistics *)
Lemma filter_perm_length {A} (f : A -> bool) l l' : Permutation l l' -> length (filter f l) = length (filter f l').
Proof.
  induction 1 as [|x l l' _ IH|x y l|l l' l'' _ IH1 _ IH2]; cbn; [reflexivity| | |congruence].
  - destruct (f x); cbn; congruence.
  - destruct (f x), (f y); reflexivity.
Qed.
Lemma filter_all {A} (f : A -> bool) l : Forall (fun x => f x = true) l -> filter f l = l.
Proof. induction 1 as [|x l Hx _ IH]; cbn; [reflexivity|]. rewrite Hx, IH. reflexivity. Qed.
Lemma filter_none {A} (f : A -> bool) l : Forall (fun x => f x = false) l -> filter f l = [].
Proof. induction 1 as [|x l Hx _ IH]; cbn; [reflexivity|]. rewrite Hx. exact IH. Qed.
Lemma sorted_app l1 l2 : stratified (l1 ++ l2)%list -> forall x y, In x l1 -> In y l2 -> y <= x.
Proof.
  unfold stratified. induction l1 as [|a l1 IH]; cbn; intros H x y Ix Iy; [contradiction|].
  inversion H as [|? ? H1 H2]; subst. destruct Ix as [->|Ix].
  - rewrite Forall_forall in H2. apply H2. apply in_or_app. right. exact Iy.
  - eapply IH; eauto.
Qed.
Lemma sorted_nth l i j : stratified l -> (i <= j < length l)%nat -> nth j l 0 <= nth i l 0.
Proof.
  unfold stratified. intro H. revert i j. induction H as [|a l Hl IH Ha]; intros i j Hij; [cbn in Hij; lia|].
  destruct j as [|j]; [replace i with 0%nat by lia; lra|]. destruct i as [|i]; cbn [nth].
  - rewrite Forall_forall in Ha. apply Ha. apply nth_In. cbn in Hij. lia.
  - apply IH. cbn in Hij. lia.
Qed.
Lemma count_from (l : list Q) f i : Forall (fun x => f x = true) (firstn i l) -> (i <= length l)%nat -> (i <= length (filter f l))%nat.
Proof.
  intros H L. rewrite <- (firstn_skipn i l) at 1. rewrite filter_app, app_length, (filter_all _ _ H), firstn_length. lia.
Qed.
Lemma In_firstn_nth (l : list Q) i x : In x (firstn i l) -> exists k, (k < i)%nat /\ (k < length l)%nat /\ x = nth k l 0.
Proof.
  revert l. induction i as [|i IH]; intros [|a l]; cbn; try contradiction. intros [->|H].
  - exists 0%nat. repeat split; lia.
  - destruct (IH l H) as (k & ? & ? & ->). exists (S k). repeat split; lia.
Qed.
Lemma In_skipn_nth (l : list Q) i x : In x (skipn i l) -> exists k, (i <= k)%nat /\ (k < length l)%nat /\ x = nth k l 0.
Proof.
  revert l. induction i as [|i IH]; intros l; cbn.
  - intro H. apply (In_nth _ _ 0) in H as (k & ? & <-). exists k. repeat split; lia.
  - destruct l as [|a l]; cbn; [contradiction|]. intro H. destruct (IH l H) as (k & ? & ? & ->). exists (S k). repeat split; lia.
Qed.

Lemma filter_length_le {A} (f : A -> bool) l : (length (filter f l) <= length l)%nat.
Proof. induction l as [|x l IH]; cbn; [lia|]. destruct (f x); cbn; lia. Qed.

Section Counts.
Variables (power : list Q) (i : nat).
Hypothesis Hi : (i < length power)%nat.
Let b := nth i (sort_desc power) 0.
Lemma sd_len : length (sort_desc power) = length power. Proof. apply sort_desc_length. Qed.
Lemma count_ge : (S i <= length (filter (fun p => qle b p) power))%nat.
Proof.
  rewrite <- (filter_perm_length _ _ _ (sort_desc_perm power)). apply count_from; [|rewrite sd_len; lia].
  apply Forall_forall. intros x Hx. apply In_firstn_nth in Hx as (k & Hk & Lk & ->).
  pose proof (sorted_nth _ k i (sort_desc_sorted power) ltac:(rewrite sd_len; lia)) as E. fold b in E.
  destruct (qle_spec b (nth k (sort_desc power) 0)); [reflexivity|lra].
Qed.
Lemma count_gt : (length (filter (fun p => qlt b p) power) <= i)%nat.
Proof.
  rewrite <- (filter_perm_length _ _ _ (sort_desc_perm power)).
  rewrite <- (firstn_skipn i (sort_desc power)) at 1. rewrite filter_app, app_length.
  rewrite (filter_none _ (skipn i _)).
  - pose proof (filter_length_le (fun p => qlt b p) (firstn i (sort_desc power))) as F. rewrite firstn_length in F. cbn. lia.
  - apply Forall_forall. intros x Hx. apply In_skipn_nth in Hx as (k & Hk & Lk & ->).
    pose proof (sorted_nth _ i k (sort_desc_sorted power) ltac:(lia)) as E. fold b in E.
    destruct (qlt_spec b (nth k (sort_desc power) 0)); [lra|reflexivity].
Qed.
Lemma count_compl (f g : Q -> bool) (l : list Q) : (forall x, f x = negb (g x)) -> (length (filter f l) + length (filter g l) = length l)%nat.
Proof. intro H. induction l as [|x l IH]; cbn; [reflexivity|]. rewrite H. destruct (g x); cbn; lia. Qed.
Lemma count_le : (length power - i <= length (filter (fun p => qle p b) power))%nat.
Proof.
  pose proof (count_compl (fun p => qle p b) (fun p => qlt b p) power) as C. pose proof count_gt.
  rewrite <- C; [lia|]. intro x. destruct (qle_spec x b), (qlt_spec b x); try reflexivity; lra.
Qed.
Lemma count_lt : (length (filter (fun p => qlt p b) power) <= length power - S i)%nat.
Proof.
  pose proof (count_compl (fun p => qlt p b) (fun p => qle b p) power) as C. pose proof count_ge.
  rewrite <- C; [lia|]. intro x. destruct (qlt_spec x b), (qle_spec b x); try reflexivity; lra.
Qed.
Lemma band_In : In b power.
Proof. apply (Permutation_in _ (sort_desc_perm power)). apply nth_In. rewrite sd_len. exact Hi. Qed.
End Counts.

Lemma band_inv power p b : band power p = Ok b ->
  exists i, (i < length power)%nat /\ int_median (band_array (length power) p) = Ok i /\ b = nth i (sort_desc power) 0 /\
    share (length power) i - (1#200) <= p /\ p <= share (length power) i + (1#200).
Proof.
  unfold band. destruct (int_median _) as [i|] eqn:E; cbn [bind]; [|discriminate]. intro H. injection H as <-.
  pose proof (median_share _ _ _ E) as (? & ? & ?). exists i. repeat split; auto.
Qed.
Lemma band_order power p q bp bq : p <= q -> band power p = Ok bp -> band power q = Ok bq -> bq <= bp.
Proof.
  intros Hpq Hp Hq. apply band_inv in Hp as (i & Li & Ei & -> & _). apply band_inv in Hq as (j & Lj & Ej & -> & _).
  assert (Hij : (i <= j)%nat).
  { destruct (Qlt_le_dec p q) as [L|L].
    - pose proof (median_order _ _ _ _ _ L Ei Ej). lia.
    - rewrite (band_array_eq _ p q) in Ei by lra. rewrite Ei in Ej. injection Ej as ->. lia. }
  apply sorted_nth; [apply sort_desc_sorted|rewrite sort_desc_length; lia].
Qed.

(** When a band exists *)
Lemma round_half_even_near x k : inject_Z k - (1#2) < x -> x < inject_Z k + (1#2) -> round_half_even x = k.
Proof.
  intros H1 H2. destruct (round_half_even_bounds x) as [L U].
  assert (A : inject_Z (round_half_even x) < inject_Z (k + 1)) by (rewrite inject_Z_plus; change (inject_Z 1) with 1; lra).
  assert (B : inject_Z k < inject_Z (round_half_even x + 1)) by (rewrite inject_Z_plus; change (inject_Z 1) with 1; lra).
  rewrite <- Zlt_Qlt in A, B. lia.
Qed.
Lemma band_array_nonempty n k : (200 <= n)%nat -> (0 <= k <= 100)%Z -> exists i, In i (band_array n (inject_Z k / 100)).
Proof.
  intros Hn Hk. pose proof (inject_pos n ltac:(lia)) as Pn.
  assert (Q200 : 200 <= inject_Z (Z.of_nat n)) by (change 200 with (inject_Z 200); rewrite <- Zle_Qle; lia).
  destruct (Z.eq_dec k 0) as [->|Hk0].
  - exists 0%nat. apply band_array_In. split; [lia|]. unfold round2, pround.
    assert (E : round_half_even (share n 0 * inject_Z 100) = 0%Z).
    { unfold share. change (inject_Z (Z.of_nat 1)) with 1.
      assert (Z.of_nat n = 200 \/ 201 <= Z.of_nat n)%Z as [->|L] by lia; [reflexivity|].
      assert (201 <= inject_Z (Z.of_nat n)) by (change 201 with (inject_Z 201); rewrite <- Zle_Qle; lia).
      assert (E : 1 / inject_Z (Z.of_nat n) * inject_Z 100 == 100 / inject_Z (Z.of_nat n)) by (change (inject_Z 100) with 100; field; lra).
      assert (0 < 100 / inject_Z (Z.of_nat n)) by (apply Qlt_shift_div_l; lra).
      assert (100 / inject_Z (Z.of_nat n) < 1#2) by (apply Qlt_shift_div_r; lra).
      apply round_half_even_near; change (inject_Z 0) with 0; lra. }
    rewrite E. reflexivity.
  - set (m := (k * Z.of_nat n / 100)%Z).
    pose proof (Z.div_mod (k * Z.of_nat n) 100 ltac:(lia)) as D. pose proof (Z.mod_pos_bound (k * Z.of_nat n) 100 ltac:(lia)) as B.
    fold m in D. assert (M1 : (2 <= m)%Z) by (apply Z.div_le_lower_bound; nia).
    assert (M2 : (m <= Z.of_nat n)%Z) by (apply Z.div_le_upper_bound; nia).
    exists (Z.to_nat (m - 1)). apply band_array_In. split; [lia|]. unfold share.
    replace (Z.of_nat (S (Z.to_nat (m - 1)))) with m by lia. unfold round2, pround.
    assert (E : round_half_even (inject_Z m / inject_Z (Z.of_nat n) * inject_Z 100) = k).
    { assert (QL : inject_Z m * 100 <= inject_Z k * inject_Z (Z.of_nat n))
        by (change 100 with (inject_Z 100); rewrite <- !inject_Z_mult, <- Zle_Qle; lia).
      assert (QU : inject_Z k * inject_Z (Z.of_nat n) < inject_Z m * 100 + 100)
        by (change 100 with (inject_Z 100); rewrite <- !inject_Z_mult, <- inject_Z_plus, <- Zlt_Qlt; lia).
      rewrite (round_half_even_eq _ (inject_Z m * 100 / inject_Z (Z.of_nat n)))
        by (change (inject_Z 100) with 100; field; lra).
      set (N := inject_Z (Z.of_nat n)) in *. set (q := inject_Z m * 100 / N).
      assert (Eq : q * N == inject_Z m * 100) by (unfold q; field; lra).
      apply round_half_even_near.
      - apply Qlt_shift_div_l; [lra|]. lra.
      - apply Qlt_shift_div_r; [lra|]. lra. }
    rewrite E. change (inject_Z 100) with 100. reflexivity.
Qed.
Lemma band_defined power p : (200 <= length power)%nat ->
  ((exists b, band power p = Ok b) <-> exists k, (0 <= k <= 100)%Z /\ p == inject_Z k / 100) /\
  ((~ exists k, (0 <= k <= 100)%Z /\ p == inject_Z k / 100) -> band power p = Err ValueError).
Proof.
  intro Hn.
  assert (F : (exists k, (0 <= k <= 100)%Z /\ p == inject_Z k / 100) -> exists b, band power p = Ok b).
  { intros (k & Hk & E). unfold band. rewrite (band_array_eq _ _ _ E).
    destruct (band_array_nonempty (length power) k Hn Hk) as [i Ii].
    destruct (int_median_ok (band_array (length power) (inject_Z k / 100))) as [j ->].
    - intro N. rewrite N in Ii. contradiction.
    - eexists; reflexivity. }
  assert (B : forall i, In i (band_array (length power) p) -> exists k, (0 <= k <= 100)%Z /\ p == inject_Z k / 100).
  { intros i Ii. apply band_array_In in Ii as [Li Ei]. unfold round2, pround in Ei.
    exists (round_half_even (share (length power) i * inject_Z 100)). split; [|symmetry; exact Ei].
    pose proof (inject_pos (length power) ltac:(lia)) as Pn.
    assert (S0 : 0 < share (length power) i) by (apply Qlt_shift_div_l; [lra|]; rewrite Qmult_0_l; apply inject_pos; lia).
    assert (S1 : share (length power) i <= 1) by (apply Qle_shift_div_r; [lra|]; rewrite Qmult_1_l, <- Zle_Qle; lia).
    split.
    - apply round_half_even_nonneg. change (inject_Z 100) with 100. lra.
    - change 100%Z with (round_half_even 100) at 2. apply round_half_even_mono. change (inject_Z 100) with 100. lra. }
  split; [split|].
  - intros (b & Hb). apply band_inv in Hb as (i & _ & Ei & _). apply int_median_between in Ei as (x & y & Ix & _). eapply B, Ix.
  - exact F.
  - intro N. unfold band. destruct (band_array (length power) p) as [|i a] eqn:E; [reflexivity|].
    exfalso. apply N. apply (B i). left. reflexivity.
Qed.

(** ** PPA prices *)
Lemma pidx_some {A} (l : list A) i x : pidx l i = Ok x -> nth_error l i = Some x.
Proof. unfold pidx. destruct (nth_error l i); [|discriminate]. intro H. injection H as ->. reflexivity. Qed.
Lemma ppa_run G w tou l : ppa_series G w tou = Ok l ->
  whole_year l /\ forall t, (0 <= t < 8760)%Z -> exists p base out,
    nth_error (w_power w) (Z.to_nat t) = Some p /\ nth_error tou (Z.to_nat t) = Some base /\
    nth_error l (Z.to_nat t) = Some out /\
    (w_higher w <= p -> out = base - g_higher_discount G) /\
    (p < w_higher w -> p <= w_lower w -> out = base + g_lower_penalty G) /\
    (p < w_higher w -> w_lower w < p -> out = base).
Proof.
  intro H. unfold ppa_series in H. split.
  - unfold whole_year. rewrite (mapM_length _ _ _ H), zrange_length. lia.
  - intros t Ht. destruct (mapM_nth_error _ _ _ (Z.to_nat t) _ H (nth_error_zrange 0 8760 (Z.to_nat t) ltac:(lia))) as (out & Eo & Ho).
    rewrite Z.add_0_l, Z2Nat.id in Ho by lia. unfold ppa_price in Ho.
    destruct (label _ t) as [p|] eqn:Ep; cbn [bind] in Ho; [|discriminate].
    destruct (pidx _ _) as [base|] eqn:Eb; cbn [bind] in Ho; [|discriminate].
    apply label_some in Ep as [_ Ep]. apply pidx_some in Eb. exists p, base, out. repeat (split; [assumption|]).
    destruct (qle_spec (w_higher w) p); [|destruct (qle_spec p (w_lower w))]; injection Ho as <-; repeat split; intros; try reflexivity; lra.
Qed.
Lemma ppa_total G w tou : (8760 <= Z.of_nat (length (w_power w)))%Z -> whole_year tou -> exists l, ppa_series G w tou = Ok l.
Proof.
  intros Hw Ht. unfold whole_year in Ht. apply mapM_ok. intros t I. apply zrange_In in I. unfold ppa_price.
  destruct (label_ok (w_power w) t ltac:(lia)) as [p ->]. cbn [bind].
  unfold pidx. destruct (nth_error tou (Z.to_nat t)) as [b|] eqn:E; [|apply nth_error_None in E; lia]. cbn [bind].
  destruct (qle _ _); [|destruct (qle _ _)]; eexists; reflexivity.
Qed.
Lemma wind_inv G w : wind_farm_info G = Ok w ->
  band (g_wind G) (g_lower_percent G) = Ok (w_lower w) /\ band (g_wind G) (g_higher_percent G) = Ok (w_higher w) /\ w_power w = g_wind G.
Proof.
  unfold wind_farm_info. destruct (band _ (g_lower_percent G)) as [lo|]; cbn [bind]; [|discriminate].
  destruct (band _ (g_higher_percent G)) as [hi|]; cbn [bind]; [|discriminate]. intro H. injection H as <-. auto.
Qed.
Lemma flat_year G : whole_year (flat_rates_series G).
Proof. unfold whole_year, flat_rates_series. rewrite repeat_length. lia. Qed.
Lemma flat_nth G t : (0 <= t < 8760)%Z -> nth_error (flat_rates_series G) (Z.to_nat t) = Some (g_flat G).
Proof.
  intro H. unfold flat_rates_series. rewrite (nth_error_nth' _ (g_flat G)) by (rewrite repeat_length; lia).
  rewrite nth_repeat. reflexivity.
Qed.

(** ** Public entry point *)
Lemma ics_flat G : g_tariff G = "Flat rates" -> import_cost_series G = Ok (Some (flat_rates_series G)).
Proof. intro E. unfold import_cost_series. rewrite E. reflexivity. Qed.
Definition somes (x : res (list Q)) : res (option (list Q)) := l <- x ;; Ok (Some l).
Lemma somes_inv x l : somes x = Ok (Some l) -> x = Ok l.
Proof. unfold somes. destruct x; cbn; congruence. Qed.
Lemma somes_ok x l : x = Ok l -> somes x = Ok (Some l).
Proof. intros ->. reflexivity. Qed.
Lemma ics_vp G : g_tariff G = "Variable periods" -> import_cost_series G = somes (variable_periods_series G).
Proof. intro E. unfold import_cost_series. rewrite E. reflexivity. Qed.
Lemma ics_wm G : g_tariff G = "Time of use - WM" -> import_cost_series G = somes (tou_wm_series G).
Proof. intro E. unfold import_cost_series. rewrite E. reflexivity. Qed.
Lemma ics_pwm G : g_tariff G = "Time of use - PPA + WM" -> import_cost_series G = somes (tou_wm_wind_ppa G).
Proof. intro E. unfold import_cost_series. rewrite E. reflexivity. Qed.
Lemma ics_pfr G : g_tariff G = "Time of use - PPA + FR" -> import_cost_series G = somes (flat_rates_wind G).
Proof. intro E. unfold import_cost_series. rewrite E. reflexivity. Qed.
Lemma ics_pvp G : g_tariff G = "Time of use - PPA + VP" -> import_cost_series G = somes (variable_periods_wind G).
Proof. intro E. unfold import_cost_series. rewrite E. reflexivity. Qed.

Definition known : list string :=
  [ "Flat rates"; "Variable periods"; "Time of use - WM"; "Time of use - PPA + FR";
    "Time of use - PPA + WM"; "Time of use - PPA + VP" ].
Lemma known_cases n : In n known ->
  n = "Flat rates" \/ n = "Variable periods" \/ n = "Time of use - WM" \/ n = "Time of use - PPA + FR" \/
  n = "Time of use - PPA + WM" \/ n = "Time of use - PPA + VP".
Proof. unfold known. cbn [In]. intuition. Qed.
Lemma init_grid_spec G : init_grid G = if in_dec string_dec (g_tariff G) known then Ok G else Err UnboundLocalError.
Proof.
  unfold init_grid. destruct (in_dec _ _ _) as [I|I].
  - apply known_cases in I. decompose [or] I; match goal with H : g_tariff G = _ |- _ => rewrite H end; reflexivity.
  - destruct (existsb _ _) eqn:E; [|reflexivity]. exfalso. apply I. apply existsb_exists in E as (x & Ix & Ex).
    apply String.eqb_eq in Ex. rewrite Ex. exact Ix.
Qed.
Lemma unknown_none G : ~ In (g_tariff G) known -> import_cost_series G = Ok None.
Proof.
  intro H. unfold import_cost_series. unfold known in H. cbn [In] in H.
  repeat match goal with |- context [String.eqb ?a ?b] => destruct (String.eqb_spec a b) as [E|_]; [exfalso; intuition congruence|] end.
  reflexivity.
Qed.
Lemma ppa_base G base l name under :
  g_tariff G = name -> agreement_over name under ->
  import_cost_series (with_tariff under G) = Ok (Some base) -> import_cost_series G = Ok (Some l) ->
  exists w, wind_farm_info G = Ok w /\ ppa_series G w base = Ok l.
Proof.
  intros E A. destruct A; intros Hb Hl.
  - rewrite ics_flat in Hb by reflexivity. rewrite (ics_pfr G E) in Hl. apply somes_inv in Hl. unfold flat_rates_wind in Hl. cbv zeta in Hl.
    destruct (wind_farm_info G) as [w|]; cbn [bind] in Hl; [|discriminate]. apply Ok_inj in Hb.
    assert (Hb' : flat_rates_series (with_tariff "Flat rates" G) = base) by congruence.
    exists w. split; [reflexivity|]. rewrite <- Hb'. exact Hl.
  - rewrite ics_vp in Hb by reflexivity. rewrite (ics_pvp G E) in Hl. apply somes_inv in Hl. apply somes_inv in Hb.
    unfold variable_periods_wind in Hl. change (variable_periods_series (with_tariff _ G)) with (variable_periods_series G) in Hb.
    rewrite Hb in Hl. cbn [bind] in Hl. destruct (wind_farm_info G) as [w|]; cbn [bind] in Hl; [|discriminate]. eauto.
  - rewrite ics_wm in Hb by reflexivity. rewrite (ics_pwm G E) in Hl. apply somes_inv in Hl. apply somes_inv in Hb.
    unfold tou_wm_wind_ppa in Hl. change (tou_wm_series (with_tariff _ G)) with (tou_wm_series G) in Hb.
    destruct (wind_farm_info G) as [w|]; cbn [bind] in Hl; [|discriminate]. rewrite Hb in Hl. cbn [bind] in Hl. eauto.
Qed.
Lemma series_year G l : import_cost_series G = Ok (Some l) -> whole_year l.
Proof.
  intro H. destruct (in_dec string_dec (g_tariff G) known) as [I|I]; [|rewrite (unknown_none G I) in H; discriminate].
  apply known_cases in I. decompose [or] I; clear I;
    match goal with E : g_tariff G = _ |- _ => first [rewrite (ics_flat G E) in H|rewrite (ics_vp G E) in H|rewrite (ics_wm G E) in H
      |rewrite (ics_pwm G E) in H|rewrite (ics_pfr G E) in H|rewrite (ics_pvp G E) in H] end.
  - apply Ok_inj in H. assert (flat_rates_series G = l) by congruence. subst l. apply flat_year.
  - apply somes_inv in H. apply (periods_run G l H).
  - apply somes_inv in H. apply (tou_run G l H).
  - apply somes_inv in H. unfold flat_rates_wind in H. cbv zeta in H. destruct (wind_farm_info G); cbn [bind] in H; [|discriminate].
    apply (ppa_run _ _ _ _ H).
  - apply somes_inv in H. unfold tou_wm_wind_ppa in H. destruct (wind_farm_info G); cbn [bind] in H; [|discriminate].
    destruct (tou_wm_series G); cbn [bind] in H; [|discriminate]. apply (ppa_run _ _ _ _ H).
  - apply somes_inv in H. unfold variable_periods_wind in H. destruct (variable_periods_series G); cbn [bind] in H; [|discriminate].
    destruct (wind_farm_info G); cbn [bind] in H; [|discriminate]. apply (ppa_run _ _ _ _ H).
Qed.
Lemma wind_total G : (8760 <= Z.of_nat (length (g_wind G)))%Z -> whole_percent (g_lower_percent G) -> whole_percent (g_higher_percent G) ->
  exists w, wind_farm_info G = Ok w.
Proof.
  intros L HL HH. unfold wind_farm_info.
  destruct (proj2 (proj1 (band_defined (g_wind G) (g_lower_percent G) ltac:(lia))) HL) as [lo ->]. cbn [bind].
  destruct (proj2 (proj1 (band_defined (g_wind G) (g_higher_percent G) ltac:(lia))) HH) as [hi ->]. cbn [bind]. eexists; reflexivity.
Qed.
Lemma series_total G : complete_inputs G -> In (g_tariff G) known -> exists l, import_cost_series G = Ok (Some l).
Proof.
  intros (HT & Hy & Hm & Hw & HL & HH) I.
  destruct (periods_total G HT Hy) as [vp Hvp]. destruct (tou_total G Hm) as [tw Htw]. destruct (wind_total G Hw HL HH) as [w Ew].
  destruct (wind_inv G w Ew) as (_ & _ & Pw).
  assert (P : forall tou, whole_year tou -> exists l, ppa_series G w tou = Ok l) by (intros; apply ppa_total; [rewrite Pw; exact Hw|assumption]).
  apply known_cases in I. decompose [or] I; clear I;
    match goal with E : g_tariff G = _ |- _ => first [rewrite (ics_flat G E)|rewrite (ics_vp G E)|rewrite (ics_wm G E)
      |rewrite (ics_pwm G E)|rewrite (ics_pfr G E)|rewrite (ics_pvp G E)] end.
  - eexists; reflexivity.
  - rewrite Hvp. eexists; reflexivity.
  - rewrite Htw. eexists; reflexivity.
  - unfold flat_rates_wind. cbv zeta. rewrite Ew. cbn [bind]. destruct (P _ (flat_year G)) as [l ->]. eexists; reflexivity.
  - unfold tou_wm_wind_ppa. rewrite Ew, Htw. cbn [bind]. destruct (P _ (proj1 (tou_run _ _ Htw))) as [l ->]. eexists; reflexivity.
  - unfold variable_periods_wind. rewrite Hvp, Ew. cbn [bind]. destruct (P _ (proj1 (periods_run _ _ Hvp))) as [l ->]. eexists; reflexivity.
Qed.

(** C30 *)
Lemma flat_series G l : g_tariff G = "Flat rates" -> import_cost_series G = Ok (Some l) ->
  forall t, (0 <= t < 8760)%Z -> price_at l t (g_flat G).
Proof.
  intros E H t Ht. rewrite (ics_flat G E) in H. apply Ok_inj in H. assert (E' : flat_rates_series G = l) by congruence.
  subst l. unfold price_at. apply flat_nth, Ht.
Qed.
Lemma periods_series G l : g_tariff G = "Variable periods" -> import_cost_series G = Ok (Some l) ->
  forall k h, (0 <= k <= 364)%Z -> (0 <= h < 24)%Z -> exists p, price_at l (24 * k + h) p /\
    ((k < 364)%Z \/ ~ leap (g_year G) -> entered G (weekday_name (weekday (g_year G) k)) h p) /\
    (k = 364%Z -> leap (g_year G) -> entered G (weekday_name (weekday (g_year G) 365)) h p).
Proof.
  intros E H k h Hk Hh. rewrite (ics_vp G E) in H. apply somes_inv in H.
  destruct (proj2 (periods_run G l H) k h Hk Hh) as (p & Ep & Hp). exists p. split; [exact Ep|].
  unfold calendar_day in Hp. pose proof (leapb_spec (g_year G)) as L. split.
  - intros Hc. destruct (Z.eqb_spec k 364) as [->|]; [|exact Hp].
    destruct (leapb (g_year G)) eqn:El; [|exact Hp]. exfalso. intuition (lia || congruence).
  - intros -> HL. apply L in HL. rewrite HL in Hp. exact Hp.
Qed.
Lemma entered_det G n h p q : entered G n h p -> entered G n h q -> p = q.
Proof. intros (c & E & N) (c' & E' & N'). rewrite E in E'. injection E' as <-. congruence. Qed.

(** C31 *)
Lemma market_series G l : g_tariff G = "Time of use - WM" -> import_cost_series G = Ok (Some l) ->
  forall d h, (0 <= d < 365)%Z -> (0 <= h < 24)%Z -> exists p m,
    price_at l (24 * d + h) p /\ price_at (g_market G) (24 * d + h) m /\
    ((16 <= h <= 18)%Z -> p == Qmin ((22#10) * m + g_premium G) (g_maximum G)) /\
    (~ (16 <= h <= 18)%Z -> p == Qmin ((22#10) * m) (g_maximum G)).
Proof.
  intros E H d h Hd Hh. rewrite (ics_wm G E) in H. apply somes_inv in H.
  destruct (proj2 (tou_run G l H) d h Hd Hh) as (p & m & Ep & Em & Hp). exists p, m. split; [exact Ep|]. split; [exact Em|].
  destruct (Z.leb_spec 16 h), (Z.leb_spec h 18); cbn [andb] in Hp; split; intro; try lia; try exact Hp;
    (setoid_replace ((22#10) * m) with ((22#10) * m + 0) by lra; exact Hp).
Qed.
Lemma market_capped G l : g_tariff G = "Time of use - WM" -> import_cost_series G = Ok (Some l) -> Forall (fun p => p <= g_maximum G) l.
Proof. intros E H. rewrite (ics_wm G E) in H. apply somes_inv in H. apply tou_capped, H. Qed.

(** C32 *)
Lemma ppa_series_spec G base l name under :
  g_tariff G = name -> agreement_over name under ->
  import_cost_series (with_tariff under G) = Ok (Some base) -> import_cost_series G = Ok (Some l) ->
  exists lo hi, wind_farm_info G = Ok {| w_lower := lo; w_higher := hi; w_power := g_wind G |} /\
    (g_higher_percent G <= g_lower_percent G -> lo <= hi) /\
    forall t, (0 <= t < 8760)%Z -> exists p b q, price_at (g_wind G) t p /\ price_at base t b /\ price_at l t q /\
      (hi <= p -> q = b - g_higher_discount G) /\
      (p < hi -> p <= lo -> q = b + g_lower_penalty G) /\
      (p < hi -> lo < p -> q = b).
Proof.
  intros E A Hb Hl. destruct (ppa_base G base l name under E A Hb Hl) as (w & Ew & Hp).
  destruct (wind_inv G w Ew) as (EL & EH & EP). destruct w as [lo hi pw]; cbn [w_lower w_higher w_power] in *. subst pw.
  exists lo, hi. split; [exact Ew|]. split; [intro Hpc; eapply band_order; [exact Hpc|exact EH|exact EL]|].
  intros t Ht. destruct (proj2 (ppa_run _ _ _ _ Hp) t Ht) as (p & b & q & E1 & E2 & E3 & H1 & H2 & H3).
  cbn [w_lower w_higher w_power] in *. exists p, b, q. unfold price_at. repeat (split; [assumption|]). assumption.
Qed.
Lemma ppa_max G l base : g_tariff G = "Time of use - PPA + WM" ->
  import_cost_series (with_tariff "Time of use - WM" G) = Ok (Some base) -> import_cost_series G = Ok (Some l) ->
  0 <= g_higher_discount G ->
  exists lo hi, wind_farm_info G = Ok {| w_lower := lo; w_higher := hi; w_power := g_wind G |} /\
    forall t p q, (0 <= t < 8760)%Z -> price_at (g_wind G) t p -> price_at l t q ->
      (lo < p \/ hi <= p \/ g_lower_penalty G <= 0 -> q <= g_maximum G) /\
      q <= g_maximum G + Qmax 0 (g_lower_penalty G).
Proof.
  intros E Hb Hl Hd. destruct (ppa_series_spec G base l _ _ E over_market Hb Hl) as (lo & hi & Ew & _ & H).
  exists lo, hi. split; [exact Ew|]. intros t p q Ht Hp Hq. destruct (H t Ht) as (p' & b & q' & Ep & Eb & Eq & H1 & H2 & H3).
  unfold price_at in *. rewrite Ep in Hp. injection Hp as <-. rewrite Eq in Hq. injection Hq as <-.
  assert (B : b <= g_maximum G).
  { pose proof (market_capped (with_tariff "Time of use - WM" G) base eq_refl Hb) as F. rewrite Forall_forall in F. apply F. eapply nth_error_In, Eb. }
  pose proof (Q.le_max_l 0 (g_lower_penalty G)). pose proof (Q.le_max_r 0 (g_lower_penalty G)).
  destruct (Qlt_le_dec p' hi) as [Hh|Hh]; [destruct (Qlt_le_dec lo p') as [Hlo|Hlo]|].
  - rewrite (H3 Hh Hlo) in *. split; [intros|]; lra.
  - rewrite (H2 Hh Hlo) in *. split; [intros [?|[?|?]]|]; lra.
  - rewrite (H1 Hh) in *. split; [intros|]; lra.
Qed.

(** C53 *)
Lemma inject_le_nat a b : (a <= b)%nat -> inject_Z (Z.of_nat a) <= inject_Z (Z.of_nat b).
Proof. intro H. rewrite <- Zle_Qle. lia. Qed.
Lemma band_counts power p b : band power p = Ok b ->
  In b power /\
  (let n := inject_Z (Z.of_nat (length power)) in
   (p - (1#200)) * n <= count (fun x => qle b x) power /\
   count (fun x => qlt b x) power < (p + (1#200)) * n /\
   (1 - p - (1#200)) * n < count (fun x => qle x b) power /\
   count (fun x => qlt x b) power <= (1 - p + (1#200)) * n).
Proof.
  intro H. apply band_inv in H as (i & Hi & _ & -> & L & U). split; [apply band_In, Hi|]. cbv zeta.
  pose proof (share_mul (length power) i ltac:(lia)) as M. pose proof (inject_pos (length power) ltac:(lia)) as Pn.
  unfold count. set (n := inject_Z (Z.of_nat (length power))) in *.
  pose proof (inject_le_nat _ _ (count_ge power i Hi)) as C1. pose proof (inject_le_nat _ _ (count_gt power i Hi)) as C2.
  pose proof (inject_le_nat _ _ (count_le power i Hi)) as C3. pose proof (inject_le_nat _ _ (count_lt power i Hi)) as C4.
  set (s := share (length power) i) in *.
  assert (SI : inject_Z (Z.of_nat (S i)) == inject_Z (Z.of_nat i) + 1)
    by (rewrite Nat2Z.inj_succ; unfold Z.succ; rewrite inject_Z_plus; reflexivity).
  assert (D1 : inject_Z (Z.of_nat (length power - i)) == n - inject_Z (Z.of_nat i))
    by (rewrite Nat2Z.inj_sub by lia; unfold Z.sub; rewrite inject_Z_plus, inject_Z_opp; unfold n; ring).
  assert (D2 : inject_Z (Z.of_nat (length power - S i)) == n - inject_Z (Z.of_nat (S i)))
    by (rewrite Nat2Z.inj_sub by lia; unfold Z.sub; rewrite inject_Z_plus, inject_Z_opp; unfold n; ring).
  assert (A1 : (p - (1#200)) * n <= s * n) by (apply Qmult_le_compat_r; lra).
  assert (A2 : s * n <= (p + (1#200)) * n) by (apply Qmult_le_compat_r; lra).
  set (c1 := inject_Z (Z.of_nat (length (filter _ power)))) in C1 |- *.
  repeat split; lra.
Qed.

Lemma known_tariffs G :
  (In (g_tariff G) known -> init_grid G = Ok G) /\
  (~ In (g_tariff G) known -> init_grid G = Err UnboundLocalError /\ import_cost_series G = Ok None).
Proof.
  rewrite init_grid_spec. destruct (in_dec string_dec (g_tariff G) known) as [Hn|Hn]; split; intro H; try contradiction; [reflexivity|].
  split; [reflexivity|apply unknown_none, H].
Qed.
