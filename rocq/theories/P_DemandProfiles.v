(** C69 to C71: the yearly profiles of a group of dwellings. *)
From Coq Require Import String.
From Verif Require Import Base BaseL M_Kpi S_Kpi M_Demand S_Demand L_Grid L_FixedOrderRun L_Demand L_DemandProfiles P_Demand.

(** ** C69: heat *)
(** Every hour is the sum over the rows of dwellings of number times floor-area factor times
    the standard profile of type, age and day temperature, plus an even share of the hot
    water. *)
Theorem C69_heat_hour df air hw heating y : aggregate (Ok df) air hw heating = Ok y ->
  length y = Z.to_nat 8760 /\
  forall h, (h < Z.to_nat 8760)%nat ->
    exists vs, Forall2 (group_hour df air h) heating vs /\ at_ y h == qsum vs + persons heating * hw / 24.
Proof. exact (aggregate_ok df air hw heating y). Qed.
Print Assumptions C69_heat_hour.

(** Known dwellings, a complete table and a year of temperatures suffice: every day finds
    its sheet, however cold or hot. *)
Theorem C69_heat_total df air hw heating : complete_table df -> Forall known_dwelling heating ->
  (Z.to_nat 8760 <= length air)%nat -> exists y, aggregate (Ok df) air hw heating = Ok y.
Proof. exact (aggregate_total df air hw heating). Qed.
Print Assumptions C69_heat_total.

Theorem C69_sheet t : sheet_name (clamp_temp t) = sheet_for t /\ In (sheet_for t) sheets.
Proof. exact (sheet_name_clamp t). Qed.
Print Assumptions C69_sheet.

(** The floor-area factor of every known kind of dwelling, and KeyError for every other. *)
Theorem C69_factor ty ag b :
  (In ty house_types /\ In ag house_ages /\ (1 <= b <= 5)%Z /\
   exists f, floor_factor ty ag b = Ok f /\ f == nth (Z.to_nat (b - 1)) (factors ty) 0) \/
  (~ (In ty house_types /\ In ag house_ages /\ (1 <= b <= 5)%Z) /\ floor_factor ty ag b = Err KeyError).
Proof.
  destruct (floor_factor ty ag b) as [f|e] eqn:E.
  - left. pose proof (floor_factor_ok _ _ _ _ E) as (H1 & H2 & H3 & H4). repeat split; try assumption; try lia.
    exists f. split; [reflexivity|exact H4].
  - right. rewrite (floor_factor_err _ _ _ _ E) in *. split; [|reflexivity].
    intros (H1 & H2 & H3). destruct (floor_factor_total ty ag b H1 H2 H3) as [f Ef]. congruence.
Qed.
Print Assumptions C69_factor.

(** [k] times the dwellings, [k] times the demand ... *)
Theorem C69_more_dwellings df air hw heating k y y' :
  aggregate (Ok df) air hw heating = Ok y -> aggregate (Ok df) air hw (map (more k) heating) = Ok y' ->
  forall h, (h < Z.to_nat 8760)%nat -> at_ y' h == k * at_ y h.
Proof.
  intros H H' h Hh. destruct (C69_heat_hour _ _ _ _ _ H) as [_ A]. destruct (C69_heat_hour _ _ _ _ _ H') as [_ B].
  destruct (A h Hh) as (vs & F & ->). destruct (B h Hh) as (vs' & F' & ->).
  rewrite (rows_more _ _ _ _ _ _ _ F F'), persons_more. field.
Qed.
Print Assumptions C69_more_dwellings.

(** ... also after smoothing. *)
Theorem C69_more_smoothed y y' k : 0 < k -> (4 <= length y)%nat -> length y' = length y ->
  (forall h, (h < length y)%nat -> at_ y' h == k * at_ y h) ->
  exists out out', smooth_heat y = Ok out /\ smooth_heat y' = Ok out' /\
    forall h q, (h < length y)%nat -> shows out h (Fin q) -> shows out' h (Fin (k * q)).
Proof.
  intros Hk Ly L E.
  destruct (C49_heat_values y Ly) as (out & p & m & Eo & Lo & Hp & Hm & H0 & H1 & H2 & H3).
  destruct (C49_heat_values y' ltac:(lia)) as (out' & p' & m' & Eo' & Lo' & Hp' & Hm' & H0' & H1' & H2' & H3').
  exists out, out'. split; [exact Eo|]. split; [exact Eo'|]. rewrite L in *.
  assert (M : forall h, (3 <= h < length y)%nat -> mean4 y' h == k * mean4 y h).
  { intros h Hh. unfold mean4. rewrite !E by lia. field. }
  pose proof (highest_scale _ _ _ _ k p p' Hk (fun h Hh => E h (proj2 Hh)) Hp Hp') as Ep.
  pose proof (highest_scale _ _ _ _ k m m' Hk M Hm Hm') as Em.
  assert (U : forall h q r, shows out h (Fin q) -> shows out h (Fin r) -> q == r).
  { intros h q r (x & Ex & Hx) (x' & Ex' & Hx'). assert (x = x') by congruence. subst x'.
    destruct x; cbn in *; [lra|contradiction Hx]. }
  intros h q Hh Hq.
  destruct (Nat.eq_dec h 0) as [->|N0].
  { apply (shows_eq _ _ _ _ H0'). rewrite (M 3%nat) by lia. rewrite (U 0%nat _ _ Hq H0). reflexivity. }
  destruct (le_lt_dec 4 h) as [H4|H4].
  { apply (shows_eq _ _ _ _ (H1' h ltac:(lia))). rewrite (M h) by lia. rewrite (U h _ _ Hq (H1 h ltac:(lia))). reflexivity. }
  destruct (Qeq_dec m 0) as [Z|Nm].
  { exfalso. destruct (H3 h ltac:(lia) Z) as (x & Ex & Hx). destruct Hq as (x' & Ex' & Hx').
    assert (x = x') by congruence. subst x'. destruct x; cbn in *; contradiction. }
  assert (Nm' : ~ m' == 0) by (rewrite Em; intro Z; apply Nm; nra).
  apply (shows_eq _ _ _ _ (H2' h ltac:(lia) Nm')). rewrite (U h _ _ Hq (H2 h ltac:(lia) Nm)).
  rewrite (E (h - 1)%nat) by lia. rewrite Ep, Em. field. split; [exact Nm|lra].
Qed.
Print Assumptions C69_more_smoothed.

(** ** C70: electricity *)
Theorem C70_elec_hour df jan1 year heating y : calendar jan1 -> heating <> [] ->
  profile_from_input (Ok df) year heating = Ok y ->
  length y = Z.to_nat 8760 /\
  forall h, (h < Z.to_nat 8760)%nat -> exists v, elec_hour df jan1 year h v /\ at_ y h == numbers heating * v.
Proof.
  intros C N. unfold profile_from_input.
  destruct (year_time_series (Ok df) year) as [std|] eqn:E; [|discriminate]. cbn [bind].
  destruct (year_series_ok df jan1 year std C E) as [L H].
  destruct heating as [|d rest]; [congruence|]. intro Ey.
  assert (G : forall A (x y : A), Ok x = Ok y -> x = y) by congruence. apply G in Ey.
  destruct (aggregate_elec std (d :: rest) (repeat 0 (length std)) (repeat_length _ _)) as [L1 H1].
  cbv zeta in L1, H1. rewrite Ey in L1, H1. split; [lia|]. intros h Hh. exists (at_ std h). split; [apply H; exact Hh|].
  rewrite (H1 h) by lia. rewrite at_repeat by lia. lra.
Qed.
Print Assumptions C70_elec_hour.
Theorem C70_elec_total df year heating : complete_columns df -> exists y, profile_from_input (Ok df) year heating = Ok y.
Proof.
  intro Hc. unfold profile_from_input. destruct (year_series_total df year Hc) as [l ->]. cbn [bind].
  destruct heating; eexists; reflexivity.
Qed.
Print Assumptions C70_elec_total.

(** The model's weekdays are those of the Gregorian calendar, which exists. *)
Theorem C70_calendar jan1 : calendar jan1 -> forall year h, (0 <= h < 8760)%Z ->
  day_of_week year h = Ok (of_weekday ((jan1 year + h / 24) mod 7)).
Proof.
  intros C year h Hh. unfold day_of_week. destruct (Z.leb_spec 0 h); [|lia]. destruct (Z.ltb_spec h 8760); [|lia].
  cbn [andb]. rewrite (calendar_first_weekday jan1 C). reflexivity.
Qed.
Print Assumptions C70_calendar.
Example C70_calendar_case : calendar first_weekday /\ first_weekday 2017 = 6%Z /\ first_weekday 2024 = 0%Z /\
  day_of_week 2017 0 = Ok Sun /\ day_of_week 2017 24 = Ok Wd /\ day_of_week 2017 (6 * 24 + 23) = Ok Sat.
Proof. split; [exact calendar_exists|]. repeat split. Qed.

(** Every day of the year lies in exactly the period whose first day has last been reached. *)
Theorem C70_season_partial h : (0 <= h < 8760)%Z -> in_period (h / 24) (time_of_year h).
Proof. exact (time_of_year_spec h). Qed.
Print Assumptions C70_season_partial.
(** The comments of the source (electricity_demand.py:53-54) end autumn with the clock change of 27 October (day 299
    counted from 0); the code lets it last until the middle of December. *)
Theorem C70_season_refuted : exists h, (24 * 300 <= h < 8760)%Z /\ time_of_year h = Aut /\ (h / 24 = 344)%Z.
Proof. exists (24 * 344)%Z. repeat split; lia. Qed.
Print Assumptions C70_season_refuted.

(** Without any row of dwellings the year shrinks to thirteen values. *)
Theorem C70_no_dwellings_refuted : exists df year out,
  complete_columns df /\ predicted_elec_demand (Ok df) year [] = Ok out /\ length out = 13%nat.
Proof.
  set (df := fun (_ : season) (_ : daytype) => Ok (repeat 1 48)).
  assert (Hc : complete_columns df) by (intros s d; eexists; split; [reflexivity|apply repeat_length]).
  exists df, 2017%Z. unfold predicted_elec_demand, profile_from_input.
  destruct (year_series_total df 2017 Hc) as [l ->]. cbn [bind].
  eexists. split; [exact Hc|]. split; [vm_compute; reflexivity|reflexivity].
Qed.
Print Assumptions C70_no_dwellings_refuted.

(** ** C71: the shipped tables *)
(** Were the tables where the functions look for them, known dwellings would get a year of demand. *)
Theorem C71_with_tables_partial files df df' air hw year heating :
  In heat_table_path files -> In elec_table_path files -> complete_table df -> complete_columns df' ->
  Forall known_dwelling heating -> heating <> [] -> (Z.to_nat 8760 <= length air)%nat ->
  (exists out, packaged_heat_demand files df air hw heating = Ok out /\ length out = Z.to_nat 8760) /\
  (exists out, packaged_elec_demand files df' year heating = Ok out /\ length out = Z.to_nat 8760).
Proof.
  intros I1 I2 Hc Hc' K N La. unfold packaged_heat_demand, packaged_elec_demand, resource.
  apply smem_In in I1, I2. rewrite I1, I2. unfold predicted_heat_demand, predicted_elec_demand. split.
  - destruct (C69_heat_total df air hw heating Hc K La) as [y Ey]. rewrite Ey. cbn [bind].
    apply C49_length. exact (proj1 (C69_heat_hour _ _ _ _ _ Ey)).
  - destruct (C70_elec_total df' year heating Hc') as [y Ey]. rewrite Ey. cbn [bind].
    apply C49_length. exact (proj1 (C70_elec_hour df' first_weekday year heating y calendar_exists N Ey)).
Qed.
Print Assumptions C71_with_tables_partial.

(** They are not: with the files of the package neither demand can be generated. *)
Theorem C71_heat_never df air hw d rest : (24 <= length air)%nat ->
  packaged_heat_demand shipped df air hw (d :: rest) = Err FileNotFoundError.
Proof.
  intro La. unfold packaged_heat_demand, resource.
  assert (E : smem heat_table_path shipped = false) by reflexivity. rewrite E.
  unfold predicted_heat_demand, aggregate, profiles_from_inputs. cbn [mapM]. unfold dwelling_profile.
  change (seq 0 365) with (0%nat :: seq 1 364). cbn [mapM]. unfold dwelling_day at 1.
  destruct (average_total air 0) as [t ->]; [lia|]. reflexivity.
Qed.
Print Assumptions C71_heat_never.
Theorem C71_elec_never df year heating : packaged_elec_demand shipped df year heating = Err FileNotFoundError.
Proof. reflexivity. Qed.
Print Assumptions C71_elec_never.

(** ** Case: ten detached three-bedroom houses in a freezing year *)
Definition demo_table (s _ _ : string) : res (list Q) := Ok (repeat (if String.eqb s "N3" then 2 else 1) 24).
Definition demo_house : dwelling := {| d_type := "detached"; d_age := "post-2007"; d_bedrooms := 3; d_number := 10 |}.
Lemma demo_house_known : known_dwelling demo_house.
Proof. split; [|split]; [apply smem_In; reflexivity|apply smem_In; reflexivity|cbn; lia]. Qed.
Lemma demo_table_complete : complete_table demo_table.
Proof. intros s ty ag _ _ _. eexists. split; [reflexivity|apply repeat_length]. Qed.
Example C69_case : exists y,
  aggregate (Ok demo_table) (repeat (-20) (Z.to_nat 8760)) 2 [demo_house] = Ok y /\
  length y = Z.to_nat 8760 /\ at_ y 5000 == 10 * (85 # 100) * 2 + (10 * 3 * (3 # 2)) * 2 / 24.
Proof.
  set (air := repeat (-20) (Z.to_nat 8760)).
  assert (La : length air = Z.to_nat 8760) by apply repeat_length.
  destruct (C69_heat_total demo_table air 2 [demo_house] demo_table_complete) as [y Ey];
    [constructor; [exact demo_house_known|constructor]|lia|].
  exists y. split; [exact Ey|]. destruct (C69_heat_hour _ _ _ _ _ Ey) as [L H]. split; [exact L|].
  assert (H5 : (5000 < Z.to_nat 8760)%nat) by lia.
  destruct (H 5000%nat H5) as (vs & F & ->). clear H.
  inversion F as [|d v ds vs' G F']; subst. inversion F'; subst. clear F F'.
  destruct G as (t & p & x & Ht & Hp & Lp & Hx & _ & Ev).
  assert (D : (5000 / 24 = 208)%nat) by reflexivity. rewrite D in Ht.
  assert (M : day_mean air 208 == -20).
  { unfold day_mean. pose proof (gmean_const 24 (-20) (Z.to_nat 8760) (24 * 208)) as Gm. unfold gmean in Gm. apply Gm; lia. }
  assert (T : t = (-20)%Z).
  { apply (nearest_unique t (-20) (day_mean air 208) Ht). unfold nearest. rewrite M. split; [split; vm_compute; discriminate|].
    intros _. reflexivity. }
  subst t. unfold demo_table in Hp. cbn in Hp. injection Hp as <-.
  apply nth_error_In in Hx. cbn in Hx. assert (x = 2) by intuition. subst x.
  rewrite qsum_cons, Ev. vm_compute. reflexivity.
Qed.
Example C70_case : exists y,
  profile_from_input (Ok (fun s d => Ok (match s, d with Smr, Sun => 3 :: 5 :: repeat 0 46 | _, _ => repeat 0 48 end))) 2017
    [demo_house; demo_house] = Ok y /\ at_ y (24 * 168) == 20 * 4.
Proof.
  set (df := fun s d => _).
  assert (Hc : complete_columns df) by (intros [] []; eexists; split; reflexivity).
  destruct (C70_elec_total df 2017 [demo_house; demo_house] Hc) as [y Ey]. exists y. split; [exact Ey|].
  assert (N : [demo_house; demo_house] <> []) by discriminate.
  destruct (C70_elec_hour df first_weekday 2017 [demo_house; demo_house] y calendar_exists N Ey) as [L H]. clear Ey.
  assert (H5 : (24 * 168 < Z.to_nat 8760)%nat) by lia.
  destruct (H _ H5) as (v & (s & col & P & Ec & Lc & Ev) & ->). clear H.
  assert (D : (24 * 168 / 24 = 168)%nat) by reflexivity. rewrite D in *.
  assert (S : s = Smr).
  { destruct P as (pre & d & post & E & Hd & Fp). unfold periods in E. cbn in E.
    destruct pre as [|a [|b [|c [|e [|f [|g pre]]]]]]; cbn in E; injection E; intros; subst; try reflexivity; exfalso;
      try (inversion Fp as [|? ? Hf Fp']; subst; cbn in Hf; lia);
      try (inversion Fp as [|? ? Hf Fp']; subst; inversion Fp' as [|? ? Hf2 ?]; subst; cbn in *; lia); try lia.
    destruct pre; discriminate. }
  subst s. cbn in Ec. injection Ec as <-. rewrite Ev. vm_compute. reflexivity.
Qed.
