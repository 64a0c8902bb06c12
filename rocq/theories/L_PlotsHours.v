(** What the bands of the stacks add up to, hour by hour, and the bar charts. *)
From Coq Require Import String.
From Verif Require Import Base BaseL M_Battery S_Battery M_HeatPump S_HeatPump M_Tools L_Tools
  M_FixedOrder S_FixedOrder L_FixedOrder L_FixedOrderSign L_FixedOrderHour L_FixedOrderProps L_FixedOrderMore L_FixedOrderRun
  M_Grid M_Sweep M_Kpi S_Kpi L_Kpi M_Plots S_Plots L_Plots.

Lemma hour_generation P I t n soc rc :
  hour_step P I t n soc = Ok rc -> rf rc RES_generation_total == rf rc RES_wind + rf rc RES_PV.
Proof. intro H. apply hour_inv in H. destruct H as (c & rc0 & rc1 & _ & _ & ->). fld. reflexivity. Qed.

Lemma hour_output P I t n soc rc :
  hour_step P I t n soc = Ok rc ->
  rf rc HP_heat_to_heat_demand + rf rc HP_heat_to_TS == rf rc HP_heat_total_output.
Proof.
  intro H. apply hour_inv in H. destruct H as (c & rc0 & rc1 & Hu & Hc & ->). apply corrected_intro in Hc.
  apply uncorrected_inv in Hu as (ps & r & u & pr & de & _ & _ & _ & _ & E & _).
  assert (B : rf rc0 HP_heat_to_heat_demand + rf rc0 HP_heat_to_TS == rf rc0 HP_heat_total_output)
    by (rewrite E; unfold finish_fields; destruct (hi P I); fld; reflexivity).
  clear E. destruct Hc as [-> _|m x _ _ _ _ _ _ X1|m m' x _ _ _ _ _ _ _ X1|m _ _ _ _ X1]; fld; rewrite ?X1; fld; lra.
Qed.

(** The electricity of the heat pump including the battery, times the COP. *)
Lemma hour_use P I t n soc rc :
  good_hour P I soc -> hour_step P I t n soc = Ok rc ->
  let use := rf rc HP_elec_RES_usage + rf rc HP_elec_import_usage + rf rc HP_elec_from_ES_to_demand in
  use * rf rc HP_cop <= rf rc HP_heat_total_output /\
  (lacks P I HP_import_to_TS -> use * rf rc HP_cop == rf rc HP_heat_total_output) /\
  use == rf rc HP_elec_total_usage + rf rc HP_elec_from_ES_to_demand.
Proof.
  intros G H use.
  destruct (hour_cop P I t n soc rc G H) as (Kc & _ & K3 & _). subst use.
  destruct (hour_open P I t n soc rc G H) as (ps & c & r & u & pr & de & rc0 & rc1 & Hps & Ho & Hf & A & Sg & W & Z & Hu & Hpr & Hrf & Hun & Hco & ->).
  destruct G as (HP & HI & Hs & _).
  assert (Hc0 : 0 < cop (i_perf I)) by apply HI.
  destruct (run_cop P I t n soc ps c r HP HI Hs Ho Hf) as [V1 V2].
  pose proof (V1 HP_elec_from_RES_to_demand ltac:(cbn; tauto)) as E1.
  pose proof (V1 HP_elec_from_RES_to_TS ltac:(cbn; tauto)) as E2.
  pose proof (V1 HP_elec_from_import_to_demand ltac:(cbn; tauto)) as E3.
  pose proof (V1 HP_elec_from_ES_to_demand ltac:(cbn; tauto)) as E4. cbn [heat_of] in *. clear V1.
  assert (L5 : lacks P I HP_import_to_TS -> r HP_heat_from_import_to_TS = 0 /\ r HP_elec_from_import_to_TS = 0).
  { intro L. split; apply (acc_zero _ _ _ _ _ A HP_import_to_TS); try inl; intro X; apply in_rev in X; exact (L ps Hps X). }
  rewrite Kc. clear Sg W Z Hf Hun A Hps.
  set (x := cop (i_perf I)) in *.
  assert (F : (rf rc0 HP_elec_RES_usage + rf rc0 HP_elec_import_usage + rf rc0 HP_elec_from_ES_to_demand) * x <= rf rc0 HP_heat_total_output /\
    (lacks P I HP_import_to_TS ->
     (rf rc0 HP_elec_RES_usage + rf rc0 HP_elec_import_usage + rf rc0 HP_elec_from_ES_to_demand) * x == rf rc0 HP_heat_total_output)).
  { rewrite Hrf. unfold finish_fields. destruct (hi P I); fld;
      (split; [lra|]; intro A2; destruct (L5 A2) as [B1 B2]; rewrite ?B1, ?B2; lra). }
  assert (D : forall inc, inc / x * x == inc) by (intro; field; lra).
  split; [|split; [|lra]]; revert F Kc; clear - D Hco Hc0.
  - intros [F _] Kc. destruct Hco as [-> _|m y _ _ _ _ _ _ X1|m m' y _ _ _ _ _ _ _ X1|m _ _ _ _ X1]; fld; rewrite ?X1 in *; fld; try lra.
    pose proof (D (min_out P I - rf rc0 HP_heat_total_output)) as Di. rewrite Kc. fold x. lra.
  - intros [_ F] Kc L. specialize (F L). destruct Hco as [-> _|m y _ _ _ _ _ _ X1|m m' y _ _ _ _ _ _ _ X1|m _ _ _ _ X1]; fld; rewrite ?X1 in *; fld; try lra.
    pose proof (D (min_out P I - rf rc0 HP_heat_total_output)) as Di. rewrite Kc. fold x. lra.
Qed.

(** ** Folders and files *)
Local Open Scope string_scope.
Local Open Scope list_scope.
Lemma run_plots_folders rs n s out : run_plots rs n s = Ok out -> map fst out = folders n.
Proof.
  unfold run_plots, folders. intro H. destruct (n =? 8760)%Z.
  - cbn [mapM] in H. repeat match goal with E : (_ <- _ ;; _) = Ok _ |- _ => take E end.
    repeat match goal with E : Ok _ = Ok _ |- _ => injection E as <- end. reflexivity.
  - take H. injection H as <-. reflexivity.
Qed.
Lemma run_plots_files rs n s out per figs :
  run_plots rs n s = Ok out -> In (per, figs) out ->
  map fg_file figs = figure_files ++ (if has_bars per then [bar_file] else []).
Proof.
  intros H I. destruct (run_plots_inv _ _ _ _ _ _ H I) as (w & b & A & _ & C). destruct (all_plots_inv _ _ _ _ _ _ A) as (w' & _ & F & _).
  rewrite F. destruct C as [(_ & -> & _ & ->)|[(_ & -> & _ & ->)|[(_ & -> & _ & ->)|(_ & -> & _ & ->)]]]; reflexivity.
Qed.
Lemma find_folder rs n s out per : run_plots rs n s = Ok out -> In per (folders n) -> exists figs, In (per, figs) out.
Proof.
  intros H I. rewrite <- (run_plots_folders _ _ _ _ H) in I. apply in_map_iff in I as ([p figs] & <- & I). exists figs. exact I.
Qed.
Lemma find_figure rs n s out per figs file :
  run_plots rs n s = Ok out -> In (per, figs) out -> In file (figure_files ++ (if has_bars per then [bar_file] else [])) ->
  exists fig, In fig figs /\ fg_file fig = file.
Proof.
  intros H I F. rewrite <- (run_plots_files _ _ _ _ _ _ H I) in F. apply in_map_iff in F as (fig & E & F). exists fig. auto.
Qed.

Lemma figure_files_not_bar file : In file figure_files -> file <> bar_file.
Proof. intros H E. subst file. cbn in H. intuition discriminate. Qed.
Lemma shows_in file p c leg q : shows file p c leg q -> In file figure_files.
Proof. intros []; cbn; tauto. Qed.
Lemma stacked_in file p title qs : stacked file p title qs -> In file figure_files /\ file <> "operation.png".
Proof. intros []; (split; [cbn; tauto|discriminate]). Qed.
Lemma shows_nodes_in file p : shows_nodes file p -> In file figure_files.
Proof. intros []; cbn; tauto. Qed.

(** ** The curves *)
Lemma curve_points rs n s out per figs fig p c leg q :
  run_plots rs n s = Ok out -> In (per, figs) out -> In fig figs -> shows (fg_file fig) p c leg q ->
  named fig p c leg /\ time_axis fig hour_axis /\
  exists lo hi off, drawn n per (fg_file fig) lo hi off /\
    forall x y, point fig p c x y <->
      (lo <= x < hi)%Z /\ exists rc, nth_error rs (Z.to_nat (x + off)) = Some rc /\ y = q rc.
Proof.
  intros H I F S. destruct (figure_window _ _ _ _ _ _ _ H I F) as (w & lo & off & W0 & Hh & -> & D).
  { apply figure_files_not_bar. exact (shows_in _ _ _ _ _ S). }
  destruct (holds_points _ _ _ _ _ _ _ _ _ W0 Hh S) as [N P]. split; [exact N|]. split; [apply Hh|].
  exists lo, (lo + snd w)%Z, (fst w - lo)%Z. split; [exact D|]. intros x y. rewrite P.
  replace (x + (fst w - lo))%Z with (x - lo + fst w)%Z by lia. reflexivity.
Qed.
Lemma node_points rs n s out per figs fig p :
  run_plots rs n s = Ok out -> In (per, figs) out -> In fig figs -> shows_nodes (fg_file fig) p ->
  exists lo hi off, drawn n per (fg_file fig) lo hi off /\
    forall k x y, point fig p k x y <->
      (lo <= x < hi)%Z /\ exists rc, nth_error rs (Z.to_nat (x + off)) = Some rc /\ nth_error (r_nodes rc) k = Some y.
Proof.
  intros H I F S. destruct (figure_window _ _ _ _ _ _ _ H I F) as (w & lo & off & W0 & Hh & -> & D).
  { apply figure_files_not_bar. exact (shows_nodes_in _ _ S). }
  exists lo, (lo + snd w)%Z, (fst w - lo)%Z. split; [exact D|]. intros k x y. rewrite (holds_nodes _ _ _ _ _ _ W0 Hh S).
  replace (x + (fst w - lo))%Z with (x - lo + fst w)%Z by lia. reflexivity.
Qed.
Lemma drawn_off n per file lo hi off : drawn n per file lo hi off -> file <> "operation.png" -> off = 0%Z.
Proof. intros [] N; try reflexivity; contradiction. Qed.
Lemma stack_heights rs n s out per figs fig p title qs :
  run_plots rs n s = Ok out -> In (per, figs) out -> In fig figs -> stacked (fg_file fig) p title qs ->
  exists lo hi, drawn n per (fg_file fig) lo hi 0 /\
    forall x y, stack fig p title x y <->
      (lo <= x < hi)%Z /\ exists rc, nth_error rs (Z.to_nat x) = Some rc /\ y = qsum (map (fun q => q rc) qs).
Proof.
  intros H I F S. destruct (figure_window _ _ _ _ _ _ _ H I F) as (w & lo & off & W0 & Hh & E & D).
  { apply figure_files_not_bar. exact (proj1 (stacked_in _ _ _ _ S)). }
  pose proof (drawn_off _ _ _ _ _ _ D (proj2 (stacked_in _ _ _ _ S))) as O. rewrite O in *. clear O.
  exists lo, (lo + snd w)%Z. split; [exact D|]. intros x y. rewrite (holds_stack _ _ _ _ _ _ _ _ W0 Hh S).
  replace (x - lo + fst w)%Z with x by lia. reflexivity.
Qed.

Lemma drawn_nonneg n per file lo hi off : drawn n per file lo hi off -> (0 <= lo)%Z.
Proof. intros []; lia. Qed.

Lemma stack_hour P year rs n s out per figs fig p title qs x y :
  run_timesteps P year s n = Ok rs ->
  run_plots rs n s = Ok out -> In (per, figs) out -> In fig figs -> stacked (fg_file fig) p title qs -> stack fig p title x y ->
  exists I rc nd soc, nth_error year (Z.to_nat (s + x)) = Some I /\ nth_error rs (Z.to_nat x) = Some rc /\
    hour_step P I (s + x) nd soc = Ok rc /\ y = qsum (map (fun q => q rc) qs).
Proof.
  intros R H I F S K. destruct (stack_heights _ _ _ _ _ _ _ _ _ _ H I F S) as (lo & hi & D & A).
  destruct (proj1 (A x y) K) as (Hx & rc & Hr & ->). pose proof (drawn_nonneg _ _ _ _ _ _ D) as L.
  destruct (run_steps _ _ _ _ _ _ _ R Hr) as (J & _ & HJ & Hs). rewrite Z2Nat.id in * by lia.
  exists J, rc, (fst (state_before P rs (Z.to_nat x))), (snd (state_before P rs (Z.to_nat x))). auto.
Qed.
Lemma stack_good_hour P year rs n s out per figs fig p title qs x y :
  good_run P year -> run_timesteps P year s n = Ok rs ->
  run_plots rs n s = Ok out -> In (per, figs) out -> In fig figs -> stacked (fg_file fig) p title qs -> stack fig p title x y ->
  exists I rc nd soc, nth_error year (Z.to_nat (s + x)) = Some I /\ nth_error rs (Z.to_nat x) = Some rc /\
    hour_step P I (s + x) nd soc = Ok rc /\ y = qsum (map (fun q => q rc) qs) /\
    good_hour P I soc /\ (forall p, orders_contain P p -> contains P I p) /\ (forall p, orders_lack P p -> lacks P I p).
Proof.
  intros G R H I F S K. destruct (stack_heights _ _ _ _ _ _ _ _ _ _ H I F S) as (lo & hi & D & A).
  destruct (proj1 (A x y) K) as (Hx & rc & Hr & ->). pose proof (drawn_nonneg _ _ _ _ _ _ D) as L.
  destruct (run_records _ _ _ _ _ R) as (_ & _ & RR). destruct (RR _ _ Hr) as (J' & HJ' & W1 & W2 & W3 & W4 & W5).
  destruct G as (HP & Hs & HY & Ha & Hb).
  destruct (run_steps P year s n rs _ rc R Hr) as (J & H0 & HI & Hst). rewrite Z2Nat.id in * by lia.
  exists J, rc, (fst (state_before P rs (Z.to_nat x))), (snd (state_before P rs (Z.to_nat x))).
  split; [exact HI|]. split; [exact Hr|]. split; [exact Hst|]. split; [reflexivity|].
  assert (Hc : 0 <= b_capacity (p_battery P)) by (destruct HP as ((B0 & _) & _); exact B0).
  split; [|split].
  - split; [exact HP|]. split; [rewrite Forall_forall in HY; apply HY; apply (nth_error_In _ _ HI)|]. split.
    + destruct (Z.to_nat x) as [|j]; cbn [state_before]; [exact Hs|]. destruct (nth_error rs j) as [rc'|] eqn:E; [|exact Hs].
      pose proof (run_soc_range P year s n rs Hc R) as Fr. rewrite Forall_forall in Fr. apply (Fr rc'). apply (nth_error_In _ _ E).
    + intros ps [[_ E]|[_ E]]; eauto.
  - intros q [C1 C2] ps [[_ E]|[_ E]]; eauto.
  - intros q [C1 C2] ps [[_ E]|[_ E]]; eauto.
Qed.

(** ** The bar charts *)
Lemma bar_figure rs n s out per figs fig :
  run_plots rs n s = Ok out -> In (per, figs) out -> In fig figs -> fg_file fig = bar_file -> RES_bar rs n = Ok fig.
Proof.
  intros H I F E. destruct (run_plots_inv _ _ _ _ _ _ H I) as (w & b & A & _ & C). destruct (all_plots_inv _ _ _ _ _ _ A) as (w' & _ & _ & G).
  destruct (G fig F) as [[E' _]|[(_ & E' & _)|(_ & _ & B)]]; [rewrite E in E'; discriminate E'|contradiction|exact B].
Qed.
Lemma bar_panel rs n fig p title q :
  RES_bar rs n = Ok fig -> bar_shows p title q -> nth_error (fg_panels fig) p = Some (bars title (column rs n q)).
Proof. intros H S. apply bars_inv in H as (_ & _ & ->). destruct S; reflexivity. Qed.
Lemma column_all rs n q : Z.of_nat (length rs) = n -> column rs n q = map q rs :> list Q.
Proof. intro H. unfold column. rewrite <- H, Nat2Z.id, firstn_all. reflexivity. Qed.

(** ** The legend of the nodes *)
Lemma all_plots_TS rs n s per b figs fig :
  all_plots rs n s per b = Ok figs -> In fig figs -> fg_file fig = "thermal_storage.png" -> TS rs n s per = Ok fig.
Proof.
  unfold all_plots. intros H I F.
  take H. take H. take H. take H. take H. take H. take H. injection H as <-.
  apply operation_inv in E as (_ & _ & F1 & _). apply elec_inv in E0 as (_ & _ & F2 & _).
  apply heat_inv in E1 as (_ & g1 & g2 & _ & -> & F3 & _ & F4 & _). apply ES_inv in E3 as (_ & _ & F6 & _). apply grid_inv in E4 as (_ & _ & F7 & _).
  assert (B : forall f, In f l5 -> fg_file f = bar_file).
  { destruct b; [|injection E5 as <-; intros f []].
    destruct (RES_bar rs n) as [f|] eqn:Eb; cbn [bind] in E5; [|discriminate E5]. injection E5 as <-.
    apply bars_inv in Eb as (_ & _ & ->). intros g [<-|[]]. reflexivity. }
  cbn [app] in I. destruct I as [<-|[<-|[<-|[<-|[<-|[<-|[<-|I]]]]]]]; try congruence; try (rewrite F in *; discriminate).
  apply B in I. rewrite F in I. discriminate I.
Qed.
Lemma node_legend rs n s out per figs fig k x y :
  run_plots rs n s = Ok out -> In (per, figs) out -> In fig figs -> fg_file fig = "thermal_storage.png" -> point fig 2 k x y ->
  named fig 2 k (Some (string_of_list_ascii (str_int (Z.of_nat k + 1)))).
Proof.
  intros H I F E Pt. destruct (run_plots_inv _ _ _ _ _ _ H I) as (w & b & A & W & C).
  assert (W0 : (0 <= fst w)%Z) by (destruct C as [(_ & _ & -> & _)|[(_ & _ & -> & _)|[(_ & _ & -> & _)|(_ & _ & -> & _)]]]; cbn; lia). clear C.
  pose proof (all_plots_TS _ _ _ _ _ _ _ A F E) as T. apply TS_inv in T as (w' & W' & _ & Hh & rc & P & Hr & HP & HL).
  assert (w' = w) by congruence. subst w'. destruct Hh as (_ & _ & _ & Hn & _). rewrite E in Hn.
  destruct (Hn 2%nat Sn_ts) as (P' & HP' & _ & Hc & _). rewrite HP in HP'. injection HP' as <-.
  destruct Pt as (P' & ys & i & HP' & Hy & _ & Hv). rewrite HP in HP'. injection HP' as <-.
  exists P. split; [exact HP|]. rewrite HL. unfold node_names. rewrite nth_error_map.
  apply columns_inv in Hc as [[_ Hc]|(kk & L0 & Fr & _ & Hk)].
  - exfalso. rewrite Hc in Hy. destruct k as [|k]; [injection Hy as <-; destruct i; discriminate Hv|destruct k; discriminate Hy].
  - destruct (Hk k ys Hy) as (Lk & _). destruct (nth_error (cut w (column rs n r_nodes)) 0) as [r0|] eqn:E0.
    2:{ apply nth_error_None in E0. lia. }
    assert (R0 : r0 = r_nodes rc).
    { rewrite cut_nth in E0 by exact W0. destruct (Nat.ltb_spec 0 (Z.to_nat (snd w))); [|discriminate E0].
      rewrite Nat.add_0_r in E0. apply column_nth in E0 as (_ & rc' & Hr' & ->). congruence. }
    assert (Lr : length (r_nodes rc) = kk).
    { rewrite <- R0. rewrite Forall_forall in Fr. apply Fr. apply (nth_error_In _ _ E0). }
    rewrite Lr. rewrite (nth_error_nth' _ 0%nat) by (rewrite seq_length; exact Lk). rewrite seq_nth by exact Lk. reflexivity.
Qed.
Lemma res_es_zero P I t n soc rc :
  good_hour P I soc -> hour_step P I t n soc = Ok rc -> lacks P I RES_to_ES -> rf rc RES_ES == 0.
Proof.
  intros G H L.
  destruct (hour_open P I t n soc rc G H) as (ps & c & r & u & pr & de & rc0 & rc1 & Hps & Ho & Hf & A & S & W & Z & Hu & Hpr & Hrf & Hun & Hco & ->).
  assert (Z0 : r RES_ES = 0) by (apply (acc_zero _ _ _ _ _ A RES_to_ES); try inl; intro X; apply in_rev in X; exact (L ps Hps X)).
  rewrite (settled_corrected P I t n c rc0 rc1 RES_ES Hco) by (unfold settled; inl).
  rewrite Hrf, !finish_written by inl. rewrite Z0. reflexivity.
Qed.
Lemma collect_short {A} rs n (f : record -> A) : (length rs < Z.to_nat n)%nat -> collect rs n f = Err IndexError.
Proof.
  unfold collect. generalize (Z.to_nat n). intros m H.
  assert (G : forall a k, (a + k = m)%nat -> (a <= length rs)%nat ->
    mapM (fun i => r <- pidx rs i ;; Ok (f r)) (seq a k) = Err IndexError).
  { intros a k. revert a. induction k as [|k IH]; intros a E L; [lia|]. cbn [seq mapM]. unfold pidx at 1.
    destruct (nth_error rs a) as [r|] eqn:N; cbn [bind]; [|reflexivity].
    assert (La : (a < length rs)%nat) by (apply nth_error_Some; congruence).
    rewrite (IH (S a)) by lia. reflexivity. }
  apply (G 0%nat m); lia.
Qed.
