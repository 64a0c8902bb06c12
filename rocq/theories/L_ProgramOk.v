(** When a run of the program completes. *)
From Coq Require Import String Ascii.
From Verif Require Import Base BaseL M_Battery M_HeatPump M_Tools S_HeatPump L_HeatPump L_Tools P_HeatPump M_FixedOrder S_FixedOrder L_FixedOrderRun P_FixedOrder
  M_Regression L_Regression M_Excel S_Excel L_Excel L_ExcelSheets P_Excel M_Init S_Init L_Init P_Init M_Program S_Program L_Program L_ProgramRuns.
From Verif Require M_Tank M_Grid L_Grid S_Grid P_Grid M_Renewables S_Renewables L_Renewables P_Renewables M_Mpc S_Mpc L_Mpc L_MpcRun P_Tank M_Sweep L_Sweep P_Sweep M_Plots P_Plots.
Local Open Scope nat_scope.
Local Open Scope string_scope.
Local Open Scope list_scope.

(** ** What a workbook needs in order to be run *)
(** Libraries that answer every question with a complete year *)
Definition answers (L : libraries) (run_pv : M_Renewables.pvlib_model (lib_module L) (lib_inverter L)) : Prop :=
  S_Renewables.wind_hourly (lib_wind L) /\ S_Renewables.complete_model (lib_wind L) /\ (forall m f, exists p, lib_wind L m f = Ok p) /\
  S_Renewables.pv_hourly run_pv /\ forall lat lon tilt az m v f, exists ac, run_pv lat lon tilt az m v f = Ok ac.
(** An approach that can be evaluated (C47): simple, or standard test regression with integrated data or for an air source *)
Definition evaluable (wb : workbook) : Prop := let N := "Heat pump" in
  chooses model_names model_name_value wb N "D" 4 SIMPLE \/
  chooses model_names model_name_value wb N "D" 4 STANDARD /\
    (chooses data_inputs data_input_value wb N "D" 9 INTEGRATED \/ chooses hp_kinds hp_kind_value wb N "D" 3 ASHP).
(** A price for every hour *)
Definition priced (wb : workbook) : Prop := let N := "Grid" in
  says wb N "D" 5 "Flat rates" \/
  (says wb N "D" 5 "Variable periods" /\ Z.of_nat (last_row wb N) >= 41 /\ forall y, counts wb N "N" 42 y -> (1 <= y <= 9999)%Z)%Z \/
  (says wb N "D" 5 "Time of use - WM" /\ (8771 <= Z.of_nat (last_row wb N))%Z).
Definition runnable (wb : workbook) : Prop :=
  covers_the_year wb /\ numeric wb "Demand input" "I" 8 /\ numeric wb "Grid" "D" 9 /\ evaluable wb /\ priced wb /\
  (forall e, holds wb "Aux heat" "D" 6 e -> ~ (e == 0)%Q).
(** The fixed-order controller with hours inside the year and orders of known numbers *)
Definition ordered (wb : workbook) : Prop := let N := "Controller" in
  says wb N "D" 5 "Fixed order control" /\ numeric wb N "D" 7 /\
  (exists s n, counts wb N "G" 5 s /\ counts wb N "G" 6 n /\ (0 <= s)%Z /\ (0 < n)%Z /\ (s + n <= 8760)%Z) /\
  (forall l, order_of (xl wb N "D" 8) = Ok l -> exists ps, mapM above_key l = Ok ps) /\
  (forall l, order_of (xl wb N "D" 9) = Ok l -> exists ps, mapM below_key l = Ok ps).
(** At least one combination *)
Definition swept (wb : workbook) : Prop := let N := "Parametric" in exists a b c d e f,
  counts wb N "E" 6 a /\ counts wb N "D" 6 b /\ counts wb N "F" 6 c /\ counts wb N "E" 7 d /\ counts wb N "D" 7 e /\ counts wb N "F" 7 f /\
  (a = b \/ a < b /\ 0 < c)%Z /\ (d = e \/ d < e /\ 0 < f /\ 0 <= c)%Z.
Definition without_store (wb : workbook) : Prop := counts wb "Parametric" "E" 7 0 /\ counts wb "Parametric" "D" 7 0.

Lemma chooses_one {A} (ms : list A) v wb N c r x y : (forall a b, In a ms -> In b ms -> v a = v b -> a = b) ->
  chooses ms v wb N c r x -> chooses ms v wb N c r y -> x = y.
Proof. intros I X Y. apply (chooses_read _ _ _ _ _ _ _ I) in X. apply (chooses_read _ _ _ _ _ _ _ I) in Y. rewrite X in Y. apply Ok_inj, Y. Qed.
Lemma full_map {A B} (f : A -> B) l : full_year l -> full_year (map f l).
Proof. unfold full_year. rewrite map_length. exact (fun H => H). Qed.
Lemma full_nth {A} (l : list A) t : full_year l -> t < ANNUAL_HOURS -> exists x, nth_error l t = Some x.
Proof.
  intros H Ht. destruct (nth_error l t) as [x|] eqn:E; [exists x; reflexivity|]. apply nth_error_None in E. unfold full_year in H. pose proof ANNUAL_HOURS_Z. lia.
Qed.
Lemma zip2_length {A B C} (f : A -> B -> C) a b : length a = length b -> length (zip2 f a b) = length b.
Proof. revert b. induction a as [|x a IH]; intros [|y b] H; cbn in *; try discriminate; [reflexivity|]. rewrite IH by lia. reflexivity. Qed.
Lemma map_repeat' {A B} (f : A -> B) x n : map f (repeat x n) = repeat (f x) n.
Proof. induction n as [|n IH]; [reflexivity|]. cbn [repeat map]. rewrite IH. reflexivity. Qed.
Lemma no_gaps l : ~ In None l -> exists l' : list Q, l = map Some l'.
Proof.
  induction l as [|x l IH]; intro H; [exists []; reflexivity|]. destruct IH as [l' ->]; [intro I; apply H; right; exact I|].
  destruct x as [q|]; [exists (q :: l'); reflexivity|]. exfalso. apply H. left. reflexivity.
Qed.
Lemma add_somes a b : length a = length b -> M_Renewables.add_series (map Some a) (map Some b) = map Some (zip2 Qplus a b).
Proof.
  intro H. unfold M_Renewables.add_series. rewrite !map_length, H, Nat.max_id. revert b H. induction a as [|x a IH]; intros [|y b] H; cbn [length] in *; try discriminate; [reflexivity|].
  cbn [seq map zip2 nth]. f_equal. rewrite <- seq_shift, map_map. cbn [nth]. injection H as H. rewrite <- (IH b H). reflexivity.
Qed.

Section OK.
Variable L : libraries.
Variable run_pv : M_Renewables.pvlib_model (lib_module L) (lib_inverter L).
Variable lc : lorentz_spec -> Q -> Q -> Q -> Q -> Q.

Lemma turbine_ok (f : M_Renewables.wind_inputs -> res M_Renewables.column) nm (i : M_Renewables.wind_inputs) m g :
  answers L run_pv -> length (M_Renewables.wi_weather i) = S_Renewables.hours_in_year ->
  f i = (if qeq (M_Renewables.wi_multiplier i) 0 then Ok (M_Renewables.no_wind nm)
         else weather <- M_Renewables.wind_weather (M_Renewables.wi_weather i) ;; p <- lib_wind L m weather ;;
              Ok {| M_Renewables.c_name := nm; M_Renewables.c_data := map (option_map g) p |}) ->
  exists l, f i = Ok {| M_Renewables.c_name := nm; M_Renewables.c_data := map Some l |} /\ full_year l.
Proof.
  intros (A1 & A2 & A3 & _) W ->. destruct (qeq _ _).
  - exists (repeat 0%Q M_Renewables.year_rows). unfold M_Renewables.no_wind. split; [rewrite map_repeat'; reflexivity|]. unfold full_year. rewrite repeat_length. reflexivity.
  - unfold M_Renewables.wind_weather. rewrite W, Nat.eqb_refl. cbn [bind]. match goal with |- context [lib_wind L m ?w] => destruct (A3 m w) as [p E]; rewrite E end. cbn [bind].
    destruct (no_gaps p (A2 _ _ _ E)) as [l ->]. exists (map g l). rewrite !map_map. split; [reflexivity|]. apply full_map.
    pose proof (A1 _ _ _ E) as Y. rewrite map_length in Y. unfold full_year. rewrite Y. reflexivity.
Qed.
Lemma generation_ok u d P : answers L run_pv -> length (M_Renewables.wi_weather u) = S_Renewables.hours_in_year -> length (M_Renewables.wi_weather d) = S_Renewables.hours_in_year ->
  length (M_Renewables.pv_rows P) = S_Renewables.hours_in_year ->
  exists g total wind, M_Renewables.renewable_generation (lib_wind L) run_pv u d P = Ok g /\ M_Renewables.g_total g = map Some total /\ full_year total /\
    M_Renewables.g_wind g = map Some wind /\ full_year wind /\ full_year (M_Renewables.g_PV g).
Proof.
  intros A Wu Wd Wp. destruct (turbine_ok (M_Renewables.user_power (lib_wind L)) "wind_user" u _ _ A Wu eq_refl) as (lu & Eu & Fu).
  destruct (turbine_ok (M_Renewables.database_power (lib_wind L)) "wind_database" d _ _ A Wd eq_refl) as (ld & Ed & Fd).
  pose proof A as (_ & _ & _ & A4 & A5). destruct (P_Renewables.C72_completes _ _ run_pv P A4 Wp A5) as [pv Ep]. pose proof (P_Renewables.C72_hours _ _ run_pv P pv A4 Ep) as Fp.
  assert (EL : length lu = length ld) by (unfold full_year in *; lia). assert (FP : full_year pv) by (unfold full_year; rewrite Fp; reflexivity).
  unfold M_Renewables.renewable_generation. rewrite Eu. cbn [bind]. unfold M_Renewables.get_column at 1. cbn [M_Renewables.c_name M_Renewables.c_data]. rewrite String.eqb_refl. cbn [bind].
  rewrite Ed. cbn [bind]. unfold M_Renewables.get_column. cbn [M_Renewables.c_name M_Renewables.c_data]. rewrite String.eqb_refl. cbn [bind]. rewrite Ep. cbn [bind].
  assert (FW : full_year (zip2 Qplus lu ld)) by (unfold full_year; rewrite zip2_length by exact EL; exact Fd).
  assert (LP : length (zip2 Qplus lu ld) = length pv) by (unfold full_year in *; lia).
  eexists _, (zip2 Qplus (zip2 Qplus lu ld) pv), (zip2 Qplus lu ld). split; [reflexivity|]. cbn [M_Renewables.g_total M_Renewables.g_wind M_Renewables.g_PV].
  rewrite (add_somes lu ld EL). split; [apply add_somes, LP|]. split; [unfold full_year; rewrite zip2_length by exact LP; exact FP|].
  split; [reflexivity|]. split; [exact FW|exact FP].
Qed.
Lemma year_ok (q : held L) : (exists g total wind, M_Renewables.renewable_generation (lib_wind L) run_pv (o_user (q_parts q)) (o_database (q_parts q)) (o_PV (q_parts q)) = Ok g /\
    M_Renewables.g_total g = map Some total /\ full_year total /\ M_Renewables.g_wind g = map Some wind /\ full_year wind /\ full_year (M_Renewables.g_PV g)) ->
  (exists hp, performance lc (o_heat_pump (q_parts q)) = Ok hp /\ full_year hp) ->
  full_year (q_elec q) -> full_year (q_heat q) -> full_year (q_source q) -> full_year (q_flow q) -> full_year (q_import q) ->
  exists year, year_of L run_pv lc q = Ok year.
Proof.
  intros (g & total & wind & G & T & FT & W & FW & FP) (hp & H & FH) F1 F2 F3 F4 F5. unfold year_of. cbv zeta. rewrite G. cbn [bind].
  rewrite T, (proj2 (some_numbers _ total) eq_refl). cbn [bind]. rewrite W, (proj2 (some_numbers _ wind) eq_refl). cbn [bind].
  destruct (surplus_deficit_year total (q_elec q)) as [b|e] eqn:S; [|exfalso; pose proof (surplus_deficit_year_spec total (q_elec q)) as X; rewrite S in X; unfold full_year in *; destruct e; lia || assumption].
  cbn [bind]. rewrite H. cbn [bind]. apply mapM_total. intros t I. apply in_seq in I as [_ I]. cbn in I.
  destruct (full_nth wind t FW I) as [x1 E1]. destruct (full_nth _ t FP I) as [x2 E2]. destruct (full_nth _ t F1 I) as [x3 E3]. destruct (full_nth _ t F2 I) as [x4 E4].
  destruct (full_nth _ t F3 I) as [x5 E5]. destruct (full_nth _ t F4 I) as [x6 E6]. destruct (full_nth _ t F5 I) as [x7 E7]. destruct (full_nth hp t FH I) as [x8 E8].
  eexists. apply row_inv. unfold hour_from.
  instantiate (1 := {| i_wind := x1; i_PV := x2; i_elec_demand := x3; i_heat_demand := x4; i_source_temp := x5; i_flow_temp := x6; i_import_price := x7; i_perf := x8 |}).
  cbn. repeat split; assumption.
Qed.
Lemma evaluable_ok wb h t o : plain wb -> big_enough wb -> weather_filled wb -> evaluable wb -> set_up L wb h t = Ok o ->
  exists hp, performance lc (o_heat_pump o) = Ok hp /\ full_year hp.
Proof.
  intros P B (WL & _) E S. destruct (C85_heat_pump _ _ _ _ _ P B S) as (H1 & H2 & _ & _ & _ & H6 & (fl & H7 & _ & H7') & _ & H9 & H10 & H11 & ap & H12 & H13).
  assert (FA : full_year (h_air (o_heat_pump o))) by exact H11. assert (FW : full_year (h_water (o_heat_pump o))).
  { destruct H10 as (X & _). unfold full_year. rewrite X. lia. }
  assert (FR : full_year (heat_resource (o_heat_pump o))) by (unfold heat_resource; destruct (h_type _); assumption).
  destruct (Qeq_dec (h_capacity (o_heat_pump o)) 0) as [Z|Z].
  { eexists. split; [apply C47_zero_capacity_performance, Z|]. unfold full_year. rewrite repeat_length. exact ANNUAL_HOURS_Z. }
  assert (U : forall a b, In a model_names -> In b model_names -> model_name_value a = model_name_value b -> a = b) by (intros [] [] _ _; discriminate || reflexivity).
  assert (UD : forall a b, In a data_inputs -> In b data_inputs -> data_input_value a = data_input_value b -> a = b) by (intros [] [] _ _; discriminate || reflexivity).
  assert (UK : forall a b, In a hp_kinds -> In b hp_kinds -> hp_kind_value a = hp_kind_value b -> a = b) by (intros [] [] _ _; discriminate || reflexivity).
  destruct E as [E|(E & D)]; rewrite (chooses_one _ _ _ _ _ _ _ _ U H12 E) in H13.
  - destruct H13 as (c & _ & M). eexists. split; [apply (C47_simple_model_usable _ _ c Z M)|]. unfold full_year. rewrite repeat_length. exact ANNUAL_HOURS_Z.
  - destruct H13 as (c & ra & pts & r & _ & _ & _ & _ & M).
    pose proof (C47_standard_usable_partial lc (o_heat_pump o) _ fl Z M H7 H7' FR) as K.
    assert (LE : length (heat_resource (o_heat_pump o)) = length fl) by (unfold full_year in *; lia).
    specialize (K ltac:(cbn; rewrite zip2_length; [reflexivity|exact LE]) ltac:(cbn; rewrite zip2_length; [reflexivity|exact LE])).
    destruct D as [D|D].
    + rewrite (chooses_one _ _ _ _ _ _ _ _ UD H6 D) in K. exact K.
    + rewrite (chooses_one _ _ _ _ _ _ _ _ UK H1 D) in K. destruct (h_data_input _); exact K.
Qed.
Lemma priced_ok wb h t o : plain wb -> big_enough wb -> tariff_filled wb -> priced wb -> set_up L wb h t = Ok o ->
  exists l, M_Grid.import_cost_series (o_grid o) = Ok (Some l) /\ full_year l.
Proof.
  intros P B TF PR S. destruct (C85_tariff _ _ _ _ _ P B S) as (T & _ & T1 & T2 & T3 & _).
  assert (X : exists l, M_Grid.import_cost_series (o_grid o) = Ok (Some l)).
  { assert (D : forall x, says wb "Grid" "D" 5 x -> M_Grid.g_tariff (o_grid o) = x) by (intros x Y; apply says_name in Y, T; rewrite Y in T; apply Ok_inj in T; congruence).
    destruct PR as [X|[(X & R & Y)|(X & R)]]; apply D in X; rewrite X in *.
    - rewrite (L_Grid.ics_flat _ X). eexists. reflexivity.
    - destruct (T2 (or_introl eq_refl)) as (Z1 & Z2). rewrite (L_Grid.ics_vp _ X). destruct (L_Grid.periods_total (o_grid o)) as [l ->]; [|apply Y, Z2|eexists; reflexivity].
      unfold S_Grid.complete_table, day_columns in *. revert Z1. generalize (M_Grid.g_periods (o_grid o)). intros ps F d Hd.
      repeat match goal with H : Forall2 _ (_ :: _) _ |- _ => inversion H; subst; clear H | H : Forall2 _ [] _ |- _ => inversion H; subst; clear H end.
      repeat match goal with H : fst ?y = _ /\ _ |- _ => destruct y; cbn [fst snd] in H; destruct H as [-> H] end.
      assert (D7 : (d = 0 \/ d = 1 \/ d = 2 \/ d = 3 \/ d = 4 \/ d = 5 \/ d = 6)%Z) by lia.
      repeat match goal with H : holds_down_to _ _ _ 18 24 _ |- _ => destruct H as (H & _) end.
      repeat destruct D7 as [->|D7]; try (subst d); eexists; (split; [reflexivity|]); match goal with |- length ?l = 24 => match goal with H : length l = _ |- _ => rewrite H end end; lia.
    - destruct (T3 (or_introl eq_refl)) as ((Z1 & _) & _). rewrite (L_Grid.ics_wm _ X). destruct (L_Grid.tou_total (o_grid o)) as [l ->]; [|eexists; reflexivity]. rewrite Z1. lia. }
  destruct X as [l X]. exists l. split; [exact X|]. exact (P_Grid.C30_whole_year _ _ X).
Qed.
(** ** The data of a combination *)
Lemma held_ok wb h t k : filled_in L wb -> runnable wb -> answers L run_pv -> read_inputs wb = Ok k ->
  exists k' q year, combination h t k = Ok k' /\ hold L k' = Ok q /\ set_up L wb h t = Ok (q_parts q) /\ year_of L run_pv lc q = Ok year /\ full_year year.
Proof.
  intros F (CY & ND & NX & EV & PR & _) AN R. destruct (C85_completes L wb h t F) as [o S].
  pose proof F as (P & B & _ & WF & (DL & _ & NR) & _ & _ & _ & _ & _ & _ & _ & TF).
  destruct (combination h t k) as [k'|] eqn:C; [|exfalso; unfold set_up in S; rewrite R in S; cbn [bind] in S; rewrite C in S; discriminate].
  destruct (evaluable_ok wb h t o P B WF EV S) as (hp & EH & FH). destruct (priced_ok wb h t o P B TF PR S) as (pr & EP & FPr).
  destruct CY as (CL & CY). destruct (C82_demand wb k P B R) as (D1 & D2 & D3 & D4).
  destruct (numbers_total _ _ _ _ _ _ D1 (fun r I => proj1 (CY r I))) as (l1 & E1 & L1). destruct (numbers_total _ _ _ _ _ _ D2 (fun r I => proj1 (proj2 (CY r I)))) as (l2 & E2 & L2).
  destruct (numbers_total _ _ _ _ _ _ D3 (fun r I => proj1 (proj2 (proj2 (CY r I))))) as (l3 & E3 & L3). destruct (numbers_total _ _ _ _ _ _ D4 (fun r I => proj2 (proj2 (proj2 (CY r I))))) as (l4 & E4 & L4).
  destruct (C81_heating wb k P B R) as (_ & A1 & A2 & _). pose proof (C81_grid wb k P B R) as (_ & _ & _ & _ & _ & A3 & _).
  destruct (numeric_number _ _ _ _ NR) as (ret & ER). destruct (numeric_number _ _ _ _ ND) as (de & ED). destruct (numeric_number _ _ _ _ NX) as (ex & EX).
  pose proof C as C0. assert (CD : c_source_delta_t k' = c_source_delta_t k) by (unfold combination in C; inv_bind C; injection C as <-; reflexivity).
  apply combination_parts in C as ((_ & _ & C1 & C2 & _ & _ & _ & _ & _ & _ & _ & C3 & _) & _).
  exists k', {| q_parts := o; q_source := l4; q_flow := l3; q_elec := l2; q_heat := l1; q_return := ret; q_delta := de; q_import := pr; q_export := ex |}.
  assert (H : hold L k' = Ok {| q_parts := o; q_source := l4; q_flow := l3; q_elec := l2; q_heat := l1; q_return := ret; q_delta := de; q_import := pr; q_export := ex |}).
  { pose proof S as S'. unfold set_up in S'. rewrite R in S'. cbn [bind] in S'. rewrite C0 in S'. cbn [bind] in S'. unfold hold. rewrite S'. cbn [bind].
    rewrite C2, E4. cbn [bind]. rewrite E3. cbn [bind]. rewrite E2. cbn [bind]. rewrite E1. cbn [bind]. rewrite C1, A1, ER. cbn [bind]. rewrite CD, A2, ED. cbn [bind].
    rewrite EP. cbn [bind]. rewrite C3, A3, EX. cbn [bind]. reflexivity. }
  assert (Y : exists year, year_of L run_pv lc {| q_parts := o; q_source := l4; q_flow := l3; q_elec := l2; q_heat := l1; q_return := ret; q_delta := de; q_import := pr; q_export := ex |} = Ok year).
  { apply year_ok; cbn [q_parts q_source q_flow q_elec q_heat q_import]; try (unfold full_year; lia); [|exists hp; split; assumption|exact FPr].
    destruct (C85_turbines _ _ _ _ _ P B S) as ((r1 & _ & _ & _ & _ & _ & (WD & _)) & (r2 & _ & _ & _ & _ & _ & (WU & _) & _) & _). destruct (C85_PV _ _ _ _ _ P B S) as (_ & _ & (WP & _)).
    assert (LW : last_row wb "Weather resources" - 5 = S_Renewables.hours_in_year) by (destruct WF as (X & _); unfold S_Renewables.hours_in_year; lia).
    apply generation_ok; [exact AN|congruence..]. }
  destruct Y as [year Y]. exists year. split; [reflexivity|]. split; [exact H|]. split; [exact S|]. split; [exact Y|].
  apply year_of_inv in Y as (_ & _ & _ & _ & _ & _ & _ & _ & _ & _ & Y & _). exact Y.
Qed.

(** ** The whole run *)
Variable opt : M_Mpc.optimiser.
Variable price : Z -> Q.
Definition simulates (wb : workbook) (h t : Z) : Prop := forall q year x above below s n,
  set_up L wb h t = Ok (q_parts q) -> year_of L run_pv lc q = Ok year -> full_year year ->
  order_of (xl wb "Controller" "D" 8) = Ok above -> order_of (xl wb "Controller" "D" 9) = Ok below -> holds wb "Controller" "D" 7 x ->
  counts wb "Controller" "G" 5 s -> counts wb "Controller" "G" 6 n -> (0 <= s)%Z -> (0 < n)%Z -> (s + n <= 8760)%Z ->
  holds wb "Demand input" "I" 6 (q_return q) -> holds wb "Demand input" "I" 8 (q_delta q) ->
  exists rs, run_timesteps (plant_of L q x above below) year s n = Ok rs.
Lemma counts_is wb N c r z : counts wb N c r z -> whole (xl wb N c r) = Ok z.
Proof.
  intro H. destruct (counts_whole _ _ _ _ _ H) as [z' E]. rewrite E. f_equal. apply whole_counts in E. exact (counts_one _ _ _ _ _ _ E H).
Qed.
Lemma no_tank_total K ret delta : (M_Tank.k_capacity K == 0)%Q -> tank_total (M_Tank.tank_instance K ret delta).
Proof.
  intro Z. split; [|intro N; contradiction (N Z)]. intros s T so fl t. cbn [M_Tank.tank_instance t_max]. unfold M_Tank.max_energy_in_out.
  destruct (qle _ _ && _); [eexists; reflexivity|]. destruct (qle _ _ && _); [eexists; reflexivity|].
  destruct (qeq_spec (M_Tank.k_capacity K) 0) as [_|N]; [eexists; reflexivity|contradiction].
Qed.
Lemma jobs_ok wb c s n : filled_in L wb -> runnable wb -> answers L run_pv -> says wb "Controller" "D" 5 c -> counts wb "Controller" "G" 5 s -> counts wb "Controller" "G" 6 n -> swept wb ->
  (forall h t cs p k k' q year, counts wb "Parametric" "E" 7 (M_Sweep.ts_min p) -> counts wb "Parametric" "D" 7 (M_Sweep.ts_max p) -> M_Sweep.combos p = Ok cs -> In (h, t) cs ->
     read_inputs wb = Ok k -> combination h t k = Ok k' -> hold L k' = Ok q -> set_up L wb h t = Ok (q_parts q) -> year_of L run_pv lc q = Ok year -> full_year year ->
     exists dd, one_job L run_pv lc opt c s n ((h, t), k') = Ok dd) ->
  exists out, program L run_pv lc opt price wb = Ok out.
Proof.
  intros F RU AN O1 O3 O4 (a & b & x & d & e & f & W1 & W2 & W3 & W4 & W5 & W6 & W7 & W8) SI.
  pose proof F as (P & B & RD & _). destruct (C81_completes wb P B RD) as [k R].
  destruct (C81_sweep wb k P R) as (A1 & A2 & A3 & A4 & A5 & A6). destruct (C81_controller wb k P R) as (K1 & K2 & K3 & K4 & _ & K6 & K7).
  set (p := {| M_Sweep.hp_min := a; M_Sweep.hp_max := b; M_Sweep.hp_step := x; M_Sweep.ts_min := d; M_Sweep.ts_max := e; M_Sweep.ts_step := f |}).
  assert (SW : sweep_of (c_parametric k) = Ok p).
  { unfold sweep_of. rewrite A1, A2, A3, A4, A5, A6. rewrite (counts_is _ _ _ _ _ W1), (counts_is _ _ _ _ _ W2), (counts_is _ _ _ _ _ W3), (counts_is _ _ _ _ _ W4), (counts_is _ _ _ _ _ W5), (counts_is _ _ _ _ _ W6). reflexivity. }
  destruct (P_Sweep.C33_sweep_exact p) as (cs & C & _ & IN); [cbn; lia..|].
  assert (NE : In (a, d) cs).
  { apply IN. cbn. split; [destruct W7 as [->|W7]; [left; lia|right; split; [lia|exists 0%Z; lia]]|]. destruct W8 as [->|W8]; [left; lia|right; split; [lia|exists 0%Z; lia]]. }
  assert (J : forall h t, In (h, t) cs -> exists k', combination h t k = Ok k' /\ exists dd, one_job L run_pv lc opt c s n ((h, t), k') = Ok dd).
  { intros h t I. destruct (held_ok wb h t k F RU AN R) as (k' & q & year & Ck & Hq & SU & Y & FY). exists k'. split; [exact Ck|].
    exact (SI h t cs p k k' q year W4 W5 C I R Ck Hq SU Y FY). }
  destruct (mapM_total (fun c => k' <- combination (fst c) (snd c) k ;; Ok (c, k')) cs) as [ks EK].
  { intros [h t] I. destruct (J h t I) as (k' & Ck & _). cbn [fst snd]. rewrite Ck. cbn [bind]. eexists. reflexivity. }
  assert (FK : Forall (fun x => In (fst x) cs /\ combination (fst (fst x)) (snd (fst x)) k = Ok (snd x)) ks).
  { apply Forall_forall. intros y I. apply In_nth_error in I as [i E]. destruct (mapM_back _ _ _ _ _ EK E) as (c' & E' & X).
    destruct (combination _ _ k) as [k'|] eqn:Ck; cbn [bind] in X; [|discriminate]. apply Ok_inj in X. subst y. cbn [fst snd]. split; [eapply nth_error_In, E'|exact Ck]. }
  destruct (mapM_total (one_job L run_pv lc opt c s n) ks) as [ds ED].
  { intros [[h t] k'] I. rewrite Forall_forall in FK. destruct (FK _ I) as (I1 & I2). cbn [fst snd] in I1, I2. destruct (J h t I1) as (k'' & Ck & X). rewrite I2 in Ck. apply Ok_inj in Ck. subst k''. exact X. }
  destruct ks as [|x0 ks0] eqn:Eks. { exfalso. apply mapM_length in EK. destruct cs; [destruct NE|discriminate EK]. }
  assert (PP : prepare wb = Ok (p, ks, (c, s, n))).
  { unfold prepare. rewrite R. cbn [bind]. rewrite SW. cbn [bind]. rewrite C. cbn [bind]. rewrite EK. cbn [bind pidx nth_error]. cbv zeta.
    rewrite Forall_forall in FK. destruct (FK x0 (or_introl eq_refl)) as (_ & X). apply combination_parts in X as ((X & _) & _). rewrite X, K1, (says_name _ _ _ _ _ O1), K2, K3. cbn [bind].
    rewrite (counts_is _ _ _ _ _ O4), (counts_is _ _ _ _ _ O3). cbn [bind]. subst ks. reflexivity. }
  unfold program. rewrite PP. subst ks. cbn [bind]. rewrite ED. cbn [bind]. destruct (M_Plots.run_KPIs _ _ _) as [o r]. eexists. reflexivity.
Qed.
Lemma program_ok wb : filled_in L wb -> runnable wb -> answers L run_pv -> ordered wb -> swept wb ->
  (forall h t cs p, counts wb "Parametric" "E" 7 (M_Sweep.ts_min p) -> counts wb "Parametric" "D" 7 (M_Sweep.ts_max p) -> M_Sweep.combos p = Ok cs -> In (h, t) cs -> simulates wb h t) ->
  exists out, program L run_pv lc opt price wb = Ok out.
Proof.
  intros F RU AN (O1 & O2 & (s & n & O3 & O4 & S0 & N0 & SN) & O5 & O6) SW SI.
  apply (jobs_ok wb "Fixed order control" s n F RU AN O1 O3 O4 SW). intros h t cs p k k' q year W4 W5 C I R Ck Hq SU Y FY.
  pose proof F as (P & B & _). destruct (C81_controller wb k P R) as (_ & _ & _ & K4 & _ & K6 & K7).
  destruct (numeric_number _ _ _ _ O2) as (x & Ex). destruct (hold_cells L wb k k' h t q P B R Ck Hq) as (_ & _ & _ & _ & _ & Q1 & Q2 & _).
  destruct (SI h t cs p W4 W5 C I q year x (k_above (c_controller k)) (k_below (c_controller k)) s n SU Y FY K7 K6 (number_holds _ _ _ _ _ Ex) O3 O4 S0 N0 SN Q1 Q2) as [rs RS].
  apply combination_parts in Ck as ((CC & _) & _).
  destruct (P_Plots.C92_all_figures (o_tank (q_parts q)) (q_return q) (q_delta q) (plant_of L q x (k_above (c_controller k)) (k_below (c_controller k))) year s n rs eq_refl RS N0) as (out & OU & _). unfold one_job, run_solver.
  change (String.eqb "Fixed order control" "Fixed order control") with true. cbv iota. cbn [fst snd]. unfold fixed_order. rewrite Hq. cbn [bind]. rewrite CC, K4, Ex. cbn [bind]. rewrite Y. cbn [bind].
  rewrite RS. cbn [bind]. rewrite OU. cbn [bind]. eexists. reflexivity.
Qed.
(** The predictive controller with a horizon of at least two hours and hours inside the year, away from the window of C27 *)
Definition predicted (wb : workbook) : Prop := let N := "Controller" in
  says wb N "D" 5 "Model predictive control" /\
  exists s n w, counts wb N "G" 5 s /\ counts wb N "G" 6 n /\ counts wb N "G" 9 w /\ (0 <= s)%Z /\ (2 <= n)%Z /\ (s + n <= 8760)%Z /\ (s <= 8757)%Z /\ (2 <= w)%Z /\
    (s + n + w < 8759 - w \/ 8759 <= s + n + w)%Z.
Lemma mpc_nodes X opt' year s n rs K ret delta : p_tank (M_Mpc.m_plant X) = M_Tank.tank_instance K ret delta -> M_Mpc.mpc_run X opt' year s n = Ok rs ->
  Forall (fun rc => length (r_nodes rc) = M_Tank.k_nodes K) rs.
Proof.
  intros HT R. destruct (L_MpcRun.mpc_run_inv _ _ _ _ _ _ R) as (mc & _ & Hm). destruct (L_MpcRun.moving_horizon_inv _ _ _ _ _ _ _ Hm) as (_ & H0 & H2).
  destruct (Z.le_gt_cases 2 n) as [Hn|Hn]; [|rewrite H0 by lia; constructor]. destruct (H2 Hn) as (_ & (I0 & _ & E0) & HC).
  assert (IN : length (t_init (p_tank (M_Mpc.m_plant X))) = M_Tank.k_nodes K) by (rewrite HT; cbn; apply repeat_length).
  assert (ST : forall h st rc, S_Mpc.starts_from X opt' year mc h s st rc -> length (fst st) = M_Tank.k_nodes K -> length (r_nodes rc) = M_Tank.k_nodes K).
  { intros h st rc (pv & nx & E1 & _ & SV) LE. rewrite <- E1 in LE. apply L_Mpc.solve_inv in SV as (b & vs & v & c & d & ss & I & pp & nn & r & _ & _ & _ & _ & FN & _ & _ & _ & _ & -> & _). cbn [r_nodes].
    unfold M_Mpc.final_nodes in FN. destruct (qeq _ _); [injection FN as <-; exact LE|]. destruct (is_electric _); [|discriminate]. destruct (M_FixedOrder.label year 1); cbn [bind] in FN; [|discriminate].
    rewrite HT in FN. destruct (t_new _ _ _ _ _ _ _ _) as [n'|] eqn:TN; cbn [bind] in FN; [|discriminate]. injection FN as <-. apply P_Tank.C22_operation_shape in TN. apply TN. }
  assert (A : forall i rc, nth_error rs i = Some rc -> length (r_nodes rc) = M_Tank.k_nodes K).
  { induction i as [|i IH]; intros rc E; [rewrite E0 in E; injection E as <-; exact IN|]. destruct (HC i rc E) as (b & Eb & [S|[(_ & _ & S)|(_ & _ & I & _ & ->)]]).
    - apply (ST _ _ _ S). exact (IH b Eb).
    - apply (ST _ _ _ S). exact IN.
    - exact IN. }
  apply Forall_forall. intros rc I. apply In_nth_error in I as [i E]. exact (A i rc E).
Qed.
Lemma predictive_ok wb : filled_in L wb -> runnable wb -> answers L run_pv -> predicted wb -> swept wb -> without_store wb ->
  (forall X, S_Mpc.answers_from_initial X opt) -> exists out, program L run_pv lc opt price wb = Ok out.
Proof.
  intros F RU AN (O1 & s & n & w & O3 & O4 & O5 & S0 & N0 & SN & S1 & W0 & WW) SW (Z1 & Z2) AO.
  apply (jobs_ok wb "Model predictive control" s n F RU AN O1 O3 O4 SW). intros h t cs p k k' q year W4 W5 C I R Ck Hq SU Y FY.
  assert (t = 0%Z).
  { pose proof (counts_one _ _ _ _ _ _ W4 Z1) as E0. pose proof (counts_one _ _ _ _ _ _ W5 Z2) as D0. unfold M_Sweep.combos in C. destruct (M_Sweep.hp_sizes p) as [hs|]; cbn [bind] in C; [|discriminate].
    unfold M_Sweep.ts_sizes in C. rewrite E0, D0 in C. cbn [bind Z.eqb] in C. apply Ok_inj in C. subst cs. apply in_flat_map in I as (h' & _ & I). cbn in I. destruct I as [I|[]]. congruence. }
  subst t. pose proof F as (P & B & _). destruct (C85_tank _ _ _ _ _ P B SU) as (TC & _). destruct (C85_backup _ _ _ _ _ P B SU) as (_ & BE & _ & BF).
  destruct (C81_controller wb k P R) as (_ & _ & _ & _ & K5 & _). apply combination_parts in Ck as ((CC & _) & _). destruct RU as (_ & _ & _ & _ & _ & RA).
  set (X := {| M_Mpc.m_plant := plant_of L q 0 [] []; M_Mpc.m_horizon := w; M_Mpc.m_return_nodes := t_init (p_tank (plant_of L q 0 [] [])) |}).
  destruct (L_MpcRun.mpc_run_completes X opt year s n) as (rs & RS & LN); try assumption; try (cbn; lia).
  - cbn. apply no_tank_total. rewrite TC. reflexivity.
  - split; [apply RA, BE|]. intro NE. cbn in NE |- *. destruct (BF NE) as (r & d & c & _ & _ & _ & _ & Ed & _ & Ec). rewrite Ed, Ec. split; discriminate.
  - right. cbn. rewrite TC. reflexivity.
  - apply AO.
  - assert (HT : p_tank (M_Mpc.m_plant X) = M_Tank.tank_instance (o_tank (q_parts q)) (q_return q) (q_delta q)) by reflexivity.
    destruct (P_Plots.C92_enough_records rs n s ltac:(lia) ltac:(lia)) as [out OU]; [eexists; exact (mpc_nodes _ _ _ _ _ _ _ _ _ HT RS)|].
    unfold one_job, run_solver. change (String.eqb "Model predictive control" "Fixed order control") with false. change (String.eqb "Model predictive control" "Model predictive control") with true. cbv iota. cbn [fst snd].
    unfold predictive. rewrite Hq. cbn [bind]. rewrite CC, K5, (counts_is _ _ _ _ _ O5). cbn [bind]. rewrite Y. cbn [bind]. cbv zeta. fold X. rewrite RS. cbn [bind]. rewrite OU. eexists. reflexivity.
Qed.
End OK.
