(** What a combination of sizes changes, and what the modelling approaches give: properties C86 to C88. *)
From Coq Require Import String Ascii Sorted.
From Verif Require Import Base BaseL M_Battery M_HeatPump S_HeatPump M_Sweep M_Regression S_Regression L_Regression P_Regression M_Excel S_Excel L_Excel L_ExcelSheets P_Excel L_HeatPump M_Init S_Init L_Init P_Init P_InitReady.
From Verif Require M_Tank M_Grid M_Renewables.
Local Open Scope nat_scope.
Local Open Scope list_scope.

(** ** C86: the sweep changes the two sizes and nothing else *)
Lemma user_turbine_ext k k' w : c_power_curve k = c_power_curve k' -> c_wind_user k = c_wind_user k' -> user_turbine k w = user_turbine k' w.
Proof. intros A B. unfold user_turbine. rewrite A, B. reflexivity. Qed.
Lemma database_turbine_ext k k' w : c_wind_database k = c_wind_database k' -> database_turbine k w = database_turbine k' w.
Proof. intros A. unfold database_turbine. rewrite A. reflexivity. Qed.
Lemma pv_ext k k' w : c_PV_location k = c_PV_location k' -> c_PV_spec k = c_PV_spec k' -> pv_of k w = pv_of k' w.
Proof. intros A B. unfold pv_of. rewrite A, B. reflexivity. Qed.
Lemma battery_ext k k' : c_battery k = c_battery k' -> battery_of k = battery_of k'.
Proof. intros A. unfold battery_of. rewrite A. reflexivity. Qed.
Lemma aux_ext k k' : c_aux k = c_aux k' -> aux_of k = aux_of k'.
Proof. intros A. unfold aux_of. rewrite A. reflexivity. Qed.
Lemma grid_ext rw k k' : c_grid k = c_grid k' -> c_wind_farm k = c_wind_farm k' -> grid_of rw k = grid_of rw k'.
Proof. intros A B. unfold grid_of, flat_of, variable_of, periods_of, market_of, bands_of, farm_power, farm_of. rewrite A, B. reflexivity. Qed.

Lemma combination_pump h t t' k k1 k2 : combination h t k = Ok k1 -> combination h t' k = Ok k2 -> c_heat_pump k2 = c_heat_pump k1.
Proof.
  unfold combination. intros H H'. destruct (first_of (hp_basics (c_heat_pump k)) "capacity") as [cap|]; cbn [bind] in H, H'; [|discriminate].
  destruct (duty_ratio h cap) as [ra|]; cbn [bind] in H, H'; [|discriminate].
  destruct (scale_column (hp_reg1 _) _ _) as [r1|]; cbn [bind] in H, H'; [|discriminate].
  destruct (scale_column (hp_reg2 _) _ _) as [r2|]; cbn [bind] in H, H'; [|discriminate].
  destruct (scale_column (hp_reg3 _) _ _) as [r3|]; cbn [bind] in H, H'; [|discriminate].
  destruct (scale_column (hp_reg4 _) _ _) as [r4|]; cbn [bind] in H, H'; [|discriminate].
  injection H as <-. injection H' as <-. reflexivity.
Qed.

(** The same tank with another capacity; its width follows from the capacity. *)
Definition resized (L : libraries) (T : M_Tank.tank) (t : Z) : M_Tank.tank :=
  {| M_Tank.k_capacity := inject_Z t; M_Tank.k_insulation := M_Tank.k_insulation T; M_Tank.k_location := M_Tank.k_location T; M_Tank.k_nodes := M_Tank.k_nodes T;
     M_Tank.k_width := lib_width L (inject_Z t); M_Tank.k_pi := M_Tank.k_pi T; M_Tank.k_openings := M_Tank.k_openings T; M_Tank.k_openings_d := M_Tank.k_openings_d T;
     M_Tank.k_bare := M_Tank.k_bare T; M_Tank.k_bare_d := M_Tank.k_bare_d T; M_Tank.k_insulated := M_Tank.k_insulated T; M_Tank.k_insulated_d := M_Tank.k_insulated_d T;
     M_Tank.k_Fi := M_Tank.k_Fi T; M_Tank.k_Fe := M_Tank.k_Fe T; M_Tank.k_air := M_Tank.k_air T; M_Tank.k_cp := M_Tank.k_cp T |}.
(** Models that give the same coefficients of performance for the same temperatures; of the
    approaches, only the regression has a heat output of its own, which may differ. *)
Definition same_cop (m m' : perf_model) : Prop :=
  match m, m' with
  | MStandard s, MStandard s' => std_cop s = std_cop s'
  | MStandard _, _ | _, MStandard _ => False
  | _, _ => m = m'
  end.

Section SIZES.
Variables (L : libraries) (wb : workbook).
Hypotheses (P : plain wb) (B : big_enough wb).
Lemma tank_resized h t h' t' o o' : set_up L wb h t = Ok o -> set_up L wb h' t' = Ok o' -> o_tank o' = resized L (o_tank o) t'.
Proof.
  intros H H'.
  apply set_up_inv in H as (k & k1 & R & C & M). apply set_up_inv in H' as (k0 & k2 & R' & C' & M'). rewrite R in R'. injection R' as <-.
  apply combination_parts in C as ((_ & CR & _) & CT & _). apply combination_parts in C' as ((_ & CR' & _) & CT' & _).
  destruct M as (w & air & water & i & _ & MA & _ & _ & _ & _ & _ & M & _). destruct M' as (w' & air' & water' & i' & _ & MA' & _ & _ & _ & _ & _ & M' & _).
  rewrite CR in MA. rewrite CR' in MA'. rewrite MA in MA'. apply Ok_inj in MA'. subst air'.
  pose proof (C81_tank wb k P B R) as (K1 & K2 & K3 & K4 & K5 & K6 & K7 & K8 & K9 & K10 & K11 & K12 & K13 & K14 & K15).
  pose proof (tank_distinct wb k R) as KD.
  unfold tank_of in M, M'. rewrite CT in M. rewrite CT' in M'. cbv zeta in M, M'.
  rewrite (set_first_same _ _ _ _ K1) in M.
  rewrite (set_first_other _ "capacity" "insulation" _ KD), (set_first_other _ "capacity" "location" _ KD), (set_first_other _ "capacity" "number_nodes" _ KD),
    (set_first_other _ "capacity" "height" _ KD), (set_first_other _ "capacity" "width" _ KD), (set_first_other _ "capacity" "insulation_thickness" _ KD),
    (set_first_other _ "capacity" "tank_opening" _ KD), (set_first_other _ "capacity" "tank_opening_diameter" _ KD),
    (set_first_other _ "capacity" "uninsulated_connections" _ KD), (set_first_other _ "capacity" "uninsulated_connections_diameter" _ KD),
    (set_first_other _ "capacity" "insulated_connections" _ KD), (set_first_other _ "capacity" "insulated_connections_diameter" _ KD),
    (set_first_other _ "capacity" "insulation_factor" _ KD), (set_first_other _ "capacity" "overall_factor" _ KD) in M by discriminate.
  rewrite (set_first_same _ _ _ _ K1) in M'.
  rewrite (set_first_other _ "capacity" "insulation" _ KD), (set_first_other _ "capacity" "location" _ KD), (set_first_other _ "capacity" "number_nodes" _ KD),
    (set_first_other _ "capacity" "height" _ KD), (set_first_other _ "capacity" "width" _ KD), (set_first_other _ "capacity" "insulation_thickness" _ KD),
    (set_first_other _ "capacity" "tank_opening" _ KD), (set_first_other _ "capacity" "tank_opening_diameter" _ KD),
    (set_first_other _ "capacity" "uninsulated_connections" _ KD), (set_first_other _ "capacity" "uninsulated_connections_diameter" _ KD),
    (set_first_other _ "capacity" "insulated_connections" _ KD), (set_first_other _ "capacity" "insulated_connections_diameter" _ KD),
    (set_first_other _ "capacity" "insulation_factor" _ KD), (set_first_other _ "capacity" "overall_factor" _ KD) in M' by discriminate.
  rewrite K2, K3, K4, K5, K6, K7, K8, K9, K10, K11, K12, K13, K14, K15 in M.
  rewrite K2, K3, K4, K5, K6, K7, K8, K9, K10, K11, K12, K13, K14, K15 in M'. clear K2 K3 K4 K5 K6 K7 K8 K9 K10 K11 K12 K13 K14 K15.
  cbn [bind number] in M, M'. inv_bind M. injection M as M. cbn [bind] in M'. injection M' as M'. rewrite <- M', <- M. unfold resized. cbn. reflexivity.
Qed.
Lemma heat_pump_resized h t h' t' o o' : set_up L wb h t = Ok o -> set_up L wb h' t' = Ok o' ->
  let p := o_heat_pump o in let p' := o_heat_pump o' in
  h_type p' = h_type p /\ h_ambient_delta_t p' = h_ambient_delta_t p /\ h_minimum_runtime p' = h_minimum_runtime p /\ h_minimum_output p' = h_minimum_output p /\
  h_data_input p' = h_data_input p /\ h_flow p' = h_flow p /\ h_return p' = h_return p /\ h_air p' = h_air p /\ h_water p' = h_water p /\
  same_cop (h_model p) (h_model p') /\ (h = h' -> p' = p).
Proof.
  intros H H'. apply set_up_inv in H as (k & k1 & R & C & M). apply set_up_inv in H' as (k0 & k2 & R' & C' & M'). rewrite R in R'. injection R' as <-.
  pose proof C as C0. pose proof C' as C0'.
  apply combination_parts in C as ((_ & CR & CT & CD & _) & _ & CB & CS & CL & CTs & cap & ra & FC & DR & S1 & S2 & S3 & S4).
  apply combination_parts in C' as ((_ & CR' & CT' & CD' & _) & _ & CB' & CS' & CL' & CTs' & cap' & ra' & FC' & DR' & S1' & S2' & S3' & S4').
  destruct M as (w & air & water & i & _ & MA & MW & _ & _ & _ & _ & _ & M & _). destruct M' as (w' & air' & water' & i' & _ & MA' & MW' & _ & _ & _ & _ & _ & M' & _).
  rewrite CR in MA, MW. rewrite CR' in MA', MW'. rewrite MA in MA'. apply Ok_inj in MA'. subst air'. rewrite MW in MW'. apply Ok_inj in MW'. subst water'.
  pose proof (C81_heat_pump wb k P B R) as ((A1 & A2 & A3 & A4 & A5 & A6 & A7) & _).
  assert (SAME : h = h' -> c_heat_pump k2 = c_heat_pump k1).
  { intros <-. exact (combination_pump _ _ _ _ _ _ C0 C0'). }
  pose proof (proj1 (heat_pump_distinct wb k R)) as HPD.
  unfold heat_pump_of in M, M'. cbv zeta in M, M'. rewrite CB, CD, CT in M. rewrite CB', CD', CT' in M'.
  unfold basics_type, basics_approach, basics_data_input, enum_of, first_number in M, M'.
  rewrite (set_first_other _ "capacity" "heat_pump_type" _ HPD), A1, (set_first_same _ _ _ _ A3), (set_first_other _ "capacity" "modelling_approach" _ HPD), A2,
      (set_first_other _ "capacity" "ambient_delta_t" _ HPD), A4, (set_first_other _ "capacity" "minimum_runtime" _ HPD), A5,
      (set_first_other _ "capacity" "data_input" _ HPD), A7, (set_first_other _ "capacity" "minimum_output" _ HPD), A6 in M by discriminate.
  rewrite (set_first_other _ "capacity" "heat_pump_type" _ HPD), A1, (set_first_same _ _ _ _ A3), (set_first_other _ "capacity" "modelling_approach" _ HPD), A2,
      (set_first_other _ "capacity" "ambient_delta_t" _ HPD), A4, (set_first_other _ "capacity" "minimum_runtime" _ HPD), A5,
      (set_first_other _ "capacity" "data_input" _ HPD), A7, (set_first_other _ "capacity" "minimum_output" _ HPD), A6 in M' by discriminate.
  clear A1 A2 A3 A4 A5 A6 A7. cbn [bind number] in M, M'.
  destruct (do s <~ text_of (xl wb "Heat pump" "D" 3);; read_enum hp_kinds hp_kind_value s) as [ty|]; cbn [bind] in M, M'; [|discriminate].
  destruct (do s <~ text_of (xl wb "Heat pump" "D" 4);; read_enum model_names model_name_value s) as [ap|]; cbn [bind] in M, M'; [|discriminate].
  destruct (number (xl wb "Heat pump" "D" 6)) as [dt|]; cbn [bind] in M, M'; [|discriminate].
  destruct (number (xl wb "Heat pump" "D" 7)) as [rt|]; cbn [bind] in M, M'; [|discriminate].
  destruct (do s <~ text_of (xl wb "Heat pump" "D" 9);; read_enum data_inputs data_input_value s) as [di|]; cbn [bind] in M, M'; [|discriminate].
  destruct (number (xl wb "Heat pump" "D" 8)) as [mo|]; cbn [bind] in M, M'; [|discriminate].
  destruct (numbers (c_demand k) "temp_source") as [src|]; cbn [bind] in M, M'; [|discriminate].
  destruct (number (c_temp_return k)) as [re|]; cbn [bind] in M, M'; [|discriminate].
  assert (MK : forall sm lo st sm' lo' st' p p', make_heat_pump ty ap (inject_Z h) dt rt mo di (PdSeries src) (Scalar re) air water sm lo st = Ok p ->
    make_heat_pump ty ap (inject_Z h') dt rt mo di (PdSeries src) (Scalar re) air water sm' lo' st' = Ok p' ->
    (forall m m', make_model ap sm lo st = Ok m -> make_model ap sm' lo' st' = Ok m' -> same_cop m m') ->
    (h = h' -> sm = sm' /\ lo = lo' /\ st = st') ->
    h_type p' = h_type p /\ h_ambient_delta_t p' = h_ambient_delta_t p /\ h_minimum_runtime p' = h_minimum_runtime p /\ h_minimum_output p' = h_minimum_output p /\
    h_data_input p' = h_data_input p /\ h_flow p' = h_flow p /\ h_return p' = h_return p /\ h_air p' = h_air p /\ h_water p' = h_water p /\
    same_cop (h_model p) (h_model p') /\ (h = h' -> p' = p)).
  { clear. intros sm lo st sm' lo' st' p p' E E' SC EQ. split; [|split; [|split; [|split; [|split; [|split; [|split; [|split; [|split; [|split]]]]]]]]].
    11: { intros EH. destruct (EQ EH) as (<- & <- & <-). rewrite EH in E. rewrite E in E'. apply Ok_inj in E'. symmetry. exact E'. }
    all: unfold make_heat_pump in E, E'; destruct (check_full_year (PdSeries src)) as [f'|]; cbn [bind] in E, E'; [|discriminate];
      destruct (check_full_year (Scalar re)) as [r'|]; cbn [bind] in E, E'; [|discriminate];
      destruct (check_full_year (PdSeries air)) as [a'|]; cbn [bind] in E, E'; [|discriminate];
      destruct (make_model ap sm lo st) as [m|] eqn:EM; cbn [bind] in E; [|discriminate]; destruct (make_model ap sm' lo' st') as [m'|] eqn:EM'; cbn [bind] in E'; [|discriminate];
      apply Ok_inj in E, E'; subst p p'; cbn; try reflexivity. apply SC; reflexivity. }
  destruct ap.
  - rewrite CS in M. rewrite CS' in M'. destruct (number (hp_simple (c_heat_pump k))) as [s|]; cbn [bind] in M, M'; [|discriminate].
    apply (MK _ _ _ _ _ _ _ _ M M'); [|repeat split]. cbn. intros m m' E E'. injection E as <-. injection E' as <-. reflexivity.
  - rewrite CL in M. rewrite CL' in M'. destruct (lorentz_of (hp_lorentz (c_heat_pump k))) as [s|]; cbn [bind] in M, M'; [|discriminate].
    apply (MK _ _ _ _ _ _ _ _ M M'); [|repeat split]. cbn. intros m m' E E'. injection E as <-. injection E' as <-. reflexivity.
  - discriminate.
  - destruct (standard_of (lib_fit L) (c_heat_pump k1)) as [s|] eqn:ES; cbn [bind] in M; [|discriminate].
    destruct (standard_of (lib_fit L) (c_heat_pump k2)) as [s'|] eqn:ES'; cbn [bind] in M'; [|discriminate].
    apply (MK _ _ _ _ _ _ _ _ M M').
    2: { intro EH. split; [reflexivity|]. split; [reflexivity|]. rewrite (SAME EH), ES in ES'. apply Ok_inj in ES'. rewrite ES'. reflexivity. }
    cbn [make_model]. intros m m' E E'. apply Ok_inj in E, E'. subst m m'. cbn [same_cop].
    destruct (standard_parts _ _ _ _ _ _ _ P B R C0 ES) as (q & ratio & tables & r & _ & ST & _ & _ & TP & ->).
    destruct (standard_parts _ _ _ _ _ _ _ P B R C0' ES') as (q' & ratio' & tables' & r' & _ & ST' & _ & _ & TP' & ->).
    rewrite ST in ST'. apply Ok_inj in ST'. subst tables'. apply train_points_ok in TP as [_ ->]. apply train_points_ok in TP' as [_ ->].
    unfold standard_oracle, predict_cop. cbn [std_cop r_cop]. rewrite !map_map. reflexivity.
Qed.
End SIZES.

Theorem C86_sizes_only : forall L wb h t h' t' o o', plain wb -> big_enough wb -> set_up L wb h t = Ok o -> set_up L wb h' t' = Ok o' ->
  o_user o' = o_user o /\ o_database o' = o_database o /\ o_PV o' = o_PV o /\ o_battery o' = o_battery o /\ o_aux o' = o_aux o /\ o_grid o' = o_grid o /\
  o_tank o' = resized L (o_tank o) t' /\
  let p := o_heat_pump o in let p' := o_heat_pump o' in
  h_capacity p' = inject_Z h' /\ h_type p' = h_type p /\ h_ambient_delta_t p' = h_ambient_delta_t p /\ h_minimum_runtime p' = h_minimum_runtime p /\
  h_minimum_output p' = h_minimum_output p /\ h_data_input p' = h_data_input p /\ h_flow p' = h_flow p /\ h_return p' = h_return p /\ h_air p' = h_air p /\
  h_water p' = h_water p /\ same_cop (h_model p) (h_model p').
Proof.
  intros L wb h t h' t' o o' P B H H'. pose proof (tank_resized L wb P B _ _ _ _ _ _ H H') as RT.
  pose proof (heat_pump_resized L wb P B _ _ _ _ _ _ H H') as (A1 & A2 & A3 & A4 & A5 & A6 & A7 & A8 & A9 & A10 & _).
  pose proof (C85_heat_pump L wb h' t' o' P B H') as (_ & CAP & _).
  apply set_up_inv in H as (k & k1 & R & C & M). apply set_up_inv in H' as (k0 & k2 & R' & C' & M'). rewrite R in R'. injection R' as <-.
  apply combination_parts in C as ((_ & C1 & C2 & C3 & C4 & C5 & C6 & C7 & C8 & C9 & C10 & C11 & C12) & _).
  apply combination_parts in C' as ((_ & D1 & D2 & D3 & D4 & D5 & D6 & D7 & D8 & D9 & D10 & D11 & D12) & _).
  destruct M as (w & air & water & i & M1 & _ & _ & M2 & M3 & M4 & M5 & _ & _ & M6 & M7 & M8).
  destruct M' as (w' & air' & water' & i' & N1 & _ & _ & N2 & N3 & N4 & N5 & _ & _ & N6 & N7 & N8).
  rewrite D1, <- C1, M1 in N1. apply Ok_inj in N1. subst w'.
  rewrite (user_turbine_ext k2 k1), M2 in N2 by congruence. rewrite (database_turbine_ext k2 k1), M3 in N3 by congruence.
  rewrite (pv_ext k2 k1), M4 in N4 by congruence. apply Ok_inj in N4. subst i'. rewrite M5 in N5.
  rewrite (battery_ext k2 k1), M6 in N6 by congruence. rewrite (aux_ext k2 k1), M7 in N7 by congruence. rewrite (grid_ext _ k2 k1), M8 in N8 by congruence.
  apply Ok_inj in N2, N3, N5, N6, N7, N8. cbv zeta in *. repeat match goal with |- _ /\ _ => split end; try (symmetry; assumption); assumption.
Qed.
Print Assumptions C86_sizes_only.
(** The same sizes give the same plant; a size of one does not change the other. *)
Theorem C86_independent : forall L wb h t h' t' o o', plain wb -> big_enough wb -> set_up L wb h t = Ok o -> set_up L wb h' t' = Ok o' ->
  (h = h' -> o_heat_pump o' = o_heat_pump o) /\ (t = t' -> o_tank o' = o_tank o).
Proof.
  intros L wb h t h' t' o o' P B H H'. split; intro E.
  - apply (heat_pump_resized L wb P B _ _ _ _ _ _ H H'), E.
  - subst t'. pose proof (tank_resized L wb P B _ _ _ _ _ _ H H) as E1. pose proof (tank_resized L wb P B _ _ _ _ _ _ H H') as E2. congruence.
Qed.
Print Assumptions C86_independent.
(** The two plants of a case: a heat pump of 30 kW with a tank of 2000 l, and one of 40 kW with 500 l *)
Example C86_case : exists o o', set_up small_libraries (ready "ASHP" "SIMPLE" "INTEGRATED PERFORMANCE" "Flat rates") 30 2000 = Ok o /\
  set_up small_libraries (ready "ASHP" "SIMPLE" "INTEGRATED PERFORMANCE" "Flat rates") 40 500 = Ok o' /\
  o_battery o' = o_battery o /\ h_capacity (o_heat_pump o) = 30%Q /\ h_capacity (o_heat_pump o') = 40%Q /\ M_Tank.k_capacity (o_tank o') = 500%Q /\
  M_Tank.k_capacity (o_tank o) = 2000%Q.
Proof.
  pose proof (ready_filled ASHP SIMPLE INTEGRATED "Flat rates" ltac:(discriminate) ltac:(left; reflexivity)) as F.
  cbn [hp_kind_value model_name_value data_input_value] in F. pose proof F as (P & B & _).
  destruct (C85_completes _ _ 30 2000 F) as [o E]. destruct (C85_completes _ _ 40 500 F) as [o' E']. exists o, o'. split; [exact E|]. split; [exact E'|].
  destruct (C86_sizes_only _ _ _ _ _ _ _ _ P B E E') as (_ & _ & _ & EB & _). destruct (C85_heat_pump _ _ _ _ _ P B E) as (_ & E1 & _). destruct (C85_heat_pump _ _ _ _ _ P B E') as (_ & E2 & _).
  destruct (C85_tank _ _ _ _ _ P B E) as (T1 & _). destruct (C85_tank _ _ _ _ _ P B E') as (T2 & _). repeat split; assumption.
Qed.

(** ** C87: the dimensions of the tank *)
(** Two workbooks that differ at most in the capacity, the height, the width and the insulation
    thickness of the tank: cells D5 and D10 to D12 of "Thermal storage" *)
Definition tank_cells_apart (wb wb' : workbook) : Prop :=
  (forall name, name <> "Thermal storage"%string -> wb' name = wb name) /\ plain wb' /\ reaches wb' "Thermal storage" "N" 23 /\
  forall c r, ~ (c = "D"%char /\ In r [5; 10; 11; 12]) -> xl wb' "Thermal storage" c r = xl wb "Thermal storage" c r.
Definition retank (k : container) (f : frame) : container :=
  {| c_parametric := c_parametric k; c_controller := c_controller k; c_resources := c_resources k; c_hot_water := c_hot_water k; c_heating := c_heating k;
     c_temp_return := c_temp_return k; c_source_delta_t := c_source_delta_t k; c_demand := c_demand k; c_PV_location := c_PV_location k; c_PV_spec := c_PV_spec k;
     c_wind_database := c_wind_database k; c_wind_user := c_wind_user k; c_power_curve := c_power_curve k; c_wind_farm := c_wind_farm k; c_battery := c_battery k;
     c_grid := c_grid k; c_aux := c_aux k; c_tank := f; c_heat_pump := c_heat_pump k |}.
Lemma combination_retank h t k k' f : combination h t k = Ok k' -> combination h t (retank k f) = Ok (retank k' (set_first f "capacity" (inject_Z t))).
Proof.
  unfold combination. intro H. cbn [retank c_heat_pump c_tank]. destruct (first_of (hp_basics (c_heat_pump k)) "capacity") as [cap|]; cbn [bind] in *; [|discriminate].
  destruct (duty_ratio h cap) as [ra|]; cbn [bind] in *; [|discriminate].
  destruct (scale_column (hp_reg1 _) _ _) as [r1|]; cbn [bind] in *; [|discriminate].
  destruct (scale_column (hp_reg2 _) _ _) as [r2|]; cbn [bind] in *; [|discriminate].
  destruct (scale_column (hp_reg3 _) _ _) as [r3|]; cbn [bind] in *; [|discriminate].
  destruct (scale_column (hp_reg4 _) _ _) as [r4|]; cbn [bind] in *; [|discriminate].
  injection H as <-. reflexivity.
Qed.
Lemma read_retank wb wb' k : plain wb -> tank_cells_apart wb wb' -> read_inputs wb = Ok k ->
  exists f, x_thermal_storage wb' = Ok f /\ read_inputs wb' = Ok (retank k f).
Proof.
  intros P (SA & P' & RT & _) R. destruct (tank_ok wb' P' RT) as (f & E & _). exists f. split; [exact E|].
  assert (G : forall n, n <> "Thermal storage"%string -> get_sheet wb' n = get_sheet wb n) by (intros n N; unfold get_sheet; rewrite (SA n N); reflexivity).
  apply read_inputs_parts in R as (R1 & R2 & R3 & R4 & R5 & R6 & R7 & R8 & R9 & R10 & R11 & _ & R13). unfold read_inputs.
  assert (F1 : x_parametric wb' = Ok (c_parametric k)) by (rewrite <- R1; unfold x_parametric; rewrite G by discriminate; reflexivity).
  assert (F2 : x_controller wb' = Ok (c_controller k)) by (rewrite <- R2; unfold x_controller; rewrite G by discriminate; reflexivity).
  assert (F3 : x_resources wb' = Ok (c_resources k)) by (rewrite <- R3; unfold x_resources; rewrite G by discriminate; reflexivity).
  assert (F4 : x_demands wb' = x_demands wb) by (unfold x_demands; rewrite G by discriminate; reflexivity).
  assert (F5 : x_demand_input wb' = x_demand_input wb) by (unfold x_demand_input; rewrite G by discriminate; reflexivity).
  assert (F6 : x_PV wb' = x_PV wb) by (unfold x_PV; rewrite G by discriminate; reflexivity).
  assert (F7 : x_wind wb' = x_wind wb) by (unfold x_wind; rewrite G by discriminate; reflexivity).
  assert (F8 : x_wind_farm wb' = x_wind_farm wb) by (unfold x_wind_farm; rewrite G by discriminate; reflexivity).
  assert (F9 : x_electrical_storage wb' = x_electrical_storage wb) by (unfold x_electrical_storage; rewrite G by discriminate; reflexivity).
  assert (F10 : x_grid wb' = x_grid wb) by (unfold x_grid; rewrite G by discriminate; reflexivity).
  assert (F11 : x_aux wb' = x_aux wb) by (unfold x_aux; rewrite G by discriminate; reflexivity).
  assert (F13 : x_heat_pump wb' = x_heat_pump wb) by (unfold x_heat_pump; rewrite G by discriminate; reflexivity).
  rewrite F1, F2, F3, F4, R4, F5, R5, F6, R6, F7, R7, F8, R8, F9, R9, F10, R10, F11, R11, E, F13, R13. reflexivity.
Qed.
Theorem C87_ignored : forall L wb wb' h t o, plain wb -> big_enough wb -> tank_cells_apart wb wb' -> set_up L wb h t = Ok o -> set_up L wb' h t = Ok o.
Proof.
  intros L wb wb' h t o P B A H. apply set_up_inv in H as (k & k1 & R & C & M). destruct (read_retank wb wb' k P A R) as (f & E & R').
  apply (set_up_ok L wb' h t _ _ o R' (combination_retank _ _ _ _ f C)).
  destruct M as (w & air & water & i & M1 & M2 & M3 & M4 & M5 & M6 & M7 & M8 & M9 & M10 & M11 & M12).
  exists w, air, water, i. repeat match goal with |- _ /\ _ => split end; try assumption.
  destruct A as (_ & P' & RT & X). destruct (tank_ok wb' P' RT) as (f' & E' & J1 & J2 & J3 & J4 & J5 & J6 & J7 & J8 & J9 & J10 & J11 & J12 & J13 & J14 & J15).
  rewrite E in E'. apply Ok_inj in E'. subst f'.
  pose proof (C81_tank wb k P B R) as (K1 & K2 & K3 & K4 & K5 & K6 & K7 & K8 & K9 & K10 & K11 & K12 & K13 & K14 & K15).
  pose proof (tank_distinct wb k R) as KD. pose proof (tank_distinct wb' _ R') as JD. cbn [retank c_tank] in JD.
  apply combination_parts in C as (_ & CT & _). unfold tank_of in *. rewrite CT in M8. cbn [retank c_tank]. cbv zeta in *.
  rewrite (set_first_same _ _ _ _ K1) in M8. rewrite (set_first_same _ _ _ _ J1).
  rewrite (set_first_other _ "capacity" "insulation" _ KD), (set_first_other _ "capacity" "location" _ KD), (set_first_other _ "capacity" "number_nodes" _ KD),
    (set_first_other _ "capacity" "height" _ KD), (set_first_other _ "capacity" "width" _ KD), (set_first_other _ "capacity" "insulation_thickness" _ KD),
    (set_first_other _ "capacity" "tank_opening" _ KD), (set_first_other _ "capacity" "tank_opening_diameter" _ KD),
    (set_first_other _ "capacity" "uninsulated_connections" _ KD), (set_first_other _ "capacity" "uninsulated_connections_diameter" _ KD),
    (set_first_other _ "capacity" "insulated_connections" _ KD), (set_first_other _ "capacity" "insulated_connections_diameter" _ KD),
    (set_first_other _ "capacity" "insulation_factor" _ KD), (set_first_other _ "capacity" "overall_factor" _ KD) in M8 by discriminate.
  rewrite (set_first_other _ "capacity" "insulation" _ JD), (set_first_other _ "capacity" "location" _ JD), (set_first_other _ "capacity" "number_nodes" _ JD),
    (set_first_other _ "capacity" "height" _ JD), (set_first_other _ "capacity" "width" _ JD), (set_first_other _ "capacity" "insulation_thickness" _ JD),
    (set_first_other _ "capacity" "tank_opening" _ JD), (set_first_other _ "capacity" "tank_opening_diameter" _ JD),
    (set_first_other _ "capacity" "uninsulated_connections" _ JD), (set_first_other _ "capacity" "uninsulated_connections_diameter" _ JD),
    (set_first_other _ "capacity" "insulated_connections" _ JD), (set_first_other _ "capacity" "insulated_connections_diameter" _ JD),
    (set_first_other _ "capacity" "insulation_factor" _ JD), (set_first_other _ "capacity" "overall_factor" _ JD) by discriminate.
  rewrite K2, K3, K4, K5, K6, K7, K8, K9, K10, K11, K12, K13, K14, K15 in M8. rewrite J2, J3, J4, J5, J6, J7, J8, J9, J10, J11, J12, J13, J14, J15.
  clear K1 K2 K3 K4 K5 K6 K7 K8 K9 K10 K11 K12 K13 K14 K15 J1 J2 J3 J4 J5 J6 J7 J8 J9 J10 J11 J12 J13 J14 J15. cbn [bind number] in *.
  rewrite !X by (intros [_ I]; cbn in I; lia). exact M8.
Qed.
Print Assumptions C87_ignored.
(** The height, width and insulation thickness entered are not those simulated: another width gives the same tank. *)
Definition wider (wb : workbook) (w : Z) : workbook := fun name =>
  if String.eqb name "Thermal storage" then Some (sheet_by 14 22 (at_cells [(6, 3, " Polyurethane "); (7, 3, "Outside")]
    (fun r c => if Nat.eqb c 3 && Nat.eqb (r + 2) 11 then num w else number_at r c)))
  else wb name.
Theorem C87_entered_refuted : exists wb, (plain wb /\ big_enough wb /\ readable wb /\ tank_filled wb) /\ forall L h t, filled_in L wb ->
  exists wb' o w w', tank_filled wb' /\ set_up L wb h t = Ok o /\ set_up L wb' h t = Ok o /\ holds wb "Thermal storage" "D" 11 w /\ holds wb' "Thermal storage" "D" 11 w' /\
    ~ (M_Tank.k_width (o_tank o) == w /\ M_Tank.k_width (o_tank o) == w')%Q.
Proof.
  exists (ready "ASHP" "SIMPLE" "INTEGRATED PERFORMANCE" "Flat rates"). split; [split; [apply ready_plain|split; [apply ready_big|split; [apply ready_readable|apply ready_tank]]]|].
  intros L h t F. destruct (C85_completes L _ h t F) as [o E]. pose proof F as (P & B & _).
  exists (wider (ready "ASHP" "SIMPLE" "INTEGRATED PERFORMANCE" "Flat rates") 7), o, 1103%Q, 7%Q. split; [|split; [exact E|split; [|split; [reflexivity|split; [reflexivity|]]]]].
  - split; [word|]. split; [word|]. split; [exists 803%Z; eexists; split; [vm_compute; reflexivity|reflexivity]|].
    intros r I; cbn in I; repeat (destruct I as [<-|I]; [cell|]); contradiction.
  - refine (C87_ignored L _ _ h t o P B _ E). split; [|split; [|split]].
    + intros name N. unfold wider. destruct (String.eqb name "Thermal storage") eqn:EN; [apply String.eqb_eq in EN; contradiction|reflexivity].
    + intros name s H. unfold wider in H. destruct (String.eqb name "Thermal storage"); [injection H as <-; apply sheet_by_plain|exact (P name s H)].
    + eapply reaches_by; [reflexivity|vm_compute; reflexivity|vm_compute; reflexivity].
    + intros c r N. destruct (Nat.lt_ge_cases (letter c) 14) as [Hc|Hc].
      * destruct (Nat.lt_ge_cases r 24) as [Hr|Hr].
        { destruct (Nat.lt_ge_cases r 2) as [H2|H2].
          - unfold xl. replace (r - 2)%nat with 0 by lia. change (nth (letter c) (map (at_cells [(6, 3, " Polyurethane "%string); (7, 3, "Outside"%string)] (fun r c => if Nat.eqb c 3 && Nat.eqb (r + 2) 11 then num 7 else number_at r c) 0) (seq 0 14)) None
              = nth (letter c) (map (at_cells [(6, 3, " Polyurethane "%string); (7, 3, "Outside"%string)] number_at 0) (seq 0 14)) None).
            generalize (letter c) as n. intro n. do 15 (destruct n as [|n]; [reflexivity|]). reflexivity.
          - erewrite !xl_by by (first [reflexivity|exact Hc|lia]). unfold at_cells. destruct (find _ _); [reflexivity|].
            destruct (Nat.eqb (letter c) 3 && Nat.eqb (r - 2 + 2) 11) eqn:EB; [|reflexivity]. exfalso. apply andb_prop in EB as [E1 E2]. apply Nat.eqb_eq in E1, E2.
            apply N. split; [|cbn; lia]. clear - E1. unfold letter in E1. rewrite <- (ascii_nat_embedding c). replace (nat_of_ascii c) with 68 by lia. reflexivity. }
        { assert (O : forall f, nth (letter c) (nth (r - 2) (map (fun r => map (f r) (seq 0 14)) (seq 0 22)) []) None = None :> value).
          { intro f. rewrite (nth_overflow (map _ (seq 0 22))) by (rewrite map_length, seq_length; lia). destruct (letter c); reflexivity. }
          unfold xl, wider, ready. cbn [String.eqb Ascii.eqb Bool.eqb sheet_by s_cells]. rewrite !O. reflexivity. }
      * assert (O : forall f, nth (letter c) (nth (r - 2) (map (fun r => map (f r) (seq 0 14)) (seq 0 22)) []) None = None :> value).
        { intro f. destruct (Nat.lt_ge_cases (r - 2) 22) as [Hr|Hr].
          - rewrite (nth_indep _ [] (map (f 0) (seq 0 14))) by (rewrite map_length, seq_length; lia). rewrite (map_nth (fun r => map (f r) (seq 0 14))).
            rewrite nth_overflow; [reflexivity|rewrite map_length, seq_length; exact Hc].
          - rewrite (nth_overflow (map _ (seq 0 22))) by (rewrite map_length, seq_length; lia). destruct (letter c); reflexivity. }
        unfold xl, wider, ready. cbn [String.eqb Ascii.eqb Bool.eqb sheet_by s_cells]. rewrite !O. reflexivity.
  - intros [W1 W2]. rewrite W1 in W2. discriminate W2.
Qed.
Print Assumptions C87_entered_refuted.
Example C87_case : filled_in small_libraries (ready "ASHP" "SIMPLE" "INTEGRATED PERFORMANCE" "Flat rates").
Proof. exact (ready_filled ASHP SIMPLE INTEGRATED "Flat rates" ltac:(discriminate) ltac:(left; reflexivity)). Qed.

(** ** C88: the modelling approaches of the workbook *)
Lemma chooses_one {A} members (v : A -> string) wb N c r a b : (forall x y, v x = v y -> x = y) -> chooses members v wb N c r a -> chooses members v wb N c r b -> a = b.
Proof.
  intros I (_ & s & (t & T & ->) & U) (_ & s' & (t' & T' & ->) & U'). rewrite T in T'. injection T' as <-. apply I. rewrite <- U, <- U'. reflexivity.
Qed.
Lemma approach_names x y : model_name_value x = model_name_value y -> x = y.
Proof. destruct x, y; intro E; try reflexivity; discriminate E. Qed.
(** The heat pump of the plant works for a year, with the approach chosen in the workbook. *)
Definition works (lc : lorentz_spec -> Q -> Q -> Q -> Q -> Q) {L} (o : system L) : Prop := exists l, performance lc (o_heat_pump o) = Ok l /\ full_year l.
Theorem C88_usable_partial : forall lc L wb h t o, plain wb -> big_enough wb -> set_up L wb h t = Ok o -> let N := "Heat pump"%string in
  (h = 0%Z \/ chooses model_names model_name_value wb N "D" 4 SIMPLE \/
   chooses model_names model_name_value wb N "D" 4 STANDARD /\ (chooses data_inputs data_input_value wb N "D" 9 INTEGRATED \/ chooses hp_kinds hp_kind_value wb N "D" 3 ASHP)) ->
  works lc o /\
  (h <> 0%Z -> chooses model_names model_name_value wb N "D" 4 SIMPLE -> forall l i p, performance lc (o_heat_pump o) = Ok l -> nth_error l i = Some p ->
     holds wb N "D" 12 (cop p) /\ duty p = inject_Z h).
Proof.
  intros lc L wb h t o P B H N C. subst N.
  destruct (C85_heat_pump L wb h t o P B H) as (TY & CAP & _ & _ & _ & DI & (fl & FL & _ & LF) & _ & DA & DW & LA & ap & AP & MO).
  assert (NZ : h <> 0%Z -> ~ h_capacity (o_heat_pump o) == 0) by (rewrite CAP; intros NZ Z; apply NZ; unfold Qeq in Z; cbn in Z; lia).
  assert (ALL : forall A (x : A), full_year (repeat x ANNUAL_HOURS)) by (intros A x; unfold full_year; rewrite repeat_length; apply ANNUAL_HOURS_Z).
  split.
  - destruct (Z.eq_dec h 0) as [Z|Z].
    { exists (repeat {| cop := 1#2; duty := 0 |} ANNUAL_HOURS). split; [|apply ALL]. apply performance_zero_capacity. rewrite CAP, Z. reflexivity. }
    destruct C as [C|[C|[C D]]]; [contradiction| |].
    + rewrite (chooses_one _ _ _ _ _ _ _ _ approach_names AP C) in MO. destruct MO as (c & _ & MO). eexists. split; [apply performance_simple; [apply NZ, Z|exact MO]|apply ALL].
    + rewrite (chooses_one _ _ _ _ _ _ _ _ approach_names AP C) in MO. destruct MO as (ca & ra & pts & r & _ & _ & _ & _ & MO).
      assert (LW : full_year (h_water (o_heat_pump o))) by (unfold full_year; destruct DA as [DA _], DW as [DW _]; rewrite DW, <- DA; exact LA).
      assert (LR : full_year (heat_resource (o_heat_pump o))) by (unfold heat_resource; destruct (h_type (o_heat_pump o)); assumption).
      assert (LN : forall f, length (zip2 (f : Q -> Q -> Q) (heat_resource (o_heat_pump o)) fl) = length fl) by (intro f; rewrite zip2_length; unfold full_year in *; lia).
      pose proof (performance_standard lc (o_heat_pump o) (standard_oracle r) fl (NZ Z) MO FL LF LR (LN _) (LN _)) as W.
      destruct (h_data_input (o_heat_pump o)) eqn:ED; [exact W|]. destruct D as [D|D].
      * exfalso. assert (PEAK = INTEGRATED); [|discriminate]. refine (chooses_one _ _ _ _ _ _ _ _ _ DI D). intros [] [] E; try reflexivity; discriminate E.
      * assert (E : h_type (o_heat_pump o) = ASHP) by (refine (chooses_one _ _ _ _ _ _ _ _ _ TY D); intros [] [] E; try reflexivity; discriminate E). rewrite E in W. exact W.
  - intros Z S l i p E I. rewrite (chooses_one _ _ _ _ _ _ _ _ approach_names AP S) in MO. destruct MO as (c & HC & MO).
    rewrite (performance_simple lc _ c (NZ Z) MO) in E. apply Ok_inj in E. subst l. apply nth_error_In, repeat_spec in I. subst p. cbn. split; [exact HC|exact CAP].
Qed.
Print Assumptions C88_usable_partial.
Example C88_usable_partial_case : exists o, set_up small_libraries (ready "WSHP" "STANDARD TEST REGRESSION" "INTEGRATED PERFORMANCE" "Time of use - WM") 30 2000 = Ok o /\ forall lc, works lc o.
Proof.
  pose proof (ready_filled WSHP STANDARD INTEGRATED "Time of use - WM" ltac:(discriminate) ltac:(isin)) as F. cbn [hp_kind_value model_name_value data_input_value] in F.
  pose proof F as (P & B & _). destruct (C85_completes _ _ 30 2000 F) as [o E]. exists o. split; [exact E|]. intro lc. apply (C88_usable_partial lc _ _ _ _ _ P B E).
  right; right. split; [choose_it|left; choose_it].
Qed.

(** The Lorentz approach sets up a plant that can never be simulated. *)
Theorem C88_lorentz_refuted : exists wb, forall lc h t, h <> 0%Z -> exists o, set_up small_libraries wb h t = Ok o /\ performance lc (o_heat_pump o) = Err AttributeError.
Proof.
  exists (ready "ASHP" "LORENTZ" "INTEGRATED PERFORMANCE" "Flat rates"). intros lc h t NZ.
  pose proof (ready_filled ASHP LORENTZ INTEGRATED "Flat rates" ltac:(discriminate) ltac:(isin)) as F. cbn [hp_kind_value model_name_value data_input_value] in F.
  pose proof F as (P & B & _). destruct (C85_completes _ _ h t F) as [o E]. exists o. split; [exact E|].
  destruct (C85_heat_pump _ _ h t o P B E) as (TY & CAP & _ & _ & _ & DI & (fl & FL & _ & LF) & (q & RE & _) & DA & DW & LA & ap & AP & MO).
  assert (S : chooses model_names model_name_value (ready "ASHP" "LORENTZ" "INTEGRATED PERFORMANCE" "Flat rates") "Heat pump" "D" 4 LORENTZ) by choose_it.
  rewrite (chooses_one _ _ _ _ _ _ _ _ approach_names AP S) in MO. destruct MO as (s & MO & _).
  apply (lorentz_scalar_return_fails lc _ s q); [rewrite CAP; intro Z; apply NZ; unfold Qeq in Z; cbn in Z; lia|exact MO|]. rewrite RE. apply check_full_year_scalar.
Qed.
Print Assumptions C88_lorentz_refuted.
(** ... whatever the workbook *)
Theorem C88_lorentz_always : forall lc L wb h t o, plain wb -> big_enough wb -> set_up L wb h t = Ok o -> h <> 0%Z ->
  chooses model_names model_name_value wb "Heat pump" "D" 4 LORENTZ -> performance lc (o_heat_pump o) = Err AttributeError.
Proof.
  intros lc L wb h t o P B E NZ S.
  destruct (C85_heat_pump _ _ h t o P B E) as (TY & CAP & _ & _ & _ & DI & (fl & FL & _ & LF) & (q & RE & _) & DA & DW & LA & ap & AP & MO).
  rewrite (chooses_one _ _ _ _ _ _ _ _ approach_names AP S) in MO. destruct MO as (s & MO & _).
  apply (lorentz_scalar_return_fails lc _ s q); [rewrite CAP; intro Z; apply NZ; unfold Qeq in Z; cbn in Z; lia|exact MO|]. rewrite RE. apply check_full_year_scalar.
Qed.
Print Assumptions C88_lorentz_always.
(** The generic regression cannot be set up; peak performance data of a ground or water source heat pump neither works. *)
Theorem C88_generic_never : forall L wb h t, plain wb -> big_enough wb -> chooses model_names model_name_value wb "Heat pump" "D" 4 GENERIC ->
  exists e, set_up L wb h t = Err e.
Proof.
  intros L wb h t P B S. destruct (set_up L wb h t) as [o|e] eqn:E; [|exists e; reflexivity]. exfalso.
  destruct (C85_heat_pump _ _ h t o P B E) as (_ & _ & _ & _ & _ & _ & _ & _ & _ & _ & _ & ap & AP & MO).
  rewrite (chooses_one _ _ _ _ _ _ _ _ approach_names AP S) in MO. exact MO.
Qed.
Print Assumptions C88_generic_never.
Theorem C88_peak_never : forall lc L wb h t o, plain wb -> big_enough wb -> set_up L wb h t = Ok o -> h <> 0%Z -> let N := "Heat pump"%string in
  chooses model_names model_name_value wb N "D" 4 STANDARD -> chooses data_inputs data_input_value wb N "D" 9 PEAK -> ~ chooses hp_kinds hp_kind_value wb N "D" 3 ASHP ->
  performance lc (o_heat_pump o) = Err ValueError.
Proof.
  intros lc L wb h t o P B H Z N C D K. subst N.
  destruct (C85_heat_pump L wb h t o P B H) as (TY & CAP & _ & _ & _ & DI & (fl & FL & _ & LF) & _ & DA & DW & LA & ap & AP & MO).
  assert (NZ : ~ h_capacity (o_heat_pump o) == 0) by (rewrite CAP; intros Z0; apply Z; unfold Qeq in Z0; cbn in Z0; lia).
  rewrite (chooses_one _ _ _ _ _ _ _ _ approach_names AP C) in MO. destruct MO as (ca & ra & pts & r & _ & _ & _ & _ & MO).
  assert (LW : full_year (h_water (o_heat_pump o))) by (unfold full_year; destruct DA as [DA _], DW as [DW _]; rewrite DW, <- DA; exact LA).
  assert (LR : full_year (heat_resource (o_heat_pump o))) by (unfold heat_resource; destruct (h_type (o_heat_pump o)); assumption).
  assert (LN : forall f, length (zip2 (f : Q -> Q -> Q) (heat_resource (o_heat_pump o)) fl) = length fl) by (intro f; rewrite zip2_length; unfold full_year in *; lia).
  pose proof (performance_standard lc (o_heat_pump o) (standard_oracle r) fl NZ MO FL LF LR (LN _) (LN _)) as W.
  assert (E : h_data_input (o_heat_pump o) = PEAK) by (refine (chooses_one _ _ _ _ _ _ _ _ _ DI D); intros [] [] E; try reflexivity; discriminate E).
  rewrite E in W. destruct (h_type (o_heat_pump o)); [contradiction|exact W|exact W].
Qed.
Print Assumptions C88_peak_never.
Example C88_peak_never_case : exists o, set_up small_libraries (ready "GSHP" "STANDARD TEST REGRESSION" "PEAK PERFORMANCE" "Variable periods") 30 2000 = Ok o /\
  forall lc, performance lc (o_heat_pump o) = Err ValueError.
Proof.
  pose proof (ready_filled GSHP STANDARD PEAK "Variable periods" ltac:(discriminate) ltac:(isin)) as F. cbn [hp_kind_value model_name_value data_input_value] in F.
  pose proof F as (P & B & _). destruct (C85_completes _ _ 30 2000 F) as [o E]. exists o. split; [exact E|]. intro lc. apply (C88_peak_never lc _ _ _ _ _ P B E ltac:(discriminate)).
  - choose_it. - choose_it.
  - intros (_ & s & (t & T & ->) & U). vm_compute in T. injection T as <-. vm_compute in U. discriminate U.
Qed.
Example C88_generic_never_case : chooses model_names model_name_value (ready "GSHP" "Generic regression" "PEAK PERFORMANCE" "Variable periods") "Heat pump" "D" 4 GENERIC.
Proof. choose_it. Qed.
