(** Reading the workbook: properties C81 to C84. *)
From Coq Require Import String Ascii Sorted.
From Verif Require Import Base BaseL M_HeatPump M_Sweep M_Regression S_Regression L_Regression P_Regression M_Excel S_Excel L_Excel L_ExcelSheets.
Local Open Scope nat_scope.
Local Open Scope list_scope.

(** ** A workbook for the examples: numbers everywhere, text where text is needed *)
Definition txt (s : string) : value := Some (Text (list_ascii_of_string s)).
Definition num (z : Z) : value := Some (Number (inject_Z z)).
Definition sheet_by (w n : nat) (cell : nat -> nat -> value) : sheet :=
  {| s_header := map Unnamed (seq 0 w); s_cells := map (fun r => map (cell r) (seq 0 w)) (seq 0 n) |}.
Definition number_at (r c : nat) : value := num (100 * Z.of_nat (r + 2) + Z.of_nat c).
(** Only columns [a..b] of the rows of [rs] (spreadsheet numbers) are filled. *)
Definition rows_at (rs : list nat) (a b r c : nat) : value :=
  if existsb (Nat.eqb (r + 2)) rs && (a <=? c) && (c <=? b) then number_at r c else None.
Definition sample : workbook := fun name =>
  if String.eqb name "Parametric" then Some (sheet_by 6 6 number_at)
  else if String.eqb name "Controller" then Some (sheet_by 7 8 (fun r c =>
    if Nat.eqb c 3 && Nat.eqb r 7 then txt "1, 2,3" else if Nat.eqb c 3 && Nat.eqb r 6 then txt "3,1" else number_at r c))
  else if String.eqb name "Weather resources" then Some (sheet_by 15 7 number_at)
  else if String.eqb name "Demand gen" then Some (sheet_by 8 37 number_at)
  else if String.eqb name "Demand input" then Some (sheet_by 9 7 number_at)
  else if String.eqb name "PV inputs" then Some (sheet_by 8 20 (fun r c => if r <? 17 then rows_at [15; 16] 2 5 r c else rows_at [19; 20] 2 7 r c))
  else if String.eqb name "Wind inputs" then Some (sheet_by 7 26 (fun r c => if r <? 17 then rows_at [14; 15] 2 5 r c else if r <? 20 then rows_at [19; 20] 2 6 r c else rows_at [23; 24; 25; 26; 27] 2 3 r c))
  else if String.eqb name "Wind farm" then Some (sheet_by 7 20 number_at)
  else if String.eqb name "Electrical storage" then Some (sheet_by 9 6 (rows_at [5; 6] 2 8))
  else if String.eqb name "Grid" then Some (sheet_by 23 50 number_at)
  else if String.eqb name "Aux heat" then Some (sheet_by 5 10 (fun r c =>
    if Nat.eqb c 2 then (if Nat.eqb r 4 then txt "Gas" else if Nat.eqb r 7 then txt "Gas" else if Nat.eqb r 8 then txt "Wood chips" else txt "Electric") else number_at r c))
  else if String.eqb name "Thermal storage" then Some (sheet_by 14 22 number_at)
  else if String.eqb name "Heat pump" then Some (sheet_by 19 47 number_at)
  else None.

Lemma sheet_by_plain w n f : plain_sheet (sheet_by w n f).
Proof. exists w. reflexivity. Qed.
Lemma sample_plain : plain sample.
Proof.
  intros name s H. unfold sample in H.
  repeat match type of H with (if ?b then _ else _) = _ => destruct b end; try discriminate; injection H as <-; apply sheet_by_plain.
Qed.
Lemma reaches_by wb name w n f c r : wb name = Some (sheet_by w n f) -> (letter c <? w) = true -> (r <=? n + 1) = true -> reaches wb name c r.
Proof.
  intros E Hc Hr. exists (sheet_by w n f). split; [exact E|]. cbn [sheet_by s_header s_cells]. rewrite !map_length, !seq_length.
  apply Nat.ltb_lt in Hc. apply Nat.leb_le in Hr. split; assumption.
Qed.
Lemma sample_big : big_enough sample.
Proof. unfold big_enough. repeat match goal with |- _ /\ _ => split end; (eapply reaches_by; [reflexivity|vm_compute; reflexivity|vm_compute; reflexivity]). Qed.
Lemma sample_readable : readable sample.
Proof. unfold readable, readable_fuel. repeat match goal with |- _ /\ _ => split end; (eexists; vm_compute; reflexivity). Qed.

(** ** C81: reading succeeds, and every single value is the one of its cell *)
Theorem C81_completes : forall wb, plain wb -> big_enough wb -> readable wb -> exists k, read_inputs wb = Ok k.
Proof.
  intros wb P (B1 & B2 & B3 & B4 & B5 & B6 & B7 & B8 & B9 & B10 & B11 & B12 & B13) ((l1 & R1) & (l2 & R2) & (f0 & R3) & (f1 & R4) & (f2 & R5) & (f3 & R6)).
  unfold read_inputs. rewrite (parametric_ok wb P B1). cbn [bind]. rewrite (controller_ok wb l1 l2 P B2 R1 R2). cbn [bind].
  destruct (resources_ok wb P B3) as (w & -> & _). cbn [bind]. destruct (demands_ok wb P B4) as (d & -> & _). cbn [bind].
  destruct (demand_input_ok wb P B5) as (di & -> & _). cbn [bind]. destruct (PV_ok wb P B6) as (s6 & f6 & g6 & _ & _ & _ & ->). cbn [bind].
  destruct (wind_ok wb P B7) as (s7 & f7 & g7 & h7 & _ & _ & _ & _ & ->). cbn [bind]. destruct (wind_farm_ok wb P B8) as (wf & -> & _). cbn [bind].
  destruct (electrical_ok wb P B9) as (s9 & f9 & _ & _ & ->). cbn [bind]. destruct (grid_ok wb P B10) as (vp & wm & bm & pp & -> & _). cbn [bind].
  rewrite (aux_ok wb f0 f1 f2 f3 P B11 R3 R4 R5 R6). cbn [bind]. destruct (tank_ok wb P B12) as (ts & -> & _). cbn [bind].
  destruct (heat_pump_ok wb P B13) as (h & -> & _). cbn [bind]. eexists. reflexivity.
Qed.
Print Assumptions C81_completes.
Example C81_completes_case : exists k, read_inputs sample = Ok k.
Proof. exact (C81_completes sample sample_plain sample_big sample_readable). Qed.

Theorem C81_sweep : forall wb k, plain wb -> read_inputs wb = Ok k ->
  hp_max (c_parametric k) = xl wb "Parametric" "D" 6 /\ hp_min (c_parametric k) = xl wb "Parametric" "E" 6 /\ hp_step (c_parametric k) = xl wb "Parametric" "F" 6 /\
  ts_max (c_parametric k) = xl wb "Parametric" "D" 7 /\ ts_min (c_parametric k) = xl wb "Parametric" "E" 7 /\ ts_step (c_parametric k) = xl wb "Parametric" "F" 7.
Proof.
  intros wb k P H. apply read_inputs_parts in H as (H & _). unfold x_parametric in H. inv_bind H. apply get_sheet_inv in E as (s & W & ->).
  pose proof (view_frame s (P _ _ W)) as V. injection H as H. rewrite <- H. cbn [hp_max hp_min hp_step ts_max ts_min ts_step].
  repeat split; eapply (at_frame_inv wb _ s _ _ _ _ _ _ W V); try eassumption; reflexivity.
Qed.
Print Assumptions C81_sweep.
Example C81_sweep_case : exists k, read_inputs sample = Ok k /\ hp_max (c_parametric k) = num 603 /\ ts_step (c_parametric k) = num 705.
Proof.
  destruct C81_completes_case as [k E]. exists k. split; [exact E|]. destruct (C81_sweep sample k sample_plain E) as (-> & _ & _ & _ & _ & ->). split; reflexivity.
Qed.

Theorem C81_controller : forall wb k, plain wb -> read_inputs wb = Ok k ->
  k_controller (c_controller k) = xl wb "Controller" "D" 5 /\ k_first_hour (c_controller k) = xl wb "Controller" "G" 5 /\
  k_timesteps (c_controller k) = xl wb "Controller" "G" 6 /\ k_setpoint (c_controller k) = xl wb "Controller" "D" 7 /\
  k_horizon (c_controller k) = xl wb "Controller" "G" 9 /\
  order_of (xl wb "Controller" "D" 9) = Ok (k_below (c_controller k)) /\ order_of (xl wb "Controller" "D" 8) = Ok (k_above (c_controller k)).
Proof.
  intros wb k P H. apply read_inputs_parts in H as (_ & H & _). unfold x_controller in H. inv_bind H. apply get_sheet_inv in E as (s & W & ->).
  pose proof (view_frame s (P _ _ W)) as V. injection H as H. rewrite <- H. cbn [k_controller k_first_hour k_timesteps k_setpoint k_horizon k_below k_above].
  assert (A : forall c ch r r2 v, at_ (frame_of s) c r = Ok v -> letter ch = c -> r2 = r + 2 -> v = xl wb "Controller" ch r2).
  { intros c ch r r2 v E L R. exact (at_frame_inv wb _ s _ c ch r r2 v W V L R E). }
  split; [apply (A 3 "D"%char 3 5); [assumption|reflexivity..]|]. split; [apply (A 6 "G"%char 3 5); [assumption|reflexivity..]|].
  split; [apply (A 6 "G"%char 4 6); [assumption|reflexivity..]|]. split; [apply (A 3 "D"%char 5 7); [assumption|reflexivity..]|].
  split; [apply (A 6 "G"%char 7 9); [assumption|reflexivity..]|]. split.
  - erewrite <- (A 3 "D"%char 7 9); [eassumption|eassumption|reflexivity..].
  - erewrite <- (A 3 "D"%char 6 8); [eassumption|eassumption|reflexivity..].
Qed.
Print Assumptions C81_controller.
Example C81_controller_case : exists k, read_inputs sample = Ok k /\ k_below (c_controller k) = [1; 2; 3]%Z /\ k_above (c_controller k) = [3; 1]%Z /\
  k_timesteps (c_controller k) = num 606.
Proof.
  destruct C81_completes_case as [k E]. exists k. split; [exact E|]. destruct (C81_controller sample k sample_plain E) as (_ & _ & -> & _ & _ & B & A).
  assert (A' : order_of (xl sample "Controller" "D" 8) = Ok [3; 1]%Z) by reflexivity.
  assert (B' : order_of (xl sample "Controller" "D" 9) = Ok [1; 2; 3]%Z) by reflexivity.
  rewrite A' in A. rewrite B' in B. injection A as <-. injection B as <-. repeat split.
Qed.

Theorem C81_heating : forall wb k, plain wb -> big_enough wb -> read_inputs wb = Ok k ->
  c_hot_water k = xl wb "Demand gen" "D" 17 /\ c_temp_return k = xl wb "Demand input" "I" 6 /\ c_source_delta_t k = xl wb "Demand input" "I" 8 /\
  let N := "Wind farm"%string in
  wf_name (c_wind_farm k) = xl wb N "C" 15 /\ wf_hub (c_wind_farm k) = xl wb N "D" 15 /\ wf_rotor (c_wind_farm k) = xl wb N "E" 15 /\
  wf_number (c_wind_farm k) = xl wb N "F" 15 /\ wf_efficiency (c_wind_farm k) = xl wb N "G" 15.
Proof.
  intros wb k P (B1 & B2 & B3 & B4 & B5 & B6 & B7 & B8 & _) H. apply read_inputs_parts in H as (_ & _ & _ & H4 & H5 & _ & _ & H8 & _).
  destruct (demands_ok wb P B4) as (d & E4 & _). rewrite E4 in H4. injection H4 as <- _.
  destruct (demand_input_ok wb P B5) as (di & E5 & _). rewrite E5 in H5. injection H5 as <- <- _.
  destruct (wind_farm_ok wb P B8) as (wf & E8 & _). rewrite E8 in H8. injection H8 as <-. repeat split.
Qed.
Print Assumptions C81_heating.
Example C81_heating_case : exists k, read_inputs sample = Ok k /\ c_hot_water k = num 1703 /\ c_temp_return k = num 608 /\ c_source_delta_t k = num 808 /\
  wf_efficiency (c_wind_farm k) = num 1506.
Proof.
  destruct C81_completes_case as [k E]. exists k. split; [exact E|]. destruct (C81_heating sample k sample_plain sample_big E) as (-> & -> & -> & _ & _ & _ & _ & ->). repeat split.
Qed.

(** The price paid for exports is the cell of the flat export rate, whatever the tariff. *)
Theorem C81_grid : forall wb k, plain wb -> big_enough wb -> read_inputs wb = Ok k -> let N := "Grid"%string in let g := c_grid k in
  g_tariff g = xl wb N "D" 5 /\ g_balancing g = xl wb N "H" 5 /\ g_services g = xl wb N "J" 5 /\
  g_flat_import g = xl wb N "C" 9 /\ g_flat_export g = xl wb N "D" 9 /\ g_export g = xl wb N "D" 9 /\ g_year g = xl wb N "N" 42 /\
  g_premium g = xl wb N "G" 9 /\ g_maximum g = xl wb N "H" 9 /\ g_lower_percent g = xl wb N "J" 9 /\ g_higher_percent g = xl wb N "K" 9 /\
  g_lower_penalty g = xl wb N "L" 9 /\ g_higher_discount g = xl wb N "M" 9.
Proof.
  intros wb k P (B1 & B2 & B3 & B4 & B5 & B6 & B7 & B8 & B9 & B10 & _) H. apply read_inputs_parts in H as (_ & _ & _ & _ & _ & _ & _ & _ & _ & H & _).
  destruct (grid_ok wb P B10) as (vp & wm & bm & pp & E & _). rewrite E in H. injection H as <-. repeat split.
Qed.
Print Assumptions C81_grid.
Example C81_grid_case : exists k, read_inputs sample = Ok k /\ g_tariff (c_grid k) = num 503 /\ g_flat_import (c_grid k) = num 902 /\
  g_export (c_grid k) = num 903 /\ g_year (c_grid k) = num 4213 /\ g_higher_discount (c_grid k) = num 912.
Proof.
  destruct C81_completes_case as [k E]. exists k. split; [exact E|].
  destruct (C81_grid sample k sample_plain sample_big E) as (-> & _ & _ & -> & _ & -> & -> & _ & _ & _ & _ & _ & ->). repeat split.
Qed.

Theorem C81_backup : forall wb k, plain wb -> read_inputs wb = Ok k -> let N := "Aux heat"%string in
  cell_fuel (xl wb N "C" 6) = Ok (x_fuel (c_aux k)) /\ x_efficiency (c_aux k) = xl wb N "D" 6 /\
  Forall2 (fuel_row wb) [9; 10; 11] (x_fuel_info (c_aux k)).
Proof.
  intros wb k P H N. subst N. apply read_inputs_parts in H as (_ & _ & _ & _ & _ & _ & _ & _ & _ & _ & H & _). unfold x_aux in H. cbn [mapM] in H.
  inv_bind H. apply get_sheet_inv in E as (s & W & ->). pose proof (view_frame s (P _ _ W)) as V. injection H as H. rewrite <- H. cbn [x_fuel x_efficiency x_fuel_info].
  assert (A : forall c ch r r2 v, at_ (frame_of s) c r = Ok v -> letter ch = c -> r2 = r + 2 -> v = xl wb "Aux heat" ch r2).
  { intros c ch r r2 v E L R. exact (at_frame_inv wb _ s _ c ch r r2 v W V L R E). }
  assert (R : forall r r2 x, (n <- at_ (frame_of s) 2 r;; f <- cell_fuel n;; d <- at_ (frame_of s) 3 r;; c <- at_ (frame_of s) 4 r;; Ok (f, (d, c))) = Ok x -> r2 = r + 2 -> fuel_row wb r2 x).
  { intros r r2 x EX EY. inv_bind EX. injection EX as <-. unfold fuel_row. cbn [fst snd]. split.
    - erewrite <- (A 2 "C"%char r r2); [eassumption|eassumption|reflexivity|exact EY].
    - f_equal; [apply (A 3 "D"%char r r2)|apply (A 4 "E"%char r r2)]; first [assumption|reflexivity]. }
  clear H. split; [erewrite <- (A 2 "C"%char 4 6); [eassumption|eassumption|reflexivity..]|].
  split; [apply (A 3 "D"%char 4 6); [assumption|reflexivity..]|].
  repeat match goal with E : bind _ _ = Ok _ |- _ => inv_bind E; try (injection E as <-) end.
  constructor; [apply (R 7 9)|constructor; [apply (R 8 10)|constructor; [apply (R 9 11)|constructor]]]; try reflexivity;
    repeat match goal with E : ?x = Ok _ |- context [bind ?x _] => rewrite E; cbn [bind] end; reflexivity.
Qed.
Print Assumptions C81_backup.
Example C81_backup_case : exists k, read_inputs sample = Ok k /\ x_fuel (c_aux k) = GAS /\ x_efficiency (c_aux k) = num 603 /\
  x_fuel_info (c_aux k) = [(GAS, (num 903, num 904)); (WOOD, (num 1003, num 1004)); (ELECTRIC, (num 1103, num 1104))].
Proof.
  destruct C81_completes_case as [k E]. exists k. split; [exact E|]. destruct (C81_backup sample k sample_plain E) as (F & -> & I).
  assert (F0 : cell_fuel (xl sample "Aux heat" "C" 6) = Ok GAS) by reflexivity. rewrite F0 in F. injection F as <-. split; [reflexivity|]. split; [reflexivity|].
  inversion I as [|? x1 ? l1 R1 I1]; subst. inversion I1 as [|? x2 ? l2 R2 I2]; subst. inversion I2 as [|? x3 ? l3 R3 I3]; subst. inversion I3; subst.
  destruct x1 as [f1 p1], x2 as [f2 p2], x3 as [f3 p3]. destruct R1 as [R1 S1], R2 as [R2 S2], R3 as [R3 S3]. cbn [fst snd] in *. subst.
  assert (F1 : cell_fuel (xl sample "Aux heat" "C" 9) = Ok GAS) by reflexivity. rewrite F1 in R1. injection R1 as <-.
  assert (F2 : cell_fuel (xl sample "Aux heat" "C" 10) = Ok WOOD) by reflexivity. rewrite F2 in R2. injection R2 as <-.
  assert (F3 : cell_fuel (xl sample "Aux heat" "C" 11) = Ok ELECTRIC) by reflexivity. rewrite F3 in R3. injection R3 as <-. reflexivity.
Qed.

Theorem C81_tank : forall wb k, plain wb -> big_enough wb -> read_inputs wb = Ok k -> let N := "Thermal storage"%string in let f := c_tank k in
  first_of f "capacity" = Ok (xl wb N "D" 5) /\ first_of f "insulation" = Ok (xl wb N "D" 6) /\
  first_of f "location" = Ok (xl wb N "D" 7) /\ first_of f "number_nodes" = Ok (xl wb N "D" 8) /\
  first_of f "height" = Ok (xl wb N "D" 10) /\ first_of f "width" = Ok (xl wb N "D" 11) /\
  first_of f "insulation_thickness" = Ok (xl wb N "D" 12) /\ first_of f "tank_opening" = Ok (xl wb N "D" 14) /\
  first_of f "tank_opening_diameter" = Ok (xl wb N "D" 15) /\ first_of f "uninsulated_connections" = Ok (xl wb N "D" 16) /\
  first_of f "uninsulated_connections_diameter" = Ok (xl wb N "D" 17) /\ first_of f "insulated_connections" = Ok (xl wb N "D" 18) /\
  first_of f "insulated_connections_diameter" = Ok (xl wb N "D" 19) /\ first_of f "insulation_factor" = Ok (xl wb N "D" 22) /\
  first_of f "overall_factor" = Ok (xl wb N "D" 23).
Proof.
  intros wb k P (_ & _ & _ & _ & _ & _ & _ & _ & _ & _ & _ & B & _) H. apply read_inputs_parts in H as (_ & _ & _ & _ & _ & _ & _ & _ & _ & _ & _ & H & _).
  destruct (tank_ok wb P B) as (f & E & R). rewrite E in H. injection H as <-. exact R.
Qed.
Print Assumptions C81_tank.
Example C81_tank_case : exists k, read_inputs sample = Ok k /\ first_of (c_tank k) "capacity" = Ok (num 503) /\ first_of (c_tank k) "overall_factor" = Ok (num 2303).
Proof.
  destruct C81_completes_case as [k E]. exists k. split; [exact E|].
  destruct (C81_tank sample k sample_plain sample_big E) as (-> & _ & _ & _ & _ & _ & _ & _ & _ & _ & _ & _ & _ & _ & ->). split; reflexivity.
Qed.

Theorem C81_heat_pump : forall wb k, plain wb -> big_enough wb -> read_inputs wb = Ok k -> let N := "Heat pump"%string in let h := c_heat_pump k in
  (first_of (hp_basics h) "heat_pump_type" = Ok (xl wb N "D" 3) /\ first_of (hp_basics h) "modelling_approach" = Ok (xl wb N "D" 4) /\
   first_of (hp_basics h) "capacity" = Ok (xl wb N "D" 5) /\ first_of (hp_basics h) "ambient_delta_t" = Ok (xl wb N "D" 6) /\
   first_of (hp_basics h) "minimum_runtime" = Ok (xl wb N "D" 7) /\ first_of (hp_basics h) "minimum_output" = Ok (xl wb N "D" 8) /\
   first_of (hp_basics h) "data_input" = Ok (xl wb N "D" 9)) /\
  (RHI_type h = xl wb N "N" 5 /\ RHI_tariff h = xl wb N "N" 6 /\ RHI_fixed h = xl wb N "N" 7 /\ RHI_tier1 h = xl wb N "N" 8 /\ RHI_tier2 h = xl wb N "N" 9) /\
  hp_simple h = xl wb N "D" 12 /\
  (first_of (hp_lorentz h) "COP" = Ok (xl wb N "D" 15) /\ first_of (hp_lorentz h) "flow_temp" = Ok (xl wb N "D" 16) /\
   first_of (hp_lorentz h) "return_temp" = Ok (xl wb N "D" 17) /\ first_of (hp_lorentz h) "ambient_temp_in" = Ok (xl wb N "D" 18) /\
   first_of (hp_lorentz h) "ambient_temp_out" = Ok (xl wb N "D" 19) /\ first_of (hp_lorentz h) "elec_capacity" = Ok (xl wb N "D" 20)).
Proof.
  intros wb k P (_ & _ & _ & _ & _ & _ & _ & _ & _ & _ & _ & _ & B) H. apply read_inputs_parts in H as (_ & _ & _ & _ & _ & _ & _ & _ & _ & _ & _ & _ & H).
  destruct (heat_pump_ok wb P B) as (h & E & R1 & R2 & R3 & R4 & _). rewrite E in H. injection H as <-.
  split; [exact R1|]. split; [exact R2|]. split; [exact R3|exact R4].
Qed.
Print Assumptions C81_heat_pump.
Example C81_heat_pump_case : exists k, read_inputs sample = Ok k /\ first_of (hp_basics (c_heat_pump k)) "capacity" = Ok (num 503) /\
  hp_simple (c_heat_pump k) = num 1203 /\ first_of (hp_lorentz (c_heat_pump k)) "elec_capacity" = Ok (num 2003) /\ RHI_tier2 (c_heat_pump k) = num 913.
Proof.
  destruct C81_completes_case as [k E]. exists k. split; [exact E|].
  destruct (C81_heat_pump sample k sample_plain sample_big E) as ((_ & _ & -> & _) & (_ & _ & _ & _ & ->) & -> & (_ & _ & _ & _ & _ & ->)). repeat split.
Qed.

(** The three choices of the heat pump: the text of the cell whatever its case *)
Theorem C81_choices : forall wb k, plain wb -> big_enough wb -> read_inputs wb = Ok k -> let f := hp_basics (c_heat_pump k) in
  basics_type f = (s <- text_of (xl wb "Heat pump" "D" 3) ;; read_enum hp_kinds hp_kind_value s) /\
  basics_approach f = (s <- text_of (xl wb "Heat pump" "D" 4) ;; read_enum model_names model_name_value s) /\
  basics_data_input f = (s <- text_of (xl wb "Heat pump" "D" 9) ;; read_enum data_inputs data_input_value s).
Proof.
  intros wb k P B H f. destruct (C81_heat_pump wb k P B H) as ((E1 & E2 & _ & _ & _ & _ & E3) & _). subst f.
  unfold basics_type, basics_approach, basics_data_input, enum_of. rewrite E1, E2, E3. cbn [bind]. repeat split.
Qed.
Print Assumptions C81_choices.
Example C81_choices_case : forall k, read_inputs sample = Ok k -> basics_type (hp_basics (c_heat_pump k)) = Err AttributeError.
Proof. intros k E. destruct (C81_choices sample k sample_plain sample_big E) as (-> & _). reflexivity. Qed.

(** ** C82: every series is a column of its sheet, row by row *)
Theorem C82_weather : forall wb k, plain wb -> big_enough wb -> read_inputs wb = Ok k -> let N := "Weather resources"%string in let f := c_resources k in
  series wb f "DHI" N "D" 6 /\ series wb f "GHI" N "E" 6 /\ series wb f "DNI" N "F" 6 /\
  series wb f "wind_speed_10" N "G" 6 /\ series wb f "wind_speed_50" N "H" 6 /\ series wb f "roughness_length" N "I" 6 /\
  series wb f "pressure" N "J" 6 /\ series wb f "air_temperature" N "K" 6 /\ series wb f "air_density" N "L" 6 /\
  series wb f "water_temperature" N "M" 6.
Proof.
  intros wb k P (_ & _ & B & _) H. apply read_inputs_parts in H as (_ & _ & H & _).
  destruct (resources_ok wb P B) as (f & E & R). rewrite E in H. injection H as <-. exact R.
Qed.
Print Assumptions C82_weather.
Theorem C82_demand : forall wb k, plain wb -> big_enough wb -> read_inputs wb = Ok k -> let N := "Demand input"%string in let f := c_demand k in
  series wb f "heat demand" N "D" 6 /\ series wb f "electrical demand" N "E" 6 /\ series wb f "temp_flow" N "F" 6 /\ series wb f "temp_source" N "G" 6.
Proof.
  intros wb k P (_ & _ & _ & _ & B & _) H. apply read_inputs_parts in H as (_ & _ & _ & _ & H & _).
  destruct (demand_input_ok wb P B) as (f & E & R). rewrite E in H. injection H as _ _ <-. exact R.
Qed.
Print Assumptions C82_demand.
Theorem C82_wind_farm : forall wb k, plain wb -> big_enough wb -> read_inputs wb = Ok k -> let N := "Wind farm"%string in let f := wf_resources (c_wind_farm k) in
  series wb f "wind_speed_10" N "C" 20 /\ series wb f "wind_speed_50" N "D" 20 /\ series wb f "roughness_length" N "E" 20 /\
  series wb f "pressure" N "F" 20 /\ series wb f "air_temperature" N "G" 20.
Proof.
  intros wb k P (_ & _ & _ & _ & _ & _ & _ & B & _) H. apply read_inputs_parts in H as (_ & _ & _ & _ & _ & _ & _ & H & _).
  destruct (wind_farm_ok wb P B) as (f & E & R). rewrite E in H. injection H as <-. exact R.
Qed.
Print Assumptions C82_wind_farm.
Theorem C82_tariffs : forall wb k, plain wb -> big_enough wb -> read_inputs wb = Ok k -> let N := "Grid"%string in let g := c_grid k in
  (series_to wb (g_periods g) "Monday" N "H" 18 24 /\ series_to wb (g_periods g) "Tuesday" N "I" 18 24 /\ series_to wb (g_periods g) "Wednesday" N "J" 18 24 /\
   series_to wb (g_periods g) "Thursday" N "K" 18 24 /\ series_to wb (g_periods g) "Friday" N "L" 18 24 /\ series_to wb (g_periods g) "Saturday" N "M" 18 24 /\
   series_to wb (g_periods g) "Sunday" N "N" 18 24) /\
  series_to wb (g_wholesale g) "wholesale_market" N "C" 12 (Z.to_nat 8760) /\
  series_to wb (g_balancing_series g) "balancing_mechanism" N "D" 12 (Z.to_nat 8760) /\
  series_to wb (g_ppa_output g) "ppa_output" N "E" 12 (Z.to_nat 8760).
Proof.
  intros wb k P (B1 & B2 & B3 & B4 & B5 & B6 & B7 & B8 & B9 & B10 & _) H. apply read_inputs_parts in H as (_ & _ & _ & _ & _ & _ & _ & _ & _ & H & _).
  destruct (grid_ok wb P B10) as (vp & wm & bm & pp & E & R). rewrite E in H. injection H as <-. exact R.
Qed.
Print Assumptions C82_tariffs.
(** The dwellings: rows 6 to 15, and every row after 37. *)
Theorem C82_dwellings : forall wb k, plain wb -> big_enough wb -> read_inputs wb = Ok k ->
  let N := "Demand gen"%string in let f := c_heating k in let rows := seq 6 10 ++ seq 38 (last_row wb N - 37) in
  picks wb f "Type" N "D" rows /\ picks wb f "Age" N "E" rows /\ picks wb f "Bedrooms" N "F" rows /\ picks wb f "Number of type" N "G" rows.
Proof.
  intros wb k P (_ & _ & _ & B & _) H. apply read_inputs_parts in H as (_ & _ & _ & H & _).
  destruct (demands_ok wb P B) as (f & E & R). rewrite E in H. injection H as _ <-. exact R.
Qed.
Print Assumptions C82_dwellings.
Example C82_case : exists k, read_inputs sample = Ok k /\
  named_column (c_resources k) "air_temperature" = Ok [num 610; num 710; num 810] /\ named_column (c_demand k) "temp_flow" = Ok [num 605; num 705; num 805] /\
  named_column (c_heating k) "Age" = Ok [num 604; num 704; num 804; num 904; num 1004; num 1104; num 1204; num 1304; num 1404; num 1504; num 3804] /\
  (exists col, named_column (g_wholesale (c_grid k)) "wholesale_market" = Ok col /\ length col = 40 /\ nth_error col 1 = Some (num 1302)) /\
  (exists col, named_column (g_periods (c_grid k)) "Sunday" = Ok col /\ length col = 24 /\ nth_error col 23 = Some (num 4113)).
Proof.
  destruct C81_completes_case as [k E]. exists k. split; [exact E|]. apply read_inputs_parts in E as (_ & _ & E3 & E4 & E5 & _ & _ & _ & _ & E10 & _).
  assert (X3 : (f <- x_resources sample ;; named_column f "air_temperature") = Ok [num 610; num 710; num 810]) by reflexivity.
  assert (X4 : (f <- x_demands sample ;; named_column (snd f) "Age") = Ok [num 604; num 704; num 804; num 904; num 1004; num 1104; num 1204; num 1304; num 1404; num 1504; num 3804]) by reflexivity.
  assert (X5 : (f <- x_demand_input sample ;; named_column (snd f) "temp_flow") = Ok [num 605; num 705; num 805]) by reflexivity.
  rewrite E3 in X3. rewrite E4 in X4. rewrite E5 in X5. split; [exact X3|]. split; [exact X5|]. split; [exact X4|].
  destruct (grid_ok sample sample_plain (proj1 (proj2 (proj2 (proj2 (proj2 (proj2 (proj2 (proj2 (proj2 (proj2 sample_big))))))))))) as (vp & wm & bm & pp & G & (_ & _ & _ & _ & _ & _ & R1) & R2 & _).
  rewrite G in E10. injection E10 as <-. cbn [g_wholesale g_periods].
  destruct R1 as (c1 & N1 & L1 & V1), R2 as (c2 & N2 & L2 & V2). change (last_row sample "Grid") with 51 in L1, L2.
  replace (Nat.min (Z.to_nat 8760) (51 + 1 - 12)) with 40 in L2 by lia. replace (Nat.min 24 (51 + 1 - 18)) with 24 in L1 by lia. split.
  - exists c2. split; [exact N2|]. split; [exact L2|]. rewrite V2 by lia. reflexivity.
  - exists c1. split; [exact N1|]. split; [exact L1|]. rewrite V1 by lia. reflexivity.
Qed.
(** A sheet of exactly 8760 hours gives a series of 8760 values. *)
Theorem C82_length : forall wb h c f N from, series wb f h N c from -> (last_row wb N + 1 - from = Z.to_nat 8760) ->
  exists col, named_column f h = Ok col /\ Z.of_nat (length col) = 8760%Z.
Proof.
  intros wb h c f N from (col & E & L & _) HL. exists col. split; [exact E|]. rewrite L, HL. apply Z2Nat.id. discriminate.
Qed.
Print Assumptions C82_length.

(** ** C83: batteries, PV and turbines are read from the first row without gaps *)
Theorem C83_battery : forall wb k r, plain wb -> big_enough wb -> read_inputs wb = Ok k -> let N := "Electrical storage"%string in let f := c_battery k in
  first_complete wb N 2 [] [5] r ->
  first_of f "capacity" = Ok (xl wb N "C" r) /\ first_of f "initial state" = Ok (xl wb N "D" r) /\ first_of f "charge max" = Ok (xl wb N "E" r) /\
  first_of f "discharge max" = Ok (xl wb N "F" r) /\ first_of f "charge eff" = Ok (xl wb N "G" r) /\ first_of f "discharge eff" = Ok (xl wb N "H" r) /\
  first_of f "self discharge" = Ok (xl wb N "I" r).
Proof.
  intros wb k r P (_ & _ & _ & _ & _ & _ & _ & _ & B & _) H N f FC. subst N f. apply read_inputs_parts in H as (_ & _ & _ & _ & _ & _ & _ & _ & H & _).
  destruct (electrical_ok wb P B) as (s & g & W & G & E). rewrite E in H. injection H as H. rewrite <- H.
  destruct B as (s' & W' & Wc & _). rewrite W in W'. injection W' as <-. change (letter "I") with 8 in Wc.
  assert (A : forall m nm c ch, letter ch = c -> c < 9 -> ~ In c [0; 1] -> renamed m (Unnamed c) = Named nm -> (forall c', In (Unnamed c', nm) m -> c' = c) ->
            first_of (reset_index (rename m g)) nm = Ok (xl wb "Electrical storage" ch r)).
  { intros m nm c ch L Hc Hn R Un. apply (gapless_cell wb "Electrical storage" s [0; 1] [3] [5] g 2 [] r m nm c ch W G); try assumption; try reflexivity; try lia.
    intros c0 _. cbn. lia. }
  split; [apply (A _ _ 2); [reflexivity|lia|notin|reflexivity|un]|]. split; [apply (A _ _ 3); [reflexivity|lia|notin|reflexivity|un]|].
  split; [apply (A _ _ 4); [reflexivity|lia|notin|reflexivity|un]|]. split; [apply (A _ _ 5); [reflexivity|lia|notin|reflexivity|un]|].
  split; [apply (A _ _ 6); [reflexivity|lia|notin|reflexivity|un]|]. split; [apply (A _ _ 7); [reflexivity|lia|notin|reflexivity|un]|].
  apply (A _ _ 8); [reflexivity|lia|notin|reflexivity|un].
Qed.
Print Assumptions C83_battery.
(** Without such a row the run stops with a KeyError when the battery is built. *)
Theorem C83_battery_missing : forall wb k, plain wb -> big_enough wb -> read_inputs wb = Ok k ->
  (forall r, ~ In r [5] -> ~ complete wb "Electrical storage" 2 [] r) -> first_of (c_battery k) "capacity" = Err KeyError.
Proof.
  intros wb k P (_ & _ & _ & _ & _ & _ & _ & _ & B & _) H F. apply read_inputs_parts in H as (_ & _ & _ & _ & _ & _ & _ & _ & H & _).
  destruct (electrical_ok wb P B) as (s & g & W & G & E). rewrite E in H. injection H as H. rewrite <- H.
  destruct B as (s' & W' & Wc & _). rewrite W in W'. injection W' as <-. change (letter "I") with 8 in Wc.
  eapply (gapless_none wb "Electrical storage" s [0; 1] [3] [5] g 2 [] _ "capacity" 2 W G); [|reflexivity|exact F|lia|notin|reflexivity].
  intros c0 _. cbn. lia.
Qed.
Print Assumptions C83_battery_missing.

Theorem C83_PV : forall wb k, plain wb -> big_enough wb -> read_inputs wb = Ok k -> let N := "PV inputs"%string in
  (forall r, first_complete wb N 2 [6; 7] [15; 19; 20] r ->
    list_first (c_PV_location k) (Named "name") = Ok (xl wb N "C" r) /\ list_first (c_PV_location k) (Named "latitude") = Ok (xl wb N "D" r) /\
    list_first (c_PV_location k) (Named "longitude") = Ok (xl wb N "E" r) /\ list_first (c_PV_location k) (Named "altitude") = Ok (xl wb N "F" r)) /\
  (forall r, first_complete wb N 2 [] [19] r ->
    list_first (c_PV_spec k) (Named "module") = Ok (xl wb N "C" r) /\ list_first (c_PV_spec k) (Named "inverter") = Ok (xl wb N "D" r) /\
    list_first (c_PV_spec k) (Named "multiplier") = Ok (xl wb N "E" r) /\ list_first (c_PV_spec k) (Named "surface_tilt") = Ok (xl wb N "F" r) /\
    list_first (c_PV_spec k) (Named "surface_azimuth") = Ok (xl wb N "G" r) /\ list_first (c_PV_spec k) (Named "surface_type") = Ok (xl wb N "H" r)).
Proof.
  intros wb k P (_ & _ & _ & _ & _ & B & _) H N. subst N. apply read_inputs_parts in H as (_ & _ & _ & _ & _ & H & _).
  destruct (PV_ok wb P B) as (s & f & g & W & GF & GG & E). rewrite E in H. injection H as H1 H2. rewrite <- H1, <- H2.
  destruct B as (s' & W' & Wc & _). rewrite W in W'. injection W' as <-. change (letter "H") with 7 in Wc. split; intros r FC.
  - assert (A : forall m nm c ch, letter ch = c -> c < 8 -> ~ In c [0; 1; 6; 7] -> renamed m (Unnamed c) = Named nm -> (forall c', In (Unnamed c', nm) m -> c' = c) ->
            list_first (reset_index (rename m f)) (Named nm) = Ok (xl wb "PV inputs" ch r)).
    { intros m nm c ch L Hc Hn R Un. apply (gapless_cell wb "PV inputs" s [0; 1; 6; 7] [13; 17; 18] [15; 19; 20] f 2 [6; 7] r m nm c ch W GF); try assumption; try reflexivity; try lia.
      intros c0 _. cbn. lia. }
    split; [apply (A _ _ 2); [reflexivity|lia|notin|reflexivity|un]|]. split; [apply (A _ _ 3); [reflexivity|lia|notin|reflexivity|un]|].
    split; [apply (A _ _ 4); [reflexivity|lia|notin|reflexivity|un]|]. apply (A _ _ 5); [reflexivity|lia|notin|reflexivity|un].
  - assert (A : forall m nm c ch, letter ch = c -> c < 8 -> ~ In c [0; 1] -> renamed m (Unnamed c) = Named nm -> (forall c', In (Unnamed c', nm) m -> c' = c) ->
            list_first (reset_index (rename m g)) (Named nm) = Ok (xl wb "PV inputs" ch r)).
    { intros m nm c ch L Hc Hn R Un. apply (gapless_cell wb "PV inputs" s [0; 1] [17] [19] g 2 [] r m nm c ch W GG); try assumption; try reflexivity; try lia.
      intros c0 _. cbn. lia. }
    split; [apply (A _ _ 2); [reflexivity|lia|notin|reflexivity|un]|]. split; [apply (A _ _ 3); [reflexivity|lia|notin|reflexivity|un]|].
    split; [apply (A _ _ 4); [reflexivity|lia|notin|reflexivity|un]|]. split; [apply (A _ _ 5); [reflexivity|lia|notin|reflexivity|un]|].
    split; [apply (A _ _ 6); [reflexivity|lia|notin|reflexivity|un]|]. apply (A _ _ 7); [reflexivity|lia|notin|reflexivity|un].
Qed.
Print Assumptions C83_PV.
Theorem C83_PV_missing : forall wb k, plain wb -> big_enough wb -> read_inputs wb = Ok k ->
  (forall r, ~ In r [19] -> ~ complete wb "PV inputs" 2 [] r) -> list_first (c_PV_spec k) (Named "module") = Err IndexError.
Proof.
  intros wb k P (_ & _ & _ & _ & _ & B & _) H F. apply read_inputs_parts in H as (_ & _ & _ & _ & _ & H & _).
  destruct (PV_ok wb P B) as (s & f & g & W & GF & GG & E). rewrite E in H. injection H as H1 H2. rewrite <- H2.
  destruct B as (s' & W' & Wc & _). rewrite W in W'. injection W' as <-. change (letter "H") with 7 in Wc.
  eapply (gapless_none wb "PV inputs" s [0; 1] [17] [19] g 2 [] _ "module" 2 W GG); [|reflexivity|exact F|lia|notin|reflexivity].
  intros c0 _. cbn. lia.
Qed.
Print Assumptions C83_PV_missing.

Theorem C83_turbines : forall wb k, plain wb -> big_enough wb -> read_inputs wb = Ok k -> let N := "Wind inputs"%string in
  (forall r, first_complete wb N 2 [6] [14; 19; 20] r -> let f := c_wind_database k in
    list_first f (Named "turbine_name") = Ok (xl wb N "C" r) /\ list_first f (Named "hub_height") = Ok (xl wb N "D" r) /\
    list_first f (Named "rotor_diameter") = Ok (xl wb N "E" r) /\ list_first f (Named "multiplier") = Ok (xl wb N "F" r)) /\
  (forall r, first_complete wb N 2 [] [19] r -> let f := c_wind_user k in
    list_first f (Named "turbine_name") = Ok (xl wb N "C" r) /\ list_first f (Named "hub_height") = Ok (xl wb N "D" r) /\
    list_first f (Named "rotor_diameter") = Ok (xl wb N "E" r) /\ list_first f (Named "multiplier") = Ok (xl wb N "F" r) /\
    list_first f (Named "nominal_power") = Ok (xl wb N "G" r)).
Proof.
  intros wb k P (_ & _ & _ & _ & _ & _ & B & _) H N. subst N. apply read_inputs_parts in H as (_ & _ & _ & _ & _ & _ & H & _).
  destruct (wind_ok wb P B) as (s & f & g & h & W & GF & GG & _ & E). rewrite E in H. injection H as H1 H2 _. rewrite <- H1, <- H2.
  destruct B as (s' & W' & Wc & _). rewrite W in W'. injection W' as <-. change (letter "G") with 6 in Wc. split; intros r FC; cbv zeta.
  - assert (A : forall m nm c ch, letter ch = c -> c < 7 -> ~ In c [0; 1; 6] -> renamed m (Unnamed c) = Named nm -> (forall c', In (Unnamed c', nm) m -> c' = c) ->
            list_first (reset_index (rename m f)) (Named nm) = Ok (xl wb "Wind inputs" ch r)).
    { intros m nm c ch L Hc Hn R Un. apply (gapless_cell wb "Wind inputs" s [0; 1; 6] [12; 17; 18] [14; 19; 20] f 2 [6] r m nm c ch W GF); try assumption; try reflexivity; try lia.
      intros c0 _. cbn. lia. }
    split; [apply (A _ _ 2); [reflexivity|lia|notin|reflexivity|un]|]. split; [apply (A _ _ 3); [reflexivity|lia|notin|reflexivity|un]|].
    split; [apply (A _ _ 4); [reflexivity|lia|notin|reflexivity|un]|]. apply (A _ _ 5); [reflexivity|lia|notin|reflexivity|un].
  - assert (A : forall m nm c ch, letter ch = c -> c < 7 -> ~ In c [0; 1] -> renamed m (Unnamed c) = Named nm -> (forall c', In (Unnamed c', nm) m -> c' = c) ->
            list_first (reset_index (rename m g)) (Named nm) = Ok (xl wb "Wind inputs" ch r)).
    { intros m nm c ch L Hc Hn R Un. apply (gapless_cell wb "Wind inputs" s [0; 1] [17] [19] g 2 [] r m nm c ch W GG); try assumption; try reflexivity; try lia.
      intros c0 _. cbn. lia. }
    split; [apply (A _ _ 2); [reflexivity|lia|notin|reflexivity|un]|]. split; [apply (A _ _ 3); [reflexivity|lia|notin|reflexivity|un]|].
    split; [apply (A _ _ 4); [reflexivity|lia|notin|reflexivity|un]|]. split; [apply (A _ _ 5); [reflexivity|lia|notin|reflexivity|un]|].
    apply (A _ _ 6); [reflexivity|lia|notin|reflexivity|un].
Qed.
Print Assumptions C83_turbines.
(** The power curve: all the rows with a value and a wind speed, in order, except rows 14, 15, 19, 20 and 23. *)
Theorem C83_power_curve : forall wb k, plain wb -> big_enough wb -> read_inputs wb = Ok k -> let N := "Wind inputs"%string in
  exists rows, picks wb (c_power_curve k) "value" N "C" rows /\ picks wb (c_power_curve k) "wind_speed" N "D" rows /\
    StronglySorted lt rows /\ forall r, In r rows <-> complete wb N 2 [4; 5; 6] r /\ ~ In r [14; 15; 19; 20; 23].
Proof.
  intros wb k P (_ & _ & _ & _ & _ & _ & B & _) H N. subst N. apply read_inputs_parts in H as (_ & _ & _ & _ & _ & _ & H & _).
  destruct (wind_ok wb P B) as (s & f & g & h & W & _ & _ & GH & E). rewrite E in H. injection H as _ _ H. rewrite <- H.
  destruct B as (s' & W' & Wc & _). rewrite W in W'. injection W' as <-. change (letter "G") with 6 in Wc.
  pose proof GH as (V & HC & _). exists (map (fun r => r + 2) (map snd (f_rows h))).
  split; [eapply (column_picks wb "Wind inputs" s _ h _ 2); [exact W|exact V|apply HC; split; [lia|notin]|reflexivity|reflexivity|un|reflexivity]|].
  split; [eapply (column_picks wb "Wind inputs" s _ h _ 3); [exact W|exact V|apply HC; split; [lia|notin]|reflexivity|reflexivity|un|reflexivity]|].
  apply (gapless_rows wb "Wind inputs" s [0; 1; 4; 5; 6] [12; 13; 17; 18; 21] [14; 15; 19; 20; 23] h 2 [4; 5; 6] W GH); [|reflexivity].
  intros c0 _. cbn. lia.
Qed.
Print Assumptions C83_power_curve.

Lemma not_complete (wb : workbook) N from but r c : (wb N = None \/ exists s, wb N = Some s /\ from <= c < length (s_header s) /\ nth c (nth (r - 2) (s_cells s) []) None = None) ->
  ~ In c but -> ~ complete wb N from but r.
Proof.
  intros H NB (B & F). destruct H as [H|(s & H & Hc & E)].
  - unfold last_row in B. rewrite H in B. lia.
  - specialize (F c). unfold width in F. rewrite H in F. exact (F Hc NB E).
Qed.
Ltac sample_complete := split; [vm_compute; split; repeat constructor|]; intros c Hc NB; vm_compute in Hc; do 10 (destruct c as [|c]; [first [exfalso; lia|vm_compute in NB; exfalso; tauto|vm_compute; discriminate]|]); exfalso; lia.
Example C83_case : exists k, read_inputs sample = Ok k /\ first_complete sample "Electrical storage" 2 [] [5] 6 /\
  first_of (c_battery k) "capacity" = Ok (num 602) /\ first_of (c_battery k) "self discharge" = Ok (num 608) /\
  list_first (c_PV_location k) (Named "latitude") = Ok (num 1603) /\ list_first (c_PV_spec k) (Named "surface_type") = Ok (num 2007) /\
  list_first (c_wind_database k) (Named "multiplier") = Ok (num 1505) /\ list_first (c_wind_user k) (Named "nominal_power") = Ok (num 2006) /\
  named_column (c_power_curve k) "wind_speed" = Ok [num 2403; num 2503; num 2603; num 2703].
Proof.
  destruct C81_completes_case as [k E]. exists k. split; [exact E|].
  assert (FC : first_complete sample "Electrical storage" 2 [] [5] 6).
  { split; [sample_complete|]. split; [notin|]. intros r' L N. do 6 (destruct r' as [|r']; [first [exfalso; apply N; vm_compute; tauto|
      apply (not_complete _ _ _ _ _ 2); [right; eexists; split; [reflexivity|split; [vm_compute; lia|reflexivity]]|notin]]|]). lia. }
  split; [exact FC|]. destruct (C83_battery sample k 6 sample_plain sample_big E FC) as (-> & _ & _ & _ & _ & _ & ->). split; [reflexivity|]. split; [reflexivity|].
  apply read_inputs_parts in E as (_ & _ & _ & _ & _ & E6 & E7 & _).
  assert (X1 : (f <- x_PV sample ;; list_first (fst f) (Named "latitude")) = Ok (num 1603)) by reflexivity.
  assert (X2 : (f <- x_PV sample ;; list_first (snd f) (Named "surface_type")) = Ok (num 2007)) by reflexivity.
  assert (X3 : (f <- x_wind sample ;; list_first (fst (fst f)) (Named "multiplier")) = Ok (num 1505)) by reflexivity.
  assert (X4 : (f <- x_wind sample ;; list_first (snd (fst f)) (Named "nominal_power")) = Ok (num 2006)) by reflexivity.
  assert (X5 : (f <- x_wind sample ;; named_column (snd f) "wind_speed") = Ok [num 2403; num 2503; num 2603; num 2703]) by reflexivity.
  rewrite E6 in X1, X2. rewrite E7 in X3, X4, X5. repeat split; assumption.
Qed.

(** The row is lost when anything stands in a column further right, anywhere on the sheet. *)
Definition noted : workbook := fun name =>
  if String.eqb name "PV inputs" then Some (sheet_by 9 20 (fun r c =>
    if Nat.eqb c 8 then (if Nat.eqb r 5 then txt "south-facing roof" else None) else if r <? 17 then rows_at [15; 16] 2 5 r c else rows_at [19; 20] 2 7 r c))
  else sample name.
Lemma noted_plain : plain noted.
Proof.
  intros name s H. unfold noted in H. destruct (String.eqb name "PV inputs"); [injection H as <-; apply sheet_by_plain|exact (sample_plain name s H)].
Qed.
Lemma noted_big : big_enough noted.
Proof. unfold big_enough. repeat match goal with |- _ /\ _ => split end; (eapply reaches_by; [reflexivity|vm_compute; reflexivity|vm_compute; reflexivity]). Qed.
Lemma noted_readable : readable noted.
Proof. unfold readable, readable_fuel. repeat match goal with |- _ /\ _ => split end; (eexists; vm_compute; reflexivity). Qed.

(** The row of the PV module is filled in: columns C to H *)
Definition PV_filled (wb : workbook) (r : nat) : Prop := forall c, In c ["C"; "D"; "E"; "F"; "G"; "H"]%char -> xl wb "PV inputs" c r <> None.
Theorem C83_note_refuted : exists wb k, plain wb /\ big_enough wb /\ readable wb /\ read_inputs wb = Ok k /\
  PV_filled wb 20 /\ (forall r, (r < 19) -> ~ PV_filled wb r) /\ list_first (c_PV_spec k) (Named "module") = Err IndexError.
Proof.
  destruct (C81_completes noted noted_plain noted_big noted_readable) as [k E]. exists noted, k.
  split; [exact noted_plain|]. split; [exact noted_big|]. split; [exact noted_readable|]. split; [exact E|]. split; [|split].
  - intros c I. cbn [In] in I. repeat (destruct I as [<-|I]; [vm_compute; discriminate|]). contradiction I.
  - intros r L F. apply (F "H"%char); [cbn; tauto|]. do 19 (destruct r as [|r]; [reflexivity|]). lia.
  - apply read_inputs_parts in E as (_ & _ & _ & _ & _ & E & _).
    assert (X : (f <- x_PV noted ;; list_first (snd f) (Named "module")) = Err IndexError) by reflexivity. rewrite E in X. exact X.
Qed.
Print Assumptions C83_note_refuted.
(** If the sheet ends with column H the first row filled in from C to H is the one. *)
Theorem C83_note_partial : forall wb k r, plain wb -> big_enough wb -> read_inputs wb = Ok k -> width wb "PV inputs" = 8 ->
  (2 <= r <= last_row wb "PV inputs") -> r <> 19 -> PV_filled wb r -> (forall r', (2 <= r' < r) -> r' <> 19 -> ~ PV_filled wb r') ->
  list_first (c_PV_spec k) (Named "module") = Ok (xl wb "PV inputs" "C" r) /\ list_first (c_PV_spec k) (Named "multiplier") = Ok (xl wb "PV inputs" "E" r) /\
  list_first (c_PV_spec k) (Named "surface_tilt") = Ok (xl wb "PV inputs" "F" r) /\ list_first (c_PV_spec k) (Named "surface_azimuth") = Ok (xl wb "PV inputs" "G" r).
Proof.
  intros wb k r P B H HW HB NR F Min. destruct (C83_PV wb k P B H) as [_ S].
  assert (Q : forall r0, (2 <= r0 <= last_row wb "PV inputs") -> (complete wb "PV inputs" 2 [] r0 <-> PV_filled wb r0)).
  { intros r0 HB0. unfold complete, PV_filled, xl. rewrite HW. unfold last_row in HB0 |- *. destruct (wb "PV inputs"%string) as [s|]; [|lia]. split.
    - intros [_ C] c I. cbn [In] in I. repeat (destruct I as [<-|I]; [apply C; [vm_compute; lia|notin]|]). contradiction I.
    - intro C. split; [exact HB0|]. intros c Hc _. assert (I : exists ch, In ch ["C"; "D"; "E"; "F"; "G"; "H"]%char /\ letter ch = c).
      { do 8 (destruct c as [|c]; [first [lia|exists "C"%char; split; [cbn; tauto|reflexivity]|exists "D"%char; split; [cbn; tauto|reflexivity]|exists "E"%char; split; [cbn; tauto|reflexivity]
          |exists "F"%char; split; [cbn; tauto|reflexivity]|exists "G"%char; split; [cbn; tauto|reflexivity]|exists "H"%char; split; [cbn; tauto|reflexivity]]|]). lia. }
      destruct I as (ch & I & <-). exact (C ch I). }
  destruct (S r) as (A1 & _ & A2 & A3 & A4 & _); [|repeat split; assumption].
  split; [apply Q; assumption|]. split; [cbn; lia|]. intros r' L N C. pose proof C as [[C1 C2] _]. apply (Min r'); [lia|cbn in N; lia|]. apply Q; [lia|exact C].
Qed.
Print Assumptions C83_note_partial.
Example C83_note_partial_case : width sample "PV inputs" = 8 /\ PV_filled sample 20 /\ forall r', (2 <= r' < 20) -> r' <> 19 -> ~ PV_filled sample r'.
Proof.
  split; [reflexivity|]. split.
  - intros c I. cbn [In] in I. repeat (destruct I as [<-|I]; [vm_compute; discriminate|]). contradiction I.
  - intros r L N F. apply (F "H"%char); [cbn; tauto|]. do 19 (destruct r as [|r]; [reflexivity|]). lia.
Qed.

(** ** C84: the test results of the heat pump *)
(** A result of the sheet: a row of four cells and the cell of the flow temperature *)
Definition tested_at (wb : workbook) (c1 c2 c3 c4 : ascii) (r : nat) (cf : ascii) (rf : nat) (p : test_point) : Prop :=
  number_of (xl wb "Heat pump" c1 r) = Some (p_ambient p) /\ number_of (xl wb "Heat pump" c2 r) = Some (p_COSP p) /\
  number_of (xl wb "Heat pump" c3 r) = Some (p_duty p) /\ number_of (xl wb "Heat pump" c4 r) <> None /\
  number_of (xl wb "Heat pump" cf rf) = Some (p_flow p).
Definition stored_tables (h : heat_pump_inputs) : res (list (list test_row * option Q)) :=
  mapM (fun t => regression_table (fst t) (snd t)) [(hp_temp1 h, hp_reg1 h); (hp_temp2 h, hp_reg2 h); (hp_temp3 h, hp_reg3 h); (hp_temp4 h, hp_reg4 h)].

Lemma measured_rows wb c1 c2 c3 c4 a n cf rf p : n <= 8 ->
  measured (table_rows wb c1 c2 c3 c4 (seq a n)) (number_of (xl wb "Heat pump" cf rf)) p <->
  exists r, (a <= r < a + n) /\ tested_at wb c1 c2 c3 c4 r cf rf p.
Proof.
  intro Hn. unfold measured, table_rows, tested_at. split.
  - intros (i & row & pc & Hi & Nr & Ff & Fa & Fc & Fd & Fp). rewrite nth_error_map in Nr.
    destruct (nth_error (seq a n) i) as [r|] eqn:E; [|discriminate]. cbn [option_map] in Nr. injection Nr as <-. cbn [t_ambient t_COSP t_duty t_percent] in *.
    assert (L : i < n) by (rewrite <- (seq_length n a); apply nth_error_Some; congruence).
    rewrite nth_error_nth' with (d := 0) in E by (rewrite seq_length; exact L). rewrite seq_nth in E by exact L. injection E as <-.
    exists (a + i). split; [lia|]. repeat split; try assumption. rewrite Fp. discriminate.
  - intros (r & Hr & Fa & Fc & Fd & Fp & Ff). destruct (number_of (xl wb "Heat pump" c4 r)) as [pc|] eqn:EP; [|congruence].
    exists (r - a), {| t_ambient := number_of (xl wb "Heat pump" c1 r); t_COSP := number_of (xl wb "Heat pump" c2 r);
                       t_duty := number_of (xl wb "Heat pump" c3 r); t_percent := number_of (xl wb "Heat pump" c4 r) |}, pc.
    split; [lia|]. split; [|cbn [t_ambient t_COSP t_duty t_percent]; repeat split; assumption].
    rewrite nth_error_map. replace (nth_error (seq a n) (r - a)) with (Some r); [reflexivity|].
    rewrite nth_error_nth' with (d := 0) by (rewrite seq_length; lia). rewrite seq_nth by lia. f_equal. lia.
Qed.
(** The results used are those of rows 27 to 34 and 41 to 47 of the two blocks of columns. *)
Theorem C84_used : forall wb k, plain wb -> big_enough wb -> read_inputs wb = Ok k -> width wb "Heat pump" = 19 ->
  exists tables, stored_tables (c_heat_pump k) = Ok tables /\
  forall p, In p (regression_data tables) <->
    (exists r, (27 <= r <= 34) /\ (tested_at wb "C" "D" "E" "F" r "D" 23 p \/ tested_at wb "G" "H" "I" "J" r "H" 23 p)) \/
    (exists r, (41 <= r <= 47) /\ (tested_at wb "C" "D" "E" "F" r "D" 36 p \/ tested_at wb "G" "H" "I" "J" r "H" 36 p)).
Proof.
  intros wb k P (_ & _ & _ & _ & _ & _ & _ & _ & _ & _ & _ & _ & B) H HW. apply read_inputs_parts in H as (_ & _ & _ & _ & _ & _ & _ & _ & _ & _ & _ & _ & H).
  destruct (heat_pump_ok wb P B) as (h & E & _ & _ & _ & _ & _ & T & _). destruct (T HW) as (T1 & T2 & T3 & T4). rewrite E in H. injection H as <-.
  unfold stored_tables. cbn [mapM fst snd]. rewrite T1. cbn [bind]. rewrite T2. cbn [bind]. rewrite T3. cbn [bind]. rewrite T4. cbn [bind].
  eexists. split; [reflexivity|]. intro p. rewrite C79_used. split.
  - intros (rows & flow & I & M). cbn [In] in I. destruct I as [I|[I|[I|[I|[]]]]]; apply pair_equal_spec in I as [<- <-]; apply measured_rows in M; try lia; destruct M as (r & Hr & M).
    + left. exists r. split; [lia|left; exact M].
    + left. exists r. split; [lia|right; exact M].
    + right. exists r. split; [lia|left; exact M].
    + right. exists r. split; [lia|right; exact M].
  - intros [(r & Hr & [M|M])|(r & Hr & [M|M])]; (do 2 eexists; split; [cbn [In]|]).
    + left. reflexivity.
    + apply measured_rows; [lia|]. exists r. split; [lia|exact M].
    + right. left. reflexivity.
    + apply measured_rows; [lia|]. exists r. split; [lia|exact M].
    + right. right. left. reflexivity.
    + apply measured_rows; [lia|]. exists r. split; [lia|exact M].
    + right. right. right. left. reflexivity.
    + apply measured_rows; [lia|]. exists r. split; [lia|exact M].
Qed.
Print Assumptions C84_used.
Example C84_used_case : exists k tables, read_inputs sample = Ok k /\ stored_tables (c_heat_pump k) = Ok tables /\ length (regression_data tables) = 30 /\
  In {| p_ambient := 4102; p_flow := 3603; p_COSP := 4103; p_duty := 4104 |} (regression_data tables).
Proof.
  destruct C81_completes_case as [k E]. exists k. pose proof E as E'. apply read_inputs_parts in E' as (_ & _ & _ & _ & _ & _ & _ & _ & _ & _ & _ & _ & E').
  destruct (C84_used sample k sample_plain sample_big E eq_refl) as (tables & T & U). exists tables. split; [exact E|]. split; [exact T|]. split.
  - assert (X : (h <- x_heat_pump sample ;; t <- stored_tables h ;; Ok (length (regression_data t))) = Ok 30) by reflexivity.
    rewrite E' in X. cbn [bind] in X. rewrite T in X. cbn [bind] in X. injection X as X. exact X.
  - apply U. right. exists 41. split; [lia|]. left. repeat split; vm_compute; discriminate.
Qed.

(** The eighth row of the two lower tables is not read. *)
Theorem C84_eighth_row_refuted : exists wb k tables p, plain wb /\ big_enough wb /\ read_inputs wb = Ok k /\ stored_tables (c_heat_pump k) = Ok tables /\
  tested_at wb "C" "D" "E" "F" 48 "D" 36 p /\ ~ In p (regression_data tables).
Proof.
  destruct C81_completes_case as [k E]. destruct (C84_used sample k sample_plain sample_big E eq_refl) as (tables & T & U).
  exists sample, k, tables, {| p_ambient := 4802; p_flow := 3603; p_COSP := 4803; p_duty := 4804 |}.
  split; [exact sample_plain|]. split; [exact sample_big|]. split; [exact E|]. split; [exact T|]. split; [repeat split; vm_compute; discriminate|].
  intro I. apply U in I. destruct I as [(r & Hr & [M|M])|(r & Hr & [M|M])]; destruct M as (M & _ & _ & _ & F); try (vm_compute in F; discriminate F).
  clear U T E F. assert (R : r = 41 \/ r = 42 \/ r = 43 \/ r = 44 \/ r = 45 \/ r = 46 \/ r = 47) by lia.
  repeat (destruct R as [->|R]; [vm_compute in M; discriminate M|]). subst r. vm_compute in M. discriminate M.
Qed.
Print Assumptions C84_eighth_row_refuted.
(** Rows 27 to 34 and 41 to 47 are used: see [C84_used].  A result of these rows is never lost. *)
Theorem C84_eighth_row_partial : forall wb k r p, plain wb -> big_enough wb -> read_inputs wb = Ok k -> width wb "Heat pump" = 19 ->
  (41 <= r <= 47) -> tested_at wb "C" "D" "E" "F" r "D" 36 p \/ tested_at wb "G" "H" "I" "J" r "H" 36 p ->
  exists tables, stored_tables (c_heat_pump k) = Ok tables /\ In p (regression_data tables).
Proof.
  intros wb k r p P B H HW Hr T. destruct (C84_used wb k P B H HW) as (tables & E & U). exists tables. split; [exact E|].
  apply U. right. exists r. split; [exact Hr|exact T].
Qed.
Print Assumptions C84_eighth_row_partial.
(** A sheet with anything right of column S cannot be used. *)
Theorem C84_extra_column : forall wb k, plain wb -> big_enough wb -> read_inputs wb = Ok k -> 19 < width wb "Heat pump" ->
  stored_tables (c_heat_pump k) = Err ValueError.
Proof.
  intros wb k P (_ & _ & _ & _ & _ & _ & _ & _ & _ & _ & _ & _ & B) H HW. apply read_inputs_parts in H as (_ & _ & _ & _ & _ & _ & _ & _ & _ & _ & _ & _ & H).
  destruct (heat_pump_ok wb P B) as (h & E & _ & _ & _ & _ & T & _). rewrite E in H. injection H as <-.
  unfold stored_tables. cbn [mapM fst snd]. rewrite (T HW). reflexivity.
Qed.
Print Assumptions C84_extra_column.
