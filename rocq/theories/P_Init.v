(** From the workbook to the objects of a simulation: properties C85 to C88. *)
From Coq Require Import String Ascii Sorted.
From Verif Require Import Base BaseL M_Battery M_HeatPump M_Sweep M_Regression S_Regression L_Regression P_Regression M_Excel S_Excel L_Excel L_ExcelSheets P_Excel L_HeatPump M_Init S_Init L_Init.
From Verif Require M_Tank M_Grid M_Renewables.
Local Open Scope nat_scope.
Local Open Scope list_scope.

(** ** Rows that are missing *)
Lemma location_missing wb k : plain wb -> big_enough wb -> read_inputs wb = Ok k ->
  (forall r, ~ In r [15; 19; 20] -> ~ complete wb "PV inputs" 2 [6; 7] r) -> list_first (c_PV_location k) (Named "name") = Err IndexError.
Proof.
  intros P (_ & _ & _ & _ & _ & B & _) H F. apply read_inputs_parts in H as (_ & _ & _ & _ & _ & H & _).
  destruct (PV_ok wb P B) as (s & f & g & W & GF & GG & E). rewrite E in H. injection H as H1 H2. rewrite <- H1.
  destruct B as (s' & W' & Wc & _). rewrite W in W'. injection W' as <-. change (letter "H") with 7 in Wc.
  eapply (gapless_none wb "PV inputs" s [0; 1; 6; 7] [13; 17; 18] [15; 19; 20] f 2 [6; 7] _ "name" 2 W GF); [|reflexivity|exact F|lia|notin|reflexivity].
  intros c0 _. cbn. lia.
Qed.
Lemma turbines_missing wb k : plain wb -> big_enough wb -> read_inputs wb = Ok k ->
  ((forall r, ~ In r [14; 19; 20] -> ~ complete wb "Wind inputs" 2 [6] r) -> list_first (c_wind_database k) (Named "turbine_name") = Err IndexError) /\
  ((forall r, ~ In r [19] -> ~ complete wb "Wind inputs" 2 [] r) -> list_first (c_wind_user k) (Named "turbine_name") = Err IndexError).
Proof.
  intros P (_ & _ & _ & _ & _ & _ & B & _) H. apply read_inputs_parts in H as (_ & _ & _ & _ & _ & _ & H & _).
  destruct (wind_ok wb P B) as (s & f & g & h & W & GF & GG & _ & E). rewrite E in H. injection H as H1 H2 _. rewrite <- H1, <- H2.
  destruct B as (s' & W' & Wc & _). rewrite W in W'. injection W' as <-. change (letter "G") with 6 in Wc. split; intro F.
  - eapply (gapless_none wb "Wind inputs" s [0; 1; 6] [12; 17; 18] [14; 19; 20] f 2 [6] _ "turbine_name" 2 W GF); [|reflexivity|exact F|lia|notin|reflexivity].
    intros c0 _. cbn. lia.
  - eapply (gapless_none wb "Wind inputs" s [0; 1] [17] [19] g 2 [] _ "turbine_name" 2 W GG); [|reflexivity|exact F|lia|notin|reflexivity].
    intros c0 _. cbn. lia.
Qed.

Lemma turbine_cells wb N f r c1 c2 c3 c4 n h ro m :
  list_first f (Named "turbine_name") = Ok (xl wb N c1 r) -> list_first f (Named "hub_height") = Ok (xl wb N c2 r) ->
  list_first f (Named "rotor_diameter") = Ok (xl wb N c3 r) -> list_first f (Named "multiplier") = Ok (xl wb N c4 r) ->
  turbine_of f = Ok (n, h, ro, m) -> says wb N c1 r n /\ holds wb N c2 r h /\ holds wb N c3 r ro /\ holds wb N c4 r m.
Proof.
  intros A1 A2 A3 A4 H. unfold turbine_of, first_listed in H. rewrite A1 in H. cbn [bind] in H. rewrite A2 in H. cbn [bind] in H.
  rewrite A3 in H. cbn [bind] in H. rewrite A4 in H. cbn [bind] in H. inv_bind H. injection H as <- <- <- <-.
  repeat match goal with |- _ /\ _ => split end; try (apply number_holds; assumption); apply name_says; assumption.
Qed.

(** ** C85: every component is set up from its cells *)
Theorem C85_battery : forall L wb h t o, plain wb -> big_enough wb -> set_up L wb h t = Ok o -> let N := "Electrical storage"%string in let b := o_battery o in
  exists r, first_complete wb N 2 [] [5] r /\
    holds wb N "C" r (b_capacity b) /\ holds wb N "D" r (b_initial_state b) /\ holds wb N "E" r (b_charge_max b) /\
    holds wb N "F" r (b_discharge_max b) /\ holds wb N "G" r (b_charge_eff b) /\ holds wb N "H" r (b_discharge_eff b) /\
    holds wb N "I" r (b_self_discharge b).
Proof.
  intros L wb h t o P B H N b. subst N b. apply set_up_inv in H as (k & k' & R & C & M). apply combination_parts in C as (C & _).
  destruct C as (_ & _ & _ & _ & _ & _ & _ & _ & _ & _ & C & _). destruct M as (w & air & water & i & _ & _ & _ & _ & _ & _ & _ & _ & _ & M & _).
  unfold battery_of in M. rewrite C in M. destruct (first_complete_or wb "Electrical storage" 2 [] [5]) as [[r F]|F].
  2: { exfalso. pose proof (C83_battery_missing wb k P B R F) as X. unfold first_number in M. rewrite X in M. discriminate. }
  exists r. split; [exact F|]. destruct (C83_battery wb k r P B R F) as (A1 & A2 & A3 & A4 & A5 & A6 & A7). inv_bind M. injection M as <-. cbn.
  repeat match goal with |- _ /\ _ => split end; eapply first_number_holds; eassumption.
Qed.
Print Assumptions C85_battery.

Theorem C85_tank : forall L wb h t o, plain wb -> big_enough wb -> set_up L wb h t = Ok o -> let N := "Thermal storage"%string in let T := o_tank o in
  M_Tank.k_capacity T = inject_Z t /\ M_Tank.k_width T = lib_width L (inject_Z t) /\ M_Tank.k_pi T = lib_pi L /\ M_Tank.k_cp T = lib_cp L /\
  tidied wb N "D" 6 (M_Tank.k_insulation T) /\ tidied wb N "D" 7 (M_Tank.k_location T) /\
  (exists z, counts wb N "D" 8 z /\ M_Tank.k_nodes T = Z.to_nat z) /\
  holds wb N "D" 14 (M_Tank.k_openings T) /\ holds wb N "D" 15 (M_Tank.k_openings_d T) /\ holds wb N "D" 16 (M_Tank.k_bare T) /\
  holds wb N "D" 17 (M_Tank.k_bare_d T) /\ holds wb N "D" 18 (M_Tank.k_insulated T) /\ holds wb N "D" 19 (M_Tank.k_insulated_d T) /\
  holds wb N "D" 22 (M_Tank.k_Fi T) /\ holds wb N "D" 23 (M_Tank.k_Fe T) /\ holds_down wb "Weather resources" "K" 6 (M_Tank.k_air T).
Proof.
  intros L wb h t o P B H N T. subst N T. apply set_up_inv in H as (k & k' & R & C & M). apply combination_parts in C as (C & CT & _).
  destruct C as (_ & CR & _). destruct M as (w & air & water & i & _ & MA & _ & _ & _ & _ & _ & M & _).
  rewrite CR in MA. pose proof (C82_weather wb k P B R) as (_ & _ & _ & _ & _ & _ & _ & SA & _). pose proof (numbers_down _ _ _ _ _ _ _ SA MA) as DA.
  pose proof (C81_tank wb k P B R) as (A1 & A2 & A3 & A4 & A5 & A6 & A7 & A8 & A9 & A10 & A11 & A12 & A13 & A14 & A15).
  pose proof (tank_distinct wb k R) as D. unfold tank_of in M. rewrite CT in M. cbv zeta in M.
  rewrite (set_first_same _ _ _ _ A1) in M. cbn [bind] in M.
  rewrite (set_first_other _ "capacity" "insulation" _ D), A2 in M by discriminate. cbn [bind] in M.
  rewrite (set_first_other _ "capacity" "location" _ D), A3 in M by discriminate. cbn [bind] in M.
  rewrite (set_first_other _ "capacity" "number_nodes" _ D), A4 in M by discriminate. cbn [bind] in M.
  rewrite (set_first_other _ "capacity" "height" _ D), A5 in M by discriminate. cbn [bind] in M.
  rewrite (set_first_other _ "capacity" "width" _ D), A6 in M by discriminate. cbn [bind] in M.
  rewrite (set_first_other _ "capacity" "insulation_thickness" _ D), A7 in M by discriminate. cbn [bind] in M.
  rewrite (set_first_other _ "capacity" "tank_opening" _ D), A8 in M by discriminate. cbn [bind] in M.
  rewrite (set_first_other _ "capacity" "tank_opening_diameter" _ D), A9 in M by discriminate. cbn [bind] in M.
  rewrite (set_first_other _ "capacity" "uninsulated_connections" _ D), A10 in M by discriminate. cbn [bind] in M.
  rewrite (set_first_other _ "capacity" "uninsulated_connections_diameter" _ D), A11 in M by discriminate. cbn [bind] in M.
  rewrite (set_first_other _ "capacity" "insulated_connections" _ D), A12 in M by discriminate. cbn [bind] in M.
  rewrite (set_first_other _ "capacity" "insulated_connections_diameter" _ D), A13 in M by discriminate. cbn [bind] in M.
  rewrite (set_first_other _ "capacity" "insulation_factor" _ D), A14 in M by discriminate. cbn [bind] in M.
  rewrite (set_first_other _ "capacity" "overall_factor" _ D), A15 in M by discriminate. cbn [bind number] in M.
  inv_bind M. injection M as <-. cbn.
  repeat match goal with |- _ /\ _ => split end; try reflexivity; try (apply number_holds; assumption); try (apply tidied_ok; assumption); try exact DA.
  eexists. split; [apply whole_counts; eassumption|reflexivity].
Qed.
Print Assumptions C85_tank.

Theorem C85_turbines : forall L wb h t o, plain wb -> big_enough wb -> set_up L wb h t = Ok o -> let N := "Wind inputs"%string in
  (exists r, first_complete wb N 2 [6] [14; 19; 20] r /\ let x := o_database o in
     says wb N "C" r (M_Renewables.wi_name x) /\ holds wb N "D" r (M_Renewables.wi_hub x) /\ holds wb N "E" r (M_Renewables.wi_rotor x) /\
     holds wb N "F" r (M_Renewables.wi_multiplier x) /\ sunny_rows wb (M_Renewables.wi_weather x)) /\
  (exists r, first_complete wb N 2 [] [19] r /\ let x := o_user o in
     says wb N "C" r (M_Renewables.wi_name x) /\ holds wb N "D" r (M_Renewables.wi_hub x) /\ holds wb N "E" r (M_Renewables.wi_rotor x) /\
     holds wb N "F" r (M_Renewables.wi_multiplier x) /\ sunny_rows wb (M_Renewables.wi_weather x) /\
     exists p, holds wb N "G" r p /\ M_Renewables.wi_nominal x = Some p) /\
  exists rows curve, M_Renewables.wi_curve (o_user o) = Some curve /\
    Forall2 (fun r p => holds wb N "C" r (fst p) /\ holds wb N "D" r (snd p)) rows curve /\
    StronglySorted lt rows /\ forall r, In r rows <-> complete wb N 2 [4; 5; 6] r /\ ~ In r [14; 15; 19; 20; 23].
Proof.
  intros L wb h t o P B H N. subst N. apply set_up_inv in H as (k & k' & R & C & M). apply combination_parts in C as (C & _).
  destruct C as (_ & CR & _ & _ & _ & _ & CD & CU & CC & _). destruct M as (w & air & water & i & MW & _ & _ & MU & MD & _).
  rewrite CR in MW. pose proof (C82_weather wb k P B R) as (S1 & S2 & S3 & S4 & S5 & S6 & S7 & S8 & _).
  assert (SR : sunny_rows wb w).
  { eapply sunny_ok; try eassumption. destruct B as (_ & _ & B & _). exact (reaches_rows _ _ _ _ B). }
  pose proof (C83_turbines wb k P B R) as [TD TU]. destruct (turbines_missing wb k P B R) as [MiD MiU].
  split; [|split].
  - unfold database_turbine in MD. rewrite CD in MD. destruct (turbine_of (c_wind_database k)) as [[[[n hb] ro] mu]|] eqn:ET; cbn [bind] in MD; [|discriminate].
    destruct (first_complete_or wb "Wind inputs" 2 [6] [14; 19; 20]) as [[r F]|F].
    2: { unfold turbine_of, first_listed in ET. rewrite (MiD F) in ET. discriminate. }
    exists r. split; [exact F|]. destruct (TD r F) as (A1 & A2 & A3 & A4). injection MD as <-. cbn.
    destruct (turbine_cells wb _ _ r _ _ _ _ _ _ _ _ A1 A2 A3 A4 ET) as (D1 & D2 & D3 & D4). split; [exact D1|]. split; [exact D2|]. split; [exact D3|]. split; [exact D4|exact SR].
  - unfold user_turbine in MU. rewrite CU in MU. destruct (numbers _ "value"); cbn [bind] in MU; [|discriminate]. destruct (numbers _ "wind_speed"); cbn [bind] in MU; [|discriminate].
    destruct (turbine_of (c_wind_user k)) as [[[[n hb] ro] mu]|] eqn:ET; cbn [bind] in MU; [|discriminate].
    destruct (first_complete_or wb "Wind inputs" 2 [] [19]) as [[r F]|F].
    2: { unfold turbine_of, first_listed in ET. rewrite (MiU F) in ET. discriminate. }
    exists r. split; [exact F|]. destruct (TU r F) as (A1 & A2 & A3 & A4 & A5). unfold first_listed in MU. rewrite A5 in MU. cbn [bind] in MU.
    destruct (number (xl wb "Wind inputs" "G" r)) as [np|] eqn:EN; cbn [bind] in MU; [|discriminate]. injection MU as <-. cbn.
    destruct (turbine_cells wb _ _ r _ _ _ _ _ _ _ _ A1 A2 A3 A4 ET) as (D1 & D2 & D3 & D4). split; [exact D1|]. split; [exact D2|]. split; [exact D3|]. split; [exact D4|].
    split; [exact SR|]. exists np. split; [apply number_holds, EN|reflexivity].
  - destruct (C83_power_curve wb k P B R) as (rows & PV & PW & SS & IR). exists rows. unfold user_turbine in MU.
    destruct (numbers (c_power_curve k') "value") as [pv|] eqn:EV; cbn [bind] in MU; [|discriminate].
    destruct (numbers (c_power_curve k') "wind_speed") as [ps|] eqn:ES; cbn [bind] in MU; [|discriminate].
    destruct (turbine_of _) as [[[[nm hb] ro] mu]|]; cbn [bind] in MU; [|discriminate].
    destruct (first_listed _ _) as [np0|]; cbn [bind] in MU; [|discriminate]. destruct (number np0) as [np|]; cbn [bind] in MU; [|discriminate].
    injection MU as <-. cbn. exists (combine pv ps). split; [reflexivity|]. split; [|split; [exact SS|exact IR]].
    rewrite CC in EV, ES. unfold numbers in EV, ES. rewrite PV in EV. rewrite PW in ES. cbn [bind] in EV, ES. clear - EV ES.
    revert pv ps EV ES. induction rows as [|r rows IH]; intros pv ps EV ES; cbn [map mapM] in EV, ES.
    + injection EV as <-. constructor.
    + inv_bind EV. injection EV as <-. inv_bind ES. injection ES as <-. cbn [combine]. constructor; [split; apply number_holds; assumption|].
      apply IH; first [reflexivity|assumption].
Qed.
Print Assumptions C85_turbines.

Theorem C85_PV : forall L wb h t o, plain wb -> big_enough wb -> set_up L wb h t = Ok o -> let N := "PV inputs"%string in let p := o_PV o in
  (exists r, first_complete wb N 2 [6; 7] [15; 19; 20] r /\ holds wb N "D" r (M_Renewables.pv_latitude p) /\ holds wb N "E" r (M_Renewables.pv_longitude p)) /\
  (exists r m, first_complete wb N 2 [] [19] r /\ says wb N "C" r m /\
     (lib_cec L (M_Renewables.clean_name m) = Some (M_Renewables.pv_module p) \/
      lib_cec L (M_Renewables.clean_name m) = None /\ lib_sandia L (M_Renewables.clean_name m) = Some (M_Renewables.pv_module p)) /\
     holds wb N "E" r (M_Renewables.pv_multiplier p) /\ holds wb N "F" r (M_Renewables.pv_tilt p) /\ holds wb N "G" r (M_Renewables.pv_azimuth p)) /\
  sunny_rows wb (M_Renewables.pv_rows p).
Proof.
  intros L wb h t o P B H N p. subst N p. apply set_up_inv in H as (k & k' & R & C & M). apply combination_parts in C as (C & _).
  destruct C as (_ & CR & _ & _ & CL & CS & _). destruct M as (w & air & water & i & MW & _ & _ & _ & _ & MI & MP & _).
  rewrite CR in MW. pose proof (C82_weather wb k P B R) as (S1 & S2 & S3 & S4 & S5 & S6 & S7 & S8 & _).
  assert (SR : sunny_rows wb w).
  { eapply sunny_ok; try eassumption. destruct B as (_ & _ & B & _). exact (reaches_rows _ _ _ _ B). }
  destruct (C83_PV wb k P B R) as [TL TS]. unfold pv_of, first_listed in MI. rewrite CL, CS in MI. cbv zeta in MI.
  destruct (first_complete_or wb "PV inputs" 2 [] [19]) as [[r F]|F].
  2: { rewrite (C83_PV_missing wb k P B R F) in MI. discriminate. }
  destruct (TS r F) as (A1 & A2 & A3 & A4 & A5 & A6). rewrite A1 in MI. cbn [bind] in MI. rewrite A2 in MI. cbn [bind] in MI.
  rewrite A3 in MI. cbn [bind] in MI. rewrite A4 in MI. cbn [bind] in MI. rewrite A5 in MI. cbn [bind] in MI. rewrite A6 in MI. cbn [bind] in MI.
  destruct (first_complete_or wb "PV inputs" 2 [6; 7] [15; 19; 20]) as [[r' F']|F'].
  2: { rewrite (location_missing wb k P B R F') in MI. discriminate. }
  destruct (TL r' F') as (B1 & B2 & B3 & B4). rewrite B1 in MI. cbn [bind] in MI. rewrite B2 in MI. cbn [bind] in MI.
  rewrite B3 in MI. cbn [bind] in MI. rewrite B4 in MI. cbn [bind] in MI. inv_bind MI. injection MI as <-.
  unfold M_Renewables.new_pv in MP. cbn [M_Renewables.pi_module_name M_Renewables.pi_multiplier M_Renewables.pi_tilt M_Renewables.pi_azimuth M_Renewables.pi_latitude M_Renewables.pi_longitude M_Renewables.pi_weather] in MP. cbv zeta in MP.
  match type of MP with bind (match lib_cec L (M_Renewables.clean_name ?n) with _ => _ end) _ = _ => rename n into md end.
  assert (X : exists m, (lib_cec L (M_Renewables.clean_name md) = Some m \/ lib_cec L (M_Renewables.clean_name md) = None /\ lib_sandia L (M_Renewables.clean_name md) = Some m) /\
              match lib_cec L (M_Renewables.clean_name md) with Some m => Ok m | None => match lib_sandia L (M_Renewables.clean_name md) with Some m => Ok m | None => Err KeyError end end = Ok m).
  { destruct (lib_cec L (M_Renewables.clean_name md)) as [m|]; [exists m; split; [left; reflexivity|reflexivity]|].
    destruct (lib_sandia L (M_Renewables.clean_name md)) as [m|]; [exists m; split; [right; split; reflexivity|reflexivity]|discriminate]. }
  destruct X as (m & X & EX). rewrite EX in MP. cbn [bind] in MP.
  destruct (lib_inverters L _) as [iv|]; cbn [bind] in MP; [|discriminate]. injection MP as <-. cbn.
  split; [exists r'; split; [exact F'|]; split; apply number_holds; assumption|]. split; [|exact SR].
  exists r, md. split; [exact F|]. split; [apply name_says; assumption|]. split; [exact X|]. repeat match goal with |- _ /\ _ => split end; apply number_holds; assumption.
Qed.
Print Assumptions C85_PV.

(** The back-up heater; the last row with its fuel counts. *)
Theorem C85_backup : forall L wb h t o, plain wb -> big_enough wb -> set_up L wb h t = Ok o -> let N := "Aux heat"%string in let a := o_aux o in
  chooses fuels fuel_value wb N "C" 6 (a_fuel a) /\ holds wb N "D" 6 (a_efficiency a) /\
  (a_fuel a = ELECTRIC -> a_cost a = None /\ a_energy_density a = None) /\
  (a_fuel a <> ELECTRIC -> exists r d c, In r [9; 10; 11] /\ chooses fuels fuel_value wb N "C" r (a_fuel a) /\
     (forall r', In r' [9; 10; 11] -> r < r' -> ~ chooses fuels fuel_value wb N "C" r' (a_fuel a)) /\
     holds wb N "D" r d /\ a_energy_density a = Some d /\ holds wb N "E" r c /\ a_cost a = Some c).
Proof.
  intros L wb h t o P B H N a. subst N a. apply set_up_inv in H as (k & k' & R & C & M). apply combination_parts in C as (C & _).
  destruct C as (_ & _ & _ & _ & _ & _ & _ & _ & _ & _ & _ & _ & CA). destruct M as (w & air & water & i & _ & _ & _ & _ & _ & _ & _ & _ & _ & _ & M & _).
  destruct (C81_backup wb k P R) as (F & EF & I). unfold aux_of in M. rewrite CA in M. cbv zeta in M. rewrite EF in M.
  destruct (number (xl wb "Aux heat" "D" 6)) as [e|] eqn:EE; cbn [bind] in M; [|discriminate]. apply number_holds in EE.
  set (f := x_fuel (c_aux k)) in *. apply chooses_fuel in F.
  destruct (fuel_eqb f ELECTRIC) eqn:FE.
  { destruct f; try discriminate. injection M as <-. cbn. split; [exact F|]. split; [exact EE|]. split; [split; reflexivity|congruence]. }
  assert (M' : match find (fun r => fuel_eqb (fst r) f) (rev (x_fuel_info (c_aux k))) with
               | None => Err KeyError
               | Some (_, (density, cost)) => d <- number density ;; c <- number cost ;; make_aux f e [(f, (c, d))] end = Ok (o_aux o)).
  { destruct f; try discriminate; exact M. }
  clear M. destruct (find _ _) as [[f' [density cost]]|] eqn:FI; [|discriminate].
  destruct (number density) as [d|] eqn:ED; cbn [bind] in M'; [|discriminate]. destruct (number cost) as [c|] eqn:EC; cbn [bind] in M'; [|discriminate].
  assert (MA : o_aux o = {| a_fuel := f; a_efficiency := e; a_cost := Some c; a_energy_density := Some d |}).
  { destruct f; try discriminate; injection M' as <-; reflexivity. }
  rewrite MA. cbn. split; [exact F|]. split; [exact EE|]. split; [intro X; rewrite X in FE; discriminate|]. intros _.
  revert I FI. generalize (x_fuel_info (c_aux k)) as info. intros info I FI.
  inversion I as [|? x1 ? l1 R1 I1]; subst. inversion I1 as [|? x2 ? l2 R2 I2]; subst. inversion I2 as [|? x3 ? l3 R3 I3]; subst. inversion I3; subst.
  assert (U : forall r g x, chooses fuels fuel_value wb "Aux heat" "C" r g -> fuel_row wb r x -> fst x = g).
  { intros r g x (_ & s & (tx & Sx & ->) & Ux) (Fx & _). unfold cell_fuel in Fx. rewrite Sx in Fx. cbn [text_of bind] in Fx. unfold read_fuel, from_value in Fx. rewrite Ux in Fx.
    destruct g; cbn in Fx; injection Fx as <-; reflexivity. }
  assert (Fe : forall a b, fuel_eqb a b = true <-> a = b) by (intros [] []; cbn; split; congruence).
  assert (K : forall r x, fuel_row wb r x -> fst x = f -> x = (f', (density, cost)) -> chooses fuels fuel_value wb "Aux heat" "C" r f /\ holds wb "Aux heat" "D" r d /\ holds wb "Aux heat" "E" r c).
  { intros r x (Rx & Sx) Ex Qx. split; [rewrite <- Ex; apply chooses_fuel, Rx|]. rewrite Qx in Sx. cbn in Sx. injection Sx as -> ->. split; apply number_holds; assumption. }
  cbn [rev app find] in FI.
  destruct (fuel_eqb (fst x3) f) eqn:E3; [|destruct (fuel_eqb (fst x2) f) eqn:E2; [|destruct (fuel_eqb (fst x1) f) eqn:E1; [|discriminate]]]; injection FI as FI.
  - apply Fe in E3. destruct (K 11 x3 R3 E3 FI) as (K1 & K2 & K3). exists 11, d, c. split; [cbn; tauto|]. split; [exact K1|].
    split; [cbn; intros r' J Lt; exfalso; lia|]. repeat split; assumption.
  - apply Fe in E2. destruct (K 10 x2 R2 E2 FI) as (K1 & K2 & K3). exists 10, d, c. split; [cbn; tauto|]. split; [exact K1|]. split; [|repeat split; assumption].
    cbn; intros r' J Lt. assert (r' = 11) as -> by lia. intro X. apply (U _ _ _ X) in R3. apply Fe in R3. congruence.
  - apply Fe in E1. destruct (K 9 x1 R1 E1 FI) as (K1 & K2 & K3). exists 9, d, c. split; [cbn; tauto|]. split; [exact K1|]. split; [|repeat split; assumption].
    cbn; intros r' J Lt. assert (r' = 10 \/ r' = 11) as [->| ->] by lia; intro X.
    + apply (U _ _ _ X) in R2. apply Fe in R2. congruence.
    + apply (U _ _ _ X) in R3. apply Fe in R3. congruence.
Qed.
Print Assumptions C85_backup.

(** The electricity tariff *)
Definition day_columns : list (string * ascii) :=
  [("Monday", "H"%char); ("Tuesday", "I"%char); ("Wednesday", "J"%char); ("Thursday", "K"%char); ("Friday", "L"%char); ("Saturday", "M"%char); ("Sunday", "N"%char)]%string.
(** A wind farm: the single turbine type of row 15, its weather from row 20 on *)
Definition farm_inputs (wb : workbook) (i : M_Renewables.wind_inputs) : Prop := let N := "Wind farm"%string in
  says wb N "C" 15 (M_Renewables.wi_name i) /\ holds wb N "D" 15 (M_Renewables.wi_hub i) /\ holds wb N "E" 15 (M_Renewables.wi_rotor i) /\
  holds wb N "F" 15 (M_Renewables.wi_multiplier i) /\ (exists e, holds wb N "G" 15 e /\ M_Renewables.wi_efficiency i = Some e) /\ farm_rows wb (M_Renewables.wi_weather i).
Theorem C85_tariff : forall L wb h t o, plain wb -> big_enough wb -> set_up L wb h t = Ok o -> let N := "Grid"%string in let g := o_grid o in let x := M_Grid.g_tariff g in
  says wb N "D" 5 x /\
  In x ["Flat rates"; "Variable periods"; "Time of use - WM"; "Time of use - PPA + FR"; "Time of use - PPA + WM"; "Time of use - PPA + VP"]%string /\
  (In x ["Flat rates"; "Time of use - PPA + FR"]%string -> holds wb N "C" 9 (M_Grid.g_flat g)) /\
  (In x ["Variable periods"; "Time of use - PPA + VP"]%string ->
     Forall2 (fun dc p => fst p = fst dc /\ holds_down_to wb N (snd dc) 18 24 (snd p)) day_columns (M_Grid.g_periods g) /\ counts wb N "N" 42 (M_Grid.g_year g)) /\
  (In x ["Time of use - WM"; "Time of use - PPA + WM"]%string ->
     holds_down_to wb N "C" 12 (Z.to_nat 8760) (M_Grid.g_market g) /\ holds wb N "G" 9 (M_Grid.g_premium g) /\ holds wb N "H" 9 (M_Grid.g_maximum g)) /\
  (In x ["Time of use - PPA + FR"; "Time of use - PPA + WM"; "Time of use - PPA + VP"]%string ->
     holds wb N "J" 9 (M_Grid.g_lower_percent g) /\ holds wb N "K" 9 (M_Grid.g_higher_percent g) /\
     holds wb N "L" 9 (M_Grid.g_lower_penalty g) /\ holds wb N "M" 9 (M_Grid.g_higher_discount g) /\
     exists i c, farm_inputs wb i /\ M_Renewables.wind_farm_power (lib_wind L) i = Ok c /\ M_Renewables.c_data c = map Some (M_Grid.g_wind g)).
Proof.
  intros L wb h t o P B H N g x. subst N g x. apply set_up_inv in H as (k & k' & R & C & M). apply combination_parts in C as (C & _).
  destruct C as (_ & _ & _ & _ & _ & _ & _ & _ & _ & CF & _ & CG & _). destruct M as (w & air & water & i & _ & _ & _ & _ & _ & _ & _ & _ & _ & _ & _ & M).
  pose proof (C81_grid wb k P B R) as (A1 & _ & _ & A2 & _ & _ & A3 & A4 & A5 & A6 & A7 & A8 & A9).
  pose proof (C82_tariffs wb k P B R) as ((D1 & D2 & D3 & D4 & D5 & D6 & D7) & DW & _).
  pose proof (C82_wind_farm wb k P B R) as (W1 & W2 & W3 & W4 & W5). pose proof (C81_heating wb k P B R) as (_ & _ & _ & H1 & H2 & H3 & H4 & H5).
  assert (FL : forall q, flat_of k' = Ok q -> holds wb "Grid" "C" 9 q).
  { intros q E. unfold flat_of in E. rewrite CG, A2 in E. apply number_holds, E. }
  assert (VA : forall v, variable_of k' = Ok v -> Forall2 (fun dc p => fst p = fst dc /\ holds_down_to wb "Grid" (snd dc) 18 24 (snd p)) day_columns (fst v) /\ counts wb "Grid" "N" 42 (snd v)).
  { intros v E. unfold variable_of in E. rewrite CG, A3 in E. destruct (periods_of _) as [ps|] eqn:EP; cbn [bind] in E; [|discriminate].
    destruct (whole _) as [y|] eqn:EY; cbn [bind] in E; [|discriminate]. injection E as <-. cbn [fst snd]. split; [|apply whole_counts, EY].
    unfold periods_of in EP. cbn [weekdays mapM] in EP.
    destruct (numbers _ "Monday") as [l1|] eqn:E1; cbn [bind] in EP; [|discriminate]. destruct (numbers _ "Tuesday") as [l2|] eqn:E2; cbn [bind] in EP; [|discriminate].
    destruct (numbers _ "Wednesday") as [l3|] eqn:E3; cbn [bind] in EP; [|discriminate]. destruct (numbers _ "Thursday") as [l4|] eqn:E4; cbn [bind] in EP; [|discriminate].
    destruct (numbers _ "Friday") as [l5|] eqn:E5; cbn [bind] in EP; [|discriminate]. destruct (numbers _ "Saturday") as [l6|] eqn:E6; cbn [bind] in EP; [|discriminate].
    destruct (numbers _ "Sunday") as [l7|] eqn:E7; cbn [bind] in EP; [|discriminate]. apply Ok_inj in EP. rewrite <- EP.
    repeat (constructor; [split; [reflexivity|cbn [fst snd]; eapply numbers_down_to; eassumption]|]). constructor. }
  assert (MK : forall l p m, market_of k' = Ok (l, p, m) -> holds_down_to wb "Grid" "C" 12 (Z.to_nat 8760) l /\ holds wb "Grid" "G" 9 p /\ holds wb "Grid" "H" 9 m).
  { intros l p m E. unfold market_of in E. rewrite CG, A4, A5 in E. destruct (numbers _ _) as [l'|] eqn:E1; cbn [bind] in E; [|discriminate].
    destruct (number (xl wb "Grid" "G" 9)) as [p'|] eqn:E2; cbn [bind] in E; [|discriminate]. destruct (number (xl wb "Grid" "H" 9)) as [m'|] eqn:E3; cbn [bind] in E; [|discriminate].
    injection E as <- <- <-. split; [eapply numbers_down_to; eassumption|]. split; apply number_holds; assumption. }
  assert (BA : forall a b c d l, bands_of (lib_wind L) k' = Ok (a, b, c, d, l) ->
     holds wb "Grid" "J" 9 a /\ holds wb "Grid" "K" 9 b /\ holds wb "Grid" "L" 9 c /\ holds wb "Grid" "M" 9 d /\
     exists i c, farm_inputs wb i /\ M_Renewables.wind_farm_power (lib_wind L) i = Ok c /\ M_Renewables.c_data c = map Some l).
  { intros a b c d l E. unfold bands_of in E. rewrite CG, A6, A7, A8, A9 in E. destruct (number (xl wb "Grid" "J" 9)) as [a'|] eqn:E1; cbn [bind] in E; [|discriminate].
    destruct (number (xl wb "Grid" "K" 9)) as [b'|] eqn:E2; cbn [bind] in E; [|discriminate]. destruct (number (xl wb "Grid" "L" 9)) as [c'|] eqn:E3; cbn [bind] in E; [|discriminate].
    destruct (number (xl wb "Grid" "M" 9)) as [d'|] eqn:E4; cbn [bind] in E; [|discriminate]. destruct (farm_power _ _) as [l'|] eqn:E5; cbn [bind] in E; [|discriminate].
    injection E as <- <- <- <- <-. do 4 (split; [apply number_holds; assumption|]). unfold farm_power in E5. destruct (farm_of k') as [fi|] eqn:E6; cbn [bind] in E5; [|discriminate].
    destruct (M_Renewables.wind_farm_power _ fi) as [co|] eqn:E7; cbn [bind] in E5; [|discriminate]. exists fi, co. split; [|split; [exact E7|]].
    - unfold farm_of in E6. rewrite CF, H1, H2, H3, H4, H5 in E6. cbv zeta in E6. destruct (weather_rows _ false) as [wr|] eqn:E8; cbn [bind] in E6; [|discriminate].
      destruct (name _) as [n|] eqn:F1; cbn [bind] in E6; [|discriminate]. destruct (number (xl wb "Wind farm" "D" 15)) as [q1|] eqn:F2; cbn [bind] in E6; [|discriminate].
      destruct (number (xl wb "Wind farm" "E" 15)) as [q2|] eqn:F3; cbn [bind] in E6; [|discriminate]. destruct (number (xl wb "Wind farm" "F" 15)) as [q3|] eqn:F4; cbn [bind] in E6; [|discriminate].
      destruct (number (xl wb "Wind farm" "G" 15)) as [q4|] eqn:F5; cbn [bind] in E6; [|discriminate]. injection E6 as <-. unfold farm_inputs. cbn.
      split; [apply name_says, F1|]. do 3 (split; [apply number_holds; assumption|]). split; [exists q4; split; [apply number_holds, F5|reflexivity]|].
      eapply farm_ok; try eassumption. destruct B as (_ & _ & _ & _ & _ & _ & _ & B & _). exact (reaches_rows _ _ _ _ B).
    - clear - E5. revert l' E5. induction (M_Renewables.c_data co) as [|y l IH]; intros l' E; cbn [mapM] in E; [injection E as <-; reflexivity|].
      destruct y as [q|]; cbn [some_number bind] in E; [|discriminate]. destruct (mapM some_number l) as [l0|]; cbn [bind] in E; [|discriminate].
      injection E as <-. cbn [map]. rewrite (IH l0 eq_refl). reflexivity. }
  unfold grid_of in M. rewrite CG, A1 in M. destruct (name (xl wb "Grid" "D" 5)) as [x|] eqn:EX; cbn [bind] in M; [|discriminate].
  pose proof (name_says _ _ _ _ _ EX) as SX. clear EX.
  assert (NI : forall (s : string) l, existsb (String.eqb s) l = false -> ~ In s l).
  { intros s l E I. assert (existsb (String.eqb s) l = true) by (apply existsb_exists; exists s; split; [exact I|apply String.eqb_refl]). congruence. }
  destruct (String.eqb x "Flat rates") eqn:N1.
  { apply String.eqb_eq in N1. subst x. destruct (flat_of k') as [q|] eqn:E1; cbn [bind] in M; [|discriminate]. injection M as <-. cbn [make_grid no_periods no_market no_bands M_Grid.g_tariff M_Grid.g_flat].
    split; [exact SX|]. split; [cbn; tauto|]. split; [intros _; apply FL; reflexivity|]. split; [|split]; intro I; exfalso; revert I; apply NI; reflexivity. }
  destruct (String.eqb x "Variable periods") eqn:N2.
  { apply String.eqb_eq in N2. subst x. destruct (variable_of k') as [q|] eqn:E1; cbn [bind] in M; [|discriminate]. apply Ok_inj in M. rewrite <- M. cbn [make_grid no_periods no_market no_bands M_Grid.g_tariff M_Grid.g_periods M_Grid.g_year].
    split; [exact SX|]. split; [cbn; tauto|]. split; [intro I; exfalso; revert I; apply NI; reflexivity|]. split; [intros _; apply VA; reflexivity|].
    split; intro I; exfalso; revert I; apply NI; reflexivity. }
  destruct (String.eqb x "Time of use - WM") eqn:N3.
  { apply String.eqb_eq in N3. subst x. destruct (market_of k') as [[[l p] m]|] eqn:E1; cbn [bind] in M; [|discriminate]. apply Ok_inj in M. rewrite <- M. cbn [make_grid no_periods no_market no_bands M_Grid.g_tariff M_Grid.g_market M_Grid.g_premium M_Grid.g_maximum].
    split; [exact SX|]. split; [cbn; tauto|]. split; [intro I; exfalso; revert I; apply NI; reflexivity|]. split; [intro I; exfalso; revert I; apply NI; reflexivity|].
    split; [intros _; apply MK; reflexivity|]. intro I; exfalso; revert I; apply NI; reflexivity. }
  destruct (String.eqb x "Time of use - PPA + FR") eqn:N4.
  { apply String.eqb_eq in N4. subst x. destruct (flat_of k') as [q|] eqn:E1; cbn [bind] in M; [|discriminate]. destruct (bands_of _ k') as [[[[[a b] c] d] l]|] eqn:E2; cbn [bind] in M; [|discriminate].
    apply Ok_inj in M. rewrite <- M. cbn [make_grid no_periods no_market no_bands M_Grid.g_tariff M_Grid.g_flat M_Grid.g_lower_percent M_Grid.g_higher_percent M_Grid.g_lower_penalty M_Grid.g_higher_discount M_Grid.g_wind].
    split; [exact SX|]. split; [cbn; tauto|]. split; [intros _; apply FL; reflexivity|]. split; [intro I; exfalso; revert I; apply NI; reflexivity|].
    split; [intro I; exfalso; revert I; apply NI; reflexivity|]. intros _. apply BA. reflexivity. }
  destruct (String.eqb x "Time of use - PPA + WM") eqn:N5.
  { apply String.eqb_eq in N5. subst x. destruct (market_of k') as [[[l0 p] m]|] eqn:E1; cbn [bind] in M; [|discriminate]. destruct (bands_of _ k') as [[[[[a b] c] d] l]|] eqn:E2; cbn [bind] in M; [|discriminate].
    apply Ok_inj in M. rewrite <- M. cbn [make_grid no_periods no_market no_bands M_Grid.g_tariff M_Grid.g_market M_Grid.g_premium M_Grid.g_maximum M_Grid.g_lower_percent M_Grid.g_higher_percent M_Grid.g_lower_penalty M_Grid.g_higher_discount M_Grid.g_wind].
    split; [exact SX|]. split; [cbn; tauto|]. split; [intro I; exfalso; revert I; apply NI; reflexivity|]. split; [intro I; exfalso; revert I; apply NI; reflexivity|].
    split; [intros _; apply MK; reflexivity|]. intros _. apply BA. reflexivity. }
  destruct (String.eqb x "Time of use - PPA + VP") eqn:N6; [|discriminate]. apply String.eqb_eq in N6. subst x.
  destruct (variable_of k') as [q|] eqn:E1; cbn [bind] in M; [|discriminate]. destruct (bands_of _ k') as [[[[[a b] c] d] l]|] eqn:E2; cbn [bind] in M; [|discriminate].
  apply Ok_inj in M. rewrite <- M. cbn [make_grid no_periods no_market no_bands M_Grid.g_tariff M_Grid.g_periods M_Grid.g_year M_Grid.g_lower_percent M_Grid.g_higher_percent M_Grid.g_lower_penalty M_Grid.g_higher_discount M_Grid.g_wind].
  split; [exact SX|]. split; [cbn; tauto|]. split; [intro I; exfalso; revert I; apply NI; reflexivity|]. split; [intros _; apply VA; reflexivity|].
  split; [intro I; exfalso; revert I; apply NI; reflexivity|]. intros _. apply BA. reflexivity.
Qed.
Print Assumptions C85_tariff.

(** ** The heat pump *)
Lemma hollow_data tables : regression_data (map (fun x => (scaled_by None (fst x), snd x)) tables) = [].
Proof.
  unfold regression_data.
  assert (D : forall r, In r (flat_map (fun t => with_flow (fst t) (snd t)) (map (fun x => (scaled_by None (fst x), snd x)) tables)) -> t_duty (fst r) = None).
  { intros r I. apply in_flat_map in I as (x & Ix & I). apply in_map_iff in Ix as ([rows flow] & <- & _). cbn [fst snd] in I. unfold with_flow in I.
    apply in_map_iff in I as (j & <- & _). cbn [fst]. unfold scaled_by. clear. revert j. induction rows as [|x rows IH]; intros [|j]; try reflexivity. cbn [map nth]. apply IH. }
  induction (flat_map _ _) as [|r l IH]; [reflexivity|]. cbn [flat_map]. rewrite IH by (intros r' I; apply D; right; exact I). rewrite app_nil_r.
  unfold M_Regression.complete_row. rewrite (D r (or_introl eq_refl)). destruct (t_ambient (fst r)), (t_COSP (fst r)); reflexivity.
Qed.
Lemma standard_parts ols wb k h t k' s : plain wb -> big_enough wb -> read_inputs wb = Ok k -> combination h t k = Ok k' -> standard_of ols (c_heat_pump k') = Ok s ->
  exists q ratio tables r, width wb "Heat pump" = 19 /\ stored_tables (c_heat_pump k) = Ok tables /\ holds wb "Heat pump" "D" 5 q /\ size_factor h q ratio /\
    train_points ols (map (scale_point ratio) (regression_data tables)) = Ok r /\ s = standard_oracle r.
Proof.
  intros P B R C S. apply combination_parts in C as (_ & _ & _ & _ & _ & (T1 & T2 & T3 & T4) & cap & ratio & FC & DR & S1 & S2 & S3 & S4).
  destruct (C81_heat_pump wb k P B R) as ((_ & _ & EC & _) & _). rewrite EC in FC. injection FC as <-.
  pose proof (heat_pump_distinct wb k R) as (_ & X1 & X2 & X3 & X4). unfold standard_of, tables_of in S. rewrite T1, T2, T3, T4 in S.
  rewrite (scaled_table _ _ _ _ X1 S1), (scaled_table _ _ _ _ X2 S2), (scaled_table _ _ _ _ X3 S3), (scaled_table _ _ _ _ X4 S4) in S.
  destruct (regression_table (hp_temp1 (c_heat_pump k)) (hp_reg1 (c_heat_pump k))) as [a|] eqn:E1; cbn [bind] in S; [|discriminate].
  destruct (regression_table (hp_temp2 (c_heat_pump k)) (hp_reg2 (c_heat_pump k))) as [b|] eqn:E2; cbn [bind] in S; [|discriminate].
  destruct (regression_table (hp_temp3 (c_heat_pump k)) (hp_reg3 (c_heat_pump k))) as [c|] eqn:E3; cbn [bind] in S; [|discriminate].
  destruct (regression_table (hp_temp4 (c_heat_pump k)) (hp_reg4 (c_heat_pump k))) as [d|] eqn:E4; cbn [bind] in S; [|discriminate].
  assert (ST : stored_tables (c_heat_pump k) = Ok [a; b; c; d]).
  { unfold stored_tables. cbn [mapM fst snd]. rewrite E1. cbn [bind]. rewrite E2. cbn [bind]. rewrite E3. cbn [bind]. rewrite E4. reflexivity. }
  change [(scaled_by ratio (fst a), snd a); (scaled_by ratio (fst b), snd b); (scaled_by ratio (fst c), snd c); (scaled_by ratio (fst d), snd d)]
    with (map (fun x => (scaled_by ratio (fst x), snd x)) [a; b; c; d]) in S.
  assert (W : width wb "Heat pump" = 19).
  { destruct (Nat.lt_ge_cases 19 (width wb "Heat pump")) as [Lt|Ge]; [rewrite (C84_extra_column wb k P B R Lt) in ST; discriminate|].
    destruct B as (_ & _ & _ & _ & _ & _ & _ & _ & _ & _ & _ & _ & (sh & W & Wc & _)). unfold width in *. rewrite W in *. change (letter "S") with 18 in Wc. lia. }
  destruct ratio as [ra|].
  2: { rewrite hollow_data in S. discriminate. }
  change (map (fun x => (scaled_by (Some ra) (fst x), snd x)) [a; b; c; d]) with (scale_tables ra [a; b; c; d]) in S. rewrite regression_data_scale in S.
  destruct (train_points ols (map (scale_point ra) (regression_data [a; b; c; d]))) as [r|] eqn:ET; cbn [bind] in S; [|discriminate]. injection S as <-.
  unfold duty_ratio in DR. destruct (xl wb "Heat pump" "D" 5) as [[x|q]|] eqn:ED; try discriminate. injection DR as <-.
  exists q, (if qeq q 0 then 0%Q else round2 (inject_Z h / q)), [a; b; c; d], r. split; [exact W|]. split; [exact ST|]. split; [exact ED|]. split; [|split; [exact ET|reflexivity]].
  split; intro Z; destruct (qeq_spec q 0); try reflexivity; contradiction.
Qed.
(** A result of the tables of the sheet *)
Definition test_result (wb : workbook) (p : test_point) : Prop :=
  (exists r, (27 <= r <= 34) /\ (tested_at wb "C" "D" "E" "F" r "D" 23 p \/ tested_at wb "G" "H" "I" "J" r "H" 23 p)) \/
  (exists r, (41 <= r <= 47) /\ (tested_at wb "C" "D" "E" "F" r "D" 36 p \/ tested_at wb "G" "H" "I" "J" r "H" 36 p)).
(** The model of each approach *)
Definition model_of (L : libraries) (wb : workbook) (h : Z) (ap : model_name) (m : perf_model) : Prop := let N := "Heat pump"%string in
  match ap with
  | SIMPLE => exists c, holds wb N "D" 12 c /\ m = MSimple c
  | LORENTZ => exists s, m = MLorentz s /\ holds wb N "D" 15 (l_cop s) /\ holds wb N "D" 16 (l_flow s) /\ holds wb N "D" 17 (l_return s) /\
                         holds wb N "D" 18 (l_amb_in s) /\ holds wb N "D" 19 (l_amb_out s) /\ holds wb N "D" 20 (l_elec_capacity s)
  | GENERIC => False
  | STANDARD => exists capacity ratio pts r, holds wb N "D" 5 capacity /\ size_factor h capacity ratio /\
                  (forall p, In p pts <-> exists p0, test_result wb p0 /\
                     p = {| p_ambient := p_ambient p0; p_flow := p_flow p0; p_COSP := p_COSP p0; p_duty := p_duty p0 * ratio |}) /\
                  train_points (lib_fit L) pts = Ok r /\ m = MStandard (standard_oracle r)
  end.
Theorem C85_heat_pump : forall L wb h t o, plain wb -> big_enough wb -> set_up L wb h t = Ok o -> let N := "Heat pump"%string in let p := o_heat_pump o in
  chooses hp_kinds hp_kind_value wb N "D" 3 (h_type p) /\ h_capacity p = inject_Z h /\
  holds wb N "D" 6 (h_ambient_delta_t p) /\ holds wb N "D" 7 (h_minimum_runtime p) /\ holds wb N "D" 8 (h_minimum_output p) /\
  chooses data_inputs data_input_value wb N "D" 9 (h_data_input p) /\
  (exists l, h_flow p = PdSeries l /\ holds_down wb "Demand input" "G" 6 l /\ Z.of_nat (length l) = 8760%Z) /\
  (exists q, h_return p = NpArray (repeat q ANNUAL_HOURS) /\ holds wb "Demand input" "I" 6 q) /\
  holds_down wb "Weather resources" "K" 6 (h_air p) /\ holds_down wb "Weather resources" "M" 6 (h_water p) /\ Z.of_nat (length (h_air p)) = 8760%Z /\
  exists ap, chooses model_names model_name_value wb N "D" 4 ap /\ model_of L wb h ap (h_model p).
Proof.
  intros L wb h t o P B H N p. subst N p. apply set_up_inv in H as (k & k' & R & C & M). pose proof C as C0.
  apply combination_parts in C as ((_ & CR & CT & CD & _) & _ & CB & CS & CL & _).
  destruct M as (w & air & water & i & _ & MA & MW & _ & _ & _ & _ & _ & M & _). rewrite CR in MA, MW.
  pose proof (C82_weather wb k P B R) as (_ & _ & _ & _ & _ & _ & _ & SA & _ & SW). pose proof (numbers_down _ _ _ _ _ _ _ SA MA) as DA. pose proof (numbers_down _ _ _ _ _ _ _ SW MW) as DW.
  pose proof (C82_demand wb k P B R) as (_ & _ & _ & SF). pose proof (C81_heating wb k P B R) as (_ & HR & _).
  pose proof (C81_heat_pump wb k P B R) as ((A1 & A2 & A3 & A4 & A5 & A6 & A7) & _ & HS & (L1 & L2 & L3 & L4 & L5 & L6)).
  pose proof (proj1 (heat_pump_distinct wb k R)) as D. unfold heat_pump_of in M. rewrite CB, CD, CT, HR in M. cbv zeta in M.
  unfold basics_type, basics_approach, basics_data_input, enum_of, first_number in M.
  rewrite (set_first_other _ "capacity" "heat_pump_type" _ D), A1, (set_first_same _ _ _ _ A3), (set_first_other _ "capacity" "modelling_approach" _ D), A2,
    (set_first_other _ "capacity" "ambient_delta_t" _ D), A4, (set_first_other _ "capacity" "minimum_runtime" _ D), A5,
    (set_first_other _ "capacity" "data_input" _ D), A7, (set_first_other _ "capacity" "minimum_output" _ D), A6 in M by discriminate.
  cbn [bind number] in M.
  destruct (s <- text_of (xl wb "Heat pump" "D" 3);; read_enum hp_kinds hp_kind_value s) as [ty|] eqn:E1; cbn [bind] in M; [|discriminate].
  destruct (s <- text_of (xl wb "Heat pump" "D" 4);; read_enum model_names model_name_value s) as [ap|] eqn:E2; cbn [bind] in M; [|discriminate].
  destruct (number (xl wb "Heat pump" "D" 6)) as [dt|] eqn:E3; cbn [bind] in M; [|discriminate].
  destruct (number (xl wb "Heat pump" "D" 7)) as [rt|] eqn:E4; cbn [bind] in M; [|discriminate].
  destruct (s <- text_of (xl wb "Heat pump" "D" 9);; read_enum data_inputs data_input_value s) as [di|] eqn:E5; cbn [bind] in M; [|discriminate].
  destruct (number (xl wb "Heat pump" "D" 8)) as [mo|] eqn:E6; cbn [bind] in M; [|discriminate].
  destruct (numbers (c_demand k) "temp_source") as [src|] eqn:E7; cbn [bind] in M; [|discriminate].
  destruct (number (xl wb "Demand input" "I" 6)) as [re|] eqn:E8; cbn [bind] in M; [|discriminate].
  pose proof (numbers_down _ _ _ _ _ _ _ SF E7) as DS.
  assert (MK : exists sm lo st md, make_heat_pump ty ap (inject_Z h) dt rt mo di (PdSeries src) (Scalar re) air water sm lo st = Ok (o_heat_pump o) /\
               make_model ap sm lo st = Ok md /\ model_of L wb h ap md).
  { destruct ap.
    - rewrite CS, HS in M. destruct (number (xl wb "Heat pump" "D" 12)) as [c|] eqn:EC; cbn [bind] in M; [|discriminate].
      exists (Some c), None, None, (MSimple c). split; [exact M|]. split; [reflexivity|]. exists c. split; [apply number_holds, EC|reflexivity].
    - unfold lorentz_of in M. rewrite CL in M. destruct (first_of (hp_lorentz (c_heat_pump k)) "COP") eqn:F1; cbn [bind] in M; [|discriminate].
      injection L1 as ->. rewrite L2, L3, L4, L5, L6 in M. cbn [bind] in M.
      destruct (number (xl wb "Heat pump" "D" 15)) as [q1|] eqn:N1; cbn [bind] in M; [|discriminate]. destruct (number (xl wb "Heat pump" "D" 16)) as [q2|] eqn:N2; cbn [bind] in M; [|discriminate].
      destruct (number (xl wb "Heat pump" "D" 17)) as [q3|] eqn:N3; cbn [bind] in M; [|discriminate]. destruct (number (xl wb "Heat pump" "D" 18)) as [q4|] eqn:N4; cbn [bind] in M; [|discriminate].
      destruct (number (xl wb "Heat pump" "D" 19)) as [q5|] eqn:N5; cbn [bind] in M; [|discriminate]. destruct (number (xl wb "Heat pump" "D" 20)) as [q6|] eqn:N6; cbn [bind] in M; [|discriminate].
      eexists None, (Some _), None, (MLorentz _). split; [exact M|]. split; [reflexivity|]. eexists. split; [reflexivity|]. cbn.
      repeat match goal with |- _ /\ _ => split end; apply number_holds; assumption.
    - discriminate.
    - destruct (standard_of _ _) as [s|] eqn:ES; cbn [bind] in M; [|discriminate]. exists None, None, (Some s), (MStandard s). split; [exact M|]. split; [reflexivity|].
      destruct (standard_parts _ wb k h t k' s P B R C0 ES) as (q & ra & tables & r & W & ST & Hq & SZ & TR & ->).
      exists q, ra, (map (scale_point ra) (regression_data tables)), r. split; [exact Hq|]. split; [exact SZ|]. split; [|split; [exact TR|reflexivity]].
      destruct (C84_used wb k P B R W) as (tables' & ST' & U). rewrite ST in ST'. injection ST' as <-. intro p. rewrite in_map_iff. split.
      + intros (p0 & <- & I). exists p0. split; [apply U, I|reflexivity].
      + intros (p0 & T & ->). exists p0. split; [reflexivity|apply U, T]. }
  destruct MK as (sm & lo & st & md & MM & MD & MO). unfold make_heat_pump in MM. rewrite check_full_year_scalar in MM.
  destruct (Z.eq_dec (Z.of_nat (length src)) 8760) as [LS|LS]; [|rewrite (proj2 (check_full_year_series src) LS) in MM; discriminate].
  rewrite (proj1 (check_full_year_series src) LS) in MM. cbn [bind] in MM.
  destruct (Z.eq_dec (Z.of_nat (length air)) 8760) as [LA|LA]; [|rewrite (proj2 (check_full_year_series air) LA) in MM; discriminate].
  rewrite (proj1 (check_full_year_series air) LA) in MM. cbn [bind] in MM. rewrite MD in MM. cbn [bind] in MM. apply Ok_inj in MM. rewrite <- MM.
  cbn [h_type h_capacity h_ambient_delta_t h_minimum_runtime h_minimum_output h_data_input h_flow h_return h_air h_water h_model].
  split; [apply chooses_ok, E1|]. split; [reflexivity|]. split; [apply number_holds, E3|]. split; [apply number_holds, E4|]. split; [apply number_holds, E6|].
  split; [apply chooses_ok, E5|]. split; [exists src; split; [reflexivity|split; [exact DS|exact LS]]|]. split; [exists re; split; [reflexivity|apply number_holds, E8]|].
  split; [exact DA|]. split; [exact DW|]. split; [exact LA|]. exists ap. split; [apply chooses_ok, E2|exact MO].
Qed.
Print Assumptions C85_heat_pump.

(** A workbook that is filled in can be simulated, for every pair of sizes. *)
Definition filled_in (L : libraries) (wb : workbook) : Prop :=
  plain wb /\ big_enough wb /\ readable wb /\ weather_filled wb /\ demand_filled wb /\
  PV_filled_in wb (fun m => lib_cec L (M_Renewables.clean_name m) <> None \/ lib_sandia L (M_Renewables.clean_name m) <> None) /\
  lib_inverters L "iPower__SHO_4_8__240V_" <> None /\ wind_filled wb /\ battery_filled wb /\ backup_filled wb /\ tank_filled wb /\
  heat_pump_filled wb (width wb "Heat pump" = 19 /\ exists p, test_result wb p) /\ tariff_filled wb.
Ltac isin := repeat first [left; reflexivity | right].
Ltac have_number H q := destruct (numeric_number _ _ _ _ H) as [q ?].
Ltac have_name H q := destruct (worded_name _ _ _ _ H) as [q ?].
Ltac use := repeat match goal with E : ?x = Ok _ |- context [bind ?x _] => rewrite E; cbn [bind] end.
Theorem C85_completes : forall L wb h t, filled_in L wb -> exists o, set_up L wb h t = Ok o.
Proof.
  intros L wb h t (P & B & RD & (WL & WF) & (DL & DF & DR) & ((lr & LF & LC & LD & LE & LF') & (sr & sm & SF & SC & SK & SD & SE & SF' & SG & SH)) & IV
    & ((dr & DbF & DbC & DbD & DbE & DbF') & (ur & UF & UC & UD & UE & UF' & UG) & PC) & (br & BF & BN) & (XE & XN & XF) & (T6 & T7 & (tz & T8) & TN)
    & ((ty & HT) & (di & HD) & HN & HW & ap & HA & HM) & TA).
  destruct (C81_completes wb P B RD) as [k R].
  (* the combination *)
  pose proof (C81_heat_pump wb k P B R) as ((A1 & A2 & A3 & A4 & A5 & A6 & A7) & _ & HS & (L1 & L2 & L3 & L4 & L5 & L6)).
  have_number (HN 5 ltac:(isin)) cap. rename H into Ecap.
  assert (CO : exists k', combination h t k = Ok k').
  { unfold combination. rewrite A3. cbn [bind]. apply number_ok in Ecap. rewrite Ecap. cbn [duty_ratio bind].
    pose proof R as R0. apply read_inputs_parts in R0 as (_ & _ & _ & _ & _ & _ & _ & _ & _ & _ & _ & _ & H).
    pose proof B as (_ & _ & _ & _ & _ & _ & _ & _ & _ & _ & _ & _ & B13).
    destruct (heat_pump_ok wb P B13) as (hp & E & _ & _ & _ & _ & _ & _ & (K1 & K2 & K3 & K4)). rewrite E in H. injection H as <-.
    set (ra := Some (if qeq cap 0 then 0%Q else round2 (inject_Z h / cap))).
    destruct (scale_total wb _ _ _ _ ra K1) as [f1 S1]; [intros r I; apply in_seq in I; apply HW; [isin|lia]|].
    destruct (scale_total wb _ _ _ _ ra K2) as [f2 S2]; [intros r I; apply in_seq in I; apply HW; [isin|lia]|].
    destruct (scale_total wb _ _ _ _ ra K3) as [f3 S3]; [intros r I; apply in_seq in I; apply HW; [isin|lia]|].
    destruct (scale_total wb _ _ _ _ ra K4) as [f4 S4]; [intros r I; apply in_seq in I; apply HW; [isin|lia]|].
    rewrite S1. cbn [bind]. rewrite S2. cbn [bind]. rewrite S3. cbn [bind]. rewrite S4. cbn [bind]. eexists. reflexivity. }
  destruct CO as [k' C]. unfold set_up. rewrite R. cbn [bind]. rewrite C. cbn [bind]. pose proof C as C0.
  apply combination_parts in C as ((_ & CR & CT & CD & CL & CS & CDb & CU & CC & CF & CB & CG & CA) & CK & CH & CHs & CHl & (CT1 & CT2 & CT3 & CT4) & cap' & ra & EC & ER & RS1 & RS2 & RS3 & RS4).
  unfold init.
  (* weather *)
  pose proof (C82_weather wb k P B R) as (S1 & S2 & S3 & S4 & S5 & S6 & S7 & S8 & _ & S10).
  assert (AR : forall r, rows_of wb "Weather resources" 6 r -> numeric wb "Weather resources" "K" r) by (intros r I; apply WF, I).
  assert (WR : forall r, rows_of wb "Weather resources" 6 r -> numeric wb "Weather resources" "M" r) by (intros r I; apply WF, I).
  destruct (numbers_total _ _ _ _ _ _ S8 AR) as (air & Ea & La). destruct (numbers_total _ _ _ _ _ _ S10 WR) as (water & Ew & Lw).
  assert (GA : exists w, weather_rows (c_resources k) true = Ok w).
  { unfold weather_rows.
    destruct (gaps_total _ _ _ _ _ _ S1) as [g1 ->]; [intros r I; apply WF; [exact I|isin]|]. cbn [bind].
    destruct (gaps_total _ _ _ _ _ _ S2) as [g2 ->]; [intros r I; apply WF; [exact I|isin]|]. cbn [bind].
    destruct (gaps_total _ _ _ _ _ _ S3) as [g3 ->]; [intros r I; apply WF; [exact I|isin]|]. cbn [bind].
    destruct (gaps_total _ _ _ _ _ _ S4) as [g4 ->]; [intros r I; apply WF; [exact I|isin]|]. cbn [bind].
    destruct (gaps_total _ _ _ _ _ _ S5) as [g5 ->]; [intros r I; apply WF; [exact I|isin]|]. cbn [bind].
    destruct (gaps_total _ _ _ _ _ _ S6) as [g6 ->]; [intros r I; apply WF; [exact I|isin]|]. cbn [bind].
    destruct (gaps_total _ _ _ _ _ _ S7) as [g7 ->]; [intros r I; apply WF; [exact I|isin]|]. cbn [bind].
    destruct (gaps_total _ _ _ _ _ _ S8) as [g8 ->]; [intros r I; apply numeric_wordless, AR, I|]. cbn [bind]. eexists. reflexivity. }
  destruct GA as [w Ewr]. rewrite CR, Ewr. cbn [bind]. rewrite Ea. cbn [bind]. rewrite Ew. cbn [bind].
  (* turbines *)
  pose proof (C83_turbines wb k P B R) as [TD TU].
  assert (TB : forall f r c1 c2 c3 c4, list_first f (Named "turbine_name") = Ok (xl wb "Wind inputs" c1 r) -> list_first f (Named "hub_height") = Ok (xl wb "Wind inputs" c2 r) ->
    list_first f (Named "rotor_diameter") = Ok (xl wb "Wind inputs" c3 r) -> list_first f (Named "multiplier") = Ok (xl wb "Wind inputs" c4 r) ->
    worded wb "Wind inputs" c1 r -> numeric wb "Wind inputs" c2 r -> numeric wb "Wind inputs" c3 r -> numeric wb "Wind inputs" c4 r -> exists x, turbine_of f = Ok x).
  { intros f r c1 c2 c3 c4 F1 F2 F3 F4 N1 N2 N3 N4. have_name N1 q1. have_number N2 q2. have_number N3 q3. have_number N4 q4.
    unfold turbine_of, first_listed. use. eexists. reflexivity. }
  destruct (TD dr DbF) as (D1 & D2 & D3 & D4). destruct (TB _ _ _ _ _ _ D1 D2 D3 D4 DbC DbD DbE DbF') as [[[[dn dh] dro] dm] ETD].
  destruct (TU ur UF) as (U1 & U2 & U3 & U4 & U5). destruct (TB _ _ _ _ _ _ U1 U2 U3 U4 UC UD UE UF') as [[[[un uh] uro] um] ETU].
  destruct (C83_power_curve wb k P B R) as (rows & PKV & PKW & _ & IR).
  assert (EPV : exists l, numbers (c_power_curve k) "value" = Ok l).
  { unfold numbers. rewrite PKV. cbn [bind]. apply mapM_total. intros x I. apply in_map_iff in I as (r & <- & I). apply IR in I as [I1 I2]. apply numeric_number, (PC r I1 I2). }
  assert (EPW : exists l, numbers (c_power_curve k) "wind_speed" = Ok l).
  { unfold numbers. rewrite PKW. cbn [bind]. apply mapM_total. intros x I. apply in_map_iff in I as (r & <- & I). apply IR in I as [I1 I2]. apply numeric_number, (PC r I1 I2). }
  destruct EPV as [pv EPV], EPW as [pw EPW]. have_number UG ug. rename H into EUG.
  unfold user_turbine. rewrite CC, CU, EPV. cbn [bind]. rewrite EPW. cbn [bind]. rewrite ETU. cbn [bind]. unfold first_listed at 1. rewrite U5. cbn [bind]. rewrite EUG. cbn [bind].
  unfold database_turbine. rewrite CDb, ETD. cbn [bind].
  (* PV *)
  pose proof (C83_PV wb k P B R) as [TL TS]. destruct (TL lr LF) as (G1 & G2 & G3 & G4). destruct (TS sr SF) as (M1 & M2 & M3 & M4 & M5 & M6).
  have_name LC llc. have_number LD lld. have_number LE lle. have_number LF' llf. have_name SD ssd. have_number SE sse. have_number SF' ssf. have_number SG ssg. have_name SH shh.
  pose proof (says_name _ _ _ _ _ SC) as ESC.
  assert (EPI : exists i, pv_of k' w = Ok i /\ M_Renewables.pi_module_name i = sm).
  { unfold pv_of, first_listed. rewrite CL, CS. cbv zeta. use. eexists. split; reflexivity. }
  destruct EPI as (i & -> & EI). cbn [bind].
  assert (ENP : exists p, M_Renewables.new_pv (lib_cec L) (lib_sandia L) (lib_inverters L) i = Ok p).
  { unfold M_Renewables.new_pv. rewrite EI. cbv zeta. destruct (lib_inverters L _) as [v|]; [|contradiction IV; reflexivity].
    destruct (lib_cec L _) as [m|]; [cbn [bind]; eexists; reflexivity|]. destruct (lib_sandia L _) as [m|]; [cbn [bind]; eexists; reflexivity|]. destruct SK as [SK|SK]; contradiction SK; reflexivity. }
  destruct ENP as [p ->]. cbn [bind].
  (* tank *)
  pose proof (C81_tank wb k P B R) as (K1 & K2 & K3 & K4 & K5 & K6 & K7 & K8 & K9 & K10 & K11 & K12 & K13 & K14 & K15).
  pose proof (tank_distinct wb k R) as KD.
  assert (ET : exists T, tank_of (lib_width L) (lib_pi L) (lib_cp L) k' air = Ok T).
  { unfold tank_of. rewrite CK. cbv zeta. rewrite (set_first_same _ _ _ _ K1). cbn [bind].
    rewrite (set_first_other _ "capacity" "insulation" _ KD), K2 by discriminate. cbn [bind].
    rewrite (set_first_other _ "capacity" "location" _ KD), K3 by discriminate. cbn [bind].
    rewrite (set_first_other _ "capacity" "number_nodes" _ KD), K4 by discriminate. cbn [bind].
    rewrite (set_first_other _ "capacity" "height" _ KD), K5 by discriminate. cbn [bind].
    rewrite (set_first_other _ "capacity" "width" _ KD), K6 by discriminate. cbn [bind].
    rewrite (set_first_other _ "capacity" "insulation_thickness" _ KD), K7 by discriminate. cbn [bind].
    rewrite (set_first_other _ "capacity" "tank_opening" _ KD), K8 by discriminate. cbn [bind].
    rewrite (set_first_other _ "capacity" "tank_opening_diameter" _ KD), K9 by discriminate. cbn [bind].
    rewrite (set_first_other _ "capacity" "uninsulated_connections" _ KD), K10 by discriminate. cbn [bind].
    rewrite (set_first_other _ "capacity" "uninsulated_connections_diameter" _ KD), K11 by discriminate. cbn [bind].
    rewrite (set_first_other _ "capacity" "insulated_connections" _ KD), K12 by discriminate. cbn [bind].
    rewrite (set_first_other _ "capacity" "insulated_connections_diameter" _ KD), K13 by discriminate. cbn [bind].
    rewrite (set_first_other _ "capacity" "insulation_factor" _ KD), K14 by discriminate. cbn [bind].
    rewrite (set_first_other _ "capacity" "overall_factor" _ KD), K15 by discriminate. cbn [bind].
    change (number (Some (Number (inject_Z t)))) with (Ok (inject_Z t)). cbn [bind].
    have_name T6 t6. have_name T7 t7. destruct (counts_whole _ _ _ _ _ T8) as [t8 ?].
    have_number (TN 14 ltac:(isin)) q1. have_number (TN 15 ltac:(isin)) q2. have_number (TN 16 ltac:(isin)) q3. have_number (TN 17 ltac:(isin)) q4.
    have_number (TN 18 ltac:(isin)) q5. have_number (TN 19 ltac:(isin)) q6. have_number (TN 22 ltac:(isin)) q7. have_number (TN 23 ltac:(isin)) q8.
    use. eexists. reflexivity. }
  destruct ET as [T ->]. cbn [bind].
  (* heat pump *)
  pose proof (C82_demand wb k P B R) as (_ & _ & _ & SFl). pose proof (C81_heating wb k P B R) as (_ & HR & _ & FN1 & FN2 & FN3 & FN4 & FN5).
  destruct (numbers_total _ _ _ _ _ _ SFl DF) as (src & Esrc & Lsrc). have_number DR re. rename H into Ere.
  pose proof (proj1 (heat_pump_distinct wb k R)) as HPD.
  assert (EH : exists HP, heat_pump_of (lib_fit L) k' air water = Ok HP).
  { unfold heat_pump_of. rewrite CH, CD, CT, HR. cbv zeta. unfold basics_type, basics_approach, basics_data_input, enum_of, first_number.
    rewrite (set_first_other _ "capacity" "heat_pump_type" _ HPD), A1, (set_first_same _ _ _ _ A3), (set_first_other _ "capacity" "modelling_approach" _ HPD), A2,
      (set_first_other _ "capacity" "ambient_delta_t" _ HPD), A4, (set_first_other _ "capacity" "minimum_runtime" _ HPD), A5,
      (set_first_other _ "capacity" "data_input" _ HPD), A7, (set_first_other _ "capacity" "minimum_output" _ HPD), A6 by discriminate.
    assert (HT' : (s <- text_of (xl wb "Heat pump" "D" 3);; read_enum hp_kinds hp_kind_value s) = Ok ty).
    { apply chooses_read; [|exact HT]. intros [] [] _ _ E; try reflexivity; discriminate E. }
    assert (HA' : (s <- text_of (xl wb "Heat pump" "D" 4);; read_enum model_names model_name_value s) = Ok ap).
    { apply chooses_read; [|exact HA]. intros [] [] _ _ E; try reflexivity; discriminate E. }
    assert (HD' : (s <- text_of (xl wb "Heat pump" "D" 9);; read_enum data_inputs data_input_value s) = Ok di).
    { apply chooses_read; [|exact HD]. intros [] [] _ _ E; try reflexivity; discriminate E. }
    cbn [bind]. rewrite HT'. cbn [bind number]. rewrite HA'. cbn [bind].
    have_number (HN 6 ltac:(isin)) dt. have_number (HN 7 ltac:(isin)) rt. have_number (HN 8 ltac:(isin)) mo. use.
    assert (MK : forall sm lo st md, make_model ap sm lo st = Ok md -> exists HP, make_heat_pump ty ap (inject_Z h) dt rt mo di (PdSeries src) (Scalar re) air water sm lo st = Ok HP).
    { intros s0 l0 st0 md E. unfold make_heat_pump. rewrite check_full_year_scalar.
      rewrite (proj1 (check_full_year_series src)) by (rewrite Lsrc; lia). cbn [bind]. rewrite (proj1 (check_full_year_series air)) by (rewrite La; lia). cbn [bind].
      rewrite E. cbn [bind]. eexists. reflexivity. }
    destruct ap.
    - have_number HM c. rewrite CHs, HS. use. eapply MK. reflexivity.
    - unfold lorentz_of. rewrite CHl. rewrite L1. cbn [bind]. rewrite L2. cbn [bind]. rewrite L3. cbn [bind]. rewrite L4. cbn [bind]. rewrite L5. cbn [bind]. rewrite L6. cbn [bind].
      have_number (HM 15 ltac:(isin)) q1. have_number (HM 16 ltac:(isin)) q2. have_number (HM 17 ltac:(isin)) q3. have_number (HM 18 ltac:(isin)) q4.
      have_number (HM 19 ltac:(isin)) q5. have_number (HM 20 ltac:(isin)) q6. use. eapply MK. reflexivity.
    - contradiction.
    - destruct HM as (HW19 & p0 & TP).
      destruct (C84_used wb k P B R HW19) as (tables & ST & U).
      assert (ES : exists s, standard_of (lib_fit L) (c_heat_pump k') = Ok s).
      { unfold stored_tables in ST. cbn [mapM fst snd] in ST. unfold standard_of, tables_of. rewrite CT1, CT2, CT3, CT4.
        pose proof (heat_pump_distinct wb k R) as (_ & X1 & X2 & X3 & X4).
        rewrite (scaled_table _ _ _ _ X1 RS1), (scaled_table _ _ _ _ X2 RS2), (scaled_table _ _ _ _ X3 RS3), (scaled_table _ _ _ _ X4 RS4).
        destruct (regression_table (hp_temp1 (c_heat_pump k)) (hp_reg1 (c_heat_pump k))) as [a|]; cbn [bind] in *; [|discriminate].
        destruct (regression_table (hp_temp2 (c_heat_pump k)) (hp_reg2 (c_heat_pump k))) as [b|]; cbn [bind] in *; [|discriminate].
        destruct (regression_table (hp_temp3 (c_heat_pump k)) (hp_reg3 (c_heat_pump k))) as [c|]; cbn [bind] in *; [|discriminate].
        destruct (regression_table (hp_temp4 (c_heat_pump k)) (hp_reg4 (c_heat_pump k))) as [d|]; cbn [bind] in *; [|discriminate]. apply Ok_inj in ST. subst tables.
        rewrite A3 in EC. injection EC as <-. apply number_ok in Ecap. rewrite Ecap in ER. cbn [duty_ratio] in ER. injection ER as <-. set (q := if qeq cap 0 then 0%Q else _).
        change [(scaled_by (Some q) (fst a), snd a); (scaled_by (Some q) (fst b), snd b); (scaled_by (Some q) (fst c), snd c); (scaled_by (Some q) (fst d), snd d)]
          with (scale_tables q [a; b; c; d]). rewrite regression_data_scale.
        assert (NE : regression_data [a; b; c; d] <> []) by (intro Z0; assert (I : In p0 (regression_data [a; b; c; d])) by (apply U, TP); rewrite Z0 in I; exact I).
        unfold train_points, train. rewrite !map_length, !Nat.eqb_refl. cbn [negb orb].
        destruct (regression_data [a; b; c; d]); [contradiction NE; reflexivity|]. cbn [length Nat.eqb bind]. eexists. reflexivity. }
      destruct ES as [s ->]. cbn [bind]. eapply MK. reflexivity. }
  destruct EH as [HP ->]. cbn [bind].
  (* battery *)
  destruct (C83_battery wb k br P B R BF) as (Y1 & Y2 & Y3 & Y4 & Y5 & Y6 & Y7).
  assert (EB : exists b, battery_of k' = Ok b).
  { unfold battery_of, first_number. rewrite CB. cbv zeta.
    have_number (BN "C"%char ltac:(isin)) q1. have_number (BN "D"%char ltac:(isin)) q2. have_number (BN "E"%char ltac:(isin)) q3. have_number (BN "F"%char ltac:(isin)) q4.
    have_number (BN "G"%char ltac:(isin)) q5. have_number (BN "H"%char ltac:(isin)) q6. have_number (BN "I"%char ltac:(isin)) q7.
    rewrite Y1, Y2, Y3, Y4, Y5, Y6, Y7. cbn [bind]. use. eexists. reflexivity. }
  destruct EB as [b ->]. cbn [bind].
  (* back-up *)
  destruct (C81_backup wb k P R) as (FX & EX & IX).
  assert (EA : exists a, aux_of k' = Ok a).
  { unfold aux_of. rewrite CA. cbv zeta. rewrite EX. have_number XE e. use.
    set (f := x_fuel (c_aux k)) in *. destruct (fuel_eqb f ELECTRIC) eqn:FE.
    { destruct f; try discriminate. eexists. reflexivity. }
    assert (XF' : exists r, In r [9; 10; 11] /\ chooses fuels fuel_value wb "Aux heat" "C" r f).
    { destruct XF as [XF|(f0 & r & I & F6 & Fr)].
      - apply chooses_cell in XF. rewrite XF in FX. injection FX as FX. rewrite <- FX in FE. discriminate.
      - apply chooses_cell in F6. rewrite F6 in FX. injection FX as <-. exists r. split; assumption. }
    assert (FD : exists x, find (fun r => fuel_eqb (fst r) f) (rev (x_fuel_info (c_aux k))) = Some x /\ exists r, In r [9; 10; 11] /\ fuel_row wb r x).
    { destruct XF' as (r0 & I0 & F0). apply chooses_cell in F0.
      revert IX. generalize (x_fuel_info (c_aux k)) as info. intros info IX.
      assert (RW : forall x, In x info -> exists r, In r [9; 10; 11] /\ fuel_row wb r x).
      { intros x I. clear - IX I. induction IX as [|r y rs l Hr IX IH]; [contradiction|]. destruct I as [<-|I]; [exists r; split; [left; reflexivity|exact Hr]|].
        destruct (IH I) as (r' & I' & F). exists r'. split; [right; exact I'|exact F]. }
      assert (EXx : exists x, In x info /\ fst x = f).
      { clear - IX I0 F0. induction IX as [|r y rs l Hr IX IH]; [contradiction|]. destruct I0 as [<-|I0].
        - exists y. split; [left; reflexivity|]. destruct Hr as [Hr _]. rewrite F0 in Hr. injection Hr as Hr. symmetry. exact Hr.
        - destruct (IH I0) as (x & Ix & Ex). exists x. split; [right; exact Ix|exact Ex]. }
      destruct EXx as (x & Ix & Ex). destruct (find _ (rev info)) as [y|] eqn:F.
      - exists y. split; [reflexivity|]. apply find_some in F as [Iy _]. apply in_rev in Iy. apply RW, Iy.
      - apply find_none with (x := x) in F; [|apply in_rev in Ix; exact Ix]. rewrite Ex in F. destruct f; discriminate. }
    destruct FD as ([f' [de co]] & FD & r & Ir & (_ & Fr)). cbn [snd] in Fr. injection Fr as -> ->.
    destruct (XN r Ir) as [N1 N2]. have_number N1 d. have_number N2 c.
    destruct f; try discriminate; rewrite FD; use; eexists; reflexivity. }
  destruct EA as [a ->]. cbn [bind].
  (* tariff *)
  pose proof (C81_grid wb k P B R) as (Z1 & _ & _ & Z2 & _ & _ & Z3 & Z4 & Z5 & _).
  pose proof (C82_tariffs wb k P B R) as ((V1 & V2 & V3 & V4 & V5 & V6 & V7) & VW & _).
  assert (EG : exists g, grid_of (lib_wind L) k' = Ok g).
  { unfold grid_of. rewrite CG, Z1. destruct TA as [[TA TB0]|[[TA TB0]|[TA TB0]]]; rewrite (says_name _ _ _ _ _ TA); cbn [bind String.eqb Ascii.eqb Bool.eqb].
    - unfold flat_of. rewrite CG, Z2. have_number TB0 q. use. eexists. reflexivity.
    - destruct TB0 as (TB1 & y & TB2). unfold variable_of, periods_of. rewrite CG, Z3. cbn [weekdays mapM].
      destruct (numbers_to_total _ _ _ _ _ _ _ V1) as [l1 ->]; [intros r I J; apply TB1; [isin|unfold rows_of in I; lia]|].
      destruct (numbers_to_total _ _ _ _ _ _ _ V2) as [l2 ->]; [intros r I J; apply TB1; [isin|unfold rows_of in I; lia]|].
      destruct (numbers_to_total _ _ _ _ _ _ _ V3) as [l3 ->]; [intros r I J; apply TB1; [isin|unfold rows_of in I; lia]|].
      destruct (numbers_to_total _ _ _ _ _ _ _ V4) as [l4 ->]; [intros r I J; apply TB1; [isin|unfold rows_of in I; lia]|].
      destruct (numbers_to_total _ _ _ _ _ _ _ V5) as [l5 ->]; [intros r I J; apply TB1; [isin|unfold rows_of in I; lia]|].
      destruct (numbers_to_total _ _ _ _ _ _ _ V6) as [l6 ->]; [intros r I J; apply TB1; [isin|unfold rows_of in I; lia]|].
      destruct (numbers_to_total _ _ _ _ _ _ _ V7) as [l7 ->]; [intros r I J; apply TB1; [isin|unfold rows_of in I; lia]|].
      destruct (counts_whole _ _ _ _ _ TB2) as [y' ?]. cbn [bind]. use. eexists. reflexivity.
    - destruct TB0 as (TB1 & TB2 & TB3). unfold market_of. rewrite CG, Z4, Z5.
      destruct (numbers_to_total _ _ _ _ _ _ _ VW) as [l1 E1]; [intros r I J; apply TB1; [exact I|lia]|]. rewrite E1. cbn [bind].
      have_number TB2 q1. have_number TB3 q2. use. eexists. reflexivity. }
  destruct EG as [g ->]. cbn [bind]. eexists. reflexivity.
Qed.
Print Assumptions C85_completes.
