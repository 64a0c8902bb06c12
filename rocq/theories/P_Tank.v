(** Properties C22-C26 and C52: the hot water tank. *)
From Coq Require Import Sorting.Sorted Permutation String Qabs.
From Verif Require Import Base BaseL M_Battery S_Battery M_HeatPump S_HeatPump M_Tools S_Tools M_FixedOrder S_FixedOrder M_Tank S_Tank
  L_Tank L_TankFlow L_TankProps L_TankHour L_FixedOrderRun.
Open Scope string_scope.

(** Example tanks: 400 kg in four nodes; without losses; with connections. *)
Definition ex_K : tank :=
  {| k_capacity := 400; k_insulation := "polyurethane"; k_location := "inside"; k_nodes := 4; k_width := 1 # 2;
     k_pi := 355 # 113; k_openings := 0; k_openings_d := 35; k_bare := 0; k_bare_d := 35; k_insulated := 0;
     k_insulated_d := 35; k_Fi := 11 # 10; k_Fe := 14 # 10; k_air := [];
     k_cp := fun _ => Some 4181 |}.
Definition ex_K_lossless : tank :=
  {| k_capacity := 400; k_insulation := "polyurethane"; k_location := "inside"; k_nodes := 4; k_width := 1 # 2;
     k_pi := 355 # 113; k_openings := 0; k_openings_d := 35; k_bare := 0; k_bare_d := 35; k_insulated := 0;
     k_insulated_d := 35; k_Fi := 11 # 10; k_Fe := 0; k_air := [];
     k_cp := fun _ => Some 4181 |}.
Definition ex_K_pipes : tank :=
  {| k_capacity := 400; k_insulation := "polyurethane"; k_location := "inside"; k_nodes := 4; k_width := 1 # 2;
     k_pi := 355 # 113; k_openings := 2; k_openings_d := 35; k_bare := 4; k_bare_d := 35; k_insulated := 0;
     k_insulated_d := 35; k_Fi := 11 # 10; k_Fe := 14 # 10; k_air := [];
     k_cp := fun _ => Some 4181 |}.
Lemma ex_K_ok : tank_ok ex_K /\ tank_ok ex_K_lossless /\ tank_ok ex_K_pipes.
Proof.
  repeat split; cbn; try lra; try lia; intros d c H; injection H as <-; lra.
Qed.
Definition ok_with {A} (x : res A) (f : A -> bool) : bool := match x with Ok a => f a | Err _ => false end.
Lemma ok_with_ok {A} (x : res A) f : ok_with x f = true -> exists a, x = Ok a /\ f a = true.
Proof. destruct x; [|discriminate]. eauto. Qed.

(** ** C22 *)
(** Every tank operation returns as many nodes as configured, hottest first. *)
Theorem C22_operation_shape : forall K ret delta s T source flow o d t T',
  t_new (tank_instance K ret delta) s T source flow o d t = Ok T' ->
  length T' = k_nodes K /\ stratified T'.
Proof. intros K ret delta s T source flow o d t T' H. exact (new_nodes_shape K s T source delta flow ret o d t T' H). Qed.
Print Assumptions C22_operation_shape.
Example C22_operation_case :
  exists T', t_new (tank_instance ex_K 40 10) Charging [50; 45; 40; 40] 60 55 3 2 0 = Ok T' /\ length T' = 4%nat /\
    (nth 0 T' 0 > 50).
Proof.
  destruct (ok_with_ok (t_new (tank_instance ex_K 40 10) Charging [50; 45; 40; 40] 60 55 3 2 0)
    (fun T' => Nat.eqb (length T') 4 && qlt 50 (nth 0 T' 0))) as (T' & E & F); [vm_compute; reflexivity|].
  exists T'. apply andb_prop in F. destruct F as [F1 F2]. apply Nat.eqb_eq in F1. apply qlt_true in F2. auto.
Qed.

(** After every hour of every run of the fixed-order controller, with any plant. *)
Theorem C22_run_shape : forall K ret delta P year first timesteps rs,
  p_tank P = tank_instance K ret delta ->
  run_timesteps P year first timesteps = Ok rs ->
  Forall (fun rc => length (r_nodes rc) = k_nodes K /\ stratified (r_nodes rc)) rs.
Proof. exact run_tank_shape. Qed.
Print Assumptions C22_run_shape.

(** A run of two hours with a tank: the first hour charges it from the grid. *)
Definition ex_tank_plant : plant :=
  {| p_battery := {| b_capacity := 5; b_initial_state := 50; b_charge_max := 3; b_discharge_max := 3; b_charge_eff := 9 # 10;
                     b_discharge_eff := 9 # 10; b_self_discharge := 1 # 100 |};
     p_hp_capacity := 10; p_min_runtime := 0; p_min_output := 0;
     p_aux := {| a_fuel := ELECTRIC; a_efficiency := 1; a_cost := None; a_energy_density := None |};
     p_tank := tank_instance ex_K 40 10; p_export_price := 40; p_setpoint := 80;
     p_order_above := [1;2;3;4;5;6;7;8;9;10;11;12;13]%Z; p_order_below := [1;2;3;4;5;6;7;8;9;10;11;12;13;14;15]%Z;
     p_max_heat := 20 |}.
Definition ex_tank_hour (price : Q) : hour_in :=
  {| i_wind := 2; i_PV := 1; i_elec_demand := 4; i_heat_demand := 3; i_source_temp := 60; i_flow_temp := 55;
     i_import_price := price; i_perf := {| cop := 3; duty := 4 |} |}.
Definition ex_year : list hour_in := ex_tank_hour 50 :: ex_tank_hour 100 :: repeat (ex_tank_hour 50) (Z.to_nat 8758).
Lemma ex_year_full : full_year ex_year.
Proof.
  unfold full_year, ex_year. cbn [length]. rewrite repeat_length. rewrite !Nat2Z.inj_succ, Z2Nat.id by discriminate. reflexivity.
Qed.
Example C22_run_case :
  exists rs rc, run_timesteps ex_tank_plant ex_year 0 2 = Ok rs /\
    nth_error rs 1 = Some rc /\ length (r_nodes rc) = 4%nat /\ nth 3 (r_nodes rc) 0 < nth 0 (r_nodes rc) 0.
Proof.
  rewrite run_unfold by (apply ex_year_full || lia).
  destruct (ok_with_ok (run_loop ex_tank_plant ex_year (zrange 0 (0 + 2)) (t_init (p_tank ex_tank_plant), init_state (p_battery ex_tank_plant)))
    (fun rs => match nth_error rs 1 with Some rc => Nat.eqb (length (r_nodes rc)) 4 && qlt (nth 3 (r_nodes rc) 0) (nth 0 (r_nodes rc) 0)
               | None => false end)) as (rs & E & F); [vm_compute; reflexivity|].
  destruct (nth_error rs 1) as [rc|] eqn:Er; [|discriminate]. apply andb_prop in F. destruct F as [F1 F2].
  exists rs, rc. apply Nat.eqb_eq in F1. apply qlt_true in F2. auto.
Qed.

(** ** C23 *)
(** Discharging step: water leaves at the top temperature and enters at return
    temperature; the flow is the requested one, at most one node per step. *)
Theorem C23_discharging_step : forall K source delta flow ret o d t T T',
  tank_ok K -> stratified T -> inner_step K Discharging source delta flow ret o d t T = Ok T' ->
  exists m1 cps k Ta cs cf,
    mapM (specific_heat K) T = Ok cps /\ k_value K = Ok k /\ amb_temp K t = Ok Ta /\
    specific_heat K source = Ok cs /\ specific_heat K flow = Ok cf /\ 0 <= m1 /\
    m1 * Qabs (hd 0 T - ret) == 1000 * Qabs (d / cf - o / cs) /\
    (flow <= hd 0 T ->
     content T' == content T - Qmin m1 (nmass K) / nmass K * (hd 0 T - ret) + standing K k Ta (nmass K) T cps) /\
    (hd 0 T < flow -> content T' == content T + standing K k Ta (nmass K) T cps).
Proof. exact discharging_content. Qed.
Print Assumptions C23_discharging_step.

(** Charging step: water enters at source temperature and leaves at the bottom
    temperature, if no node above the bottom one is exactly at source temperature.
    The theorem covers ties, too: every tied node adds the source heat once more. *)
Theorem C23_charging_step : forall K source delta flow ret o d t T T',
  tank_ok K -> stratified T -> inner_step K Charging source delta flow ret o d t T = Ok T' ->
  exists m1 cps k Ta cs cf,
    mapM (specific_heat K) T = Ok cps /\ k_value K = Ok k /\ amb_temp K t = Ok Ta /\
    specific_heat K source = Ok cs /\ specific_heat K flow = Ok cf /\
    m1 * (source - last T 0) == 1000 * (o / cs - d / cf) /\
    (last T 0 <= source ->
     content T' == content T + Qmin m1 (nmass K) / nmass K * (inject_Z (Z.of_nat (S (ties source T))) * source - last T 0)
                   + standing K k Ta (nmass K) T cps) /\
    (source < last T 0 ->
     content T' == content T - Qmin m1 (nmass K) / nmass K * last T 0
                   + standing K k Ta (nmass K) T cps).
Proof. exact charging_content. Qed.
Print Assumptions C23_charging_step.

(** The claim as stated: heat in at source temperature, heat out at bottom temperature.
    Missing for the full property: states with a tie, where it is false (next theorem),
    and states hotter than the source. *)
Theorem C23_charging_balance_partial : forall K source delta flow ret o d t T T',
  tank_ok K -> stratified T -> no_tie source T -> last T 0 <= source ->
  inner_step K Charging source delta flow ret o d t T = Ok T' ->
  exists m cps k Ta,
    mapM (specific_heat K) T = Ok cps /\ k_value K = Ok k /\ amb_temp K t = Ok Ta /\ m <= nmass K /\
    nmass K * (content T' - content T - standing K k Ta (nmass K) T cps) == m * source - m * last T 0.
Proof.
  intros K source delta flow ret o d t T T' HK HS HT Hb H.
  destruct (charging_content _ _ _ _ _ _ _ _ _ _ HK HS H) as (m1 & cps & k & Ta & cs & cf & A1 & A2 & A3 & A4 & A5 & A6 & A7 & _).
  exists (Qmin m1 (nmass K)), cps, k, Ta. do 3 (split; [assumption|]). split; [apply Q.le_min_r|].
  rewrite (A7 Hb), (no_tie_ties _ _ HT). change (inject_Z (Z.of_nat 1)) with 1. pose proof (nmass_pos K HK). field. lra.
Qed.
Print Assumptions C23_charging_balance_partial.
Example C23_charging_case :
  tank_ok ex_K /\ stratified [50; 45; 40; 40] /\ no_tie 60 [50; 45; 40; 40] /\ last [50; 45; 40; 40] 0 <= 60 /\
  exists T', inner_step ex_K Charging 60 10 55 40 1000 200 0 [50; 45; 40; 40] = Ok T' /\ content [50; 45; 40; 40] < content T'.
Proof.
  split; [apply ex_K_ok|]. split; [repeat constructor; cbn; lra|]. split; [repeat constructor; lra|]. split; [cbn; lra|].
  destruct (ok_with_ok (inner_step ex_K Charging 60 10 55 40 1000 200 0 [50; 45; 40; 40])
    (fun T' => qlt (content [50; 45; 40; 40]) (content T'))) as (T' & E & F); [vm_compute; reflexivity|].
  exists T'. apply qlt_true in F. auto.
Qed.
Example C23_discharging_case :
  tank_ok ex_K /\ stratified [60; 58; 45; 40] /\ 55 <= hd 0 [60; 58; 45; 40] /\
  exists T', inner_step ex_K Discharging 60 10 55 40 200 1000 0 [60; 58; 45; 40] = Ok T' /\ content T' < content [60; 58; 45; 40].
Proof.
  split; [apply ex_K_ok|]. split; [repeat constructor; cbn; lra|]. split; [cbn; lra|].
  destruct (ok_with_ok (inner_step ex_K Discharging 60 10 55 40 200 1000 0 [60; 58; 45; 40])
    (fun T' => qlt (content T') (content [60; 58; 45; 40]))) as (T' & E & F); [vm_compute; reflexivity|].
  exists T'. apply qlt_true in F. auto.
Qed.

(** With the top node exactly at source temperature the source heat is booked twice:
    a loss-free tank gains m (2 source - bottom) instead of m (source - bottom). *)
Theorem C23_charging_balance_refuted : exists K source delta flow ret o d t T T' m,
  tank_ok K /\ k_Fe K == 0 /\ stratified T /\ last T 0 < source /\ hd 0 T == source /\
  mass_flow_calc K Charging flow ret source delta o d (last T 0) (hd 0 T) = Ok m /\ 0 < m /\ m < nmass K /\
  inner_step K Charging source delta flow ret o d t T = Ok T' /\
  nmass K * (content T' - content T) == m * (2 * source - last T 0).
Proof.
  exists ex_K_lossless, 60, 10, 55, 40, 1000, 200, 0%Z, [60; 50; 40; 40].
  destruct (inner_step ex_K_lossless Charging 60 10 55 40 1000 200 0 [60; 50; 40; 40]) as [T'|] eqn:E.
  2: { exfalso. vm_compute in E. discriminate. }
  destruct (mass_flow_calc ex_K_lossless Charging 55 40 60 10 1000 200 (last [60; 50; 40; 40] 0) (hd 0 [60; 50; 40; 40])) as [m|] eqn:Em.
  2: { exfalso. vm_compute in Em. discriminate. }
  exists T', m. split; [apply ex_K_ok|]. split; [cbn; lra|]. split; [repeat constructor; cbn; lra|].
  split; [cbn; lra|]. split; [cbn; lra|]. split; [reflexivity|].
  vm_compute in Em. injection Em as <-. vm_compute in E. injection E as <-. 
  split; [reflexivity|]. split; [reflexivity|]. split; [reflexivity|]. vm_compute. reflexivity.
Qed.
Print Assumptions C23_charging_balance_refuted.

(** ** C24 *)
(** One internal step of a tank without connections, for every operation: the nodes
    stay in the range if water flow and loss together do not exceed the node, and leave
    it by at most the loss share otherwise.  Missing for the full property: ties with
    the source temperature, connections, the first-order overshoot: in these cases it
    is false (next theorems). *)
Theorem C24_step_partial : forall K s source delta flow ret o d t T T' lo hi,
  tank_ok K -> sealed K -> stratified T ->
  inner_step K s source delta flow ret o d t T = Ok T' ->
  within lo hi T -> lo <= source <= hi -> lo <= ret <= hi ->
  (forall Ta, amb_temp K t = Ok Ta -> lo <= Ta <= hi) ->
  (s = Charging -> last T 0 <= source /\ no_tie source T /\
     forall m1, mass_flow_calc K s flow ret source delta o d (last T 0) (hd 0 T) = Ok m1 -> 0 <= m1) ->
  exists m1 k cps, mass_flow_calc K s flow ret source delta o d (last T 0) (hd 0 T) = Ok m1 /\ 0 <= m1 /\
    k_value K = Ok k /\ mapM (specific_heat K) T = Ok cps /\
    ((forall c, In c cps -> Qmin m1 (nmass K) / nmass K + lossfrac K k c <= 1) -> within lo hi T') /\
    (forall la, (forall c, In c cps -> lossfrac K k c <= la) ->
       within (lo - la * (hi - lo)) (hi + la * (hi - lo)) T').
Proof. exact step_range. Qed.
Print Assumptions C24_step_partial.

Example C24_step_case :
  tank_ok ex_K /\ sealed ex_K /\ stratified [50; 45; 40; 40] /\ within 15 60 [50; 45; 40; 40] /\ no_tie 60 [50; 45; 40; 40] /\
  amb_temp ex_K 0 = Ok 15 /\
  exists T' k m1, inner_step ex_K Charging 60 10 55 40 1000 200 0 [50; 45; 40; 40] = Ok T' /\
    mass_flow_calc ex_K Charging 55 40 60 10 1000 200 (last [50; 45; 40; 40] 0) (hd 0 [50; 45; 40; 40]) = Ok m1 /\
    k_value ex_K = Ok k /\ mapM (specific_heat ex_K) [50; 45; 40; 40] = Ok [4181; 4181; 4181; 4181] /\ 0 < m1 /\
    Qmin m1 (nmass ex_K) / nmass ex_K + lossfrac ex_K k 4181 <= 1.
Proof.
  split; [apply ex_K_ok|]. split; [repeat split; cbn; lra|]. split; [repeat constructor; cbn; lra|].
  split; [repeat constructor; lra|]. split; [repeat constructor; lra|]. split; [reflexivity|].
  destruct (ok_with_ok (inner_step ex_K Charging 60 10 55 40 1000 200 0 [50; 45; 40; 40]) (fun _ => true)) as (T' & E & _);
    [vm_compute; reflexivity|].
  destruct (ok_with_ok (mass_flow_calc ex_K Charging 55 40 60 10 1000 200 (last [50; 45; 40; 40] 0) (hd 0 [50; 45; 40; 40]))
     (fun m => qlt 0 m && qle (Qmin m (nmass ex_K) / nmass ex_K + lossfrac ex_K ((25#1000) * 3600) 4181) 1)) as (m1 & E1 & F);
    [vm_compute; reflexivity|].
  apply andb_prop in F. destruct F as [F1 F2]. apply qlt_true in F1. apply qle_true in F2.
  exists T', ((25#1000) * 3600), m1. do 2 (split; [assumption|]). split; [reflexivity|]. split; [reflexivity|]. auto.
Qed.

(** A node exactly at source temperature is heated beyond it. *)
Theorem C24_tie_refuted : exists K source delta flow ret o d t T T',
  tank_ok K /\ k_Fe K == 0 /\ sealed K /\ stratified T /\ within 15 60 T /\ source == 60 /\ 15 <= ret <= 60 /\
  amb_temp K t = Ok 15 /\ inner_step K Charging source delta flow ret o d t T = Ok T' /\ 65 < hd 0 T'.
Proof.
  destruct (ok_with_ok (inner_step ex_K_lossless Charging 60 10 55 40 1000 200 0 [60; 50; 40; 40])
    (fun T' => qlt 65 (hd 0 T'))) as (T' & E & F); [vm_compute; reflexivity|]. apply qlt_true in F.
  exists ex_K_lossless, 60, 10, 55, 40, 1000, 200, 0%Z, [60; 50; 40; 40], T'.
  split; [apply ex_K_ok|]. split; [cbn; lra|]. split; [repeat split; cbn; lra|]. split; [repeat constructor; cbn; lra|].
  split; [repeat constructor; lra|]. split; [lra|]. split; [lra|]. split; [reflexivity|]. auto.
Qed.
Print Assumptions C24_tie_refuted.
(** Without ties: at full flow the loss is applied on top of the exchanged water, so a
    node passes both the source and the ambient temperature. *)
Theorem C24_overshoot_refuted : exists K source delta flow ret o d t T T',
  tank_ok K /\ sealed K /\ stratified T /\ no_tie source T /\ within 10 15 T /\ source == 15 /\ 10 <= ret <= 15 /\
  amb_temp K t = Ok 15 /\ inner_step K Charging source delta flow ret o d t T = Ok T' /\ 15 < hd 0 T'.
Proof.
  destruct (ok_with_ok (inner_step ex_K Charging 15 10 14 10 90000 0 0 [10; 10; 10; 10])
    (fun T' => qlt 15 (hd 0 T'))) as (T' & E & F); [vm_compute; reflexivity|]. apply qlt_true in F.
  exists ex_K, 15, 10, 14, 10, 90000, 0, 0%Z, [10; 10; 10; 10], T'.
  split; [apply ex_K_ok|]. split; [repeat split; cbn; lra|]. split; [repeat constructor; cbn; lra|].
  split; [repeat constructor; lra|]. split; [repeat constructor; lra|]. split; [lra|]. split; [lra|]. split; [reflexivity|]. auto.
Qed.
Print Assumptions C24_overshoot_refuted.

(** ** Material data behind C22 to C26 *)
(** The conductivity is that of the chosen insulation, per hour; any other insulation is a
    ValueError. *)
Theorem C25_insulation : forall K,
  (forall k, k_value K = Ok k -> exists w, conductivity (k_insulation K) w /\ k == w * seconds_per_hour) /\
  (forall w, conductivity (k_insulation K) w -> exists k, k_value K = Ok k) /\
  (forall e, k_value K = Err e -> e = ValueError).
Proof.
  intro K. unfold k_value.
  destruct (String.eqb_spec (k_insulation K) "polyurethane") as [->|N1];
    [split; [intros k H; injection H as <-; exists (25#1000); split; [constructor|reflexivity]|split; [eauto|discriminate]]|].
  destruct (String.eqb_spec (k_insulation K) "fibreglass") as [->|N2];
    [split; [intros k H; injection H as <-; exists (40#1000); split; [constructor|reflexivity]|split; [eauto|discriminate]]|].
  destruct (String.eqb_spec (k_insulation K) "polystyrene") as [->|N3];
    [split; [intros k H; injection H as <-; exists (35#1000); split; [constructor|reflexivity]|split; [eauto|discriminate]]|].
  split; [discriminate|]. split; [intros w H; inversion H; congruence|]. intros e H. injection H as <-. reflexivity.
Qed.
Print Assumptions C25_insulation.
(** Ambient temperature: 15 degrees inside, the hour's outdoor temperature outside. *)
Theorem C25_ambient : forall K t,
  (k_location K = "inside" -> amb_temp K t = Ok 15) /\
  (forall i, k_location K = "outside" -> t = Z.of_nat i -> (i < length (k_air K))%nat -> amb_temp K t = Ok (nth i (k_air K) 0)) /\
  (k_location K <> "inside" -> k_location K <> "outside" -> amb_temp K t = Err ValueError).
Proof.
  intros K t. unfold amb_temp. split; [intros ->; reflexivity|]. split.
  - intros i -> -> Hi. cbn [String.eqb Ascii.eqb Bool.eqb]. unfold label. destruct (Z.ltb_spec (Z.of_nat i) 0); [lia|]. rewrite Nat2Z.id.
    rewrite (nth_error_nth' _ 0 Hi). reflexivity.
  - intros N1 N2. destruct (String.eqb_spec (k_location K) "outside"); [contradiction|]. destruct (String.eqb_spec (k_location K) "inside"); [contradiction|reflexivity].
Qed.
Print Assumptions C25_ambient.

(** ** C25 *)
(** Exact standby hour: one step, each node loses its share of the excess over ambient
    and gains the heat of the connections; then the nodes are sorted. *)
Theorem C25_standby_exact : forall K ret delta T source flow o d t T',
  tank_ok K -> t_new (tank_instance K ret delta) Standby T source flow o d t = Ok T' ->
  exists k Ta cps U, k_value K = Ok k /\ amb_temp K t = Ok Ta /\ mapM (specific_heat K) T = Ok cps /\
    Permutation U T' /\ length U = length T /\
    forall i, (i < length T)%nat ->
      0 < nth i cps 0 /\
      nth i U 0 == nth i T 0 + (UA K k * (Ta - nth i T 0) + k_Fe K * connections K) / (nmass K * nth i cps 0).
Proof. intros K ret delta T source flow o d t T' HK H. exact (standby_nodes K T source delta flow ret o d t T' HK H). Qed.
Print Assumptions C25_standby_exact.

(** The claim, for tanks without connections that lose at most their excess in an hour. *)
Theorem C25_standby_towards_ambient_partial : forall K ret delta T source flow o d t T',
  tank_ok K -> sealed K ->
  (forall k x c, k_value K = Ok k -> In x T -> specific_heat K x = Ok c -> lossfrac K k c <= 1) ->
  t_new (tank_instance K ret delta) Standby T source flow o d t = Ok T' ->
  exists Ta U, amb_temp K t = Ok Ta /\ Permutation U T' /\ Forall2 (towards Ta) T U.
Proof. exact standby_towards. Qed.
Print Assumptions C25_standby_towards_ambient_partial.
Example C25_case :
  tank_ok ex_K /\ sealed ex_K /\
  (forall k x c, k_value ex_K = Ok k -> In x [60; 50; 40; 10] -> specific_heat ex_K x = Ok c -> lossfrac ex_K k c <= 1) /\
  exists T', t_new (tank_instance ex_K 40 10) Standby [60; 50; 40; 10] 60 55 0 0 0 = Ok T' /\ hd 0 T' < 60 /\ 10 < last T' 0.
Proof.
  split; [apply ex_K_ok|]. split; [repeat split; cbn; lra|]. split.
  { intros k x c Hk _ Hc. injection Hk as <-. unfold specific_heat in Hc. destruct (_ && _); [|discriminate].
    injection Hc as <-. vm_compute. discriminate. }
  destruct (ok_with_ok (t_new (tank_instance ex_K 40 10) Standby [60; 50; 40; 10] 60 55 0 0 0)
    (fun T' => qlt (hd 0 T') 60 && qlt 10 (last T' 0))) as (T' & E & F); [vm_compute; reflexivity|].
  apply andb_prop in F. destruct F as [F1 F2]. apply qlt_true in F1. apply qlt_true in F2. eauto.
Qed.

(** A tank at ambient temperature with connections heats itself up: the connection
    losses enter with the wrong sign. *)
Theorem C25_standby_refuted : exists K ret delta T source flow o d t T',
  tank_ok K /\ amb_temp K t = Ok 15 /\ Forall (fun x => x == 15) T /\
  t_new (tank_instance K ret delta) Standby T source flow o d t = Ok T' /\ Forall (fun x => 15 < x) T'.
Proof.
  destruct (ok_with_ok (t_new (tank_instance ex_K_pipes 40 10) Standby [15; 15; 15; 15] 60 55 0 0 0)
    (fun T' => forallb (qlt 15) T')) as (T' & E & F); [vm_compute; reflexivity|].
  exists ex_K_pipes, 40, 10, [15; 15; 15; 15], 60, 55, 0, 0, 0%Z, T'.
  split; [apply ex_K_ok|]. split; [reflexivity|]. split; [repeat constructor|]. split; [exact E|].
  apply Forall_forall. intros x Hx. rewrite forallb_forall in F. apply qlt_true. auto.
Qed.
Print Assumptions C25_standby_refuted.

(** ** C26 *)
Theorem C26_zero_size : forall K ret delta s T source flow t,
  k_capacity K == 0 -> t_max (tank_instance K ret delta) s T source flow t = Ok 0.
Proof. intros. apply max_energy_zero_capacity. assumption. Qed.
Print Assumptions C26_zero_size.
Theorem C26_full_tank_absorbs_nothing : forall K ret delta T source flow t,
  T <> [] -> source <= mean_temp T -> t_max (tank_instance K ret delta) Charging T source flow t = Ok 0.
Proof. intros. apply max_energy_hot; assumption. Qed.
Print Assumptions C26_full_tank_absorbs_nothing.
Theorem C26_empty_tank_releases_nothing : forall K ret delta T source flow t,
  T <> [] -> mean_temp T <= ret -> t_max (tank_instance K ret delta) Discharging T source flow t = Ok 0.
Proof. intros. apply max_energy_cold; assumption. Qed.
Print Assumptions C26_empty_tank_releases_nothing.
(** Non-negative whenever the flow temperature is not below the return temperature. *)
Theorem C26_nonnegative : forall K ret delta s T source flow t m,
  0 <= k_capacity K -> (forall d c, k_cp K d = Some c -> 0 < c) -> ret <= flow ->
  t_max (tank_instance K ret delta) s T source flow t = Ok m -> 0 <= m.
Proof. intros K ret delta s T source flow t m H1 H2 H3 H4. exact (max_energy_nonneg K s T source flow ret t m H1 H2 H3 H4). Qed.
Print Assumptions C26_nonnegative.
(** Below the return temperature the released energy can be reported as negative. *)
Theorem C26_nonnegative_refuted : exists K ret delta s T source flow t m,
  tank_ok K /\ stratified T /\ flow < ret /\ ret < mean_temp T /\
  t_max (tank_instance K ret delta) s T source flow t = Ok m /\ m < 0.
Proof.
  destruct (ok_with_ok (t_max (tank_instance ex_K 40 10) Discharging [4001 # 100; 4001 # 100; 4001 # 100; 4001 # 100] 60 30 0)
    (fun m => qlt m 0)) as (m & E & F); [vm_compute; reflexivity|]. apply qlt_true in F.
  exists ex_K, 40, 10, Discharging, [4001 # 100; 4001 # 100; 4001 # 100; 4001 # 100], 60, 30, 0%Z, m.
  split; [apply ex_K_ok|]. split; [repeat constructor; cbn; lra|]. split; [lra|]. split; [vm_compute; reflexivity|]. auto.
Qed.
Print Assumptions C26_nonnegative_refuted.
Example C26_case : exists m,
  t_max (tank_instance ex_K 40 10) Discharging [60; 58; 50; 45] 60 55 0 = Ok m /\ 0 < m.
Proof.
  destruct (ok_with_ok (t_max (tank_instance ex_K 40 10) Discharging [60; 58; 50; 45] 60 55 0) (fun m => qlt 0 m))
    as (m & E & F); [vm_compute; reflexivity|]. apply qlt_true in F. eauto.
Qed.

(** ** C52 *)
(** A tank never gives more than the energy it is asked for, and gives exactly this
    energy if in no internal step the flow is limited to one node and the top stays at
    flow temperature; without losses and with a constant specific heat. *)
Theorem C52_discharged_energy : forall K C source delta flow ret o d t T l,
  tank_ok K -> constant_cp K C -> 0 < C -> k_Fe K == 0 -> o <= d -> ret < flow -> stratified T ->
  new_nodes_temp K Discharging T source delta flow ret o d t = Ok (States l) ->
  content T - degrees K C (d - o) <= content (last l T) /\
  (Forall (fun x => flow <= hd 0 x /\
                    3600000 * (d - o) <= inject_Z (Z.of_nat (length l)) * (nmass K * C * (hd 0 x - ret))) (removelast (T :: l)) ->
   content (last l T) == content T - degrees K C (d - o)).
Proof. exact discharge_hour. Qed.
Print Assumptions C52_discharged_energy.
Theorem C52_charged_energy : forall K C source delta flow ret o d t T l,
  tank_ok K -> constant_cp K C -> 0 < C -> k_Fe K == 0 -> d <= o -> stratified T ->
  new_nodes_temp K Charging T source delta flow ret o d t = Ok (States l) ->
  Forall (fun x => last x 0 < source /\ no_tie source x) (removelast (T :: l)) ->
  content (last l T) <= content T + degrees K C (o - d) /\
  (Forall (fun x => 3600000 * (o - d) <= inject_Z (Z.of_nat (length l)) * (nmass K * C * (source - last x 0))) (removelast (T :: l)) ->
   content (last l T) == content T + degrees K C (o - d)).
Proof. exact charge_hour. Qed.
Print Assumptions C52_charged_energy.

Lemma ex_cp : constant_cp ex_K_lossless 4181.
Proof. intros d c H. injection H as <-. reflexivity. Qed.
(** Both parts apply: 5 kWh out of a hot tank, 5 kWh into a cold one. *)
Example C52_discharge_case : exists l,
  new_nodes_temp ex_K_lossless Discharging [70; 69; 68; 67] 60 10 55 40 1 6 0 = Ok (States l) /\
  Forall (fun x => 55 <= hd 0 x /\
     3600000 * (6 - 1) <= inject_Z (Z.of_nat (length l)) * (nmass ex_K_lossless * 4181 * (hd 0 x - 40))) (removelast ([70; 69; 68; 67] :: l)).
Proof.
  destruct (ok_with_ok (new_nodes_temp ex_K_lossless Discharging [70; 69; 68; 67] 60 10 55 40 1 6 0)
    (fun r => match r with States l => forallb (fun x => qle 55 (hd 0 x) &&
       qle (3600000 * (6 - 1)) (inject_Z (Z.of_nat (length l)) * (nmass ex_K_lossless * 4181 * (hd 0 x - 40)))) (removelast ([70; 69; 68; 67] :: l))
     | Flat _ => false end)) as (r & E & F); [vm_compute; reflexivity|].
  destruct r as [?|l]; [discriminate|]. exists l. split; [exact E|]. apply Forall_forall. intros x Hx.
  rewrite forallb_forall in F. specialize (F x Hx). apply andb_prop in F. destruct F as [F1 F2].
  apply qle_true in F1. apply qle_true in F2. auto.
Qed.
Example C52_charge_case : exists l,
  new_nodes_temp ex_K_lossless Charging [45; 42; 41; 40] 70 10 55 40 6 1 0 = Ok (States l) /\
  Forall (fun x => last x 0 < 70 /\ no_tie 70 x) (removelast ([45; 42; 41; 40] :: l)) /\
  Forall (fun x => 3600000 * (6 - 1) <= inject_Z (Z.of_nat (length l)) * (nmass ex_K_lossless * 4181 * (70 - last x 0))) (removelast ([45; 42; 41; 40] :: l)).
Proof.
  destruct (ok_with_ok (new_nodes_temp ex_K_lossless Charging [45; 42; 41; 40] 70 10 55 40 6 1 0)
    (fun r => match r with States l => forallb (fun x => (qlt (last x 0) 70 && forallb (fun y => negb (qeq y 70)) (removelast x)) &&
       qle (3600000 * (6 - 1)) (inject_Z (Z.of_nat (length l)) * (nmass ex_K_lossless * 4181 * (70 - last x 0)))) (removelast ([45; 42; 41; 40] :: l))
     | Flat _ => false end)) as (r & E & F); [vm_compute; reflexivity|].
  destruct r as [?|l]; [discriminate|]. exists l. split; [exact E|]. rewrite forallb_forall in F.
  split; apply Forall_forall; intros x Hx; specialize (F x Hx); apply andb_prop in F; destruct F as [F1 F2].
  - apply andb_prop in F1. destruct F1 as [F1 F3]. split; [apply qlt_true, F1|]. rewrite forallb_forall in F3.
    apply Forall_forall. intros y Hy. apply qneq_true, F3, Hy.
  - apply qle_true, F2.
Qed.

(** When the flow is limited to one node, the tank gives less than the controller
    records: 7 kWh asked from a tank that can give less. *)
Theorem C52_delivered_energy_refuted : exists K C source delta flow ret o d t T l,
  tank_ok K /\ constant_cp K C /\ 0 < C /\ k_Fe K == 0 /\ o <= d /\ ret < flow /\ stratified T /\
  new_nodes_temp K Discharging T source delta flow ret o d t = Ok (States l) /\
  (exists m, t_max (tank_instance K ret delta) Discharging T source flow t = Ok m /\ d - o <= m) /\
  content T - degrees K C (d - o) + 1 < content (last l T).
Proof.
  destruct (ok_with_ok (new_nodes_temp ex_K_lossless Discharging [70; 56; 56; 56] 60 10 55 40 0 (7 # 1) 0)
    (fun r => match r with States l => qlt (content [70; 56; 56; 56] - degrees ex_K_lossless 4181 (7 - 0) + 1) (content (last l [70; 56; 56; 56]))
     | Flat _ => false end)) as (r & E & F); [vm_compute; reflexivity|].
  destruct r as [?|l]; [discriminate|].
  destruct (ok_with_ok (t_max (tank_instance ex_K_lossless 40 10) Discharging [70; 56; 56; 56] 60 55 0)
    (fun m => qle (7 - 0) m)) as (m & Em & Fm); [vm_compute; reflexivity|].
  exists ex_K_lossless, 4181, 60, 10, 55, 40, 0, 7, 0%Z, [70; 56; 56; 56], l.
  split; [apply ex_K_ok|]. split; [apply ex_cp|]. split; [lra|]. split; [cbn; lra|]. split; [lra|]. split; [lra|].
  split; [repeat constructor; cbn; lra|]. split; [exact E|]. split; [exists m; split; [exact Em|apply qle_true, Fm]|apply qlt_true, F].
Qed.
Print Assumptions C52_delivered_energy_refuted.
