(** C107, C108 and C117 with a hot-water tank: the state of the tank differs between the two runs, and more heat in it can be worse.  The tank gives heat only while its top node is above the flow temperature.  The run with the bigger or better heat pump, or with more sun, passes this temperature in the first hour and spends the heat in the second, where the heat pump is good; the surplus of the third hour does not bring it back.  The other run stays just below, keeps its heat, passes the temperature in the third hour and saves the dear heat of the fourth. *)
From Verif Require Import Base BaseL M_Battery S_Battery M_HeatPump M_Tools M_FixedOrder S_FixedOrder L_FixedOrder P_FixedOrder S_HeatPumpSize P_HeatPumpSize M_Tank S_Tank P_Tank S_Easier P_Easier S_BetterPump P_BetterPump L_FixedOrderRun.
From Coq Require Import Sorting.Sorted.

Definition tank_order : list Z := [1; 2; 3; 4; 5; 6; 8; 9; 10; 12; 13]%Z.
(** 400 litres in four nodes, no battery, electric back-up, no minimum output *)
Definition tanked (size : Q) : plant := demo (demo_battery 0 1) size 0 (tank_instance ex_K 40 10) tank_order [].
(** Sun, demand, sun, and demand in an hour in which the heat pump cannot run *)
Definition tank_year (pv c size : Q) : list hour_in := [demo_hour pv 0 0 120 c size; demo_hour 0 0 3 120 3 size; demo_hour (1 # 2) 0 0 120 3 size; demo_hour 0 0 3 120 1 0].
Notation tank_run pv c size := (run_loop (tanked size) (tank_year pv c size) (zrange 0 4) (t_init (p_tank (tanked size)), init_state (p_battery (tanked size)))).
Definition imported (l : list record) : Q := qsum (map (fun rc => rf rc GRID_total_import) l).
Definition backed_up (l : list record) : Q := qsum (map bought_back_up l).
Definition fuelled (l : list record) : Q := qsum (map (fun rc => rf rc AUX_usage) l).
Lemma tanked_ok s : plant_ok (tanked s).
Proof.
  unfold plant_ok, tanked, demo. cbn [p_battery p_min_runtime p_min_output p_aux electric_aux a_efficiency a_cost a_energy_density].
  split; [apply demo_battery_ok; lra|]. repeat split; try lra; discriminate.
Qed.
Lemma tanked_hour pv el he pr c s d : 0 <= pv -> 0 <= el -> 0 <= he <= 30 -> 0 < c -> 0 < s -> 0 <= d -> hour_ok (tanked s) (demo_hour pv el he pr c d).
Proof.
  intros A B C D E F. unfold hour_ok. repeat match goal with |- _ /\ _ => split end; try (cbn; lra).
  intros x n t m H. exact (C26_nonnegative ex_K 40 10 x n 60 55 t m ltac:(cbn; lra) ltac:(intros d0 c0 G; injection G as <-; lra) ltac:(lra) H).
Qed.
Lemma tanked_surplus_first s : surplus_first_orders (tanked s).
Proof. apply C107_increasing_orders; [repeat (constructor; [|repeat (constructor; try reflexivity)]); constructor|constructor|cbn; intuition discriminate|cbn; tauto]. Qed.
Lemma tanked_simple s : simple_battery_orders (tanked s).
Proof. apply C108_increasing_orders; [repeat (constructor; [|repeat (constructor; try reflexivity)]); constructor|constructor|cbn; intuition discriminate|cbn; tauto]. Qed.
(** 2 kWh of heat in the first hour *)
Lemma much_heat : ok_with (tank_run (2 # 3) 3 10) (fun l => qlt (33 # 10) (imported l) && (qlt (29 # 10) (backed_up l) && qlt (29 # 10) (fuelled l))) = true.
Proof. vm_compute. reflexivity. Qed.
(** A heat pump of 1.6 kW *)
Lemma small_pump : ok_with (tank_run (2 # 3) 3 (8 # 5)) (fun l => qlt (imported l) 3 && (qlt (backed_up l) (5 # 2) && qlt (fuelled l) (5 # 2))) = true.
Proof. vm_compute. reflexivity. Qed.
(** Less sun, or a coefficient of 9/4 *)
Lemma less_sun : ok_with (tank_run (1 # 2) 3 10) (fun l => qlt (imported l) (5 # 2) && qlt (backed_up l) 2) = true.
Proof. vm_compute. reflexivity. Qed.
Lemma worse_pump : ok_with (tank_run (2 # 3) (9 # 4) 10) (fun l => qlt (imported l) (5 # 2) && qlt (backed_up l) 2) = true.
Proof. vm_compute. reflexivity. Qed.

(** The bigger heat pump: more heat from the back-up, more fuel and more import *)
Theorem C107_store_refuted : exists P P' year year' l l', bigger_heat_pump P P' /\ plant_ok P /\ 0 <= b_initial_state (p_battery P) <= 1 /\ surplus_first_orders P /\ p_min_output P == 0 /\ Forall2 (hours_ok P P') year year' /\
  (exists K, p_tank P = tank_instance K 40 10 /\ tank_ok K) /\
  run_loop P year (zrange 0 4) (t_init (p_tank P), init_state (p_battery P)) = Ok l /\ run_loop P' year' (zrange 0 4) (t_init (p_tank P'), init_state (p_battery P')) = Ok l' /\
  backed_up l < backed_up l' /\ fuelled l < fuelled l' /\ imported l < imported l'.
Proof.
  destruct (ok_with_ok _ _ small_pump) as (l & R & K). destruct (ok_with_ok _ _ much_heat) as (l' & R' & K').
  apply andb_prop in K as (K1 & K). apply andb_prop in K as (K2 & K3). apply andb_prop in K' as (K1' & K'). apply andb_prop in K' as (K2' & K3').
  apply qlt_true in K1, K2, K3, K1', K2', K3'.
  exists (tanked (8 # 5)), (tanked 10), (tank_year (2 # 3) 3 (8 # 5)), (tank_year (2 # 3) 3 10), l, l'.
  split; [repeat split; cbn; lra|]. split; [apply tanked_ok|]. split; [cbn; lra|]. split; [apply tanked_surplus_first|]. split; [reflexivity|].
  split. { repeat apply Forall2_cons; try apply Forall2_nil; (split; [repeat split; try (right; reflexivity); cbn; lra|]; split; [apply tanked_hour; lra|]; split; [apply tanked_hour; lra|cbn; lra]). }
  split; [exists ex_K; split; [reflexivity|apply ex_K_ok]|].
  split; [exact R|]. split; [exact R'|]. clear R R'. split; [lra|]. split; lra.
Qed.
Print Assumptions C107_store_refuted.
(** More sun in the first hour: more import *)
Theorem C108_store_refuted : exists P year year' l l', plant_ok P /\ 0 <= b_initial_state (p_battery P) <= 1 /\ simple_battery_orders P /\ b_self_discharge (p_battery P) == 0 /\ p_min_output P == 0 /\ Forall2 (hours_eased P P) year year' /\
  (exists K, p_tank P = tank_instance K 40 10 /\ tank_ok K) /\
  run_loop P year (zrange 0 4) (t_init (p_tank P), init_state (p_battery P)) = Ok l /\ run_loop P year' (zrange 0 4) (t_init (p_tank P), init_state (p_battery P)) = Ok l' /\
  imported l < imported l' /\ backed_up l < backed_up l'.
Proof.
  destruct (ok_with_ok _ _ less_sun) as (l & R & K). destruct (ok_with_ok _ _ much_heat) as (l' & R' & K').
  apply andb_prop in K as (K1 & K2). apply andb_prop in K' as (K1' & K'). apply andb_prop in K' as (K2' & _). apply qlt_true in K1, K2, K1', K2'.
  exists (tanked 10), (tank_year (1 # 2) 3 10), (tank_year (2 # 3) 3 10), l, l'.
  split; [apply tanked_ok|]. split; [cbn; lra|]. split; [apply tanked_simple|]. split; [reflexivity|]. split; [reflexivity|].
  split. { repeat apply Forall2_cons; try apply Forall2_nil; (split; [apply demo_easier; lra|]; split; [apply tanked_hour; lra|]; split; [apply tanked_hour; lra|cbn; lra]). }
  split; [exists ex_K; split; [reflexivity|apply ex_K_ok]|].
  split; [exact R|]. split; [exact R'|]. clear R R'. split; lra.
Qed.
Print Assumptions C108_store_refuted.
(** A better coefficient in the first hour: more import *)
Theorem C117_store_refuted : exists P year year' l l', plant_ok P /\ 0 <= b_initial_state (p_battery P) <= 1 /\ simple_battery_orders P /\ b_self_discharge (p_battery P) == 0 /\ p_min_output P == 0 /\ Forall2 (hours_pumped P P) year year' /\
  (exists K, p_tank P = tank_instance K 40 10 /\ tank_ok K) /\
  run_loop P year (zrange 0 4) (t_init (p_tank P), init_state (p_battery P)) = Ok l /\ run_loop P year' (zrange 0 4) (t_init (p_tank P), init_state (p_battery P)) = Ok l' /\
  imported l < imported l' /\ backed_up l < backed_up l'.
Proof.
  destruct (ok_with_ok _ _ worse_pump) as (l & R & K). destruct (ok_with_ok _ _ much_heat) as (l' & R' & K').
  apply andb_prop in K as (K1 & K2). apply andb_prop in K' as (K1' & K'). apply andb_prop in K' as (K2' & _). apply qlt_true in K1, K2, K1', K2'.
  exists (tanked 10), (tank_year (2 # 3) (9 # 4) 10), (tank_year (2 # 3) 3 10), l, l'.
  split; [apply tanked_ok|]. split; [cbn; lra|]. split; [apply tanked_simple|]. split; [reflexivity|]. split; [reflexivity|].
  split. { repeat apply Forall2_cons; try apply Forall2_nil; (split; [apply demo_better; lra|]; split; [apply tanked_hour; lra|]; split; [apply tanked_hour; lra|cbn; lra]). }
  split; [exists ex_K; split; [reflexivity|apply ex_K_ok]|].
  split; [exact R|]. split; [exact R'|]. clear R R'. split; lra.
Qed.
Print Assumptions C117_store_refuted.
