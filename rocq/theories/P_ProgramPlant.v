(** C94 continued: the plant that is simulated is the one described in the workbook. *)
From Coq Require Import String Ascii.
From Verif Require Import Base BaseL M_Battery M_HeatPump M_Tools S_HeatPump M_FixedOrder S_FixedOrder L_FixedOrderHour L_FixedOrderProps L_FixedOrderRun P_FixedOrder
  M_Excel S_Excel M_Init S_Init L_Init P_Init M_Program S_Program L_Program L_ProgramRuns P_Program S_Orders P_Orders.
From Verif Require M_Tank M_Demand L_Demand.
Local Open Scope nat_scope.
Local Open Scope string_scope.
Local Open Scope list_scope.

(** The largest number in a column from a row on *)
Definition largest (wb : workbook) (sheet : string) (c : ascii) (from : nat) (m : Q) : Prop :=
  (forall r x, from <= r -> r <= last_row wb sheet -> holds wb sheet c r x -> (x <= m)%Q) /\ exists r x, from <= r /\ r <= last_row wb sheet /\ holds wb sheet c r x /\ (x == m)%Q.
(** Every part of the plant comes from its cell, and the records are those of the simulation of this plant over the stated hours. *)
Theorem C94_plant : forall L run_pv lc opt price wb out d, ran L run_pv lc opt price wb "Fixed order control" out d ->
  exists P year s n o ret delta, run_timesteps P year s n = Ok (d_records d) /\ counts wb "Controller" "G" 5 s /\ counts wb "Controller" "G" 6 n /\
    set_up L wb (fst (d_sizes d)) (snd (d_sizes d)) = Ok o /\
    p_hp_capacity P = inject_Z (fst (d_sizes d)) /\ holds wb "Heat pump" "D" 7 (p_min_runtime P) /\ holds wb "Heat pump" "D" 8 (p_min_output P) /\
    p_battery P = o_battery o /\ p_aux P = o_aux o /\
    p_tank P = M_Tank.tank_instance (o_tank o) ret delta /\ holds wb "Demand input" "I" 6 ret /\ holds wb "Demand input" "I" 8 delta /\
    holds wb "Grid" "D" 9 (p_export_price P) /\ holds wb "Controller" "D" 7 (p_setpoint P) /\
    order_of (xl wb "Controller" "D" 8) = Ok (p_order_above P) /\ order_of (xl wb "Controller" "D" 9) = Ok (p_order_below P) /\
    (6 <= last_row wb "Demand input" -> largest wb "Demand input" "D" 6 (p_max_heat P)).
Proof.
  intros L run_pv lc opt price wb out d (P & B & S & H & I).
  destruct (fixed_simulated L run_pv lc opt price wb out d P B S H I) as (q & s & n & x & ab & be & year & A & Hx & Ha & Hb & Y & R).
  destruct A as (A0 & A1 & _ & _ & _ & A5 & A6 & A7 & _ & A9 & A10 & _).
  destruct (C85_heat_pump L wb _ _ _ P B A0) as (_ & K1 & _ & K2 & K3 & _).
  exists (plant_of L q x ab be), year, s, n, (q_parts q), (q_return q), (q_delta q).
  split; [exact R|]. split; [exact A9|]. split; [exact A10|]. split; [exact A0|]. split; [exact K1|]. split; [exact K2|]. split; [exact K3|].
  split; [reflexivity|]. split; [reflexivity|]. split; [reflexivity|]. split; [exact A5|]. split; [exact A6|]. split; [exact A7|]. split; [exact Hx|]. split; [exact Ha|]. split; [exact Hb|].
  intro Hl. cbn [plant_of p_max_heat]. destruct A1 as (E & A1). destruct (q_heat q) as [|h l]; [cbn in E; lia|]. cbn [hd tl].
  assert (M : M_Demand.amax (h :: l) = Ok (pmax_list h l)) by reflexivity. apply L_Demand.amax_spec in M as (M1 & y & M2 & M3). split.
  - intros r z Hr Hl' Hz. destruct (A1 (r - 6)) as (z' & E1 & E2); [rewrite E; lia|]. replace (6 + (r - 6)) with r in E2 by lia.
    assert (z' = z) by (unfold holds in Hz, E2; congruence). subst z'. apply M1. eapply nth_error_In, E1.
  - apply In_nth_error in M2 as (i & Ei). assert (Hi : i < length (h :: l)) by (apply nth_error_Some; congruence). destruct (A1 i Hi) as (z & E1 & E2). exists (6 + i), z.
    rewrite E in Hi. split; [lia|]. split; [lia|]. split; [exact E2|]. assert (z = y) by congruence. subst z. exact M3.
Qed.
Print Assumptions C94_plant.
(** When the price exceeds the one in cell D7 no electricity is bought for the battery or, by an order, for the store. *)
Theorem C94_setpoint : forall L run_pv lc opt price wb out d i rc, ran L run_pv lc opt price wb "Fixed order control" out d -> nth_error (d_records d) i = Some rc ->
  exists x, holds wb "Controller" "D" 7 x /\
    ((x < rf rc GRID_import_price)%Q -> rf rc GRID_import_for_ES = 0%Q /\ rf rc ES_charging_from_import = 0%Q /\ rf rc GRID_import_for_heat_pump_to_TS = 0%Q) /\
    (forall k n order, In k (entries true n) -> (x < rf rc GRID_import_price)%Q -> order_of (xl wb "Controller" "D" 8) = Ok order -> ~ In n order -> rf rc k = 0%Q) /\
    (forall k n order, In k (entries false n) -> (rf rc GRID_import_price <= x)%Q -> order_of (xl wb "Controller" "D" 9) = Ok order -> ~ In n order -> rf rc k = 0%Q).
Proof.
  intros L run_pv lc opt price wb out d i rc (P & B & S & H & I) E.
  destruct (fixed_hour L run_pv lc opt price wb out d i rc P B S H I E) as (q & s & n & x & ab & be & year & g & tot & wind & hp & J & A & Hx & Ha & Hb & S0 & Sn & Hi & G1 & G2 & G3 & G4 & F & Y & R & St).
  destruct (C11_costs_and_cash_flow _ _ _ _ _ _ St) as (K1 & _). exists x. split; [exact Hx|]. rewrite K1. split; [|split].
  - intro Hp. exact (C103_no_purchase_for_storage _ _ _ _ _ _ St Hp).
  - intros k m order Hk Hp Ho Hn. rewrite Ha in Ho. assert (ab = order) by congruence. subst order. eapply (C103_left_out _ _ _ _ _ _ true ab m k St); [split; [exact Hp|reflexivity]|exact Hk|exact Hn].
  - intros k m order Hk Hp Ho Hn. rewrite Hb in Ho. assert (be = order) by congruence. subst order. eapply (C103_left_out _ _ _ _ _ _ false be m k St); [split; [exact Hp|reflexivity]|exact Hk|exact Hn].
Qed.
Print Assumptions C94_setpoint.
