(** Performance indicators: the formula of every published indicator (C67) and the cost of
    heat (C68). *)
From Coq Require Import String.
From Verif Require Import Base BaseL M_Battery S_Battery M_HeatPump S_HeatPump L_HeatPump M_FixedOrder S_FixedOrder
  L_FixedOrderRun P_FixedOrder M_Grid S_Grid L_Grid P_Grid M_Sweep L_Sweep L_Tank M_Kpi S_Kpi L_Kpi L_KpiSums L_KpiCost P_Kpi.
Open Scope string_scope.

(** [m] is the largest value of a quantity over the hours of a run. *)
Definition peak (f : fields -> Q) (rs : list record) (m : Q) : Prop :=
  (exists rc, In rc rs /\ f (rf rc) == m) /\ Forall (fun rc => f (rf rc) <= m) rs.
(** Within half a hundredth. *)
Definition near (x y : Q) : Prop := - (1 # 200) <= x - y <= 1 # 200.
(** Heat held by [litres] of water over a difference of 20 K, in kWh. *)
Definition tank_energy (litres : Q) : Q := litres * (418 # 100) * 20 / 3600.
(** What was paid for heat in an hour, in pounds: imports except those for the electrical
    demand, and the fuel. *)
Definition paid_imports (r : fields) : Q := (r GRID_total_import - r GRID_import_for_elec_demand) * r GRID_import_price / 1000.
Definition paid_for_heat (electric : bool) (r : fields) : Q := paid_imports r + (if electric then 0 else r AUX_cost).

Lemma fold_pmax l x : x <= fold_left pmax l x /\ Forall (fun y => y <= fold_left pmax l x) l /\
  (fold_left pmax l x == x \/ exists y, In y l /\ y == fold_left pmax l x).
Proof.
  revert x. induction l as [|y l IH]; intro x; cbn [fold_left].
  - split; [lra|]. split; [constructor|]. left. reflexivity.
  - destruct (IH (pmax x y)) as (H1 & H2 & H3).
    assert (Hx : x <= pmax x y /\ y <= pmax x y /\ (pmax x y == x \/ pmax x y == y)).
    { unfold pmax. destruct (qlt_spec x y); repeat split; try lra; auto; (left; reflexivity) || (right; reflexivity). }
    destruct Hx as (Hx & Hy & Hc). split; [lra|]. split.
    + constructor; [lra|exact H2].
    + destruct H3 as [H3|(z & Hz & Ez)].
      * destruct Hc as [Hc|Hc]; [left; lra|]. right. exists y. split; [left; reflexivity|]. lra.
      * right. exists z. split; [right; exact Hz|exact Ez].
Qed.
Lemma max_of_peak K f m : complete_run K -> max_of K f = Ok m -> peak f (k_results K) m.
Proof.
  intro HK. unfold max_of. rewrite (array_ok K HK). cbn [bind].
  destruct (k_results K) as [|rc rs]; cbn [map]; [discriminate|]. intro H. apply Ok_inj in H. subst m.
  unfold pmax_list. destruct (fold_pmax (map (fun rc => f (rf rc)) rs) (f (rf rc))) as (H1 & H2 & H3).
  split.
  - destruct H3 as [H3|(y & Hy & Ey)].
    + exists rc. split; [left; reflexivity|]. symmetry. exact H3.
    + apply in_map_iff in Hy as (rc' & E & Hin). exists rc'. split; [right; exact Hin|]. rewrite E. exact Ey.
  - constructor; [exact H1|]. rewrite Forall_forall in *. intros rc' Hin. apply H2. apply in_map_iff. eauto.
Qed.
Lemma max_of_total K f : complete_run K -> exists m, max_of K f = Ok m.
Proof.
  intro HK. unfold max_of. rewrite (array_ok K HK). cbn [bind]. destruct HK as [H1 H2].
  destruct (k_results K) as [|rc rs]; [cbn in H2; lia|]. cbn [map]. eexists. reflexivity.
Qed.
Lemma round2_near x : near (round2 x) x.
Proof. pose proof (round2_bounds x). unfold near. lra. Qed.

(** ** C67: the published indicators *)
Theorem C67_self_consumption : forall K x,
  complete_run K -> RES_self_consumption K = Ok x ->
  let g := total (fun r => r RES_generation_total) (k_results K) in
  let e := total (fun r => r GRID_total_export) (k_results K) in
  (0 < g -> x * g == 100 * (g - e)) /\ (g <= 0 -> x == 0).
Proof.
  intros K x HK. unfold RES_self_consumption, sum_RES, sum_export. rewrite !(sum_of_ok K HK). cbn [bind]. intro H. apply Ok_inj in H.
  subst x. cbv zeta. destruct (qlt_spec 0 (total (fun r => r RES_generation_total) (k_results K))) as [L|L]; split; intro H; try lra.
  field. lra.
Qed.
Print Assumptions C67_self_consumption.
(** Peak output over peak demand, to two decimals. *)
Theorem C67_size_ratio : forall K x,
  complete_run K -> HP_size_ratio K = Ok x ->
  exists out dem, peak (fun r => r HP_heat_total_output) (k_results K) out /\ peak (fun r => r HD_heat_demand) (k_results K) dem /\
    (dem == 0 -> x = NotFinite) /\ (~ dem == 0 -> exists q y, x = Fin q /\ y * dem == out /\ near q y).
Proof.
  intros K x HK. unfold HP_size_ratio, max_heat_pump_output, max_heat_demand.
  destruct (max_of_total K (fun r => r HP_heat_total_output) HK) as [a Ha]. destruct (max_of_total K (fun r => r HD_heat_demand) HK) as [b Hb].
  rewrite Ha, Hb. cbn [bind]. intro H. apply Ok_inj in H. subst x. exists a, b.
  split; [exact (max_of_peak _ _ _ HK Ha)|]. split; [exact (max_of_peak _ _ _ HK Hb)|].
  unfold ndiv. destruct (qeq_spec b 0) as [E|E]; cbn [nmap]; split; intro H; try contradiction; [reflexivity|].
  exists (round2 (a / b)), (a / b). split; [reflexivity|]. split; [field; exact E|apply round2_near].
Qed.
Print Assumptions C67_size_ratio.
(** Heat pump heat over heat demand in per cent, rounded to whole per cents. *)
Theorem C67_utilisation : forall K x,
  complete_run K -> HP_utilisation K = Ok x ->
  let out := total (fun r => r HP_heat_total_output) (k_results K) in
  let dem := total (fun r => r HD_heat_demand) (k_results K) in
  (dem == 0 -> x = NotFinite) /\
  (~ dem == 0 -> exists q y, x = Fin q /\ y * dem == 100 * out /\ - (1 # 2) <= q - y <= 1 # 2).
Proof.
  intros K x HK. unfold HP_utilisation, sum_hp_output, sum_hd. rewrite !(sum_of_ok K HK). cbn [bind]. intro H. apply Ok_inj in H. subst x.
  cbv zeta. set (out := total (fun r => r HP_heat_total_output) (k_results K)). set (dem := total (fun r => r HD_heat_demand) (k_results K)).
  unfold ndiv. destruct (qeq_spec dem 0) as [E|E]; cbn [nmap]; split; intro H; try contradiction; [reflexivity|].
  exists (round2 (out / dem) * 100), (100 * (out / dem)). split; [reflexivity|]. split; [field; exact E|].
  pose proof (round2_near (out / dem)) as N. unfold near in N. lra.
Qed.
Print Assumptions C67_utilisation.
(** Days of average heat demand that a full tank can cover. *)
Theorem C67_storage_days : forall K x,
  complete_run K -> days_storage_content K = Ok x ->
  exists litres, size_at (k_name K) 1 = Ok litres /\
    let dem := total (fun r => r HD_heat_demand) (k_results K) in
    let days := inject_Z (k_timesteps K) / 24 in
    (dem == 0 -> x = NotFinite) /\
    (~ dem == 0 -> exists q, x = Fin q /\ q * (dem / days) == tank_energy (inject_Z litres)).
Proof.
  intros K x HK. unfold days_storage_content, sum_hd. rewrite (sum_of_ok K HK). cbn [bind].
  destruct (size_at (k_name K) 1) as [l|]; cbn [bind]; [|discriminate].
  pose proof (steps_pos K HK) as T. destruct HK as [HK1 HK2]. destruct (Z.eqb_spec (k_timesteps K) 0); [lia|].
  intro H. apply Ok_inj in H. subst x. exists l. split; [reflexivity|]. cbv zeta.
  set (dem := total (fun r => r HD_heat_demand) (k_results K)). set (s := inject_Z (k_timesteps K)) in *.
  assert (E0 : dem / (365 * (s / 8760)) == dem / (s / 24)) by (field; lra).
  unfold ndiv. destruct (qeq_spec (dem / (365 * (s / 8760))) 0) as [E|E]; split; intro H; try reflexivity.
  - exfalso. apply H. setoid_replace dem with (dem / (s / 24) * (s / 24)) by (field; lra). rewrite <- E0, E. ring.
  - exfalso. apply E. rewrite H. field. lra.
  - eexists. split; [reflexivity|]. unfold tank_energy. field. split; [lra|exact H].
Qed.
Print Assumptions C67_storage_days.
(** 600 pounds per kW of heat pump, and the tank at its price per cubic metre; in thousand
    pounds. *)
Theorem C67_capital_cost : forall store_price K c,
  capital_cost store_price K = Ok c ->
  exists kW litres, size_at (k_name K) 0 = Ok kW /\ size_at (k_name K) 1 = Ok litres /\
    ((0 < litres)%Z -> 1000 * c == 600 * inject_Z kW + inject_Z litres / 1000 * store_price litres) /\
    ((litres <= 0)%Z -> 1000 * c == 600 * inject_Z kW).
Proof.
  intros sp K c. unfold capital_cost. destruct (size_at (k_name K) 0) as [h|]; cbn [bind]; [|discriminate].
  destruct (size_at (k_name K) 1) as [t|]; cbn [bind]; [|discriminate]. intro H. apply Ok_inj in H. subst c.
  exists h, t. split; [reflexivity|]. split; [reflexivity|]. unfold ts_calc.
  destruct (Z.leb_spec t 0); split; intro; try lia; field.
Qed.
Print Assumptions C67_capital_cost.
(** Net payments to the grid in thousand pounds. *)
Theorem C67_electricity_cost : forall K x,
  complete_run K -> cost_elec K = Ok x ->
  1000 * x == - total (fun r => r GRID_cashflow) (k_results K).
Proof.
  intros K x HK. unfold cost_elec. rewrite (sum_of_ok K HK). intro H. apply Ok_inj in H. subst x.
  induction (k_results K) as [|rc rs IH]; [reflexivity|]. rewrite !total_cons.
  setoid_replace (1000 * (- rf rc GRID_cashflow / 1000 + total (fun r => - r GRID_cashflow / 1000) rs))
    with (- rf rc GRID_cashflow + 1000 * total (fun r => - r GRID_cashflow / 1000) rs) by field. rewrite IH. ring.
Qed.
Print Assumptions C67_electricity_cost.
Example C67_case : exists K a b c d e f, run_of demo_plant (repeat dull ANNUAL_HOURS) 0 1 K /\
  RES_self_consumption K = Ok a /\ HP_size_ratio K = Ok (Fin b) /\ HP_utilisation K = Ok (Fin c) /\
  days_storage_content K = Ok (Fin d) /\ capital_cost (fun _ => 1) K = Ok e /\ cost_elec K = Ok f /\
  0 < a /\ 0 < b /\ 0 < c /\ 0 < d /\ 0 < e /\ 0 < f.
Proof.
  destruct (one_hour demo_plant dull 0 plain_grid plain_rhi) as (rc & E & R); [exact demo_plant_total|lia|].
  set (K := one_hour_run demo_plant 0 plain_grid plain_rhi) in *.
  set (pos := fun x => match x with Fin q => qlt 0 q | NotFinite => false end).
  destruct (seen_ok (first_step demo_plant dull 0) (fun rc =>
    seen (RES_self_consumption (K rc)) (qlt 0) && seen (HP_size_ratio (K rc)) pos && seen (HP_utilisation (K rc)) pos &&
    seen (days_storage_content (K rc)) pos && seen (capital_cost (fun _ => 1) (K rc)) (qlt 0) && seen (cost_elec (K rc)) (qlt 0))%bool)
    as (rc' & E1 & E2).
  { vm_compute. reflexivity. }
  rewrite E in E1. apply Ok_inj in E1. subst rc'.
  repeat match type of E2 with (_ && _)%bool = true => let A := fresh "A" in apply andb_prop in E2 as [E2 A] end.
  apply seen_ok in E2 as (a & H1 & P1). apply seen_ok in A3 as ([b|] & H2 & P2); [|discriminate].
  apply seen_ok in A2 as ([c|] & H3 & P3); [|discriminate]. apply seen_ok in A1 as ([d|] & H4 & P4); [|discriminate].
  apply seen_ok in A0 as (e & H5 & P5). apply seen_ok in A as (f & H6 & P6).
  exists (K rc), a, b, c, d, e, f. unfold pos in *. cbv beta iota in *.
  repeat (split; [first [assumption | apply qlt_true; assumption]|]). apply qlt_true; assumption.
Qed.

(** ** C68: the cost of heat *)
Lemma heat_cost_total K : complete_run K -> exists l, array K (heat_cost K) = Ok l /\
  qsum l == total paid_imports (k_results K) + (if fuel_eqb (k_fuel K) ELECTRIC then 0 else total (fun r => r AUX_cost) (k_results K) / 1000).
Proof.
  intro HK. eexists. split; [apply (array_ok K HK)|]. rewrite qsum_total. unfold heat_cost.
  induction (k_results K) as [|rc rs IH]; [destruct (fuel_eqb _ _); reflexivity|]. rewrite !total_cons, IH.
  destruct (fuel_eqb (k_fuel K) ELECTRIC); unfold paid_imports.
  - ring.
  - unfold Qdiv. ring.
Qed.
Lemma paid_total b rs : total (paid_for_heat b) rs == total paid_imports rs + (if b then 0 else total (fun r => r AUX_cost) rs).
Proof.
  induction rs as [|rc rs IH]; [destruct b; reflexivity|]. rewrite !total_cons, IH. unfold paid_for_heat. destruct b; [ring|].
  ring.
Qed.

(** Exactly: what both costs of heat are.  The fuel enters a thousand times too small. *)
Theorem C68_exact : forall store_price K R c x y f,
  complete_run K -> RHI_income K = Ok R -> capital_cost store_price K = Ok c -> f = 8760 / inject_Z (k_timesteps K) ->
  cost_of_heat K = Ok (Fin x) -> levelised_cost_of_heat store_price K = Ok (Fin y) ->
  let fuel := if fuel_eqb (k_fuel K) ELECTRIC then 0 else total (fun r => r AUX_cost) (k_results K) / 1000 in
  let paid := total paid_imports (k_results K) + fuel in
  x * total (fun r => r HP_heat_total_output + r AUX_demand) (k_results K) == paid - year_income R /\
  y * (20 * (f * total (fun r => r HD_heat_demand) (k_results K))) == 1000 * c + 20 * (f * paid) - total_income R.
Proof.
  intros sp K R c x y f HK HR Hc Hf Hx Hy. cbv zeta.
  destruct (heat_cost_total K HK) as (l & El & Hl).
  unfold cost_of_heat in Hx. rewrite El in Hx. unfold sum_aux_output, sum_hp_output in Hx. rewrite !(sum_of_ok K HK), HR in Hx. cbn [bind] in Hx.
  apply Ok_inj in Hx. unfold ndiv in Hx. destruct (qeq_spec (total (fun r => r AUX_demand) (k_results K) + total (fun r => r HP_heat_total_output) (k_results K)) 0) as [D|D]; [discriminate|].
  assert (Hx' : (qsum l - year_income R) / (total (fun r => r AUX_demand) (k_results K) + total (fun r => r HP_heat_total_output) (k_results K)) = x) by congruence.
  unfold levelised_cost_of_heat in Hy. rewrite El, Hc, HR in Hy. cbn [bind] in Hy. unfold sum_hd in Hy. rewrite (sum_of_ok K HK), (year_factor_ok K HK), <- Hf in Hy. cbn [bind] in Hy.
  apply Ok_inj in Hy. unfold ndiv in Hy. destruct (qeq_spec (total (fun r => r HD_heat_demand) (k_results K) * f * 20) 0) as [D2|D2]; [discriminate|].
  assert (Hy' : (c * 1000 + qsum l * f * 20 - total_income R) / (total (fun r => r HD_heat_demand) (k_results K) * f * 20) = y) by congruence.
  rewrite <- Hl. split.
  - rewrite <- Hx'. assert (T : total (fun r => r HP_heat_total_output + r AUX_demand) (k_results K) ==
      total (fun r => r AUX_demand) (k_results K) + total (fun r => r HP_heat_total_output) (k_results K)).
    { clear. induction (k_results K) as [|rc rs IH]; [reflexivity|]. rewrite !total_cons, IH. ring. }
    rewrite T. field. exact D.
  - rewrite <- Hy'. setoid_replace (20 * (f * total (fun r => r HD_heat_demand) (k_results K))) with (total (fun r => r HD_heat_demand) (k_results K) * f * 20) by ring.
    rewrite Qmult_comm, Qmult_div_r by exact D2. ring.
Qed.
Print Assumptions C68_exact.
(** Electric back-up: the cost of a kWh of heat is what was paid for heat, less the
    incentive, over the heat produced (missing: other fuels, refuted below). *)
Theorem C68_cost_of_heat_partial : forall K R x,
  complete_run K -> k_fuel K = ELECTRIC -> RHI_income K = Ok R -> cost_of_heat K = Ok (Fin x) ->
  x * total (fun r => r HP_heat_total_output + r AUX_demand) (k_results K) ==
  total (paid_for_heat (fuel_eqb (k_fuel K) ELECTRIC)) (k_results K) - year_income R.
Proof.
  intros K R x HK EF HR Hx. rewrite paid_total, EF. cbn [fuel_eqb].
  destruct (heat_cost_total K HK) as (l & El & Hl). rewrite EF in Hl. cbn [fuel_eqb] in Hl.
  unfold cost_of_heat in Hx. rewrite El in Hx. unfold sum_aux_output, sum_hp_output in Hx. rewrite !(sum_of_ok K HK), HR in Hx. cbn [bind] in Hx.
  apply Ok_inj in Hx. unfold ndiv in Hx. destruct (qeq_spec (total (fun r => r AUX_demand) (k_results K) + total (fun r => r HP_heat_total_output) (k_results K)) 0) as [D|D]; [discriminate|].
  assert (Hx' : (qsum l - year_income R) / (total (fun r => r AUX_demand) (k_results K) + total (fun r => r HP_heat_total_output) (k_results K)) = x) by congruence.
  rewrite <- Hx', <- Hl. assert (T : total (fun r => r HP_heat_total_output + r AUX_demand) (k_results K) ==
      total (fun r => r AUX_demand) (k_results K) + total (fun r => r HP_heat_total_output) (k_results K)).
  { clear. induction (k_results K) as [|rc rs IH]; [reflexivity|]. rewrite !total_cons, IH. ring. }
  rewrite T. field. exact D.
Qed.
Print Assumptions C68_cost_of_heat_partial.
Theorem C68_cost_of_heat_refuted : exists P year s n K R x,
  good_run P year /\ run_of P year s n K /\ RHI_income K = Ok R /\ cost_of_heat K = Ok (Fin x) /\
  0 < total (fun r => r HP_heat_total_output + r AUX_demand) (k_results K) /\
  x * total (fun r => r HP_heat_total_output + r AUX_demand) (k_results K) <
  total (paid_for_heat (fuel_eqb (k_fuel K) ELECTRIC)) (k_results K) - year_income R.
Proof.
  destruct (one_hour gas_plant dull 0 plain_grid plain_rhi) as (rc & E & R); [exact gas_plant_total|lia|].
  set (K := one_hour_run gas_plant 0 plain_grid plain_rhi) in *.
  destruct (seen_ok (first_step gas_plant dull 0) (fun rc =>
    seen (RHI_income (K rc)) (fun R => seen (cost_of_heat (K rc)) (fun x => match x with Fin x =>
      qlt 0 (total (fun r => r HP_heat_total_output + r AUX_demand) (k_results (K rc))) &&
      qlt (x * total (fun r => r HP_heat_total_output + r AUX_demand) (k_results (K rc)))
      (total (paid_for_heat (fuel_eqb (k_fuel (K rc)) ELECTRIC)) (k_results (K rc)) - year_income R) | NotFinite => false end)))%bool) as (rc' & E1 & E2).
  { vm_compute. reflexivity. }
  rewrite E in E1. apply Ok_inj in E1. subst rc'.
  apply seen_ok in E2 as (I & HI & E2). apply seen_ok in E2 as ([x|] & Hx & E2); [|discriminate].
  apply andb_prop in E2 as [E2 E3].
  exists gas_plant, (repeat dull ANNUAL_HOURS), 0%Z, 1%Z, (K rc), I, x.
  split; [exact gas_plant_good|]. split; [exact R|]. split; [exact HI|]. split; [exact Hx|].
  split; apply qlt_true; assumption.
Qed.
Print Assumptions C68_cost_of_heat_refuted.
Example C68_case : exists K R c x y, run_of demo_plant (repeat dull ANNUAL_HOURS) 0 1 K /\ k_fuel K = ELECTRIC /\ RHI_income K = Ok R /\
  capital_cost (fun _ => 1) K = Ok c /\ cost_of_heat K = Ok (Fin x) /\ levelised_cost_of_heat (fun _ => 1) K = Ok (Fin y) /\ 0 < year_income R.
Proof.
  destruct (one_hour demo_plant dull 0 plain_grid plain_rhi) as (rc & E & R); [exact demo_plant_total|lia|].
  set (K := one_hour_run demo_plant 0 plain_grid plain_rhi) in *.
  set (finite := fun x => match x with Fin _ => true | NotFinite => false end).
  destruct (seen_ok (first_step demo_plant dull 0) (fun rc =>
    seen (RHI_income (K rc)) (fun R => qlt 0 (year_income R)) && seen (capital_cost (fun _ => 1) (K rc)) (fun _ => true) &&
    seen (cost_of_heat (K rc)) finite && seen (levelised_cost_of_heat (fun _ => 1) (K rc)) finite)%bool) as (rc' & E1 & E2).
  { vm_compute. reflexivity. }
  rewrite E in E1. apply Ok_inj in E1. subst rc'.
  repeat match type of E2 with (_ && _)%bool = true => let A := fresh "A" in apply andb_prop in E2 as [E2 A] end.
  apply seen_ok in E2 as (I & H1 & P1). apply seen_ok in A1 as (c & H2 & _). apply seen_ok in A0 as ([x|] & H3 & P3); [|discriminate].
  apply seen_ok in A as ([y|] & H4 & P4); [|discriminate].
  exists (K rc), I, c, x, y. repeat (split; [first [assumption|reflexivity]|]). apply qlt_true; assumption.
Qed.
