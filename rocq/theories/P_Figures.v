(** C125: the figures in the tables of a sensibly filled-in workbook. *)
From Coq Require Import String Ascii.
From Verif Require Import Base BaseL M_Battery S_Battery M_HeatPump M_Tools S_HeatPump M_FixedOrder S_FixedOrder L_FixedOrderProps L_FixedOrderMore L_Tank
  M_Excel S_Excel L_Excel P_Excel M_Init S_Init L_Init P_Init P_InitReady M_Program S_Program L_Program L_ProgramRuns L_ProgramOk P_Program P_ProgramOk P_ProgramCases S_Sensible L_Sensible P_Sensible
  M_Kpi S_Kpi L_Kpi L_KpiSums P_Kpi S_Ranking P_Books S_Rows P_Rows S_Figures L_Figures.
From Verif Require M_Sweep.
Local Open Scope nat_scope.
Local Open Scope string_scope.
Local Open Scope list_scope.

(** A combination of a completed run under fixed order control of a sensible workbook, as it is loaded for the tables *)
Definition one_row L run_pv lc opt price (wb : workbook) (d : done) (K : run) : Prop :=
  sensible L lc wb (d_sizes d) /\ calcs L d = Ok K /\ exists out, ran L run_pv lc opt price wb "Fixed order control" out d.

(** ** C125.  The full statement: for a sensible workbook all totals in the tables are numbers that are not negative, no more is exported than generated, all shares lie between 0 and 100 %, and the seasonal
    performance factor is that of the heat pump.  The share of the demand met by renewables can exceed 100 % when the battery is charged (C41_demand_met_refuted), the share of heat needs orders that export and no
    minimum output, and the seasonal performance factor ignores the electricity from the battery (C60_at_most_best_refuted). *)
Theorem C125_totals : forall L run_pv lc opt price wb d K h, one_row L run_pv lc opt price wb d K ->
  In h ["sum_hp_output"; "sum_hp_usage"; "sum_aux_output"; "sum_ed_import"; "sum_RES"; "sum_import"; "sum_export"] -> exists x, entry price K h = Ok (Fin x) /\ (0 <= x)%Q.
Proof.
  intros L run_pv lc opt price wb d K h (SE & C & out & R) I. destruct (behind _ _ _ _ _ _ _ _ _ R SE C) as (P & year & s & n & G & RO & _).
  assert (N : forall k, In k flow_fields -> exists x, fin (sum_of K (fun r => r k)) = Ok (Fin x) /\ (0 <= x)%Q).
  { intros k Hk. rewrite (sum_of_ok K (run_complete _ _ _ _ _ RO)). eexists. split; [reflexivity|]. apply total_nonneg. apply (run_hours P year s n K _ RO). intros i rc Hi. destruct RO as (H & _).
    destruct (good_run_hour P year s n _ i rc G H Hi) as (J & nd & soc & Hst & Gh & _). pose proof (flows_nonneg P J _ nd soc rc Gh Hst) as F. rewrite Forall_forall in F. exact (F k Hk). }
  cbn in I. repeat (destruct I as [<-|I]; [apply N; cbn; tauto|]). contradiction.
Qed.
Print Assumptions C125_totals.
Theorem C125_no_more_sold_than_generated : forall L run_pv lc opt price wb d K, one_row L run_pv lc opt price wb d K ->
  exists x y, entry price K "sum_export" = Ok (Fin x) /\ entry price K "sum_RES" = Ok (Fin y) /\ (x <= y)%Q.
Proof.
  intros L run_pv lc opt price wb d K (SE & C & out & R). destruct (behind _ _ _ _ _ _ _ _ _ R SE C) as (P & year & s & n & G & RO & _).
  change (entry price K "sum_export") with (fin (sum_of K (fun r => r GRID_total_export))). change (entry price K "sum_RES") with (fin (sum_of K (fun r => r RES_generation_total))).
  rewrite !(sum_of_ok K (run_complete _ _ _ _ _ RO)). eexists. eexists. split; [reflexivity|]. split; [reflexivity|]. pose proof (run_exports P year s n K G RO) as F. clear - F.
  induction F as [|rc l X F IH]; [apply Qle_refl|]. rewrite !total_cons. lra.
Qed.
Print Assumptions C125_no_more_sold_than_generated.
Theorem C125_own_use_share : forall L run_pv lc opt price wb d K, one_row L run_pv lc opt price wb d K -> exists x, entry price K "local_RES_used" = Ok (Fin x) /\ percentage x.
Proof.
  intros L run_pv lc opt price wb d K (SE & C & out & R). destruct (behind _ _ _ _ _ _ _ _ _ R SE C) as (P & year & s & n & G & RO & _).
  destruct (C41_self_consumption P year s n K G RO) as (x & E & X). exists x. split; [|exact X]. change (entry price K "local_RES_used") with (fin (RES_self_consumption K)). rewrite E. reflexivity.
Qed.
Print Assumptions C125_own_use_share.
Theorem C125_heat_pump_share : forall L run_pv lc opt price wb d K x, one_row L run_pv lc opt price wb d K -> entry price K "HP_met_RES" = Ok (Fin x) -> percentage x.
Proof.
  intros L run_pv lc opt price wb d K x (SE & C & out & R) E. destruct (behind _ _ _ _ _ _ _ _ _ R SE C) as (P & year & s & n & G & RO & _). exact (C41_heat_pump_share P year s n K G RO x E).
Qed.
Print Assumptions C125_heat_pump_share.
Theorem C125_heat_share_partial : forall L run_pv lc opt price wb d K x, one_row L run_pv lc opt price wb d K -> listed wb RES_to_export -> no_minimum_cells wb ->
  entry price K "heat_met_RES" = Ok (Fin x) -> percentage x.
Proof.
  intros L run_pv lc opt price wb d K x (SE & C & out & R) LE NM E. destruct (behind _ _ _ _ _ _ _ _ _ R SE C) as (P & year & s & n & G & RO & _ & A & _ & M & _).
  exact (proj1 (C41_fixed_order_runs P year s n K G (A _ LE) (M NM) RO) x E).
Qed.
Print Assumptions C125_heat_share_partial.
Theorem C125_demand_share_partial : forall L run_pv lc opt price wb d K x, one_row L run_pv lc opt price wb d K -> listed wb RES_to_export -> no_minimum_cells wb ->
  entry price K "demand_met_RES" = Ok (Fin x) -> (0 <= x)%Q /\ (unlisted wb RES_to_ES -> unlisted wb Import_to_ES -> percentage x).
Proof.
  intros L run_pv lc opt price wb d K x (SE & C & out & R) LE NM E. destruct (behind _ _ _ _ _ _ _ _ _ R SE C) as (P & year & s & n & G & RO & _ & A & B & M & _).
  destruct (proj2 (C41_fixed_order_runs P year s n K G (A _ LE) (M NM) RO) x E) as (X & Y). split; [exact X|]. intros U1 U2. split; [exact X|]. apply Y. exact (run_uncharged P year s n K G (A _ LE) (M NM) (B _ U1) (B _ U2) RO).
Qed.
Print Assumptions C125_demand_share_partial.
(** The seasonal performance factor of a heat pump of constant COP is the number in its cell. *)
Theorem C125_seasonal_factor_partial : forall L run_pv lc opt price wb d K c x, one_row L run_pv lc opt price wb d K -> unlisted wb ES_to_HP_to_demand -> unlisted wb HP_import_to_TS ->
  chooses model_names model_name_value wb "Heat pump" "D" 4 SIMPLE -> holds wb "Heat pump" "D" 12 c -> fst (d_sizes d) <> 0%Z -> entry price K "scop" = Ok (Fin x) -> (x == c)%Q.
Proof.
  intros L run_pv lc opt price wb d K c x (SE & C & out & R) U1 U2 CH Hc Hn E. destruct (behind _ _ _ _ _ _ _ _ _ R SE C) as (P & year & s & n & G & RO & _ & _ & B & _ & F).
  assert (X : (c <= x <= c)%Q); [|lra]. refine (C60_between_partial P year s n K c c x G (B _ U1) (B _ U2) RO E _).
  refine (Forall_impl _ _ (run_cop P year s n K c G RO (F c CH Hc Hn))). intros rc ->. split; apply Qle_refl.
Qed.
Print Assumptions C125_seasonal_factor_partial.
(** ** Case: the 20 kW row of the sweep of C124_case *)
Example C125_case : forall opt price, exists d K, one_row calm sun (fun _ _ _ _ _ => 3%Q) opt price pumps d K /\ d_sizes d = (20, 0)%Z /\ listed pumps RES_to_export /\ no_minimum_cells pumps /\
  unlisted pumps RES_to_ES /\ unlisted pumps Import_to_ES /\ unlisted pumps ES_to_HP_to_demand /\ unlisted pumps HP_import_to_TS /\
  chooses model_names model_name_value pumps "Heat pump" "D" 4 SIMPLE /\ holds pumps "Heat pump" "D" 12 3%Q.
Proof.
  intros opt price. destruct (pumps_runs opt price) as (out & H). pose proof (pumps_sizes _ _ _ H) as M.
  destruct (has_size (r_done out) (20, 0)%Z) as (d & I & Ed); [rewrite M; right; left; reflexivity|].
  assert (SA : says pumps "Controller" "D" 5 "Fixed order control") by (exists (list_ascii_of_string "Fixed order control"); split; reflexivity).
  assert (R : ran calm sun (fun _ _ _ _ _ => 3%Q) opt price pumps "Fixed order control" out d) by (split; [exact pumps_plain|split; [exact pumps_big|split; [exact SA|split; assumption]]]).
  assert (IN : incentive pumps {| M_Kpi.rhi_type := "Domestic"; M_Kpi.rhi_tariff := "Fixed"; M_Kpi.rhi_fixed := 713; M_Kpi.rhi_tier_1 := 813; M_Kpi.rhi_tier_2 := 913 |}%Q).
  { unfold incentive. cbv zeta. cbn [M_Kpi.rhi_type M_Kpi.rhi_tariff M_Kpi.rhi_fixed M_Kpi.rhi_tier_1 M_Kpi.rhi_tier_2].
    split; [eexists; split; reflexivity|]. split; [eexists; split; reflexivity|]. split; [reflexivity|]. split; reflexivity. }
  destruct (calcs_ok _ _ _ _ _ _ _ _ _ R IN) as (K & EK). exists d, K. split; [split; [rewrite Ed; apply pumps_sensible; lia|split; [exact EK|exists out; exact R]]|]. split; [exact Ed|].
  assert (LI : listed pumps RES_to_export) by (split; intros l ps E Z; vm_compute in E; injection E as <-; vm_compute in Z; injection Z as <-; cbn; tauto).
  assert (UN : forall p, In p [RES_to_ES; Import_to_ES; ES_to_HP_to_demand; HP_import_to_TS] -> unlisted pumps p).
  { intros p Ip. split; intros l ps E Z; vm_compute in E; injection E as <-; vm_compute in Z; injection Z as <-; cbn in Ip; repeat (destruct Ip as [<-|Ip]; [cbn; intuition discriminate|]); contradiction. }
  split; [exact LI|]. split; [intros x y X Y; vm_compute in Y; injection Y as <-; ring|]. do 4 (split; [apply UN; cbn; tauto|]). split; [exact (proj1 pumps_pump)|reflexivity].
Qed.
