(** The set-up of the components on a concrete workbook: cases for C85. *)
From Coq Require Import String Ascii Sorted.
From Verif Require Import Base BaseL M_Battery M_HeatPump M_Sweep M_Regression S_Regression L_Regression P_Regression M_Excel S_Excel L_Excel L_ExcelSheets P_Excel L_HeatPump M_Init S_Init L_Init P_Init.
From Verif Require M_Tank M_Grid M_Renewables.
Local Open Scope nat_scope.
Local Open Scope list_scope.

(** A workbook with a year of weather and demand that is filled in *)
Definition at_cells (l : list (nat * nat * string)) (f : nat -> nat -> value) (r c : nat) : value :=
  match find (fun x => Nat.eqb (fst (fst x)) (r + 2) && Nat.eqb (snd (fst x)) c) l with Some x => txt (snd x) | None => f r c end.
Definition ready (kind approach data tariff : string) : workbook := fun name =>
  if String.eqb name "Weather resources" then Some (sheet_by 15 (Z.to_nat 8764) number_at)
  else if String.eqb name "Demand input" then Some (sheet_by 9 (Z.to_nat 8764) number_at)
  else if String.eqb name "PV inputs" then Some (sheet_by 8 20 (at_cells [(16, 2, "Roof"); (20, 2, "A module"); (20, 3, "An inverter"); (20, 7, "urban")]
    (fun r c => if r <? 17 then rows_at [15; 16] 2 5 r c else rows_at [19; 20] 2 7 r c)))
  else if String.eqb name "Wind inputs" then Some (sheet_by 7 26 (at_cells [(15, 2, "V90"); (20, 2, "Mine")]
    (fun r c => if r <? 17 then rows_at [14; 15] 2 5 r c else if r <? 20 then rows_at [19; 20] 2 6 r c else rows_at [23; 24; 25; 26; 27] 2 3 r c)))
  else if String.eqb name "Grid" then Some (sheet_by 23 50 (at_cells [(5, 3, tariff)] number_at))
  else if String.eqb name "Thermal storage" then Some (sheet_by 14 22 (at_cells [(6, 3, " Polyurethane "); (7, 3, "Outside")] number_at))
  else if String.eqb name "Heat pump" then Some (sheet_by 19 47 (at_cells [(3, 3, kind); (4, 3, approach); (9, 3, data)] number_at))
  else sample name.
Definition small_libraries : libraries := {| lib_module := unit; lib_inverter := unit; lib_cec := fun m => if String.eqb m "A_module" then Some tt else None;
  lib_sandia := fun _ => None; lib_inverters := fun _ => Some tt; lib_wind := fun _ _ => Ok []; lib_fit := fun _ _ => {| l_intercept := 3; l_coef := [] |}; 
  lib_width := fun c => c; lib_pi := 3; lib_cp := fun _ => Some 4200 |}%Q.
Lemma ready_plain k1 k2 k3 k4 : plain (ready k1 k2 k3 k4).
Proof.
  intros name s H. unfold ready in H.
  repeat match type of H with (if ?b then _ else _) = _ => destruct b; [injection H as <-; apply sheet_by_plain|] end. exact (sample_plain name s H).
Qed.
Lemma xl_by wb name w n f c r : wb name = Some (sheet_by w n f) -> letter c < w -> 2 <= r <= n + 1 -> xl wb name c r = f (r - 2) (letter c).
Proof.
  intros E Hc Hr. unfold xl. rewrite E. unfold sheet_by. cbn [s_cells].
  rewrite (nth_indep _ [] (map (f 0) (seq 0 w))) by (rewrite map_length, seq_length; lia).
  rewrite (map_nth (fun r => map (f r) (seq 0 w))), seq_nth by lia. cbn [Nat.add].
  rewrite (nth_indep _ None (f (r - 2) 0)) by (rewrite map_length, seq_length; lia). rewrite (map_nth (f (r - 2))), seq_nth by lia. reflexivity.
Qed.
Lemma last_by wb name w n f : wb name = Some (sheet_by w n f) -> last_row wb name = n + 1.
Proof. intros E. unfold last_row. rewrite E. cbn [sheet_by s_cells]. rewrite map_length, seq_length. reflexivity. Qed.
Lemma numeric_by wb name w n c r : wb name = Some (sheet_by w n number_at) -> letter c < w -> 2 <= r <= n + 1 -> numeric wb name c r.
Proof. intros E Hc Hr. eexists. unfold holds. rewrite (xl_by _ _ _ _ _ _ _ E Hc Hr). reflexivity. Qed.
Lemma ready_big k1 k2 k3 k4 : big_enough (ready k1 k2 k3 k4).
Proof.
  unfold big_enough. repeat match goal with |- _ /\ _ => split end;
    (eapply reaches_by; [reflexivity|vm_compute; reflexivity|first [apply Nat.leb_le; lia|vm_compute; reflexivity]]).
Qed.
Lemma ready_readable k1 k2 k3 k4 : readable (ready k1 k2 k3 k4).
Proof. unfold readable, readable_fuel. repeat match goal with |- _ /\ _ => split end; (eexists; vm_compute; reflexivity). Qed.
Tactic Notation "ready_complete" int_or_var(n) := split; [sample_complete|]; split; [notin|]; intros r' Lr Nr;
  do n (destruct r' as [|r']; [first [exfalso; apply Nr; vm_compute; tauto|
      apply (not_complete _ _ _ _ _ 2); [right; eexists; split; [reflexivity|split; [vm_compute; lia|reflexivity]]|notin]|
      apply (not_complete _ _ _ _ _ 6); [right; eexists; split; [reflexivity|split; [vm_compute; lia|reflexivity]]|notin]|
      intros [X _]; vm_compute in X; lia]|]); lia.
Ltac cell := eexists; vm_compute; reflexivity.
Ltac word := eexists; eexists; split; vm_compute; reflexivity.
Lemma ready_weather k1 k2 k3 k4 : weather_filled (ready k1 k2 k3 k4).
Proof.
  assert (E : ready k1 k2 k3 k4 "Weather resources" = Some (sheet_by 15 (Z.to_nat 8764) number_at)) by reflexivity.
  unfold weather_filled. cbv zeta. rewrite (last_by _ _ _ _ _ E). split; [lia|]. intros r H. unfold rows_of in H. rewrite (last_by _ _ _ _ _ E) in H.
  split; [|split; eapply numeric_by; [exact E|vm_compute; lia|lia|exact E|vm_compute; lia|lia]].
  intros x I. assert (letter x < 15) by (cbn in I; repeat (destruct I as [<-|I]; [vm_compute; lia|]); contradiction).
  destruct (numeric_by _ _ _ _ x r E H0 ltac:(lia)) as [q Q]. intros (s & t & T & _). unfold holds in Q. rewrite Q in T. discriminate.
Qed.
Lemma ready_demand k1 k2 k3 k4 : demand_filled (ready k1 k2 k3 k4).
Proof.
  assert (E : ready k1 k2 k3 k4 "Demand input" = Some (sheet_by 9 (Z.to_nat 8764) number_at)) by reflexivity.
  unfold demand_filled. cbv zeta. rewrite (last_by _ _ _ _ _ E). split; [lia|]. split; [intros r H; unfold rows_of in H; rewrite (last_by _ _ _ _ _ E) in H|];
    (eapply numeric_by; [exact E|vm_compute; lia|lia]).
Qed.
Lemma ready_PV k1 k2 k3 k4 : PV_filled_in (ready k1 k2 k3 k4) (fun m => lib_cec small_libraries (M_Renewables.clean_name m) <> None \/ lib_sandia small_libraries (M_Renewables.clean_name m) <> None).
Proof.
  split.
  - exists 16. split; [ready_complete 16|]. split; [word|]. repeat split; cell.
  - exists 20, "A module"%string. split; [ready_complete 20|]. split; [eexists; split; vm_compute; reflexivity|]. split; [left; vm_compute; discriminate|]. split; [word|]. split; [cell|]. split; [cell|]. split; [cell|word].
Qed.
Lemma ready_wind k1 k2 k3 k4 : wind_filled (ready k1 k2 k3 k4).
Proof.
  split; [|split].
  - exists 15. split; [ready_complete 15|]. split; [word|]. repeat split; cell.
  - exists 20. split; [ready_complete 20|]. split; [word|]. repeat split; cell.
  - intros r (Hr & F) NI. vm_compute in Hr. do 28 (destruct r as [|r]; [first [exfalso; lia|exfalso; apply NI; vm_compute; tauto|split; cell|
      exfalso; apply (F 2); [vm_compute; lia|notin|reflexivity]]|]). exfalso. lia.
Qed.
Lemma ready_battery k1 k2 k3 k4 : battery_filled (ready k1 k2 k3 k4).
Proof. exists 6. split; [ready_complete 6|]. intros x I. cbn in I. repeat (destruct I as [<-|I]; [cell|]). contradiction. Qed.
Lemma ready_backup k1 k2 k3 k4 : backup_filled (ready k1 k2 k3 k4).
Proof.
  split; [cell|]. split; [intros r I; cbn in I; repeat (destruct I as [<-|I]; [split; cell|]); contradiction|].
  right. exists GAS, 9. split; [vm_compute; tauto|]. split; (split; [vm_compute; tauto|eexists; split; [eexists; split; vm_compute; reflexivity|vm_compute; reflexivity]]).
Qed.
Lemma ready_tank k1 k2 k3 k4 : tank_filled (ready k1 k2 k3 k4).
Proof.
  split; [word|]. split; [word|]. split; [exists 803%Z; eexists; split; [vm_compute; reflexivity|reflexivity]|].
  intros r I; cbn in I; repeat (destruct I as [<-|I]; [cell|]); contradiction.
Qed.
Ltac choose_it := split; [vm_compute; tauto|eexists; split; [eexists; split; vm_compute; reflexivity|vm_compute; reflexivity]].
Lemma ready_heat_pump ty ap di k4 : ap <> GENERIC -> let wb := ready (hp_kind_value ty) (model_name_value ap) (data_input_value di) k4 in
  heat_pump_filled wb (width wb "Heat pump" = 19 /\ exists p, test_result wb p).
Proof.
  intros G wb. subst wb. split; [exists ty; destruct ty; choose_it|]. split; [exists di; destruct di; choose_it|].
  split; [intros r I; cbn in I; repeat (destruct I as [<-|I]; [cell|]); contradiction|]. split.
  { intros c r I J (s & t & T & _). assert (N : numeric (ready (hp_kind_value ty) (model_name_value ap) (data_input_value di) k4) "Heat pump" c r).
    { eexists. unfold holds. erewrite xl_by; [|reflexivity|cbn in I; repeat (destruct I as [<-|I]; [vm_compute; lia|]); contradiction|lia].
      unfold at_cells. destruct (find _ _) as [x|] eqn:F; [|reflexivity]. apply find_some in F as [Ix F]. apply andb_prop in F as [F _]. apply Nat.eqb_eq in F.
      cbn in Ix. repeat (destruct Ix as [<-|Ix]; [cbn in F; lia|]). contradiction. }
    destruct N as [q N]. unfold holds in N. rewrite N in T. discriminate. }
  exists ap. split; [destruct ap; choose_it|]. destruct ap; [cell| |contradiction G; reflexivity|].
  - intros r I; cbn in I; repeat (destruct I as [<-|I]; [cell|]); contradiction.
  - split; [reflexivity|]. exists {| p_ambient := 2702; p_flow := 2303; p_COSP := 2703; p_duty := 2704 |}%Q. left. exists 27. split; [lia|]. left. unfold tested_at.
    repeat match goal with |- _ /\ _ => split end; vm_compute; first [reflexivity|discriminate].
Qed.
Lemma ready_filled ty ap di tariff : ap <> GENERIC -> In tariff ["Flat rates"; "Variable periods"; "Time of use - WM"]%string ->
  filled_in small_libraries (ready (hp_kind_value ty) (model_name_value ap) (data_input_value di) tariff).
Proof.
  intros G I. unfold filled_in. split; [apply ready_plain|]. split; [apply ready_big|]. split; [apply ready_readable|]. split; [apply ready_weather|].
  split; [apply ready_demand|]. split; [apply ready_PV|]. split; [discriminate|]. split; [apply ready_wind|]. split; [apply ready_battery|]. split; [apply ready_backup|].
  split; [apply ready_tank|]. split; [apply ready_heat_pump, G|]. cbn in I. destruct I as [<-|[<-|[<-|[]]]].
  - left. split; [eexists; split; vm_compute; reflexivity|cell].
  - right; left. split; [eexists; split; vm_compute; reflexivity|]. split; [|exists 4213%Z; eexists; split; [vm_compute; reflexivity|reflexivity]].
    intros c r I J. eexists. unfold holds. erewrite xl_by; [|reflexivity|cbn in I; repeat (destruct I as [<-|I]; [vm_compute; lia|]); contradiction|lia].
    unfold at_cells. cbn [find fst snd]. replace (5 =? r - 2 + 2)%nat with false by (symmetry; apply Nat.eqb_neq; lia). reflexivity.
  - right; right. split; [eexists; split; vm_compute; reflexivity|]. split; [|split; cell].
    intros r J K. unfold rows_of in J. erewrite last_by in J by reflexivity. eexists. unfold holds. erewrite xl_by; [|reflexivity|vm_compute; lia|lia].
    unfold at_cells. cbn [find fst snd]. replace (5 =? r - 2 + 2)%nat with false by (symmetry; apply Nat.eqb_neq; lia). reflexivity.
Qed.

Lemma holds_one wb N c r a b : holds wb N c r a -> holds wb N c r b -> a = b.
Proof. unfold holds. intros A B. rewrite A in B. injection B as B. exact B. Qed.
Lemma first_one wb N from but skip r r' : first_complete wb N from but skip r -> first_complete wb N from but skip r' -> r = r'.
Proof.
  intros (A & A' & A'') (B & B' & B''). destruct (Nat.lt_trichotomy r r') as [H|[H|H]]; [exfalso; exact (B'' r H A' A)|exact H|exfalso; exact (A'' r' H B' B)].
Qed.
(** The plant of a filled-in workbook: the cells reach their places. *)
Example C85_case : forall h t, exists o, set_up small_libraries (ready "WSHP" "Simple" "Peak performance" "Flat rates") h t = Ok o /\
  b_capacity (o_battery o) = 602%Q /\ b_self_discharge (o_battery o) = 608%Q /\ M_Tank.k_capacity (o_tank o) = inject_Z t /\ M_Tank.k_nodes (o_tank o) = Z.to_nat 803 /\
  M_Tank.k_Fe (o_tank o) = 2303%Q /\ M_Renewables.wi_hub (o_database o) = 1503%Q /\ M_Renewables.wi_nominal (o_user o) = Some 2006%Q /\
  M_Renewables.pv_latitude (o_PV o) = 1603%Q /\ M_Renewables.pv_azimuth (o_PV o) = 2006%Q /\ a_efficiency (o_aux o) = 603%Q /\ M_Grid.g_flat (o_grid o) = 902%Q /\
  h_capacity (o_heat_pump o) = inject_Z h /\ h_minimum_output (o_heat_pump o) = 803%Q.
Proof.
  intros h t. assert (F : filled_in small_libraries (ready "WSHP" "Simple" "Peak performance" "Flat rates")).
  { split; [apply ready_plain|]. split; [apply ready_big|]. split; [apply ready_readable|]. split; [apply ready_weather|].
    split; [apply ready_demand|]. split; [apply ready_PV|]. split; [discriminate|]. split; [apply ready_wind|]. split; [apply ready_battery|]. split; [apply ready_backup|].
    split; [apply ready_tank|]. split; [|left; split; [eexists; split; vm_compute; reflexivity|cell]].
    split; [exists WSHP; choose_it|]. split; [exists PEAK; choose_it|]. split; [intros r I; cbn in I; repeat (destruct I as [<-|I]; [cell|]); contradiction|].
    split; [|exists SIMPLE; split; [choose_it|cell]].
    intros c r I J (s & u & T & _). erewrite xl_by in T; [|reflexivity|cbn in I; repeat (destruct I as [<-|I]; [vm_compute; lia|]); contradiction|lia].
    unfold at_cells in T. destruct (find _ _) as [x|] eqn:Fd; [|discriminate]. apply find_some in Fd as [Ix Fd]. apply andb_prop in Fd as [Fd _]. apply Nat.eqb_eq in Fd.
    cbn in Ix. repeat (destruct Ix as [<-|Ix]; [cbn in Fd; lia|]). contradiction. }
  pose proof F as (P & B & _). destruct (C85_completes _ _ h t F) as [o E]. exists o. split; [exact E|].
  destruct (C85_battery _ _ h t o P B E) as (r1 & F1 & B1 & _ & _ & _ & _ & _ & B7).
  destruct (C85_tank _ _ h t o P B E) as (T1 & _ & _ & _ & _ & _ & (z & (qz & TZ & EZ) & TN) & _ & _ & _ & _ & _ & _ & _ & TF & _).
  destruct (C85_turbines _ _ h t o P B E) as ((r2 & F2 & _ & W1 & _) & (r3 & F3 & _ & _ & _ & _ & _ & pn & W2 & W3) & _).
  destruct (C85_PV _ _ h t o P B E) as ((r4 & F4 & V1 & _) & (r5 & m & F5 & _ & _ & _ & _ & V2) & _).
  destruct (C85_backup _ _ h t o P B E) as (_ & X1 & _). destruct (C85_tariff _ _ h t o P B E) as (G1 & _ & G2 & _).
  destruct (C85_heat_pump _ _ h t o P B E) as (_ & H1 & _ & _ & H2 & _).
  assert (E1 : r1 = 6) by (refine (first_one _ _ _ _ _ _ _ F1 _); ready_complete 6). assert (E2 : r2 = 15) by (refine (first_one _ _ _ _ _ _ _ F2 _); ready_complete 15).
  assert (E3 : r3 = 20) by (refine (first_one _ _ _ _ _ _ _ F3 _); ready_complete 20). assert (E4 : r4 = 16) by (refine (first_one _ _ _ _ _ _ _ F4 _); ready_complete 16).
  assert (E5 : r5 = 20) by (refine (first_one _ _ _ _ _ _ _ F5 _); ready_complete 20). subst r1 r2 r3 r4 r5.
  repeat match goal with |- _ /\ _ => split end; try assumption; try (eapply holds_one; [eassumption|vm_compute; reflexivity]).
  - rewrite TN. f_equal. pose proof (holds_one _ _ _ _ _ 803%Q TZ eq_refl) as ->. unfold Qeq in EZ. cbn in EZ. lia.
  - rewrite W3. f_equal. eapply holds_one; [exact W2|vm_compute; reflexivity].
  - eapply holds_one; [apply G2|vm_compute; reflexivity]. destruct G1 as (s & T & ->). vm_compute in T. injection T as <-. left. reflexivity.
Qed.
