(** Proofs about [M_Program]. *)
From Coq Require Import String Ascii.
From Verif Require Import Base BaseL M_Battery M_HeatPump M_Tools S_HeatPump L_HeatPump L_Tools M_FixedOrder S_FixedOrder L_FixedOrderRun M_Regression L_Regression M_Excel S_Excel L_Excel L_ExcelSheets
  M_Init S_Init L_Init M_Program.
From Verif Require M_Tank M_Grid L_Grid S_Grid M_Renewables L_Renewables M_Mpc M_Sweep L_Sweep M_Kpi M_Plots P_Excel P_Grid.
Local Open Scope nat_scope.
Local Open Scope string_scope.
Local Open Scope list_scope.

Lemma pidx_nth {A} (l : list A) t x : pidx l t = Ok x <-> nth_error l t = Some x.
Proof. unfold pidx. destruct (nth_error l t); split; intro H; try discriminate; injection H as ->; reflexivity. Qed.
Lemma mapM_rel {A B} (f : A -> res B) l l' : mapM f l = Ok l' -> Forall2 (fun x y => f x = Ok y) l l'.
Proof.
  revert l'. induction l as [|x l IH]; intros l' H; cbn [mapM] in H; [injection H as <-; constructor|].
  destruct (f x) as [y|] eqn:E; cbn [bind] in H; [|discriminate]. destruct (mapM f l) as [ys|] eqn:E'; cbn [bind] in H; [|discriminate].
  injection H as <-. constructor; [exact E|]. apply IH. reflexivity.
Qed.
Lemma mapM_back {A B} (f : A -> res B) l l' t y : mapM f l = Ok l' -> nth_error l' t = Some y -> exists x, nth_error l t = Some x /\ f x = Ok y.
Proof.
  intros H Hy. destruct (nth_error l t) as [x|] eqn:E.
  - destruct (mapM_nth f l l' t x H E) as (y' & E' & F). rewrite E' in Hy. injection Hy as <-. exists x. split; [reflexivity|exact F].
  - apply nth_error_None in E. assert (nth_error l' t <> None) as N by congruence. apply nth_error_Some in N. rewrite (mapM_length _ _ _ H) in N. lia.
Qed.
Lemma seq_nth_error n t : t < n -> nth_error (seq 0 n) t = Some t.
Proof.
  intro H. rewrite (nth_error_nth' _ 0) by (rewrite seq_length; exact H). rewrite seq_nth by exact H. reflexivity.
Qed.

Section PROGRAM.
Variable L : libraries.
Variable run_pv : M_Renewables.pvlib_model (lib_module L) (lib_inverter L).
Variable lc : lorentz_spec -> Q -> Q -> Q -> Q -> Q.
Variable opt : M_Mpc.optimiser.
Variable price : Z -> Q.

Lemma hold_inv k (h : held L) : hold L k = Ok h ->
  makes L k (q_parts h) /\ numbers (c_demand k) "temp_source" = Ok (q_source h) /\ numbers (c_demand k) "temp_flow" = Ok (q_flow h) /\
  numbers (c_demand k) "electrical demand" = Ok (q_elec h) /\ numbers (c_demand k) "heat demand" = Ok (q_heat h) /\
  number (c_temp_return k) = Ok (q_return h) /\ number (c_source_delta_t k) = Ok (q_delta h) /\
  M_Grid.import_cost_series (o_grid (q_parts h)) = Ok (Some (q_import h)) /\ number (g_export (c_grid k)) = Ok (q_export h).
Proof.
  unfold hold. intro H. inv_bind H. injection H as <-. cbn. destruct v6 as [l|]; [|discriminate]. injection E7 as <-.
  repeat match goal with |- _ /\ _ => split end; try assumption; try reflexivity.
  clear - E. unfold init in E. inv_bind E. injection E as <-. unfold makes. cbn. do 4 eexists. repeat match goal with |- _ /\ _ => split end; try eassumption; reflexivity.
Qed.

(** What an hour of the year is put together from. *)
Definition hour_from (h : held L) (wind PV : list Q) (hp : list perf) (t : nat) (I : hour_in) : Prop :=
  nth_error wind t = Some (i_wind I) /\ nth_error PV t = Some (i_PV I) /\ nth_error (q_elec h) t = Some (i_elec_demand I) /\
  nth_error (q_heat h) t = Some (i_heat_demand I) /\ nth_error (q_source h) t = Some (i_source_temp I) /\
  nth_error (q_flow h) t = Some (i_flow_temp I) /\ nth_error (q_import h) t = Some (i_import_price I) /\ nth_error hp t = Some (i_perf I).
Lemma row_inv h wind PV hp t I : row L h wind PV hp t = Ok I <-> hour_from h wind PV hp t I.
Proof.
  split.
  - unfold row. intro H. inv_bind H. injection H as <-. unfold hour_from. cbn.
    repeat match goal with |- _ /\ _ => split end; apply pidx_nth; assumption.
  - intros (A1 & A2 & A3 & A4 & A5 & A6 & A7 & A8). apply pidx_nth in A1, A2, A3, A4, A5, A6, A7, A8. unfold row.
    rewrite A1. cbn [bind]. rewrite A2. cbn [bind]. rewrite A3. cbn [bind]. rewrite A4. cbn [bind]. rewrite A5. cbn [bind]. rewrite A6. cbn [bind].
    rewrite A7. cbn [bind]. rewrite A8. cbn [bind]. destruct I; reflexivity.
Qed.
Lemma some_numbers l l' : mapM some_number l = Ok l' <-> l = map Some l'.
Proof.
  split.
  - revert l'. induction l as [|x l IH]; intros l' H; cbn [mapM] in H; [injection H as <-; reflexivity|].
    destruct x as [q|]; cbn [some_number bind] in H; [|discriminate]. destruct (mapM some_number l) as [l0|] eqn:E; cbn [bind] in H; [|discriminate].
    injection H as <-. cbn [map]. rewrite (IH l0 eq_refl). reflexivity.
  - intros ->. induction l' as [|x l' IH]; [reflexivity|]. cbn [map mapM some_number bind]. rewrite IH. reflexivity.
Qed.
Lemma year_of_inv h year : year_of L run_pv lc h = Ok year ->
  exists g total wind hp, M_Renewables.renewable_generation (lib_wind L) run_pv (o_user (q_parts h)) (o_database (q_parts h)) (o_PV (q_parts h)) = Ok g /\
    M_Renewables.g_total g = map Some total /\ M_Renewables.g_wind g = map Some wind /\
    full_year total /\ full_year (q_elec h) /\ performance lc (o_heat_pump (q_parts h)) = Ok hp /\
    full_year year /\ forall t I, nth_error year t = Some I -> hour_from h wind (M_Renewables.g_PV g) hp t I.
Proof.
  unfold year_of. cbv zeta. intro H.
  destruct (M_Renewables.renewable_generation _ _ _ _ _) as [g|] eqn:E1; cbn [bind] in H; [|discriminate].
  destruct (mapM some_number (M_Renewables.g_total g)) as [total|] eqn:E2; cbn [bind] in H; [|discriminate].
  destruct (mapM some_number (M_Renewables.g_wind g)) as [wind|] eqn:E3; cbn [bind] in H; [|discriminate].
  pose proof (surplus_deficit_year_spec total (q_elec h)) as S.
  destruct (surplus_deficit_year total (q_elec h)) as [b|] eqn:E4; cbn [bind] in H; [|discriminate].
  destruct (performance lc _) as [hp|] eqn:E5; cbn [bind] in H; [|discriminate].
  exists g, total, wind, hp. split; [reflexivity|]. apply some_numbers in E2, E3. split; [exact E2|]. split; [exact E3|].
  destruct S as (S1 & S2 & _). split; [exact S1|]. split; [exact S2|]. split; [reflexivity|].
  split.
  - unfold full_year. rewrite (mapM_length _ _ _ H), seq_length. exact ANNUAL_HOURS_Z.
  - intros t I Ht. destruct (mapM_back _ _ _ _ _ H Ht) as (t' & E & R).
    assert (Hlt : t < ANNUAL_HOURS) by (assert (N : nth_error (seq 0 ANNUAL_HOURS) t <> None) by congruence; apply nth_error_Some in N; rewrite seq_length in N; exact N).
    rewrite (seq_nth_error _ _ Hlt) in E. injection E as <-. apply row_inv, R.
Qed.
Lemma year_of_hour h year t I : year_of L run_pv lc h = Ok year -> t < ANNUAL_HOURS -> nth_error year t = Some I ->
  nth_error (q_elec h) t = Some (i_elec_demand I) /\ nth_error (q_heat h) t = Some (i_heat_demand I) /\ nth_error (q_import h) t = Some (i_import_price I).
Proof. intros H _ Ht. apply year_of_inv in H as (g & total & wind & hp & _ & _ & _ & _ & _ & _ & _ & H). destruct (H t I Ht) as (_ & _ & A & B & _ & _ & C & _). auto. Qed.

Lemma fixed_order_inv k s n rs : fixed_order L run_pv lc k s n = Ok rs ->
  exists h q year, hold L k = Ok h /\ number (k_setpoint (c_controller k)) = Ok q /\ year_of L run_pv lc h = Ok year /\
    run_timesteps (plant_of L h q (k_above (c_controller k)) (k_below (c_controller k))) year s n = Ok rs.
Proof.
  unfold fixed_order. intro H. destruct (hold L k) as [h|]; cbn [bind] in H; [|discriminate]. destruct (number _) as [q|]; cbn [bind] in H; [|discriminate].
  destruct (year_of L run_pv lc h) as [y|] eqn:E; cbn [bind] in H; [|discriminate]. exists h, q, y. repeat split; assumption.
Qed.
Lemma predictive_inv k s n rs : predictive L run_pv lc opt k s n = Ok rs ->
  exists h z year, hold L k = Ok h /\ whole (k_horizon (c_controller k)) = Ok z /\ year_of L run_pv lc h = Ok year /\
    let P := plant_of L h 0%Q [] [] in
    M_Mpc.mpc_run {| M_Mpc.m_plant := P; M_Mpc.m_horizon := z; M_Mpc.m_return_nodes := t_init (p_tank P) |} opt year s n = Ok rs.
Proof.
  unfold predictive. intro H. destruct (hold L k) as [h|]; cbn [bind] in H; [|discriminate]. destruct (whole _) as [q|]; cbn [bind] in H; [|discriminate].
  destruct (year_of L run_pv lc h) as [y|] eqn:E; cbn [bind] in H; [|discriminate]. exists h, q, y. repeat split; assumption.
Qed.

(** ** The whole program *)
Lemma prepare_inv wb p ks controller s n : prepare wb = Ok (p, ks, (controller, s, n)) ->
  exists k cs, read_inputs wb = Ok k /\ sweep_of (c_parametric k) = Ok p /\ M_Sweep.combos p = Ok cs /\
    Forall2 (fun c x => fst x = c /\ combination (fst c) (snd c) k = Ok (snd x)) cs ks /\ cs <> [] /\
    name (k_controller (c_controller k)) = Ok controller /\ whole (k_timesteps (c_controller k)) = Ok n /\ whole (k_first_hour (c_controller k)) = Ok s.
Proof.
  unfold prepare. intro H.
  destruct (read_inputs wb) as [k|]; cbn [bind] in H; [|discriminate]. destruct (sweep_of _) as [p'|] eqn:Ep; cbn [bind] in H; [|discriminate].
  destruct (M_Sweep.combos p') as [cs|] eqn:Ec; cbn [bind] in H; [|discriminate].
  destruct (mapM _ cs) as [ks'|] eqn:Ek; cbn [bind] in H; [|discriminate]. destruct (pidx ks' 0) as [x|] eqn:Ex; cbn [bind] in H; [|discriminate]. cbv zeta in H.
  destruct (name _) as [c|] eqn:E1; cbn [bind] in H; [|discriminate]. destruct (whole (k_timesteps _)) as [n'|] eqn:E2; cbn [bind] in H; [|discriminate].
  destruct (whole (k_first_hour _)) as [s'|] eqn:E3; cbn [bind] in H; [|discriminate]. apply Ok_inj in H. injection H as <- <- <- <- <-.
  assert (F : Forall2 (fun c x => fst x = c /\ combination (fst c) (snd c) k = Ok (snd x)) cs ks').
  { apply mapM_rel in Ek. revert Ek. clear; induction 1 as [|c y cs' ks'' R _ IH]; constructor; [|exact IH].
    destruct (combination _ _ k) as [k'|] eqn:E; cbn [bind] in R; [|discriminate]. injection R as <-. split; reflexivity. }
  exists k, cs. split; [reflexivity|]. split; [exact Ep|]. split; [exact Ec|]. split; [exact F|].
  apply pidx_nth in Ex. destruct ks' as [|x' ks']; [discriminate|]. injection Ex as ->. inversion F as [|c0 y0 cs' ks'' (F1 & F2) _]; subst.
  split; [discriminate|]. apply combination_parts in F2 as ((Q & _) & _). rewrite Q in E1, E2, E3. repeat split; assumption.
Qed.
Lemma program_inv wb out : program L run_pv lc opt price wb = Ok out ->
  exists k p cs controller s n, read_inputs wb = Ok k /\ sweep_of (c_parametric k) = Ok p /\ M_Sweep.combos p = Ok cs /\ cs <> [] /\
    name (k_controller (c_controller k)) = Ok controller /\ whole (k_timesteps (c_controller k)) = Ok n /\ whole (k_first_hour (c_controller k)) = Ok s /\
    map d_sizes (r_done out) = cs /\
    Forall (fun d => combination (fst (d_sizes d)) (snd (d_sizes d)) k = Ok (d_inputs d) /\
                     run_solver L run_pv lc opt controller (d_inputs d) s n = Ok (d_records d) /\
                     M_Plots.run_plots (d_records d) n s = Ok (d_figures d)) (r_done out) /\
    M_Plots.run_KPIs price (load L (r_done out)) p = (r_kpis out, r_end out).
Proof.
  unfold program. intro H. destruct (prepare wb) as [[[p ks] [[controller s] n]]|] eqn:EP; cbn [bind] in H; [|discriminate].
  apply prepare_inv in EP as (k & cs & R & S & C & F & NE & N1 & N2 & N3).
  destruct (mapM _ ks) as [ds|] eqn:ED; cbn [bind] in H; [|discriminate].
  destruct (M_Plots.run_KPIs price (load L ds) p) as [o e] eqn:EK. injection H as <-. cbn [r_done r_kpis r_end].
  exists k, p, cs, controller, s, n. split; [exact R|]. split; [exact S|]. split; [exact C|]. split; [exact NE|]. split; [exact N1|]. split; [exact N2|]. split; [exact N3|].
  apply mapM_rel in ED.
  assert (A : map d_sizes ds = cs /\ Forall (fun d => combination (fst (d_sizes d)) (snd (d_sizes d)) k = Ok (d_inputs d) /\
                     run_solver L run_pv lc opt controller (d_inputs d) s n = Ok (d_records d) /\
                     M_Plots.run_plots (d_records d) n s = Ok (d_figures d)) ds).
  { clear - F ED. revert ds ED. induction F as [|c x cs' ks' (F1 & F2) F IH]; intros ds ED; inversion ED as [|x' d ks'' ds' J ED']; subst; [split; [reflexivity|constructor]|].
    destruct (IH ds' ED') as (I1 & I2). unfold one_job in J. destruct (run_solver _ _ _ _ _ _ _ _) as [rs|] eqn:ER; cbn [bind] in J; [|discriminate].
    destruct (M_Plots.run_plots rs n s) as [fs|] eqn:EF; cbn [bind] in J; [|discriminate]. injection J as <-. cbn [map d_sizes].
    split; [rewrite I1; reflexivity|]. constructor; [|exact I2]. cbn [d_sizes d_inputs d_records d_figures]. repeat split; assumption. }
  destruct A as (A1 & A2). split; [exact A1|]. split; [exact A2|]. exact EK.
Qed.
End PROGRAM.
