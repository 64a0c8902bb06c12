(** Costs, incentives, repetition and seasonal performance. *)
From Coq Require Import String.
From Verif Require Import Base BaseL M_Battery S_Battery M_HeatPump M_FixedOrder S_FixedOrder M_Grid S_Grid L_Grid
  M_Sweep M_Kpi S_Kpi L_Tank L_Kpi L_KpiSums.

Lemma qsum_opp l : qsum (map Qopp l) == - qsum l.
Proof. induction l as [|x l IH]; [reflexivity|]. cbn [map]. rewrite !qsum_cons, IH. ring. Qed.
Lemma total_opp f rs : total (fun r => - f r) rs == - total f rs.
Proof. induction rs as [|rc rs IH]; [reflexivity|]. rewrite !total_cons, IH. ring. Qed.
Lemma total_ext f g rs : (forall r, f r == g r) -> total f rs == total g rs.
Proof. intro H. induction rs as [|rc rs IH]; [reflexivity|]. rewrite !total_cons, IH, H. reflexivity. Qed.

Definition cash (K : run) : Q := total (fun r => r GRID_cashflow) (k_results K).
Definition fuel_cost (K : run) : Q := total (fun r => r AUX_cost) (k_results K).

Section Costs.
Variable store_price : Z -> Q.
Variable K : run.
Hypothesis HK : complete_run K.

Lemma steps_pos : 0 < inject_Z (k_timesteps K).
Proof. destruct HK as [H _]. change 0 with (inject_Z 0). rewrite <- Zlt_Qlt. exact H. Qed.
Lemma year_factor_ok : year_factor K = Ok (8760 / inject_Z (k_timesteps K)).
Proof. destruct HK as [H _]. unfold year_factor. destruct (Z.eqb_spec (k_timesteps K) 0); [lia|reflexivity]. Qed.

Lemma operating_cost_ok : exists o, operating_cost K = Ok o /\
  o == (- cash K + (if fuel_eqb (k_fuel K) ELECTRIC then 0 else fuel_cost K / 1000)) / 1000.
Proof.
  unfold operating_cost. rewrite !(array_ok K HK). cbn [bind]. eexists. split; [reflexivity|].
  assert (E1 : qsum (map Qopp (map (fun rc => rf rc GRID_cashflow) (k_results K))) == - cash K).
  { rewrite qsum_opp. rewrite (qsum_total (fun r => r GRID_cashflow)). reflexivity. }
  assert (E2 : qsum (map (fun rc => rf rc AUX_cost / 1000) (k_results K)) == fuel_cost K / 1000).
  { rewrite (qsum_total (fun r => r AUX_cost / 1000)). apply (total_scale (fun r => r AUX_cost) (/ 1000)). }
  destruct (fuel_eqb _ _); rewrite E1, ?E2; field.
Qed.
Lemma energy_total : exists l, array K (energy_cost K) = Ok l /\
  qsum l == (- cash K + (if fuel_eqb (k_fuel K) ELECTRIC then 0 else fuel_cost K)) / 1000.
Proof.
  eexists. split; [apply (array_ok K HK)|]. rewrite qsum_total.
  unfold energy_cost. destruct (fuel_eqb (k_fuel K) ELECTRIC).
  - rewrite (total_scale (fun r => - r GRID_cashflow) (/ 1000)), (total_opp (fun r => r GRID_cashflow)). fold (cash K). field.
  - rewrite (total_plus (fun r => - r GRID_cashflow / 1000) (fun r => r AUX_cost / 1000)).
    rewrite (total_scale (fun r => - r GRID_cashflow) (/ 1000)), (total_opp (fun r => r GRID_cashflow)),
      (total_scale (fun r => r AUX_cost) (/ 1000)). fold (cash K) (fuel_cost K). field.
Qed.

Lemma lifetime_spec c o L f :
  capital_cost store_price K = Ok c -> operating_cost K = Ok o -> lifetime_cost store_price K = Ok L ->
  f = 8760 / inject_Z (k_timesteps K) ->
  L == c + 20 * f * o + (if fuel_eqb (k_fuel K) ELECTRIC then 0 else 20 * f * (fuel_cost K / 1000 * (999 # 1000))).
Proof.
  intros Hc Ho HL ->. destruct operating_cost_ok as (o' & Eo & Ho'). rewrite Eo in Ho. apply Ok_inj in Ho. subst o'.
  unfold lifetime_cost in HL. destruct energy_total as (l & El & Hl). rewrite El, Hc, year_factor_ok in HL. cbn [bind] in HL.
  apply Ok_inj in HL. rewrite <- HL, Hl, Ho'. pose proof steps_pos. destruct (fuel_eqb _ _); field; lra.
Qed.
Lemma lifetime_total : (exists c, capital_cost store_price K = Ok c) -> exists L, lifetime_cost store_price K = Ok L.
Proof.
  intros [c Hc]. unfold lifetime_cost. destruct energy_total as (l & El & _). rewrite El, Hc, year_factor_ok. eexists. reflexivity.
Qed.
Lemma levelised_spec L R x f :
  lifetime_cost store_price K = Ok L -> RHI_income K = Ok R -> levelised_cost_of_energy store_price K = Ok (Fin x) ->
  f = 8760 / inject_Z (k_timesteps K) ->
  x * (20 * f * total (fun r => r HD_heat_demand + r ED_elec_demand) (k_results K)) == 1000 * L - total_income R.
Proof.
  intros HL HR Hx ->. unfold lifetime_cost in HL. destruct energy_total as (l & El & Hl).
  rewrite El in HL. cbn [bind] in HL. destruct (capital_cost store_price K) as [c|] eqn:Ec; cbn [bind] in HL; [|discriminate].
  rewrite year_factor_ok in HL. cbn [bind] in HL. apply Ok_inj in HL.
  unfold levelised_cost_of_energy, sum_hd, sum_ed in Hx. rewrite El, Ec, HR, year_factor_ok, !(sum_of_ok K HK) in Hx. cbn [bind] in Hx.
  apply Ok_inj in Hx. unfold ndiv in Hx. match type of Hx with (if qeq ?a 0 then _ else _) = _ => destruct (qeq_spec a 0) as [D|D] end; [discriminate|]. injection Hx as Hx.
  rewrite (total_plus (fun r => r HD_heat_demand) (fun r => r ED_elec_demand)). rewrite <- Hx, <- HL.
  set (d := total _ _ + total _ _) in *. pose proof steps_pos.
  field. split; [lra|]. intro E. apply D. rewrite E. field. lra.
Qed.

(** ** Incentive *)
Lemma tiered_rhi eligible capacity y :
  rhi_tariff (k_rhi K) = "Tiered"%string -> rhi_year K eligible capacity = Ok y ->
  y == tiered (inject_Z capacity * 1314) (rhi_tier_1 (k_rhi K)) (rhi_tier_2 (k_rhi K)) eligible.
Proof.
  intros Ht. unfold rhi_year. rewrite Ht. cbn [String.eqb Ascii.eqb Bool.eqb]. unfold tiered.
  destruct (qle_spec eligible (inject_Z capacity * 1314)) as [H|H]; intro E; apply Ok_inj in E; rewrite <- E.
  - rewrite (Q.min_l _ _ H), (Q.max_l 0) by lra. field.
  - rewrite (Q.min_r eligible) by lra. rewrite (Q.max_r 0) by lra. field.
Qed.
End Costs.

Lemma scaled_le a t m : 0 <= a -> 0 <= t -> t <= m -> 0 <= a * t /\ a * t <= a * m.
Proof. intros. split; nra. Qed.
Lemma tiered_continuous limit t1 t2 x y :
  0 <= t1 -> 0 <= t2 -> x <= y ->
  0 <= tiered limit t1 t2 y - tiered limit t1 t2 x /\
  tiered limit t1 t2 y - tiered limit t1 t2 x <= Qmax t1 t2 / 100 * (y - x).
Proof.
  intros H1 H2 H. unfold tiered. pose proof (Q.le_max_l t1 t2) as M1. pose proof (Q.le_max_r t1 t2) as M2.
  generalize dependent (Qmax t1 t2). intros m M1 M2.
  destruct (Qlt_le_dec limit x) as [Lx|Lx]; destruct (Qlt_le_dec limit y) as [Ly|Ly]; try (exfalso; lra).
  - rewrite (Q.min_r x), (Q.min_r y), (Q.max_r 0 (x - limit)), (Q.max_r 0 (y - limit)) by lra.
    destruct (scaled_le (y - x) t2 m) as [A B]; [lra..|].
    setoid_replace ((limit * t1 + (y - limit) * t2) / 100 - (limit * t1 + (x - limit) * t2) / 100)
      with ((y - x) * t2 * (1#100)) by field.
    setoid_replace (m / 100 * (y - x)) with ((y - x) * m * (1#100)) by field.
    revert A B. generalize ((y - x) * t2) ((y - x) * m). intros; split; lra.
  - rewrite (Q.min_l x), (Q.min_r y), (Q.max_l 0 (x - limit)), (Q.max_r 0 (y - limit)) by lra.
    destruct (scaled_le (limit - x) t1 m) as [A B]; [lra..|]. destruct (scaled_le (y - limit) t2 m) as [C D]; [lra..|].
    setoid_replace ((limit * t1 + (y - limit) * t2) / 100 - (x * t1 + 0 * t2) / 100)
      with (((limit - x) * t1 + (y - limit) * t2) * (1#100)) by field.
    setoid_replace (m / 100 * (y - x)) with (((limit - x) * m + (y - limit) * m) * (1#100)) by field.
    revert A B C D. generalize ((limit - x) * t1) ((limit - x) * m) ((y - limit) * t2) ((y - limit) * m).
    intros; split; lra.
  - rewrite (Q.min_l x), (Q.min_l y), (Q.max_l 0 (x - limit)), (Q.max_l 0 (y - limit)) by lra.
    destruct (scaled_le (y - x) t1 m) as [A B]; [lra..|].
    setoid_replace ((y * t1 + 0 * t2) / 100 - (x * t1 + 0 * t2) / 100) with ((y - x) * t1 * (1#100)) by field.
    setoid_replace (m / 100 * (y - x)) with ((y - x) * m * (1#100)) by field.
    revert A B. generalize ((y - x) * t1) ((y - x) * m). intros; split; lra.
Qed.
Lemma tiered_equal limit t x : tiered limit t t x == x * t / 100.
Proof.
  unfold tiered. destruct (Qlt_le_dec limit x) as [L|L].
  - rewrite (Q.min_r x), (Q.max_r 0) by lra. field.
  - rewrite (Q.min_l x), (Q.max_l 0) by lra. field.
Qed.

Lemma rhi_kinds K :
  (rhi_tariff (k_rhi K) <> "Fixed"%string /\ rhi_tariff (k_rhi K) <> "Tiered"%string \/
   rhi_type (k_rhi K) <> "Domestic"%string /\ rhi_type (k_rhi K) <> "Non-domestic"%string) ->
  forall R, RHI_income K <> Ok R.
Proof.
  intros H R. unfold RHI_income. destruct (sum_hp_output K); cbn [bind]; [|discriminate].
  destruct (sum_hp_usage K); cbn [bind]; [|discriminate]. destruct (size_at _ 0); cbn [bind]; [|discriminate].
  unfold rhi_year, rhi_years.
  destruct (String.eqb_spec (rhi_tariff (k_rhi K)) "Fixed"); [|destruct (String.eqb_spec (rhi_tariff (k_rhi K)) "Tiered")];
  destruct (String.eqb_spec (rhi_type (k_rhi K)) "Domestic"); try destruct (String.eqb_spec (rhi_type (k_rhi K)) "Non-domestic");
  try tauto; try (destruct (qle _ _); cbn [bind]); cbn [bind]; discriminate || tauto.
Qed.

(** ** Repetition *)
Section Repetition.
Variable store_price : Z -> Q.
Variable m : positive.
Variable K : run.
Hypothesis HK : complete_run K.
Let K' := repeated m K.
Let mq : Q := inject_Z (Zpos m).

Lemma mq_pos : 0 < mq.
Proof. unfold mq. reflexivity. Qed.
Lemma repeated_complete : complete_run K'.
Proof.
  destruct HK as [H1 H2]. unfold K', repeated, complete_run. cbn [k_results k_timesteps]. split; [lia|].
  replace (length (concat (repeat (k_results K) (Pos.to_nat m)))) with (Pos.to_nat m * length (k_results K))%nat.
  - rewrite Nat2Z.inj_mul, positive_nat_Z, H2. reflexivity.
  - induction (Pos.to_nat m) as [|j IH]; [reflexivity|]. cbn [repeat concat]. rewrite app_length, <- IH. reflexivity.
Qed.
Lemma repeated_total f : total f (k_results K') == mq * total f (k_results K).
Proof. unfold K', repeated. cbn [k_results]. rewrite total_repeat, positive_nat_Z. reflexivity. Qed.
Lemma repeated_steps : inject_Z (k_timesteps K') == mq * inject_Z (k_timesteps K).
Proof. unfold K', repeated. cbn [k_timesteps]. rewrite inject_Z_mult. reflexivity. Qed.

Lemma ndiv_eq a b c d : (b == 0 <-> d == 0) -> (~ b == 0 -> a / b == c / d) -> num_eq (ndiv a b) (ndiv c d).
Proof.
  intros H1 H2. unfold ndiv. destruct (qeq_spec b 0) as [B|B]; destruct (qeq_spec d 0) as [D|D]; cbn; auto; tauto.
Qed.
Lemma ndiv_scaled a b c d : a == mq * c -> b == mq * d -> num_eq (ndiv a b) (ndiv c d).
Proof.
  intros Ha Hb. pose proof mq_pos as M. apply ndiv_eq.
  - rewrite Hb. split; intro E; [|rewrite E; ring]. destruct (Qeq_dec d 0) as [D|D]; [exact D|].
    exfalso. apply (Qmult_integral_l mq d) in E; [contradiction|lra].
  - intro B. rewrite Ha, Hb. field. split; [|lra]. intro D. apply B. rewrite Hb, D. ring.
Qed.

Lemma repeated_lifetime L L' :
  lifetime_cost store_price K = Ok L -> lifetime_cost store_price K' = Ok L' -> L' == L.
Proof.
  intros HL HL'. pose proof repeated_complete as HK'. pose proof mq_pos as M. pose proof (steps_pos K HK) as T.
  unfold lifetime_cost in *. destruct (energy_total K HK) as (l & El & Hl). destruct (energy_total K' HK') as (l' & El' & Hl').
  rewrite El in HL. rewrite El' in HL'. cbn [bind] in *.
  change (capital_cost store_price K') with (capital_cost store_price K) in HL'.
  destruct (capital_cost store_price K) as [c|]; cbn [bind] in *; [|discriminate].
  rewrite (year_factor_ok K HK) in HL. rewrite (year_factor_ok K' HK') in HL'. cbn [bind] in *.
  apply Ok_inj in HL. apply Ok_inj in HL'. rewrite <- HL, <- HL', Hl, Hl', repeated_steps.
  change (k_fuel K') with (k_fuel K). unfold cash, fuel_cost.
  destruct (fuel_eqb _ _); rewrite !repeated_total; field; lra.
Qed.
Lemma repeated_scop x x' : calc_scop K = Ok x -> calc_scop K' = Ok x' -> num_eq x' x.
Proof.
  unfold calc_scop, sum_hp_output, sum_hp_usage. rewrite !(sum_of_ok K HK), !(sum_of_ok K' repeated_complete). cbn [bind].
  intros H H'. apply Ok_inj in H. apply Ok_inj in H'. subst. apply ndiv_scaled; apply repeated_total.
Qed.
Lemma repeated_self x x' : RES_self_consumption K = Ok x -> RES_self_consumption K' = Ok x' -> x' == x.
Proof.
  unfold RES_self_consumption, sum_RES, sum_export. rewrite !(sum_of_ok K HK), !(sum_of_ok K' repeated_complete). cbn [bind].
  intros H H'. apply Ok_inj in H. apply Ok_inj in H'. subst. pose proof mq_pos as M.
  pose proof (repeated_total (fun r => r RES_generation_total)) as E1. pose proof (repeated_total (fun r => r GRID_total_export)) as E2.
  set (g := total _ (k_results K)) in E1 |- *. set (e := total _ (k_results K)) in E2 |- *.
  set (g' := total _ (k_results K')) in E1 |- *. set (e' := total _ (k_results K')) in E2 |- *.
  destruct (qlt_spec 0 g) as [G|G]; destruct (qlt_spec 0 g') as [G'|G']; try reflexivity.
  - rewrite E1, E2. field. lra.
  - exfalso. nra.
  - exfalso. nra.
Qed.
Lemma repeated_storage_days x x' : days_storage_content K = Ok x -> days_storage_content K' = Ok x' -> num_eq x' x.
Proof.
  pose proof mq_pos as M. pose proof (steps_pos K HK) as T.
  unfold days_storage_content, sum_hd. rewrite !(sum_of_ok K HK), !(sum_of_ok K' repeated_complete). cbn [bind].
  change (k_name K') with (k_name K). destruct (size_at (k_name K) 1) as [z|]; cbn [bind]; [|discriminate].
  destruct HK as [H1 _]. destruct repeated_complete as [H1' _].
  destruct (Z.eqb_spec (k_timesteps K) 0); [lia|]. destruct (Z.eqb_spec (k_timesteps K') 0); [lia|].
  intros H H'. apply Ok_inj in H. apply Ok_inj in H'. subst.
  assert (E : total (fun r => r HD_heat_demand) (k_results K') / (365 * (inject_Z (k_timesteps K') / 8760)) ==
              total (fun r => r HD_heat_demand) (k_results K) / (365 * (inject_Z (k_timesteps K) / 8760))).
  { rewrite repeated_total, repeated_steps. field. lra. }
  apply ndiv_eq; [rewrite E; tauto|intros _; rewrite E; reflexivity].
Qed.
Lemma repeated_levelised x x' R R' :
  levelised_cost_of_energy store_price K = Ok x -> levelised_cost_of_energy store_price K' = Ok x' ->
  RHI_income K = Ok R -> RHI_income K' = Ok R' -> total_income R == total_income R' -> num_eq x' x.
Proof.
  intros Hx Hx' HR HR' ER. pose proof mq_pos as M. pose proof (steps_pos K HK) as T. pose proof repeated_complete as HK'.
  unfold levelised_cost_of_energy, sum_hd, sum_ed in *.
  destruct (energy_total K HK) as (l & El & Hl). destruct (energy_total K' HK') as (l' & El' & Hl').
  rewrite El, HR, (year_factor_ok K HK), !(sum_of_ok K HK) in Hx. rewrite El', HR', (year_factor_ok K' HK'), !(sum_of_ok K' HK') in Hx'.
  cbn [bind] in *. change (capital_cost store_price K') with (capital_cost store_price K) in Hx'.
  destruct (capital_cost store_price K) as [c|]; cbn [bind] in *; [|discriminate].
  apply Ok_inj in Hx. apply Ok_inj in Hx'. subst.
  assert (E : qsum l' == mq * qsum l).
  { rewrite Hl, Hl'. change (k_fuel K') with (k_fuel K). unfold cash, fuel_cost. destruct (fuel_eqb _ _); rewrite !repeated_total; field. }
  assert (ED : forall a a' b b', a' == mq * a -> b' == mq * b ->
    (a' + b') * (8760 / inject_Z (k_timesteps K')) * 20 == (a + b) * (8760 / inject_Z (k_timesteps K)) * 20).
  { intros a a' b b' Ha Hb. rewrite Ha, Hb, repeated_steps. field. lra. }
  specialize (ED _ _ _ _ (repeated_total (fun r => r HD_heat_demand)) (repeated_total (fun r => r ED_elec_demand))).
  assert (EN : qsum l' * 1000 * (8760 / inject_Z (k_timesteps K')) * 20 == qsum l * 1000 * (8760 / inject_Z (k_timesteps K)) * 20).
  { rewrite E, repeated_steps. field. lra. }
  apply ndiv_eq; [rewrite ED; tauto|intros _; rewrite ED, EN, ER; reflexivity].
Qed.
End Repetition.

(** ** Seasonal performance *)
Lemma scop_between K lo hi x :
  complete_run K -> calc_scop K = Ok (Fin x) ->
  Forall (fun rc => 0 <= rf rc HP_elec_total_usage /\
    rf rc HP_elec_total_usage * rf rc HP_cop == rf rc HP_heat_total_output /\ lo <= rf rc HP_cop <= hi) (k_results K) ->
  lo <= x <= hi.
Proof.
  intros HK. unfold calc_scop, sum_hp_output, sum_hp_usage. rewrite !(sum_of_ok K HK). cbn [bind]. intros H F.
  apply Ok_inj in H. unfold ndiv in H. set (u := total (fun r => r HP_elec_total_usage) (k_results K)) in *.
  destruct (qeq_spec u 0) as [D|D]; [discriminate|]. injection H as H. rewrite <- H. clear H.
  assert (U : 0 <= u) by (apply total_nonneg; revert F; apply Forall_impl; tauto).
  assert (Up : 0 < u) by (destruct (Qlt_le_dec 0 u) as [L|L]; [exact L|exfalso; apply D; lra]).
  set (h := total (fun r => r HP_heat_total_output) (k_results K)).
  assert (A : total (fun r => r HP_elec_total_usage * lo) (k_results K) <= h).
  { apply total_le. revert F. apply Forall_impl. intros rc (A & B & C & _). rewrite <- B. nra. }
  assert (B : h <= total (fun r => r HP_elec_total_usage * hi) (k_results K)).
  { apply total_le. revert F. apply Forall_impl. intros rc (A' & B & _ & C). rewrite <- B. nra. }
  rewrite (total_scale (fun r => r HP_elec_total_usage)) in A, B. fold u in A, B.
  split; [apply Qle_shift_div_l; lra|apply Qle_shift_div_r; lra].
Qed.

Lemma run_usage P year s n K :
  good_run P year -> run_of P year s n K ->
  Forall (fun rc => 0 <= rf rc HP_elec_total_usage /\
    rf rc HP_elec_total_usage * rf rc HP_cop <= rf rc HP_heat_total_output) (k_results K).
Proof.
  intros G R. pose proof (run_cops P year s n K G R) as C. rewrite Forall_forall in *. intros rc Hin.
  destruct (C rc Hin) as (A & B & _ & D). apply In_nth_error in Hin as [i Hi].
  destruct R as (H & _). destruct (good_run_hour P year s n _ i rc G H Hi) as (I & nd & soc & Hst & Gh & _).
  destruct (hour_cop P I _ nd soc rc Gh Hst) as (_ & _ & E & _). rewrite E. split; [lra|exact D].
Qed.
Lemma run_scop_lower P year s n K lo x :
  good_run P year -> run_of P year s n K -> calc_scop K = Ok (Fin x) ->
  Forall (fun rc => lo <= rf rc HP_cop) (k_results K) -> lo <= x.
Proof.
  intros G R. pose proof (run_complete P year s n K R) as HK.
  unfold calc_scop, sum_hp_output, sum_hp_usage. rewrite !(sum_of_ok K HK). cbn [bind]. intros H F.
  pose proof (run_usage P year s n K G R) as UF. rewrite Forall_forall in F, UF.
  apply Ok_inj in H. unfold ndiv in H. set (u := total (fun r => r HP_elec_total_usage) (k_results K)) in *.
  destruct (qeq_spec u 0) as [D|D]; [discriminate|]. injection H as H. rewrite <- H. clear H.
  assert (U : 0 <= u) by (apply total_nonneg, Forall_forall; intros rc Hin; apply (UF rc Hin)).
  assert (Up : 0 < u) by (destruct (Qlt_le_dec 0 u) as [L|L]; [exact L|exfalso; apply D; lra]).
  assert (A : total (fun r => r HP_elec_total_usage * lo) (k_results K) <= total (fun r => r HP_heat_total_output) (k_results K)).
  { apply total_le, Forall_forall. intros rc Hin. destruct (UF rc Hin) as [A B]. specialize (F rc Hin). cbn beta in F. nra. }
  rewrite (total_scale (fun r => r HP_elec_total_usage)) in A. fold u in A.
  apply Qle_shift_div_l; lra.
Qed.

(** ** Tables *)
Lemma fin_inv x c : fin x = Ok c -> exists v, x = Ok v /\ c = Fin v.
Proof. unfold fin. destruct x as [v|]; cbn [bind]; [|discriminate]. intro H. apply Ok_inj in H. eauto. Qed.
Lemma mapM_cons_inv {A B} (f : A -> res B) x l r :
  mapM f (x :: l) = Ok r -> exists y ys, f x = Ok y /\ mapM f l = Ok ys /\ r = y :: ys.
Proof.
  cbn [mapM]. destruct (f x) as [y|]; cbn [bind]; [|discriminate].
  destruct (mapM f l) as [ys|]; cbn [bind]; [|discriminate]. intro H. apply Ok_inj in H. eauto.
Qed.
Lemma cell_inv name (v : res num) (y : string * num) :
  (w <- v ;; Ok (name, w)) = Ok y -> exists c, v = Ok c /\ y = (name, c).
Proof. destruct v as [c|]; cbn [bind]; [|discriminate]. intro H. apply Ok_inj in H. eauto. Qed.
Lemma mapM_length {A B} (f : A -> res B) l r : mapM f l = Ok r -> length r = length l.
Proof.
  revert r. induction l as [|x l IH]; intros r H; [apply Ok_inj in H; subst; reflexivity|].
  apply mapM_cons_inv in H as (y & ys & _ & H & ->). cbn. rewrite (IH ys H). reflexivity.
Qed.

Lemma table_rows store_price load p tables cs i h t :
  KPIs_to_csv store_price load p = Ok tables -> combos p = Ok cs -> nth_error cs i = Some (h, t) ->
  exists K economic technical output,
    load (folder_name (h, t)) = Ok K /\ tables = [economic; technical; output] /\
    length economic = length cs /\ length technical = length cs /\ length output = length cs /\
    let sizes := [Some (Fin (inject_Z h)); Some (Fin (inject_Z t / 1000))] in
    let q (x : res Q) (c : num) := exists v, x = Ok v /\ c = Fin v in
    let n (x : res num) (c : num) := x = Ok c in
    (exists c1 c2 c3 c4 c5 c6 c7,
      nth_error economic i = Some (sizes ++ map Some [c1; c2; c3; c4; c5; c6; c7])%list /\
      q (capital_cost store_price K) c1 /\ q (operating_cost K) c2 /\ n (cost_of_heat K) c3 /\ q (cost_elec K) c4 /\
      q (lifetime_cost store_price K) c5 /\ n (levelised_cost_of_heat store_price K) c6 /\
      n (levelised_cost_of_energy store_price K) c7) /\
    (exists c1 c2 c3 c4 c5 c6 c7 c8 c9 c10,
      nth_error technical i = Some (sizes ++ map Some [c1; c2; c3; c4; c5; c6; c7; c8; c9; c10])%list /\
      q (RES_self_consumption K) c1 /\ q (total_RES_self_consumption K) c2 /\ q (grid_RES_used K) c3 /\
      q (total_RES_used K) c4 /\ n (heat_met_RES K) c5 /\ n (demand_met_RES K) c6 /\ n (HP_met_RES K) c7 /\
      n (HP_size_ratio K) c8 /\ n (HP_utilisation K) c9 /\ n (days_storage_content K) c10) /\
    (exists c1 c2 c3 c4 c5 c6 c7 c8,
      nth_error output i = Some (sizes ++ map Some [c1; c2; c3; c4; c5; c6; c7; c8])%list /\
      q (sum_hp_output K) c1 /\ q (sum_hp_usage K) c2 /\ n (calc_scop K) c3 /\ q (sum_aux_output K) c4 /\
      q (sum_ed_import K) c5 /\ q (sum_RES K) c6 /\ q (sum_import K) c7 /\ q (sum_export K) c8).
Proof.
  intros HT HC Hn. unfold KPIs_to_csv in HT. rewrite HC in HT. cbn [bind] in HT.
  destruct (mapM (table_row store_price load) cs) as [rows|] eqn:ER; cbn [bind] in HT; [|discriminate].
  apply Ok_inj in HT. pose proof (mapM_length _ _ _ ER) as EL.
  destruct (mapM_nth_error _ _ _ _ _ ER Hn) as (row & Hrow & Er).
  unfold table_row in Er. destruct (load (folder_name (h, t))) as [K|] eqn:EK; cbn [bind] in Er; [|discriminate].
  destruct (mapM _ (indicators store_price K)) as [vs|] eqn:EV; cbn [bind] in Er; [|discriminate].
  apply Ok_inj in Er. cbn [fst snd] in Er.
  exists K, (table economic_columns rows), (table technical_columns rows), (table output_columns rows).
  split; [reflexivity|]. split; [symmetry; exact HT|].
  do 3 (split; [unfold table; rewrite map_length; exact EL|]).
  cbv zeta. unfold indicators in EV.
  repeat match type of EV with mapM _ (_ :: _) = Ok _ =>
    let y := fresh "y" in let ys := fresh "ys" in let H1 := fresh "H" in let c := fresh "c" in
    apply mapM_cons_inv in EV as (y & ys & H1 & EV & ->); cbn [fst snd] in H1;
    apply cell_inv in H1 as (c & H1 & ->) end.
  apply Ok_inj in EV. subst.
  unfold table. rewrite !nth_error_map, Hrow. cbn [option_map].
  split; [|split].
  - do 7 eexists. split; [reflexivity|]. repeat apply conj; first [apply fin_inv|idtac]; eassumption.
  - do 10 eexists. split; [reflexivity|]. repeat apply conj; first [apply fin_inv|idtac]; eassumption.
  - do 8 eexists. split; [reflexivity|]. repeat apply conj; first [apply fin_inv|idtac]; eassumption.
Qed.
