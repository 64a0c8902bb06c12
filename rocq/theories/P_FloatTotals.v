(** C105: the totals and accounts of one hour of the fixed order controller in binary floating point. *)
From Coq Require Import ZArith Reals Qreals.
From Flocq Require Import Core IEEE754.BinarySingleNaN.
From Verif Require Import Base BaseL M_Battery S_Battery M_HeatPump S_HeatPump M_Tools L_Tools M_FixedOrder S_FixedOrder L_FixedOrder L_FixedOrderHour L_FixedOrderProps L_FixedOrderRun P_FixedOrder
  M_Float M_FloatHour M_FloatTotals S_Float S_FloatHour S_FloatTotals L_Float L_FloatBattery L_FloatHour L_FloatTotals P_Float P_FloatHour.
From Coq Require Import Lra Psatz.
Local Open Scope R_scope.

(** ** What the loop leaves alone *)
Lemma fwrite_other p he fr f : flow f = false -> fwrite p he fr f = fr f.
Proof. intro Hf. destruct p; cbn [fwrite]; unfold fupd; destruct f; try discriminate Hf; reflexivity. Qed.
Lemma frun_other F H ps f : flow f = false -> forall c r c' r', foldM (frun_process F H) ps (c, r) = Ok (c', r') -> r' f = r f.
Proof.
  intro Hf. induction ps as [|p ps IH]; intros c r c' r' E; cbn [foldM] in E; [injection E as _ <-; reflexivity|].
  unfold frun_process at 1 in E. destruct (famount F H p c) as [he|]; cbn [bind] in E; [|discriminate]. rewrite (IH _ _ _ _ E). apply fwrite_other, Hf.
Qed.
Lemma flow_not_written f : flow f = false -> ~ In f (flat_map writes all_processes).
Proof. intro Hf. destruct f; try discriminate Hf; cbn; intuition discriminate. Qed.
Lemma q2r_whole n : Q2R (inject_Z n) = IZR n.
Proof. unfold Q2R, inject_Z. cbn [Qnum Qden]. field. Qed.
Lemma whole_number n : (Z.abs n <? 2 ^ 53)%Z = true -> same_number (inject_Z n) (fofZ n).
Proof.
  intro Hn. change (fofZ n) with (lit n 0). assert (B : ((Z.abs n <? 2 ^ 53) && (-1074 <=? 0) && (0 <=? 960))%Z = true) by (rewrite Hn; reflexivity).
  split; [apply lit_finite, B|]. rewrite lit_val by exact B. change (bpow radix2 0) with 1. unfold Q2R, inject_Z. cbn [Qnum Qden]. field.
Qed.

(** ** The fields after the loop *)
Definition ffin_aux (u pr de : double) (r : ffields) : ffields :=
  let r := fupd r AUX_usage u in
  let r := fupd r AUX_cost (fmul pr (fsub (fsub (r AUX_demand) (r AUX_RES_to_demand)) (r AUX_RES_to_TS))) in
  fupd r AUX_mass (fmul de u).
Definition ffin_es (s : double) (r : ffields) : ffields :=
  let r := fupd r ES_charging_total (fadd (r ES_charging_from_RES) (r ES_charging_from_import)) in
  let r := fupd r ES_discharging_total (fadd (r ES_discharging_to_demand) (r ES_discharging_to_HP)) in
  fupd r ES_final_soc s.
Ltac ffld := cbn [fcomplete fgiven fgrid_totals faux_demand fts_totals fhp_totals ffin_aux ffin_es fupd field_eqb field_id Pos.eqb].
Ltac xfld := cbn [complete rf r_nodes finish_fields above_rec below_rec grid_totals es_totals fin_aux aux_demand ts_totals hp_totals upd field_eqb field_id Pos.eqb].
Lemma faux_ok F A r fpr fde : feq (fa_efficiency A) f0 = false -> r GRID_import_price = fa_import_price A ->
  (if fp_electric F then Ok (fa_import_price A, f0) else match fa_cost A, fa_density A with Some c, Some d => Ok (c, d) | _, _ => Err TypeError end) = Ok (fpr, fde) ->
  faux_accounts F A r = Ok (ffin_aux (fdiv (r AUX_demand) (fa_efficiency A)) fpr fde r).
Proof.
  intros Ne Hp Ep. unfold faux_accounts, ffuel_usage. rewrite Ne. cbn [bind]. change (fupd r AUX_usage (fdiv (r AUX_demand) (fa_efficiency A)) GRID_import_price) with (r GRID_import_price).
  rewrite Hp, Ep. reflexivity.
Qed.
Lemma fes_ok F r soc s : fnew_soc (fp_battery F) (fsub (fadd (r ES_charging_from_RES) (r ES_charging_from_import)) (fadd (r ES_discharging_to_demand) (r ES_discharging_to_HP))) soc = Ok s ->
  fes_totals F soc r = Ok (ffin_es s r).
Proof.
  intro E. unfold fes_totals.
  match goal with |- (_ <- fnew_soc _ ?x _ ;; _) = _ => change x with (fsub (fadd (r ES_charging_from_RES) (r ES_charging_from_import)) (fadd (r ES_discharging_to_demand) (r ES_discharging_to_HP))) end.
  rewrite E. reflexivity.
Qed.
Section FINISH.
Variables (P : plant) (F : fplant) (I : hour_in) (H : fhour) (A : faccounts) (m e d N X D : R) (soc : Q) (soc' : double) (r : fields) (fr : ffields).
Hypothesis SP : same_plant P F.
Hypothesis SA : same_accounts P I A.
Hypothesis SH : same_hour I H.
Hypothesis SS : same_number soc soc'.
Hypothesis AS : accounts_in_scale m e d N F A.
Hypothesis N1 : 1 <= N <= X.
Hypothesis XT : X <= bpow radix2 975.
Hypothesis DX : 3 * (u53 * X) <= D <= X / 1000.
Hypothesis Soc : 0 <= val soc' <= val (fb_capacity (fp_battery F)).
Hypothesis Cap : val (fb_capacity (fp_battery F)) <= N.
Hypothesis Chm : 0 <= val (fb_charge_max (fp_battery F)).
Hypothesis Sdi : 0 <= val (fb_self_discharge (fp_battery F)) <= 1.
Hypothesis Rec : records fr r X D.
Hypothesis Kept : forall f, flow f = false -> r f = start_fields P I f.
Hypothesis FKept : forall f, flow f = false -> fr f = finit_results H f.
Hypothesis Elec : Rabs (val (fi_wind H)) + Rabs (val (fi_PV H)) + Rabs (val (fi_elec_demand H)) <= N.
Hypothesis N8 : N <= bpow radix2 800.

Lemma X1 : 1 <= X.
Proof. lra. Qed.
Lemma D0 : 0 <= D <= X / 1000.
Proof. pose proof u53_pos as (U0 & _). split; [|lra]. assert (0 <= u53 * X) by (apply Rmult_le_pos; lra). lra. Qed.
Lemma leaf f : flow f = true -> aps X D 1 1 (fr f) (r f).
Proof. intro Hf. apply (aps_intro X D X1); [lra|]. eapply app_weak; [exact (Rec f Hf)|lra|lra]. Qed.
Lemma scale_1 : scale_ok 1.
Proof. split; [apply Rle_trans with (bpow radix2 0); [apply bpow_le; discriminate|cbn; lra]|apply Rle_trans with (bpow radix2 0); [cbn; lra|apply bpow_le; discriminate]]. Qed.
Lemma scale_big x y : 1 <= x <= bpow radix2 20 -> 1 <= y <= bpow radix2 20 -> scale_ok (x * y).
Proof.
  intros A1 B1. split.
  - apply Rle_trans with 1; [apply Rle_trans with (bpow radix2 0); [apply bpow_le; discriminate|cbn; lra]|nra].
  - change 40%Z with (20 + 20)%Z. rewrite bpow_plus. apply Rmult_le_compat; lra.
Qed.
Lemma scale_one x : 1 <= x <= bpow radix2 20 -> scale_ok (1 * x).
Proof. intro A1. apply scale_big; [|exact A1]. split; [lra|]. apply Rle_trans with (bpow radix2 0); [cbn; lra|apply bpow_le; discriminate]. Qed.
Lemma scale_thousand x : 1 <= x <= bpow radix2 20 -> scale_ok (1 * x * / 1000).
Proof.
  intro A1. split.
  - apply Rle_trans with (bpow radix2 (-10)); [apply bpow_le; discriminate|]. change (bpow radix2 (-10)) with (/ 1024). lra.
  - apply Rle_trans with (bpow radix2 20); [lra|apply bpow_le; discriminate].
Qed.
(** Is the field within its bound? *)
Definition fine (s : R) (x : double) (q : Q) : Prop := finite x /\ Rabs (val x - Q2R q) <= 150 * (s * D).
Lemma fine_aps s mm x q : 0 < s -> 0 <= mm <= 14 -> aps X D s mm x q -> fine s x q.
Proof. intros S0 M B. apply (aps_error X D X1 D0 s mm x q 150); try lra; [|exact B]. nra. Qed.
Lemma fine_same s x q : 0 < s -> same_number q x -> fine s x q.
Proof. intros S0 (B & V). split; [exact B|]. rewrite V, Rminus_diag_eq, Rabs_R0 by reflexivity. destruct D0. apply Rmult_le_pos; [lra|]. apply Rmult_le_pos; lra. Qed.
Lemma fine_flow f : flow f = true -> fine 1 (fr f) (r f).
Proof. intro Hf. apply fine_aps with 1; [lra|lra|apply leaf, Hf]. Qed.
Lemma zero_same : same_number 0 f0.
Proof. split; [reflexivity|]. rewrite q2r_0. reflexivity. Qed.
Lemma fine_small x q g : finite x -> Rabs (val x - Q2R q) <= g * (u53 * N) -> 0 <= g <= 400 -> fine 1 x q.
Proof.
  intros B C G. split; [exact B|]. apply Rle_trans with (1 := C). pose proof u53_pos as (U0 & _). assert (U : 0 <= u53 * N <= u53 * X) by (split; [apply Rmult_le_pos; lra|apply Rmult_le_compat_l; lra]).
  apply Rle_trans with (400 * (u53 * N)); [apply Rmult_le_compat_r; lra|]. lra.
Qed.

Ltac nums := cbv [count_ok]; lra.
Ltac sums := match goal with
  | |- aps _ _ _ _ (fadd ?a ?b) _ => eapply (aps_add X D X1 XT D0 1 _ _ a b); [exact scale_1| | | |sums|sums]; [nums|nums|nums]
  | |- aps _ _ _ _ (fsub ?a ?b) _ => eapply (aps_sub X D X1 XT D0 1 _ _ a b); [exact scale_1| | | |sums|sums]; [nums|nums|nums]
  | |- _ => apply leaf; reflexivity end.
(** The level of the battery *)
Let request := fsub (fadd (fr ES_charging_from_RES) (fr ES_charging_from_import)) (fadd (fr ES_discharging_to_demand) (fr ES_discharging_to_HP)).
Let request_q := ((r ES_charging_from_RES + r ES_charging_from_import) - (r ES_discharging_to_demand + r ES_discharging_to_HP))%Q.
Lemma request_app : aps X D 1 (1 + 1 + (1 + 1)) request request_q.
Proof. unfold request, request_q. sums. Qed.

Lemma level_after : exists s', fnew_soc (fp_battery F) request soc' = Ok s' /\ fine 1 s' (new_soc (p_battery P) request_q soc).
Proof.
  pose proof request_app as (Fr & Er & _). pose proof SP as (SB & _). destruct AS as [_ _ _ _ _ _ _ _ Ad Ae _ _]. pose proof u53_pos as (U0 & U1).
  assert (En : entered (fp_battery F)).
  { destruct SB as ((F1 & _) & _ & (F3 & _) & (F4 & _) & _ & (F6 & _) & (F7 & _)). repeat split; try assumption; lra. }
  assert (Lv : S_Float.level_ok (fp_battery F) soc') by (split; [apply SS|exact Soc]).
  assert (Nb : N <= bpow radix2 1019) by (apply Rle_trans with (1 := N8), bpow_le; discriminate).
  destruct (step_close (fp_battery F) request soc' En Fr Lv Chm (proj1 Ad) ltac:(lra) ltac:(lra)) as (s' & E1 & (Fs & _) & E2).
  exists s'. split; [exact E1|]. split; [exact Fs|].
  assert (Ex : forall y, Q2R request_q = y -> Q2R (new_soc (p_battery P) request_q soc) =
    exact_step (val (fb_capacity (fp_battery F))) (val (fb_charge_max (fp_battery F))) (val (fb_discharge_max (fp_battery F))) (val (fb_discharge_eff (fp_battery F))) (val (fb_self_discharge (fp_battery F))) y (Q2R soc)).
  { intros y <-. apply exact_is_real_q; try assumption; [apply Ad|]. destruct SS as (_ & ->). apply Soc. }
  rewrite (Ex _ eq_refl). clear Ex. destruct SS as (_ & ->).
  set (C := val (fb_capacity _)) in *. set (CM := val (fb_charge_max _)) in *. set (DM := val (fb_discharge_max _)) in *. set (DE := val (fb_discharge_eff _)) in *. set (W := val (fb_self_discharge _)) in *.
  pose proof (request_close C CM DM DE W (val request) (Q2R request_q) (val soc') Chm Ae) as E3.
  set (a := exact_step C CM DM DE W (val request) (val soc')) in *. set (b := exact_step C CM DM DE W (Q2R request_q) (val soc')) in *.
  assert (E4 : step_error C DM <= 17 * (u53 * X)).
  { unfold step_error. assert (U : u53 * (12 * C + 4 * DM) <= u53 * (16 * X)) by (apply Rmult_le_compat_l; lra).
    assert (Et : 7 * eta <= u53 * X).
    { apply Rle_trans with (u53 * 1); [|apply Rmult_le_compat_l; lra]. rewrite Rmult_1_r. unfold eta, u53. apply Rle_trans with (bpow radix2 3 * bpow radix2 (-1075)); [apply Rmult_le_compat_r; [apply bpow_ge_0|cbn; lra]|]. rewrite <- bpow_plus. apply bpow_le. discriminate. }
    lra. }
  pose proof X1 as X1. pose proof D0 as D0. assert (U : 0 <= u53 * X) by (apply Rmult_le_pos; lra).
  replace (val s' - b) with ((val s' - a) + (a - b)) by ring. apply Rle_trans with (1 := Rabs_triang _ _). clear - E2 E3 E4 Er DX U D0. lra.
Qed.

Let demand := fadd (fadd (fr AUX_RES_to_demand) (fr AUX_RES_to_TS)) (fr HD_aux).
Let bought := fsub (fsub demand (fr AUX_RES_to_demand)) (fr AUX_RES_to_TS).
Lemma usage_fine : 0 < e /\ aps X D (1 * e) (1 + 1 + 1 + 1) (fdiv demand (fa_efficiency A)) (total_aux r / a_efficiency (p_aux P))%Q.
Proof.
  destruct AS as [_ Ae _ _ _ Af _ _ _ _ _ _]. destruct SA as (_ & _ & S3 & _). split; [lra|]. apply (aps_div X D X1 XT D0 1 e (1 + 1 + 1)); try lra; try assumption; try nums.
  - apply scale_one, Ae.
  - unfold demand, total_aux. sums.
Qed.
Lemma cost_fine x q : same_number q x -> Rabs (val x) <= m -> aps X D (1 * m) (1 + 1 + 1 + 1 + 1 + 1) (fmul x bought) (q * (total_aux r - r AUX_RES_to_demand - r AUX_RES_to_TS))%Q.
Proof.
  intros Sx B. destruct AS as [Am _ _ _ _ _ _ _ _ _ _ _]. apply (aps_mul_l X D X1 XT D0 1 m (1 + 1 + 1 + 1 + 1)); try lra; try assumption; try nums.
  - apply scale_one, Am.
  - unfold bought, demand, total_aux. sums.
Qed.
Lemma mass_fine x q : same_number q x -> Rabs (val x) <= d -> aps X D (1 * e * d) (1 + 1 + 1 + 1 + 1) (fmul x (fdiv demand (fa_efficiency A))) (q * (total_aux r / a_efficiency (p_aux P)))%Q.
Proof.
  intros Sx B. destruct usage_fine as (E0 & U). destruct AS as [_ Ae Ad _ _ _ _ _ _ _ _ _]. apply (aps_mul_l X D X1 XT D0 (1 * e) d (1 + 1 + 1 + 1)); try lra; try assumption; try nums.
  rewrite Rmult_1_l. apply scale_big; assumption.
Qed.
Lemma money_fine mm x q y p : 1 <= mm <= 9 -> aps X D 1 mm x q -> same_number p y -> Rabs (val y) <= m ->
  aps X D (1 * m * / 1000) (mm + 1 + 1) (fdiv (fmul x y) (fofZ 1000)) (q * p / 1000)%Q.
Proof.
  intros M B Sy By. destruct AS as [Am _ _ _ _ _ _ _ _ _ _ _].
  apply (aps_div X D X1 XT D0 (1 * m) (/ 1000) (mm + 1)); try lra; try nums.
  - apply scale_thousand, Am.
  - apply (aps_mul X D X1 XT D0 1 m mm); try lra; try assumption; try nums. apply scale_one, Am.
  - apply (whole_number 1000). reflexivity.
  - destruct (whole_number 1000 eq_refl) as (_ & V). rewrite <- V, Rinv_inv. unfold Q2R, inject_Z. cbn. lra.
Qed.

Lemma electric_same : fp_electric F = is_electric P.
Proof.
  destruct SP as (_ & _ & E & _). unfold is_electric. destruct (fp_electric F); destruct (a_fuel (p_aux P)); try reflexivity; exfalso;
    first [discriminate (proj1 E eq_refl)|discriminate (proj2 E eq_refl)].
Qed.
Lemma balance_fine : fine 1 (fsurplus H) (bal_surplus (surplus_deficit_hour (i_wind I + i_PV I) (i_elec_demand I))) /\
  fine 1 (fdeficit H) (bal_deficit (surplus_deficit_hour (i_wind I + i_PV I) (i_elec_demand I))) /\
  fine 1 (fsub (fsurplus H) (fdeficit H)) (bal_surplus (surplus_deficit_hour (i_wind I + i_PV I) (i_elec_demand I)) - bal_deficit (surplus_deficit_hour (i_wind I + i_PV I) (i_elec_demand I)))%Q /\
  fine 1 (fRES_used H) (bal_RES_used (surplus_deficit_hour (i_wind I + i_PV I) (i_elec_demand I))) /\ fine 1 (fgeneration H) (i_wind I + i_PV I)%Q.
Proof.
  assert (HN : 1 <= N <= bpow radix2 800) by lra. pose proof u53_pos as (U0 & U1). assert (U : 0 < u53 * N <= N / 1000000) by (split; [apply Rmult_lt_0_compat; lra|nra]).
  destruct (balance_app I H N SH HN Elec) as (BD & BS).
  assert (K1 : ok N (3 * (u53 * N))).
  { split; [apply Rle_trans with (bpow radix2 0); [apply bpow_le; discriminate|cbn; lra]|]. split; [lra|].
    apply Rle_trans with (128 * bpow radix2 800); [lra|]. change 128 with (bpow radix2 7). rewrite <- bpow_plus. apply bpow_le. discriminate. }
  pose proof (upd_sub _ _ _ _ _ _ K1 BS (app_weak _ _ _ _ N (3 * (u53 * N) + 5 * (u53 * N)) BD (Rle_refl _) ltac:(lra))) as (F3 & E3 & _).
  destruct BD as (F1 & E1 & _), BS as (F2 & E2 & _).
  split; [apply fine_small with 3; [exact F2|exact E2|lra]|]. split; [apply fine_small with 3; [exact F1|exact E1|lra]|]. split; [apply fine_small with 14; [exact F3|lra|lra]|].
  pose proof (used_app I H N SH HN Elec) as E4. pose proof SH as (S1 & S2 & S3 & _).
  pose proof (Rabs_pos (val (fi_elec_demand H))) as Z. destruct (generation_app I H N S1 S2 HN ltac:(lra)) as (F5 & E5 & _).
  split; [apply fine_small with 1; [|lra|lra]|apply fine_small with 1; [exact F5|lra|lra]].
  unfold fRES_used. apply fmin_ok; [exact F5|apply S3].
Qed.

Variables (u pr de : Q).
Hypothesis HU : fuel_usage (a_efficiency (p_aux P)) (total_aux r) = Ok u.
Hypothesis HP : aux_prices P I pr de.
(** Everything that is booked after the loop *)
Lemma finished n : exists fr', ffinish F H A (hi P I) soc' fr = Ok fr' /\
  (forall f, fine (unit_of m e d f) (fcomplete H fr' f) (rf (complete I {| rf := finish_fields P I soc u pr de r; r_nodes := n |}) f)) /\
  aps X D 1 5 (fr' HP_heat_total_output) (finish_fields P I soc u pr de r HP_heat_total_output).
Proof.
  destruct level_after as (s' & Es & Fs). destruct usage_fine as (E0 & Us).
  pose proof AS as [Am Ae Ad Ai Ax Af Ac Aen _ _ _ _]. pose proof SA as (S1 & S2 & S3 & S4 & S5 & _ & _ & _).
  assert (Eu : u = (total_aux r / a_efficiency (p_aux P))%Q) by (unfold fuel_usage in HU; destruct (qeq _ 0); [discriminate|injection HU as <-; reflexivity]).
  assert (Ne : feq (fa_efficiency A) f0 = false).
  { rewrite (feq_zero _ _ S3). destruct (qeq_spec (a_efficiency (p_aux P)) 0) as [Z|Z]; [|reflexivity]. exfalso. pose proof (Rinv_0_lt_compat e E0) as Ie.
    destruct S3 as (_ & V). apply Qeq_eqR in Z. rewrite q2r_0 in Z. lra. }
  assert (Fp : exists fpr fde, (if fp_electric F then Ok (fa_import_price A, f0) else match fa_cost A, fa_density A with Some c, Some d => Ok (c, d) | _, _ => Err TypeError end) = Ok (fpr, fde) /\
    same_number pr fpr /\ same_number de fde /\ Rabs (val fpr) <= m /\ Rabs (val fde) <= d).
  { rewrite electric_same. destruct HP as [(-> & -> & ->)|(-> & Hc & Hd)].
    - exists (fa_import_price A), f0. split; [reflexivity|]. split; [exact S1|]. split; [exact zero_same|]. split; [exact Ai|]. rewrite val_f0, Rabs_R0. lra.
    - destruct (S4 _ Hc) as (xc & Ec & Sc). destruct (S5 _ Hd) as (xd & Ed & Sd). rewrite Ec, Ed. exists xc, xd. split; [reflexivity|]. split; [exact Sc|]. split; [exact Sd|]. split; [apply Ac, Ec|apply Aen, Ed]. }
  destruct Fp as (fpr & fde & Ep & Spr & Sde & Bpr & Bde).
  pose proof (cost_fine fpr pr Spr Bpr) as Cf. pose proof (mass_fine fde de Sde Bde) as Mf. rewrite <- Eu in Us, Mf.
  pose proof balance_fine as (B1 & B2 & B3 & B4 & B5). destruct SH as (H1 & H2 & H3 & H4 & H5 & H6).
  pose proof (Kept GRID_surplus eq_refl) as K1. pose proof (Kept GRID_deficit eq_refl) as K2. pose proof (Kept GRID_match eq_refl) as K3.
  pose proof (Kept GRID_import_price eq_refl) as K4.
  assert (Gi : fine (1 * m * / 1000) (fdiv (fmul (fr GRID_total_export) (fa_export_price A)) (fofZ 1000)) (r GRID_total_export * p_export_price P / 1000)).
  { apply fine_aps with (1 + 1 + 1); [|lra|]; [apply scale_pos, scale_thousand, Am|]. apply money_fine; try lra; try assumption. apply leaf. reflexivity. }
  set (base := fadd (fadd (fr GRID_import_for_elec_demand) (fadd (fr GRID_import_for_heat_pump_to_heat_demand) (fr GRID_import_for_heat_pump_to_TS))) (fr GRID_import_for_ES)).
  set (total := if fp_electric F then fsub (fsub (fadd base demand) (fr AUX_RES_to_demand)) (fr AUX_RES_to_TS) else base).
  set (base_q := (r GRID_import_for_elec_demand + (r GRID_import_for_heat_pump_to_heat_demand + r GRID_import_for_heat_pump_to_TS) + r GRID_import_for_ES)%Q).
  set (total_q := (if is_electric P then base_q + total_aux r - r AUX_RES_to_demand - r AUX_RES_to_TS else base_q)%Q).
  assert (Tt : aps X D 1 9 total total_q).
  { unfold total, total_q. rewrite electric_same. destruct (is_electric P); [replace 9 with (1 + (1 + 1) + 1 + (1 + 1 + 1) + 1 + 1) by lra|apply (aps_more X D X1 D0 1 (1 + (1 + 1) + 1)); [lra|lra|]]; unfold base, base_q, demand, total_aux; sums. }
  pose proof (money_fine 9 _ _ _ _ ltac:(lra) Tt S1 Ai) as Gc.
  pose proof (money_fine 1 _ _ _ _ ltac:(lra) (leaf GRID_total_export eq_refl) S2 Ax) as Ge.
  assert (Gf : aps X D (1 * m * / 1000) (1 + 1 + 1 + (9 + 1 + 1)) (fsub (fdiv (fmul (fr GRID_total_export) (fa_export_price A)) (fofZ 1000)) (fdiv (fmul total (fa_import_price A)) (fofZ 1000)))
     (r GRID_total_export * p_export_price P / 1000 - total_q * i_import_price I / 1000)%Q).
  { apply (aps_sub X D X1 XT D0); try nums; try assumption. apply scale_thousand, Am. }
  assert (Sc : 0 < 1 * m * / 1000) by (apply scale_pos, scale_thousand, Am).
  replace (1 * m * / 1000) with (m / 1000) in Gi, Gc, Ge, Gf, Sc by (unfold Rdiv; ring). replace (1 * e * d) with (d * e) in Mf by ring. rewrite Rmult_1_l in Us, Cf.
  assert (De : 0 < d * e) by (apply Rmult_lt_0_compat; lra).
  apply fine_aps in Tt as Tf; [|lra|lra]. apply fine_aps in Gc; [|lra|lra]. apply fine_aps in Gf; [|lra|lra]. apply fine_aps in Us; [|lra|lra]. apply fine_aps in Cf; [|lra|lra]. apply fine_aps in Mf; [|lra|lra].
  clear Ge Tt. unfold ffinish. destruct (hi P I) eqn:Hh.
  - rewrite (faux_ok F A _ fpr fde Ne eq_refl Ep). cbn [bind]. rewrite fes_ok with (s := s') by exact Es. cbn [bind]. eexists. split; [reflexivity|].
    split.
    + intro f. unfold finish_fields. rewrite Hh. destruct f.
      all: ffld; xfld; cbn [unit_of].
      all: try (apply fine_flow; reflexivity).
      all: try (match goal with |- fine 1 (fadd _ _) _ => eapply fine_aps; [lra| |sums]; lra end).
      all: try assumption.
      all: try (apply fine_same; [lra|assumption]).
      all: try (match goal with |- fine 1 (fr ?f) (r ?f) => rewrite (Kept f eq_refl), (FKept f eq_refl) | |- fine _ _ ?q => match q with context[r ?f] => match eval cbv in (flow f) with false => rewrite (Kept f eq_refl) end end end; unfold start_fields; rewrite Hh;
        first [exact B1|exact B2|exact B3|exact Gc|exact Gf|apply fine_same; [lra|first [exact zero_same|assumption]]]).
    + unfold finish_fields. rewrite Hh. ffld; xfld. replace 5 with (1 + 1 + 1 + (1 + 1)) by lra. sums.
  - rewrite (faux_ok F A _ fpr fde Ne eq_refl Ep). cbn [bind]. rewrite fes_ok with (s := s') by exact Es. cbn [bind]. eexists. split; [reflexivity|].
    split.
    + intro f. unfold finish_fields. rewrite Hh. destruct f.
      all: ffld; xfld; cbn [unit_of].
      all: try (apply fine_flow; reflexivity).
      all: try (match goal with |- fine 1 (fadd _ _) _ => eapply fine_aps; [lra| |sums]; lra end).
      all: try assumption.
      all: try (apply fine_same; [lra|assumption]).
      all: try (match goal with |- fine 1 (fr ?f) (r ?f) => rewrite (Kept f eq_refl), (FKept f eq_refl) | |- fine _ _ ?q => match q with context[r ?f] => match eval cbv in (flow f) with false => rewrite (Kept f eq_refl) end end end; unfold start_fields; rewrite Hh;
        first [exact B1|exact B2|exact B3|exact Gc|exact Gf|apply fine_same; [lra|first [exact zero_same|assumption]]]).
    + unfold finish_fields. rewrite Hh. ffld; xfld. replace 5 with (1 + 1 + 1 + (1 + 1)) by lra. sums.
Qed.
End FINISH.

(** ** The minimum output rule *)
Lemma ratio_app P I A : same_accounts P I A -> 0 <= val (fa_min_output A) <= 100 -> 0 <= val (fa_min_runtime A) <= 60 ->
  app (fdiv (fdiv (fmul (fa_min_output A) (fa_min_runtime A)) (fofZ 60)) (fofZ 100)) (p_min_output P * p_min_runtime P / 60 / 100)%Q 4 (32 * u53).
Proof.
  intros (_ & _ & _ & _ & _ & S1 & S2 & _) B1 B2. assert (Z : 1 <= 1) by lra. assert (T : 1 <= bpow radix2 975) by (apply Rle_trans with (bpow radix2 0); [cbn; lra|apply bpow_le; discriminate]).
  assert (D : 0 <= 0 <= 1 / 1000) by lra.
  assert (Sc : forall s, 1 <= s <= 8192 -> scale_ok s).
  { intros s Hs. split; [apply Rle_trans with (bpow radix2 0); [apply bpow_le; discriminate|cbn; lra]|]. apply Rle_trans with (bpow radix2 13); [cbn; lra|apply bpow_le; discriminate]. }
  assert (A1 : aps 1 0 100 1 (fa_min_output A) (p_min_output P)) by (apply (aps_exact 1 0 Z D); [lra|exact S1|rewrite Rabs_pos_eq; lra]).
  assert (A2 : aps 1 0 (100 * 60) (1 + 1) (fmul (fa_min_output A) (fa_min_runtime A)) (p_min_output P * p_min_runtime P)%Q).
  { apply (aps_mul 1 0 Z T D); try lra; try assumption; [apply Sc; lra|cbv [count_ok]; lra|rewrite Rabs_pos_eq; lra]. }
  assert (A3 : aps 1 0 (100 * 60 * / 60) (1 + 1 + 1) (fdiv (fmul (fa_min_output A) (fa_min_runtime A)) (fofZ 60)) (p_min_output P * p_min_runtime P / 60)%Q).
  { apply (aps_div 1 0 Z T D); try lra; try assumption; [apply Sc; lra|cbv [count_ok]; lra|apply (whole_number 60); reflexivity|].
    destruct (whole_number 60 eq_refl) as (_ & V). rewrite <- V. unfold Q2R, inject_Z. cbn. lra. }
  assert (A4 : aps 1 0 (100 * 60 * / 60 * / 100) (1 + 1 + 1 + 1) (fdiv (fdiv (fmul (fa_min_output A) (fa_min_runtime A)) (fofZ 60)) (fofZ 100)) (p_min_output P * p_min_runtime P / 60 / 100)%Q).
  { apply (aps_div 1 0 Z T D); try lra; try assumption; [apply Sc; lra|cbv [count_ok]; lra|apply (whole_number 100); reflexivity|].
    destruct (whole_number 100 eq_refl) as (_ & V). rewrite <- V. unfold Q2R, inject_Z. cbn. lra. }
  eapply app_weak; [exact A4|lra|lra].
Qed.
Lemma min_out_app P I H A X : same_hour I H -> same_accounts P I A -> 0 <= val (fa_min_output A) <= 100 -> 0 <= val (fa_min_runtime A) <= 60 -> 1 <= X <= bpow radix2 975 -> Rabs (val (fi_duty H)) <= X ->
  finite (fmin_out H A) /\ Rabs (val (fmin_out H A) - Q2R (minimum_heat P I)) <= 40 * (u53 * X).
Proof.
  intros (_ & _ & _ & _ & _ & (Fd & Vd)) SA B1 B2 HX Hd. destruct (ratio_app P I A SA B1 B2) as (Fr & Er & Mr). pose proof u53_pos as (U0 & U1).
  assert (U : 0 < u53 * X <= X / 1000000) by (split; [apply Rmult_lt_0_compat; lra|nra]). pose proof (Rabs_pos (val (fi_duty H))) as Pd.
  assert (L : low <= 4 * X) by (apply Rle_trans with (bpow radix2 0); [apply bpow_le; discriminate|cbn; lra]).
  assert (T : 4 * X + 32 * (u53 * X) <= top).
  { apply Rle_trans with (8 * bpow radix2 975); [lra|]. change 8 with (bpow radix2 3). rewrite <- bpow_plus. apply bpow_le. discriminate. }
  set (q := (p_min_output P * p_min_runtime P / 60 / 100)%Q) in *. set (x := fdiv (fdiv _ _) _) in *.
  pose proof (app_mul x (fi_duty H) q (duty (i_perf I)) (4 * X) (32 * (u53 * X)) Fr Fd L ltac:(lra) T) as M.
  destruct M as (F1 & E1 & _).
  - rewrite Rabs_mult, Vd. apply Rmult_le_compat; try apply Rabs_pos; assumption.
  - rewrite Vd. replace (val x * val (fi_duty H) - Q2R q * val (fi_duty H)) with ((val x - Q2R q) * val (fi_duty H)) by ring. rewrite Rabs_mult.
    replace (32 * (u53 * X)) with (32 * u53 * X) by ring. apply Rmult_le_compat; try apply Rabs_pos; assumption.
  - unfold fmin_out. fold x. split; [exact F1|]. replace (Q2R (minimum_heat P I)) with (Q2R (q * duty (i_perf I))).
    + apply Rle_trans with (1 := E1). assert (u53 * (u53 * X) <= u53 * X / 1000000) by nra. lra.
    + apply Qeq_eqR. unfold q, minimum_heat. field.
Qed.
Lemma tenth : finite ftenth /\ Rabs (val ftenth - Q2R (1 # 10)) <= u53.
Proof.
  destruct (whole_number 1 eq_refl) as (F1 & V1). destruct (whole_number 10 eq_refl) as (F2 & V2). rewrite q2r_whole in V1, V2. symmetry in V1, V2. rename V1 into G1. rename V2 into G2. pose proof u53_pos as (U0 & U1).
  destruct (div_ok (fofZ 1) (fofZ 10) F1) as (F3 & V3); [lra| |].
  - rewrite G1, G2. apply rnd_top. rewrite Rabs_pos_eq by lra. apply Rle_trans with (bpow radix2 0); [cbn; lra|apply bpow_le; discriminate].
  - unfold ftenth. split; [exact F3|]. rewrite V3, G1, G2. replace (Q2R (1 # 10)) with (1 / 10) by (unfold Q2R; cbn; lra).
    pose proof (rnd_near (1 / 10) 1) as Nr. rewrite Rmult_1_r in Nr. apply Nr; [apply Rle_trans with (bpow radix2 0); [apply bpow_le; discriminate|cbn; lra]|rewrite Rabs_pos_eq; lra].
Qed.
Lemma growth_big k ps : 1 <= k <= 1024 -> 1 <= growth k ps <= 2048 ^ length ps.
Proof.
  intro K. induction ps as [|p ps IH]; cbn [growth length pow]; [lra|]. assert (W : 1 <= weight k p <= 2048) by (destruct p; cbn [weight]; lra).
  split; [nra|]. apply Rmult_le_compat; lra.
Qed.

(** ** C105: every entry of the record of an hour *)
Theorem C105_hour_partial : forall P F I H A t n soc soc' k N m e d ps rc, same_plant P F -> same_hour I H -> same_store P I t n H -> same_accounts P I A -> same_number soc soc' ->
  in_scale k N F H soc' -> accounts_in_scale m e d N F A -> processes_of P I ps -> (length ps <= 15)%nat -> ~ In HP_import_to_TS ps ->
  quiet_by (40 * (k * drift k N ps)) P I t n soc -> hour_step P I t n soc = Ok rc ->
  exists fr, float_hour P I F H A soc' = Ok fr /\ forall f, finite (fr f) /\ Rabs (val (fr f) - Q2R (rf rc f)) <= 150 * (unit_of m e d f * (k * drift k N ps)).
Proof.
  intros P F I H A t n soc soc' k N m e d ps rc SP SH ST SA SS X AS K L NI Qb Hs.
  assert (G : exists key order, float_hour P I F H A soc' = fhour_step F H A (hi P I) key order soc' /\ mapM key order = Ok ps).
  { unfold float_hour, hi. unfold processes_of, high_tariff in K. destruct (qlt_spec (p_setpoint P) (i_import_price I)) as [T|T]; destruct K as [(T' & K)|(T' & K)]; try (exfalso; Lqa.lra); eexists; eexists; (split; [reflexivity|exact K]). }
  destruct G as (key & order & E & M).
  destruct (loops P F I H t n soc soc' k N key order ps (start_fields P I) SP SH ST SS X M L NI (flow_start P I)) as (fc & fr & c & r & G1 & G2 & G3 & _).
  pose proof X as [Xk XN Xc Xe Xs Xcap Xcm Xce Xsd Xh Xd Xm Xch Xdi].
  pose proof u53_pos as (U0 & U1). pose proof (growth_big k ps Xk) as Gr. pose proof (small_order ps L) as Ln. pose proof (pos_INR (length ps)) as Ln0.
  set (Y := k * (growth k ps * N)) in *. set (D := k * drift k N ps) in *.
  assert (GN : N <= growth k ps * N) by nra. assert (NY : 1 <= N <= Y) by (unfold Y; split; [lra|]; nra).
  assert (DE : D = (3 + 4 * INR (length ps)) * (u53 * Y)) by (unfold D, Y, drift; ring).
  assert (UY : 0 < u53 * Y <= Y / 1000000) by (split; [apply Rmult_lt_0_compat; lra|nra]).
  assert (DY : 3 * (u53 * Y) <= D <= Y / 1000) by (rewrite DE; split; nra).
  assert (YT : Y <= bpow radix2 975).
  { unfold Y. apply Rle_trans with (bpow radix2 10 * (bpow radix2 165 * bpow radix2 800)); [|rewrite <- !bpow_plus; apply bpow_le; discriminate].
    apply Rmult_le_compat; [lra|lra|cbn; lra|]. apply Rmult_le_compat; [lra|lra| |lra]. apply Rle_trans with (1 := proj2 Gr). apply Rle_trans with (2048 ^ 15); [apply Rle_pow; [lra|exact L]|cbn; lra]. }
  apply hour_inv in Hs as (c0 & rc0 & rc1 & U & C & ->).
  assert (Dp : 0 <= D) by lra.
  assert (Th : (minimum_heat P I <= rf rc0 HP_heat_total_output \/ rf rc0 HP_heat_total_output <= threshold P I)%Q).
  { destruct (Qb _ _ U) as [B|B]; [left|right]; apply Rle_Qle; lra. }
  apply corrected_intro in C. assert (rc1 = rc0) as -> by (destruct C as [E1 _|? x A1 A2|? m' x A1 A2|? A1 A2]; [exact E1| | |]; destruct Th; exfalso; Lqa.lra). clear C Th.
  destruct (uncorrected_inv _ _ _ _ _ _ _ U) as (ps' & r' & u & pr & de & K' & R & HU & HP & Ef & _). rewrite <- (processes_unique _ _ _ _ K K') in R. assert (Q1 : Ok (c0, r') = Ok (c, r)) by (rewrite <- G2; symmetry; exact R). injection Q1 as -> ->.
  assert (FK : forall f, flow f = false -> fr f = finit_results H f).
  { intros f Hf. unfold frun_hour in G1. rewrite (frun_order_processes _ _ _ _ _ _ M) in G1. apply (frun_other _ _ _ _ Hf _ _ _ _ G1). }
  assert (XK : forall f, flow f = false -> r f = start_fields P I f) by (intros f Hf; apply (run_keeps _ _ _ _ _ _ _ _ _ f R), flow_not_written, Hf).
  destruct (finished P F I H A m e d N Y D soc soc' r fr SP SA SH SS AS NY YT DY Xs Xcap (proj1 Xcm) Xsd G3 XK FK Xe (proj2 XN) u pr de HU HP (r_nodes rc0)) as (fr' & E1 & E2 & E3).
  assert (NA : facts H A (hi P I) fr' = false).
  { pose proof AS as [_ _ _ _ _ _ _ _ _ _ Amo Amr].
    assert (DuY : Rabs (val (fi_duty H)) <= Y). { apply Rle_trans with (1 := Xd). apply Rle_trans with (k * N); [apply Rmult_le_compat_r; lra|]. unfold Y. apply Rmult_le_compat_l; lra. }
    destruct (min_out_app P I H A Y SH SA Amo Amr ltac:(lra) DuY) as (Fm & Em).
    destruct (aps_error Y D (X1 N Y NY) (D0 N Y D NY DY) 1 5 _ _ 22 ltac:(lra) ltac:(lra) (proj1 DY) ltac:(lra) E3) as (Fu & Eu).
    rewrite <- Ef in Eu. set (us := fr' HP_heat_total_output) in *. set (q := rf rc0 HP_heat_total_output) in *.
    apply Rabs_le_inv in Eu. apply Rabs_le_inv in Em. unfold facts. fold us.
    destruct (Qb _ _ U) as [B|B]; fold q in B.
    - pose proof (flt_spec us (fmin_out H A) Fu Fm) as Z. destruct (flt us (fmin_out H A)); [|reflexivity]. exfalso. lra.
    - apply andb_false_intro2. destruct tenth as (Ft & Et). apply Rabs_le_inv in Et. unfold threshold in B. unfold hi. destruct (qlt (p_setpoint P) (i_import_price I)).
      + pose proof (flt_spec ftenth us Ft Fu) as Z. destruct (flt ftenth us); [|reflexivity]. exfalso. assert (u53 * 1 <= u53 * Y) by (apply Rmult_le_compat_l; lra). lra.
      + pose proof (flt_spec f0 us finite_f0 Fu) as Z. destruct (flt f0 us); [|reflexivity]. exfalso. rewrite val_f0 in Z. rewrite q2r_0 in B. lra. }
  exists (fcomplete H fr'). split; [rewrite E; unfold fhour_step; rewrite G1; cbn [bind]; rewrite E1; cbn [bind]; unfold fcorrect; rewrite NA; reflexivity|].
  intro f. destruct rc0 as [q nd]. cbn [rf r_nodes] in Ef, E2. subst q. destruct (E2 f) as (A1 & A2). split; [exact A1|exact A2].
Qed.
Print Assumptions C105_hour_partial.

(** ** A concrete hour, and what the minimum output rule makes of a rounding error *)
#[local] Opaque lit.
Definition small_accounts (price : double) : faccounts :=
  {| fa_import_price := price; fa_export_price := lit 40 0; fa_efficiency := lit 1 0; fa_cost := None; fa_density := None; fa_min_output := lit 20 0; fa_min_runtime := lit 60 0; fa_no_tank := false |}.
Lemma small_accounts_same ab be I price : same_number (i_import_price I) price -> same_accounts (small ab be) I (small_accounts price).
Proof.
  intro S1. unfold same_accounts, small, small_accounts, demo. cbn [p_export_price p_aux a_efficiency a_cost a_energy_density electric_aux p_min_output p_min_runtime p_tank t_capacity simple_tank
    fa_import_price fa_export_price fa_efficiency fa_cost fa_density fa_min_output fa_min_runtime fa_no_tank].
  split; [exact S1|]. split; [apply num; [reflexivity|value; lra]|]. split; [apply num; [reflexivity|value; lra]|]. split; [discriminate|]. split; [discriminate|].
  split; [apply num; [reflexivity|value; lra]|]. split; [apply num; [reflexivity|value; lra]|]. split; discriminate.
Qed.
Lemma small_accounts_scale price : Rabs (val price) <= 200 -> accounts_in_scale 200 1 1 100 small_float (small_accounts price).
Proof.
  intro B. assert (T : 1 <= 200 <= bpow radix2 20) by (cbn; lra).
  constructor; unfold small_float, small_accounts, plain; cbn [fp_battery fb_discharge_max fb_discharge_eff fa_import_price fa_export_price fa_efficiency fa_cost fa_density fa_min_output fa_min_runtime];
    try discriminate; lits; change (bpow radix2 0) with 1; try lra.
  rewrite Rabs_pos_eq; lra.
Qed.
(** The hour with sun of [C105_example] at 150 pounds per MWh: no energy of the record is off by more than 0.00002 kWh. *)
Example C105_hour_case : let P := small all13 all15 in let I := demo_hour 20 5 12 150 3 8 in let H := small_hour (lit 20 0) (lit 5 0) (lit 12 0) (lit 3 0) (lit 8 0) in
  exists fr rc, float_hour P I small_float H (small_accounts (lit 150 0)) (lit 5 0) = Ok fr /\ hour_step P I 0 [60; 50; 40]%Q 5 = Ok rc /\
    forall f, finite (fr f) /\ Rabs (val (fr f) - Q2R (rf rc f)) <= unit_of 200 1 1 f / 50000.
Proof.
  intros P I H.
  assert (N20 : same_number 20 (lit 20 0)) by (apply num; [reflexivity|value; lra]). assert (N5 : same_number 5 (lit 5 0)) by (apply num; [reflexivity|value; lra]).
  assert (N12 : same_number 12 (lit 12 0)) by (apply num; [reflexivity|value; lra]). assert (N3 : same_number 3 (lit 3 0)) by (apply num; [reflexivity|value; lra]).
  assert (N8 : same_number 8 (lit 8 0)) by (apply num; [reflexivity|value; lra]). assert (N150 : same_number 150 (lit 150 0)) by (apply num; [reflexivity|value; lra]).
  pose proof (small_plant_same all13 all15) as SP. fold P in SP. pose proof (small_hour_same 20 5 12 150 3 8 _ _ _ _ _ N20 N5 N12 N3 N8) as SH. fold I H in SH.
  pose proof (small_store_same all13 all15 I 0 [60; 50; 40]%Q (lit 20 0) (lit 5 0) (lit 12 0) (lit 3 0) (lit 8 0)) as ST. fold P H in ST.
  pose proof (small_accounts_same all13 all15 I (lit 150 0) N150) as SA. fold P in SA.
  assert (X : in_scale 3 100 small_float H (lit 5 0)).
  { apply small_scale; lits; change (bpow radix2 0) with 1; rewrite ?Rabs_pos_eq; lra. }
  assert (AS : accounts_in_scale 200 1 1 100 small_float (small_accounts (lit 150 0))) by (apply small_accounts_scale; lits; change (bpow radix2 0) with 1; rewrite Rabs_pos_eq; lra).
  set (ps := [RES_to_demand; ES_to_demand; Import_to_demand; HP_RES_to_demand; EAUX_RES_to_demand; TS_to_demand; ES_to_HP_to_demand; HP_import_to_demand; AUX_to_demand; HP_RES_to_TS; EAUX_RES_to_TS; RES_to_ES; RES_to_export]).
  assert (K : processes_of P I ps) by (left; split; [reflexivity|reflexivity]).
  assert (L : (length ps <= 15)%nat) by (cbn; lia). assert (NI : ~ In HP_import_to_TS ps) by (cbn; intuition discriminate).
  assert (D : 3 * drift 3 100 ps <= 1 / 10000000).
  { unfold drift. rewrite u53_value. cbn [ps length growth weight]. cbn [INR]. lra. }
  assert (D1 : 0 <= 3 * drift 3 100 ps). { unfold drift. rewrite u53_value. cbn [ps length growth weight]. cbn [INR]. lra. }
  assert (Qb : quiet_by (40 * (3 * drift 3 100 ps)) P I 0 [60; 50; 40]%Q 5).
  { intros c rc E. left. assert (T : match uncorrected P I 0 [60; 50; 40]%Q 5 with Ok (_, rc) => qle 7 (rf rc HP_heat_total_output) | Err _ => false end = true) by (vm_compute; reflexivity).
    rewrite E in T. apply qle_true in T. apply Qle_Rle in T. assert (M : Q2R (minimum_heat P I) = 8 / 5) by (unfold minimum_heat, P, I, Q2R; cbn; lra). rewrite M. replace (Q2R 7) with 7 in T by (unfold Q2R; cbn; lra). lra. }
  destruct (hour_step P I 0 [60; 50; 40]%Q 5) as [rc|] eqn:E; [|exfalso; assert (T : match hour_step P I 0 [60; 50; 40]%Q 5 with Ok _ => true | Err _ => false end = true) by (vm_compute; reflexivity); rewrite E in T; discriminate T].
  destruct (C105_hour_partial P small_float I H _ _ _ _ _ _ _ _ _ _ ps rc SP SH ST SA N5 X AS K L NI Qb E) as (fr & R & B).
  exists fr, rc. split; [exact R|]. split; [reflexivity|]. intro f. destruct (B f) as (B1 & B2). split; [exact B1|]. apply Rle_trans with (1 := B2).
  assert (U : 0 <= unit_of 200 1 1 f) by (destruct f; cbn [unit_of]; lra). clear - U D D1. nra.
Qed.

(** Below the setpoint the rule acts on any output above 0.  The sun and the wind give the back-up just the heat demand of the hour,
    and the heat pump stays off.  In floating point 1.1e-16 kWh of the demand remain, the heat pump gives them, and the rule makes
    1.6 kWh of it. *)
Definition windy : hour_in := {| i_wind := 1; i_PV := 1 # 9007199254740992; i_elec_demand := 1 # 2; i_heat_demand := 4503599627370497 # 9007199254740992; i_source_temp := 60;
  i_flow_temp := 55; i_import_price := 80; i_perf := {| cop := 2; duty := 8 |} |}.
Definition windy_float : fhour := {| fi_wind := lit 1 0; fi_PV := lit 1 (-53); fi_elec_demand := lit 1 (-1); fi_heat_demand := lit 4503599627370497 (-53); fi_cop := lit 2 0; fi_duty := lit 8 0;
  fi_charge := lit 20 0; fi_discharge := lit 10 0 |}.
Theorem C105_minimum_output_refuted : exists P F I H A t n soc soc' k N m e d ps rc fr, same_plant P F /\ same_hour I H /\ same_store P I t n H /\ same_accounts P I A /\ same_number soc soc' /\
  in_scale k N F H soc' /\ accounts_in_scale m e d N F A /\ good_hour P I soc /\ processes_of P I ps /\ (length ps <= 15)%nat /\ ~ In HP_import_to_TS ps /\ quiet P I t n soc /\
  hour_step P I t n soc = Ok rc /\ float_hour P I F H A soc' = Ok fr /\ k * drift k N ps <= 1 / 1000000 /\
  (rf rc HP_heat_total_output == 0)%Q /\ 8 / 5 <= val (fr HP_heat_total_output) /\ (rf rc HP_elec_total_usage == 0)%Q /\ 4 / 5 <= val (fr HP_elec_total_usage).
Proof.
  set (P := small all13 [5; 6]%Z). set (ps := [EAUX_RES_to_demand; HP_import_to_demand]).
  assert (N80 : same_number 80 (lit 80 0)) by (apply num; [reflexivity|value; lra]). assert (N5 : same_number 5 (lit 5 0)) by (apply num; [reflexivity|value; lra]).
  assert (SH : same_hour windy windy_float).
  { unfold same_hour, windy, windy_float. cbn [i_wind i_PV i_elec_demand i_heat_demand i_perf cop duty fi_wind fi_PV fi_elec_demand fi_heat_demand fi_cop fi_duty].
    split; [apply num; [reflexivity|value; lra]|]. split; [apply num; [reflexivity|value; change (bpow radix2 (-53)) with (/9007199254740992); lra]|].
    split; [apply num; [reflexivity|value; change (bpow radix2 (-1)) with (/2); lra]|]. split; [apply num; [reflexivity|value; change (bpow radix2 (-53)) with (/9007199254740992); lra]|].
    split; [apply num; [reflexivity|value; lra]|apply num; [reflexivity|value; lra]]. }
  assert (ST : same_store P windy 0 [60; 50; 40]%Q windy_float).
  { exists 20%Q, 10%Q. cbn [P small demo p_tank simple_tank t_max windy_float fi_charge fi_discharge]. unfold same_number. conjs; try reflexivity; lits; unfold Q2R; cbn; lra. }
  assert (X : in_scale 2 100 small_float windy_float (lit 5 0)).
  { assert (Big : 100 <= bpow radix2 800). { apply Rle_trans with (bpow radix2 7); [cbn; lra|apply bpow_le; discriminate]. }
    constructor; unfold small_float, windy_float, plain; cbn [fp_battery fp_max_heat fi_wind fi_PV fi_elec_demand fi_heat_demand fi_cop fi_duty fi_charge fi_discharge fb_capacity fb_charge_max fb_charge_eff fb_self_discharge];
      lits; change (bpow radix2 0) with 1; change (bpow radix2 (-1)) with (/2); change (bpow radix2 (-53)) with (/9007199254740992); try lra; rewrite ?Rabs_pos_eq; lra. }
  assert (AS : accounts_in_scale 200 1 1 100 small_float (small_accounts (lit 80 0))) by (apply small_accounts_scale; lits; change (bpow radix2 0) with 1; rewrite Rabs_pos_eq; lra).
  assert (K : processes_of P windy ps) by (right; split; [unfold high_tariff, P, windy; cbn; discriminate|reflexivity]).
  assert (G : good_hour P windy 5).
  { split; [|split; [|split]].
    - apply (small_good all13 [5; 6]%Z 0 0 0 80 2 8 5); try reflexivity; try (split; discriminate); discriminate.
    - unfold hour_ok, windy, P. cbn. repeat split; try discriminate; intros; try Lqa.lra.
      match goal with H : Ok _ = Ok _ |- _ => injection H as <- end; destruct s; discriminate.
    - apply (small_good all13 [5; 6]%Z 0 0 0 80 2 8 5); try reflexivity; try (split; discriminate); discriminate.
    - apply (small_good all13 [5; 6]%Z 0 0 0 80 2 8 5); try reflexivity; try (split; discriminate); discriminate. }
  assert (Q1 : quiet P windy 0 [60; 50; 40]%Q 5) by (apply quietb_true; vm_compute; reflexivity).
  assert (W : match hour_step P windy 0 [60; 50; 40]%Q 5 with Ok rc => (Qred (rf rc HP_heat_total_output), Qred (rf rc HP_elec_total_usage)) | Err _ => (1, 1)%Q end = (0, 0)%Q) by (vm_compute; reflexivity).
  assert (V : match float_hour P windy small_float windy_float (small_accounts (lit 80 0)) (lit 5 0) with Ok fr => (B2SF (fr HP_heat_total_output), B2SF (fr HP_elec_total_usage)) | Err _ => (SpecFloat.S754_nan, SpecFloat.S754_nan) end
              = (SpecFloat.S754_finite false 7205759403792794 (-52), SpecFloat.S754_finite false 7205759403792794 (-53))).
  { Transparent lit. vm_compute. reflexivity. }
  Opaque lit. destruct (float_hour P windy small_float windy_float (small_accounts (lit 80 0)) (lit 5 0)) as [fr|] eqn:EF; [|discriminate V].
  destruct (hour_step P windy 0 [60; 50; 40]%Q 5) as [rc|] eqn:EQ; [|discriminate W]. injection V as V1 V2. injection W as W1 W2.
  exists P, small_float, windy, windy_float, (small_accounts (lit 80 0)), 0%Z, [60; 50; 40]%Q, 5%Q, (lit 5 0), 2, 100, 200, 1, 1, ps, rc, fr.
  split; [apply small_plant_same|]. split; [exact SH|]. split; [exact ST|]. split; [apply small_accounts_same, N80|]. split; [exact N5|]. split; [exact X|]. split; [exact AS|]. split; [exact G|]. split; [exact K|].
  split; [cbn; lia|]. split; [cbn; intuition discriminate|]. split; [exact Q1|]. split; [exact EQ|]. split; [exact EF|].
  split; [unfold drift; rewrite u53_value; cbn [ps length growth weight]; cbn [INR]; lra|].
  split; [rewrite <- (Qred_correct (rf rc _)), W1; reflexivity|]. split; [rewrite (shown _ _ _ _ V1); cbn [cond_Zopp]; value; lra|].
  split; [rewrite <- (Qred_correct (rf rc _)), W2; reflexivity|]. rewrite (shown _ _ _ _ V2). cbn [cond_Zopp]. change (bpow radix2 (-53)) with (/9007199254740992). lra.
Qed.
Print Assumptions C105_minimum_output_refuted.
