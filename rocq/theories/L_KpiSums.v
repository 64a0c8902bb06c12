(** Sums, shares, costs and incentives over the hours of a run. *)
From Coq Require Import String.
From Verif Require Import Base BaseL M_Battery S_Battery M_HeatPump M_FixedOrder S_FixedOrder M_Grid L_Grid
  M_Sweep M_Kpi S_Kpi L_Tank.

(** ** Totals *)
Lemma qsum_total f rs : qsum (map (fun rc => f (rf rc)) rs) = total f rs.
Proof. induction rs as [|rc rs IH]; [reflexivity|]. cbn [map total fold_right]. rewrite qsum_cons, IH. reflexivity. Qed.
Lemma total_cons f rc rs : total f (rc :: rs) = f (rf rc) + total f rs.
Proof. reflexivity. Qed.
Lemma total_nonneg f rs : Forall (fun rc => 0 <= f (rf rc)) rs -> 0 <= total f rs.
Proof. induction 1 as [|rc rs H _ IH]; [cbn; lra|]. rewrite total_cons. lra. Qed.
Lemma total_le f g rs : Forall (fun rc => f (rf rc) <= g (rf rc)) rs -> total f rs <= total g rs.
Proof. induction 1 as [|rc rs H _ IH]; [cbn; lra|]. rewrite !total_cons. lra. Qed.
Lemma total_eq f g rs : Forall (fun rc => f (rf rc) == g (rf rc)) rs -> total f rs == total g rs.
Proof. induction 1 as [|rc rs H _ IH]; [reflexivity|]. rewrite !total_cons. lra. Qed.
Lemma total_plus f g rs : total (fun r => f r + g r) rs == total f rs + total g rs.
Proof. induction rs as [|rc rs IH]; [reflexivity|]. rewrite !total_cons. lra. Qed.
Lemma total_scale f c rs : total (fun r => f r * c) rs == total f rs * c.
Proof. induction rs as [|rc rs IH]; [reflexivity|]. rewrite !total_cons, IH. ring. Qed.
Lemma total_app f l1 l2 : total f (l1 ++ l2) == total f l1 + total f l2.
Proof. induction l1 as [|rc rs IH]; [cbn [app]; change (total f []) with 0; lra|]. cbn [app]. rewrite !total_cons. lra. Qed.
Lemma total_repeat f rs m : total f (concat (repeat rs m)) == inject_Z (Z.of_nat m) * total f rs.
Proof.
  induction m as [|m IH]; [reflexivity|]. cbn [repeat concat]. rewrite total_app, IH, Nat2Z.inj_succ.
  unfold Z.succ. rewrite inject_Z_plus. change (inject_Z 1) with 1. lra.
Qed.

(** ** Reading the results *)
Lemma mapM_seq_nth {A B} (g : A -> B) (l : list A) :
  mapM (fun i => r <- pidx l i ;; Ok (g r)) (seq 0 (length l)) = Ok (map g l).
Proof.
  assert (H : forall pre suf, mapM (fun i => r <- pidx (pre ++ suf) i ;; Ok (g r)) (seq (length pre) (length suf)) = Ok (map g suf)).
  { intros pre suf. revert pre. induction suf as [|x suf IH]; intro pre; [reflexivity|].
    cbn [length seq mapM]. unfold pidx at 1. rewrite nth_error_app2, Nat.sub_diag by lia. cbn [nth_error bind].
    specialize (IH (pre ++ [x])%list). rewrite <- app_assoc, app_length in IH. cbn [app length] in IH.
    rewrite Nat.add_1_r in IH. rewrite IH. reflexivity. }
  exact (H [] l).
Qed.

Section Run.
Variable K : run.
Hypothesis HK : complete_run K.
Let rs := k_results K.

Lemma zeros_ok : zeros K = Ok (length rs).
Proof.
  destruct HK as [H1 H2]. unfold zeros. replace (k_timesteps K <? 0)%Z with false by (symmetry; apply Z.ltb_ge; lia).
  unfold rs. rewrite <- H2, Nat2Z.id. reflexivity.
Qed.
Lemma array_ok f : array K f = Ok (map (fun rc => f (rf rc)) rs).
Proof. unfold array. rewrite zeros_ok. cbn [bind]. apply mapM_seq_nth. Qed.
Lemma sum_of_ok f : sum_of K f = Ok (total f rs).
Proof. unfold sum_of. rewrite array_ok. cbn [bind]. rewrite qsum_total. reflexivity. Qed.

Lemma mapM_ok_map {A B} (f : A -> B) l : mapM (fun x => Ok (f x)) l = Ok (map f l).
Proof. induction l as [|x l IH]; [reflexivity|]. cbn [mapM bind]. rewrite IH. reflexivity. Qed.

Lemma windy_mapM f hi wind pre suf l :
  mapM (fun i => p <- label wind (Z.of_nat i) ;;
        if qle hi p then r <- pidx (pre ++ suf) i ;; Ok (f (rf r)) else Ok 0) (seq (length pre) (length suf)) = Ok l ->
  qsum l = windy_total f wind hi (Z.of_nat (length pre)) suf.
Proof.
  revert pre l. induction suf as [|rc suf IH]; intros pre l H.
  - injection H as <-. reflexivity.
  - cbn [length seq mapM] in H. unfold label at 1 in H.
    replace (Z.of_nat (length pre) <? 0)%Z with false in H by (symmetry; apply Z.ltb_ge; lia).
    rewrite Nat2Z.id in H. cbn [windy_total]. unfold windy_at. rewrite Nat2Z.id.
    destruct (nth_error wind (length pre)) as [p|]; cbn [bind] in H; [|discriminate].
    unfold pidx at 1 in H. rewrite nth_error_app2, Nat.sub_diag in H by lia. cbn [nth_error bind] in H.
    destruct (mapM _ (seq (S (length pre)) (length suf))) as [l'|] eqn:E;
      [|destruct (qle hi p); cbn [bind] in H; discriminate].
    specialize (IH (pre ++ [rc])%list l'). rewrite <- app_assoc, app_length in IH. cbn [app length] in IH.
    rewrite Nat.add_1_r in IH. specialize (IH E).
    replace (Z.of_nat (length pre) + 1)%Z with (Z.of_nat (S (length pre))) by lia. rewrite <- IH.
    destruct (qle hi p); cbn [bind] in H; injection H as <-; rewrite qsum_cons; reflexivity.
Qed.

Lemma windy_sum_inv f x :
  windy_sum K f = Ok x ->
  (existsb (String.eqb (g_tariff (k_grid K))) plain_tariffs = true /\ x = 0) \/
  (exists w, wind_farm_info (k_grid K) = Ok w /\ x = windy_total f (w_power w) (w_higher w) 0 rs).
Proof.
  unfold windy_sum. destruct (existsb _ plain_tariffs); [intro H; injection H as <-; left; auto|].
  destruct (existsb _ ppa_tariffs); cbn [negb]; [|discriminate].
  destruct (wind_farm_info (k_grid K)) as [w|]; cbn [bind]; [|discriminate].
  rewrite zeros_ok. cbn [bind]. destruct (mapM _ _) as [l|] eqn:E; cbn [bind]; [|discriminate].
  intro H. injection H as <-. right. exists w. split; [reflexivity|].
  exact (windy_mapM f (w_higher w) (w_power w) [] rs l E).
Qed.

Lemma windy_total_bounds f wind hi h l :
  Forall (fun rc => 0 <= f (rf rc)) l -> 0 <= windy_total f wind hi h l <= total f l.
Proof.
  intro H. revert h. induction H as [|rc l H _ IH]; intro h; [cbn; lra|].
  cbn [windy_total]. rewrite total_cons. specialize (IH (h + 1)%Z). destruct (windy_at wind hi h); lra.
Qed.
Lemma windy_sum_bounds f x :
  Forall (fun rc => 0 <= f (rf rc)) rs -> windy_sum K f = Ok x -> 0 <= x <= total f rs.
Proof.
  intros F H. pose proof (total_nonneg f rs F). destruct (windy_sum_inv f x H) as [[_ ->]|(w & _ & ->)]; [lra|].
  apply windy_total_bounds. exact F.
Qed.

(** ** Shares *)
Lemma share_bounds a b : 0 < b -> 0 <= a -> a <= b -> 0 <= a / b <= 1.
Proof. intros Hb Ha Hab. split; [apply Qle_shift_div_l; lra|apply Qle_shift_div_r; lra]. Qed.

Lemma self_consumption_percentage :
  Forall (fun rc => 0 <= rf rc GRID_total_export <= rf rc RES_generation_total) rs ->
  exists x, RES_self_consumption K = Ok x /\ percentage x.
Proof.
  intro F. unfold RES_self_consumption, sum_RES, sum_export. rewrite !sum_of_ok. cbn [bind].
  eexists. split; [reflexivity|]. unfold percentage.
  destruct (qlt_spec 0 (total (fun r => r RES_generation_total) rs)) as [H|H]; [|lra].
  assert (0 <= total (fun r => r GRID_total_export) rs) by (apply total_nonneg; revert F; apply Forall_impl; intros rc [A _]; exact A).
  assert (total (fun r => r GRID_total_export) rs <= total (fun r => r RES_generation_total) rs)
    by (apply total_le; revert F; apply Forall_impl; intros rc [_ A]; exact A).
  pose proof (share_bounds _ _ H H0 H1). lra.
Qed.

Let electric := fuel_eqb (k_fuel K) ELECTRIC.
Hypothesis HB : Forall (fun rc => hour_balances electric (rf rc)) rs.

Ltac signs Hb :=
  let S := fresh "Sgn" in
  pose proof (hb_signs _ _ Hb) as S;
  repeat match type of S with Forall _ (_ :: _) =>
    let A := fresh in apply Forall_cons_iff in S as [A S] end.

Lemma balances_total (f g : fields -> Q) :
  (forall r, hour_balances electric r -> f r <= g r) -> total f rs <= total g rs.
Proof. intro H. apply total_le. revert HB. apply Forall_impl. intros rc Hb. apply H. exact Hb. Qed.
Lemma balances_nonneg (f : fields -> Q) :
  (forall r, hour_balances electric r -> 0 <= f r) -> Forall (fun rc => 0 <= f (rf rc)) rs.
Proof. intro H. revert HB. apply Forall_impl. intros rc Hb. apply H. exact Hb. Qed.

Lemma import_nonneg r : hour_balances electric r -> 0 <= r GRID_total_import.
Proof. intro Hb. signs Hb. rewrite (hb_import _ _ Hb). pose proof (hb_aux _ _ Hb). destruct electric; lra. Qed.

Definition uses (r : fields) : Q := r HP_elec_total_usage + r AUX_demand + r ED_elec_demand.
Lemma supply_bound r : hour_balances electric r ->
  r RES_generation_total - r GRID_total_export + r GRID_total_import <= uses r + r ES_charging_total.
Proof.
  intro Hb. signs Hb. destruct Hb. unfold uses. clear hb_signs hb_hp_heat.
  rewrite hb_import, hb_renewable, hb_export, hb_charging. destruct electric; lra.
Qed.

Lemma demand_met_bounds x :
  demand_met_RES K = Ok (Fin x) ->
  0 < total uses rs /\ 0 <= x /\
  x <= 100 + 100 * (total (fun r => r ES_charging_total) rs / total uses rs).
Proof.
  unfold demand_met_RES, total_RES_used, grid_RES_used, sum_hp_usage, sum_aux_output, sum_ed.
  rewrite !sum_of_ok. cbn [bind].
  destruct (windy_sum K _) as [w|] eqn:Ew; cbn [bind]; [|discriminate].
  unfold total_RES_self_consumption, sum_RES, sum_export. rewrite !sum_of_ok. cbn [bind].
  set (d := total _ rs + total _ rs + total _ rs).
  assert (Ed : d == total uses rs).
  { unfold d, uses. rewrite !total_plus. reflexivity. }
  unfold ndiv. destruct (qeq_spec d 0) as [D0|D0]; cbn [nmap]; [discriminate|]. intro H. apply Ok_inj in H. injection H as <-.
  pose proof (windy_sum_bounds (fun r => r GRID_total_import) w (balances_nonneg _ import_nonneg) Ew) as [W0 W1].
  assert (U0 : 0 <= total uses rs).
  { apply total_nonneg, balances_nonneg. intros r Hb. signs Hb. pose proof (hb_hp _ _ Hb). pose proof (hb_hp_res _ _ Hb). unfold uses. lra. }
  assert (Up : 0 < total uses rs) by (destruct (Qlt_le_dec 0 (total uses rs)) as [L|L]; [exact L|exfalso; apply D0; lra]).
  split; [exact Up|].
  set (g := total (fun r => r RES_generation_total) rs) in *. set (e := total (fun r => r GRID_total_export) rs) in *.
  assert (GE : e <= g).
  { apply balances_total. intros r Hb. signs Hb. rewrite (hb_renewable _ _ Hb), (hb_export _ _ Hb). lra. }
  set (c := total (fun r => r ES_charging_total) rs).
  set (m := total (fun r => r GRID_total_import) rs) in *.
  assert (SB : g - e + m <= total uses rs + c).
  { unfold g, e, m, c.
    assert (B : total (fun r => r RES_generation_total + r GRID_total_import) rs <=
                total (fun r => uses r + r ES_charging_total + r GRID_total_export) rs).
    { apply balances_total. intros r Hb. pose proof (supply_bound r Hb). lra. }
    rewrite !total_plus in B. lra. }
  set (u := w + (g - e)).
  assert (Ex : (1 - (d - u) / d) * 100 == 100 * (u / d)) by (field; exact D0).
  assert (Eq : u / d == u / total uses rs) by (rewrite Ed; reflexivity).
  rewrite Ex, Eq. split.
  - assert (0 <= u / total uses rs) by (apply Qle_shift_div_l; [exact Up|unfold u; lra]). lra.
  - assert (u / total uses rs <= 1 + c / total uses rs).
    { apply Qle_shift_div_r; [exact Up|].
      assert (X : (1 + c / total uses rs) * total uses rs == total uses rs + c) by (field; lra).
      rewrite X. unfold u. lra. }
    lra.
Qed.

Lemma heat_met_percentage x : heat_met_RES K = Ok (Fin x) -> percentage x.
Proof.
  unfold heat_met_RES, heat_from_local_RES, heat_from_grid_RES, sum_hp_output, sum_aux_output.
  rewrite !sum_of_ok. cbn [bind].
  destruct (windy_sum K _) as [w|] eqn:Ew; cbn [bind]; [|discriminate].
  assert (F : Forall (fun rc => 0 <= rf rc AUX_demand - rf rc RES_aux + rf rc HP_elec_import_usage * rf rc HP_cop) rs).
  { apply (balances_nonneg (fun r => r AUX_demand - r RES_aux + r HP_elec_import_usage * r HP_cop)). intros r Hb. signs Hb. pose proof (hb_aux _ _ Hb). nra. }
  pose proof (windy_sum_bounds _ w F Ew) as [W0 W1].
  set (a := total (fun r => r HP_heat_total_output) rs). set (b := total (fun r => r AUX_demand) rs).
  set (l1 := total (fun r => r RES_aux) rs). set (l2 := total (fun r => r HP_elec_RES_usage * r HP_cop) rs).
  set (g := total _ rs) in W1.
  assert (B : l1 + l2 + g <= a + b).
  { unfold l1, l2, g, a, b. rewrite <- !total_plus. apply balances_total. intros r Hb. pose proof (hb_hp_heat _ _ Hb). lra. }
  assert (L1 : 0 <= l1) by (apply (total_nonneg (fun r => r RES_aux)), (balances_nonneg (fun r => r RES_aux)); intros r Hb; signs Hb; lra).
  assert (L2 : 0 <= l2).
  { apply (total_nonneg (fun r => r HP_elec_RES_usage * r HP_cop)), (balances_nonneg (fun r => r HP_elec_RES_usage * r HP_cop)).
    intros r Hb; signs Hb. pose proof (hb_hp_res _ _ Hb) as Er. setoid_rewrite Er. nra. }
  unfold ndiv. destruct (qeq_spec (a + b) 0) as [D0|D0]; cbn [nmap]; [discriminate|]. intro H. apply Ok_inj in H. injection H as <-.
  unfold percentage. pose proof (share_bounds (l1 + l2 + w) (a + b)). lra.
Qed.
End Run.

Lemma hp_met_percentage K x :
  complete_run K ->
  Forall (fun rc => 0 <= rf rc HP_elec_RES_usage /\ 0 <= rf rc HP_elec_import_usage /\ 0 < rf rc HP_cop /\
    (rf rc HP_elec_RES_usage + rf rc HP_elec_import_usage) * rf rc HP_cop <= rf rc HP_heat_total_output) (k_results K) ->
  HP_met_RES K = Ok (Fin x) -> percentage x.
Proof.
  intros HK F. unfold HP_met_RES, HP_from_local_RES, HP_from_grid_RES, sum_hp_output.
  rewrite !(sum_of_ok K HK). cbn [bind].
  destruct (windy_sum K _) as [w|] eqn:Ew; cbn [bind]; [|discriminate].
  assert (F1 : Forall (fun rc => 0 <= rf rc HP_elec_import_usage * rf rc HP_cop) (k_results K)).
  { revert F. apply Forall_impl. intros rc (A & B & C & D). nra. }
  assert (F2 : Forall (fun rc => 0 <= rf rc HP_elec_RES_usage * rf rc HP_cop) (k_results K)).
  { revert F. apply Forall_impl. intros rc (A & B & C & D). nra. }
  pose proof (windy_sum_bounds K HK _ w F1 Ew) as [W0 W1].
  pose proof (total_nonneg (fun r => r HP_elec_RES_usage * r HP_cop) _ F2) as L0.
  set (a := total (fun r => r HP_heat_total_output) (k_results K)).
  set (l := total (fun r => r HP_elec_RES_usage * r HP_cop) (k_results K)) in *.
  set (g := total _ (k_results K)) in W1.
  assert (B : l + g <= a).
  { unfold l, g, a. rewrite <- total_plus. apply total_le. revert F. apply Forall_impl. intros rc (_ & _ & _ & D). lra. }
  unfold ndiv. destruct (qeq_spec a 0) as [D0|D0]; cbn [nmap]; [discriminate|]. intro H. apply Ok_inj in H. injection H as <-.
  unfold percentage. pose proof (share_bounds (l + w) a). lra.
Qed.

(** ** Windy hours *)
Lemma windy_mapM_total f hi wind pre suf :
  (length (pre ++ suf) <= length wind)%nat -> exists l,
  mapM (fun i => p <- label wind (Z.of_nat i) ;;
        if qle hi p then r <- pidx (pre ++ suf) i ;; Ok (f (rf r)) else Ok 0) (seq (length pre) (length suf)) = Ok l.
Proof.
  intro H. apply mapM_ok. intros i Hi. apply in_seq in Hi. rewrite app_length in H.
  destruct (label_ok wind (Z.of_nat i)) as [p ->]; [lia|]. cbn [bind]. destruct (qle hi p); [|eauto].
  unfold pidx. destruct (nth_error (pre ++ suf) i) as [r|] eqn:E; [cbn [bind]; eauto|].
  apply nth_error_None in E. rewrite app_length in E. lia.
Qed.
Lemma windy_sum_ppa K f w :
  complete_run K -> In (g_tariff (k_grid K)) ppa_tariffs -> wind_farm_info (k_grid K) = Ok w ->
  (length (k_results K) <= length (w_power w))%nat ->
  windy_sum K f = Ok (windy_total f (w_power w) (w_higher w) 0 (k_results K)).
Proof.
  intros HK HT HW HL. destruct (windy_mapM_total f (w_higher w) (w_power w) [] (k_results K) HL) as [l El].
  pose proof (windy_mapM f (w_higher w) (w_power w) [] (k_results K) l El) as E. cbn [app length] in El.
  unfold windy_sum. rewrite HW. rewrite (zeros_ok K HK). cbn [bind app length] in *. rewrite El. cbn [bind]. rewrite E.
  assert (N : existsb (String.eqb (g_tariff (k_grid K))) plain_tariffs = false /\
              existsb (String.eqb (g_tariff (k_grid K))) ppa_tariffs = true).
  { destruct HT as [<-|[<-|[<-|[]]]]; split; reflexivity. }
  destruct N as [-> ->]. reflexivity.
Qed.
Lemma windy_sum_plain K f : In (g_tariff (k_grid K)) plain_tariffs -> windy_sum K f = Ok 0.
Proof. intro HT. unfold windy_sum. destruct HT as [<-|[<-|[<-|[]]]]; reflexivity. Qed.
Lemma windy_total_le f g wind hi h l :
  Forall (fun rc => f (rf rc) <= g (rf rc)) l -> windy_total f wind hi h l <= windy_total g wind hi h l.
Proof.
  intro H. revert h. induction H as [|rc l H _ IH]; intro h; [cbn; lra|].
  cbn [windy_total]. specialize (IH (h + 1)%Z). destruct (windy_at wind hi h); lra.
Qed.
Lemma windy_sum_le K f g x y :
  complete_run K -> Forall (fun rc => f (rf rc) <= g (rf rc)) (k_results K) ->
  windy_sum K f = Ok x -> windy_sum K g = Ok y -> x <= y.
Proof.
  intros HK F Hx Hy. destruct (windy_sum_inv K HK f x Hx) as [[P1 ->]|(w & E1 & ->)];
    destruct (windy_sum_inv K HK g y Hy) as [[P2 ->]|(w' & E2 & ->)].
  - lra.
  - unfold windy_sum in Hy. rewrite P1 in Hy. apply Ok_inj in Hy. rewrite <- Hy. lra.
  - unfold windy_sum in Hx. rewrite P2 in Hx. apply Ok_inj in Hx. rewrite <- Hx. lra.
  - rewrite E1 in E2. apply Ok_inj in E2. subst w'. apply windy_total_le. exact F.
Qed.
