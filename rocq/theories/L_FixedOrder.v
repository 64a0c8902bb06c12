From Verif Require Import Base BaseL M_Battery S_Battery L_Battery M_HeatPump S_HeatPump L_HeatPump
  M_Tools L_Tools M_FixedOrder S_FixedOrder.

Lemma process_eq_dec (p q : process) : {p = q} + {p <> q}.
Proof. decide equality. Defined.

(** ** From numbers to processes *)
Lemma run_order_processes P I t n key order cr cr' :
  run_order P I t n key order cr = Ok cr' ->
  exists ps, mapM key order = Ok ps /\ foldM (run_process P I t n) ps cr = Ok cr'.
Proof.
  unfold run_order. revert cr. induction order as [|k order IH]; intros cr H.
  - exists []. split; [reflexivity|exact H].
  - cbn [foldM] in H. unfold run_number at 1 in H.
    destruct (key k) as [p|e] eqn:K; cbn [bind] in H; [|discriminate].
    destruct (run_process P I t n cr p) as [cr1|e] eqn:R; cbn [bind] in H; [|discriminate].
    destruct (IH cr1 H) as [ps [E1 E2]]. exists (p :: ps). split.
    + cbn [mapM]. rewrite K. cbn [bind]. rewrite E1. reflexivity.
    + cbn [foldM]. rewrite R. exact E2.
Qed.

Lemma processes_run_order P I t n key order ps cr :
  mapM key order = Ok ps -> run_order P I t n key order cr = foldM (run_process P I t n) ps cr.
Proof.
  unfold run_order. revert ps cr. induction order as [|k order IH]; intros ps cr H; cbn [mapM] in H.
  - injection H as <-. reflexivity.
  - destruct (key k) as [p|] eqn:K; cbn [bind] in H; [|discriminate].
    destruct (mapM key order) as [ps'|] eqn:M; cbn [bind] in H; [|discriminate].
    injection H as <-. cbn [foldM]. unfold run_number at 1. rewrite K. cbn [bind].
    destruct (run_process P I t n cr p); cbn [bind]; [apply IH; reflexivity|reflexivity].
Qed.

(** ** Accounting: what the running checks mean in terms of the recorded fields *)
(** Fields written by each process. *)
Definition writes (p : process) : list field :=
  match p with
  | RES_to_demand => []
  | ES_to_demand => [ED_ES; ES_discharging_to_demand]
  | Import_to_demand => [ED_import; GRID_import_for_elec_demand]
  | HP_RES_to_demand => [HD_HP_RES; RES_HP_to_heat_demand; HP_heat_from_RES_to_demand; HP_elec_from_RES_to_demand]
  | EAUX_RES_to_demand => [AUX_RES_to_demand]
  | HP_import_to_demand => [HD_HP_import; GRID_import_for_heat_pump_to_heat_demand; HP_heat_from_import_to_demand; HP_elec_from_import_to_demand]
  | TS_to_demand => [HD_TS; TS_discharging_total]
  | ES_to_HP_to_demand => [HD_HP_ES; ES_discharging_to_HP; HP_heat_from_ES_to_demand; HP_elec_from_ES_to_demand]
  | AUX_to_demand => [HD_aux]
  | HP_RES_to_TS => [RES_HP_to_TS; HP_heat_from_RES_to_TS; HP_elec_from_RES_to_TS; TS_HP_from_RES_to_TS]
  | EAUX_RES_to_TS => [AUX_RES_to_TS; TS_aux_to_TS]
  | HP_import_to_TS => [GRID_import_for_heat_pump_to_TS; HP_heat_from_import_to_TS; HP_elec_from_import_to_TS; TS_HP_from_import_to_TS]
  | RES_to_ES => [RES_ES; ES_charging_from_RES]
  | Import_to_ES => [GRID_import_for_ES; ES_charging_from_import]
  | RES_to_export => [RES_export; GRID_total_export]
  end.
Definition all_processes : list process :=
  [RES_to_demand; ES_to_demand; Import_to_demand; HP_RES_to_demand; EAUX_RES_to_demand;
   TS_to_demand; ES_to_HP_to_demand; HP_import_to_demand; AUX_to_demand;
   HP_RES_to_TS; EAUX_RES_to_TS; HP_import_to_TS; RES_to_ES; Import_to_ES; RES_to_export].

Record Acc (c0 : checks) (r0 : fields) (don : list process) (c : checks) (r : fields) : Prop := {
  acc_elec : elec_unmet c == elec_unmet c0 - (r ED_ES + r ED_import);
  acc_heat : heat_unmet c == heat_unmet c0 -
     (r HD_HP_RES + r HD_HP_import + r HD_HP_ES + r HD_TS + r HD_aux + r AUX_RES_to_demand);
  acc_res : RES_left c == RES_left c0 -
     (r RES_HP_to_heat_demand + r RES_HP_to_TS + r RES_ES + r RES_export + r AUX_RES_to_demand + r AUX_RES_to_TS);
  acc_hp : hp_usage c == hp_usage c0 + r HP_heat_from_RES_to_demand + r HP_heat_from_RES_to_TS +
     r HP_heat_from_import_to_demand + r HP_heat_from_import_to_TS;
  acc_tsd : ts_discharge c == ts_discharge c0 + r TS_discharging_total;
  acc_tsc : ts_charge c == ts_charge c0 + r TS_HP_from_RES_to_TS + r TS_HP_from_import_to_TS + r TS_aux_to_TS;
  acc_soc : c_soc c == c_soc c0 - r ES_discharging_to_demand - r ES_discharging_to_HP +
     r ES_charging_from_RES + r ES_charging_from_import;
  acc_aux : aux_left c == aux_left c0 - r AUX_RES_to_demand - r AUX_RES_to_TS - r HD_aux;
  (* the same quantity is booked under several names *)
  mir1 : r ED_ES = r ES_discharging_to_demand;
  mir2 : r ED_import = r GRID_import_for_elec_demand;
  mir3 : r HD_HP_RES = r HP_heat_from_RES_to_demand;
  mir4 : r RES_HP_to_heat_demand = r HP_elec_from_RES_to_demand;
  mir5 : r HD_HP_import = r HP_heat_from_import_to_demand;
  mir6 : r GRID_import_for_heat_pump_to_heat_demand = r HP_elec_from_import_to_demand;
  mir7 : r HD_TS = r TS_discharging_total;
  mir8 : r HD_HP_ES = r HP_heat_from_ES_to_demand;
  mir9 : r ES_discharging_to_HP = r HP_elec_from_ES_to_demand;
  mir10 : r RES_HP_to_TS = r HP_elec_from_RES_to_TS;
  mir11 : r HP_heat_from_RES_to_TS = r TS_HP_from_RES_to_TS;
  mir12 : r AUX_RES_to_TS = r TS_aux_to_TS;
  mir13 : r GRID_import_for_heat_pump_to_TS = r HP_elec_from_import_to_TS;
  mir14 : r HP_heat_from_import_to_TS = r TS_HP_from_import_to_TS;
  mir15 : r RES_ES = r ES_charging_from_RES;
  mir16 : r GRID_import_for_ES = r ES_charging_from_import;
  mir17 : r RES_export = r GRID_total_export;
  acc_zero : forall p k, ~ In p don -> In k (writes p) -> r k = 0;
  acc_other : forall k, ~ In k (flat_map writes all_processes) -> r k = r0 k }.

Definition scalar (p : process) : bool :=
  match p with HP_RES_to_demand | HP_import_to_demand | ES_to_HP_to_demand
             | HP_RES_to_TS | HP_import_to_TS => false | _ => true end.

Lemma field_eqb_eq a b : field_eqb a b = true <-> a = b.
Proof.
  unfold field_eqb. rewrite Pos.eqb_eq. split; [|congruence].
  destruct a; destruct b; intro H; (reflexivity || discriminate H).
Qed.

Lemma upd_other r k v k' : k <> k' -> upd r k v k' = r k'.
Proof.
  intro H. unfold upd. destruct (field_eqb k k') eqn:E; [|reflexivity].
  apply field_eqb_eq in E. contradiction.
Qed.

Lemma write_other p he r k : ~ In k (writes p) -> write p he r k = r k.
Proof.
  intro H. destruct p; cbn [write writes In] in *; try reflexivity;
    rewrite ?upd_other by (intro E; apply H; subst; cbn; auto 6); reflexivity.
Qed.

Lemma writes_disjoint p q k : In k (writes p) -> In k (writes q) -> p = q.
Proof.
  destruct p, q; cbn [writes In]; intros H1 H2; try reflexivity;
    repeat match goal with H : _ \/ _ |- _ => destruct H | H : False |- _ => destruct H end;
    subst; discriminate.
Qed.

Lemma in_all p : In p all_processes.
Proof. destruct p; cbn; auto 20. Qed.

Lemma acc_step c0 r0 don c r p he :
  (scalar p = true -> snd he = fst he) -> ~ In p don ->
  Acc c0 r0 don c r -> Acc c0 r0 (p :: don) (update p he c) (write p he r).
Proof.
  intros Hs Hn A. destruct A.
  assert (HZ : forall k, In k (writes p) -> r k = 0) by (intros k Hk; apply (acc_zero0 p k Hn Hk)).
  assert (Hother : forall k, ~ In k (flat_map writes all_processes) -> write p he r k = r0 k).
  { intros k Hk. rewrite write_other; [apply acc_other0; exact Hk|].
    intro C. apply Hk. apply in_flat_map. exists p. split; [apply in_all|exact C]. }
  assert (Hzero : forall q k, ~ In q (p :: don) -> In k (writes q) -> write p he r k = 0).
  { intros q k Hq Hk. cbn [In] in Hq. rewrite write_other; [apply (acc_zero0 q); tauto|].
    intro C. apply Hq. left. apply (writes_disjoint p q k); assumption. }
  clear acc_zero0 acc_other0.
  destruct he as [h e]. cbn [fst snd] in Hs.
  destruct p; cbn [writes scalar] in HZ, Hs;
    try (specialize (Hs eq_refl); subst e); clear Hn;
    repeat match goal with
    | H : forall k, In k (?x :: ?l) -> _ |- _ =>
        let E := fresh "Z" in assert (E := H x (or_introl eq_refl));
        assert (forall k, In k l -> r k = 0) by (intros ? ?; apply H; right; assumption); clear H
    end;
    (constructor; [..|exact Hzero|exact Hother]); clear Hzero Hother;
    cbn [write update upd field_eqb field_id Pos.eqb fst snd in_elec_unmet in_heat_unmet in_RES_left
         in_hp_usage in_ts_discharge in_ts_charge in_aux
         elec_unmet heat_unmet RES_left hp_usage ts_discharge ts_charge c_soc aux_left];
    try congruence;
    rewrite ?acc_elec0, ?acc_heat0, ?acc_res0, ?acc_hp0, ?acc_tsd0, ?acc_tsc0, ?acc_soc0, ?acc_aux0;
    repeat match goal with Z : r _ = 0 |- _ => rewrite Z; clear Z end;
    ring.
Qed.

Lemma amount_scalar P I t n p c he : amount P I t n p c = Ok he -> scalar p = true -> snd he = fst he.
Proof.
  intros H Hs. destruct p; try discriminate Hs; cbn [amount] in H; clear Hs;
    unfold bind in H;
    repeat match type of H with
    | context [match ?x with _ => _ end] => destruct x; try discriminate H
    end; injection H as <-; reflexivity.
Qed.

Definition Acc_init c0 r0 :
  (forall k, In k (flat_map writes all_processes) -> r0 k = 0) -> Acc c0 r0 [] c0 r0.
Proof.
  intro H.
  assert (W : forall p k, In k (writes p) -> r0 k = 0).
  { intros p k Hk. apply H. apply in_flat_map. exists p. split; [apply in_all|exact Hk]. }
  constructor; try (intros; apply W with p; assumption); try reflexivity;
    repeat match goal with
    | |- context [r0 ?k] =>
        rewrite (H k) by (cbn; auto 50)
    end; try ring; reflexivity.
Qed.

Lemma run_acc P I t n c0 r0 ps don c r c' r' :
  NoDup ps -> (forall p, In p ps -> ~ In p don) ->
  Acc c0 r0 don c r -> foldM (run_process P I t n) ps (c, r) = Ok (c', r') ->
  Acc c0 r0 (rev ps ++ don) c' r'.
Proof.
  revert don c r. induction ps as [|p ps IH]; intros don c r Hnd Hdj A H.
  - injection H as <- <-. exact A.
  - cbn [foldM] in H. unfold run_process at 1 in H.
    destruct (amount P I t n p c) as [he|] eqn:E; cbn [bind] in H; [|discriminate].
    cbn [rev]. rewrite <- app_assoc. cbn [app].
    inversion Hnd as [|? ? Hp Hnd']; subst.
    apply (IH (p :: don) (update p he c) (write p he r)); [exact Hnd'| |apply acc_step|exact H].
    + intros q Hq [->|C]; [contradiction|]. apply (Hdj q); [right; exact Hq|exact C].
    + intro Hsc. apply (amount_scalar _ _ _ _ _ _ _ E Hsc).
    + apply Hdj. left. reflexivity.
    + exact A.
Qed.
