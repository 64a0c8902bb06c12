From Verif Require Import Base BaseL M_Battery S_Battery.

Lemma new_soc_range b m soc : 0 <= b_capacity b -> 0 <= new_soc b m soc <= b_capacity b.
Proof.
  intro Hc. unfold new_soc.
  set (x := soc + _ + _ - _). qcases; lra.
Qed.

Lemma soc_history_range b soc ms :
  0 <= b_capacity b -> Forall (level_ok b) (soc_history b soc ms).
Proof.
  intro Hc. revert soc. induction ms as [|m ms IH]; intro soc; cbn [soc_history]; constructor.
  - apply new_soc_range; exact Hc.
  - apply IH.
Qed.

Lemma soc_history_last b soc ms :
  soc_final b soc ms = last (soc_history b soc ms) soc.
Proof.
  revert soc. induction ms as [|m ms IH]; intro soc; [reflexivity|].
  cbn [soc_history]. unfold soc_final in *. cbn [fold_left]. rewrite IH.
  rewrite last_cons_default. reflexivity.
Qed.

Lemma init_state_range b :
  0 <= b_capacity b -> 0 <= b_initial_state b <= 1 -> level_ok b (init_state b).
Proof. unfold level_ok, init_state. intros. nra. Qed.

Lemma max_charging_surplus b m soc :
  0 <= m -> 0 <= b_charge_max b ->
  max_charging b m soc == Qmin m (Qmin (b_charge_max b) (b_capacity b - soc)).
Proof.
  intros Hm Hc. unfold max_charging.
  rewrite pmin_Qmin, Q.min_assoc.
  assert (E : forall a b' c, a == b' -> Qmin a c == Qmin b' c).
  { intros a b' c H. rewrite H. reflexivity. }
  apply E.
  qcases; try lra.
  - symmetry; apply Q.min_l; lra.
  - symmetry; apply Q.min_r; lra.
Qed.

Lemma max_charging_deficit b m soc :
  m < 0 -> soc <= b_capacity b -> max_charging b m soc == 0.
Proof. intros Hm Hs. unfold max_charging, pmin. qcases; lra. Qed.

Lemma max_discharging_surplus b m soc :
  0 <= m -> 0 <= soc -> 0 <= b_discharge_max b -> 0 <= b_discharge_eff b ->
  max_discharging b m soc == 0.
Proof.
  intros Hm Hs Hd He. unfold max_discharging, pmin.
  assert (0 <= m * b_discharge_eff b) by nra.
  qcases; lra.
Qed.

Lemma max_discharging_deficit b m soc :
  m < 0 -> 0 <= soc -> 0 <= b_discharge_max b -> 0 <= b_discharge_eff b ->
  max_discharging b m soc == - Qmin (- m * b_discharge_eff b) (b_discharge_max b).
Proof.
  intros Hm Hs Hd He. unfold max_discharging.
  assert (m * b_discharge_eff b <= 0) by nra.
  destruct (Q.min_spec (- m * b_discharge_eff b) (b_discharge_max b)) as [[H1 E]|[H1 E]];
    rewrite E; unfold pmin; qcases; lra.
Qed.

Lemma new_soc_spec b m soc :
  battery_ok b -> level_ok b soc -> new_soc b m soc == spec_next b m soc.
Proof.
  intros (Hc & Hcm & Hdm & Hce & Hde & Hsd) (Hs0 & Hs1).
  unfold new_soc, spec_next.
  destruct (Qlt_le_dec m 0) as [Hm|Hm].
  - assert (E : soc + max_charging b m soc + max_discharging b m soc - self_loss b soc
            == soc - Qmin (- m * b_discharge_eff b) (b_discharge_max b) - soc * b_self_discharge b).
    { rewrite max_charging_deficit, max_discharging_deficit by lra. unfold self_loss. lra. }
    assert (Hmn : 0 <= Qmin (- m * b_discharge_eff b) (b_discharge_max b)).
    { apply Q.min_glb; [nra|lra]. }
    assert (0 <= soc * b_self_discharge b) by nra.
    set (x := soc + _ + _ - _) in *. rewrite E.
    set (y := soc - _ - _) in *.
    assert (Hy : y <= soc) by (unfold y; lra).
    destruct (Q.max_spec 0 y) as [[H1 E1]|[H1 E1]]; rewrite E1; qcases; lra.
  - assert (E : soc + max_charging b m soc + max_discharging b m soc - self_loss b soc
            == soc + Qmin m (Qmin (b_charge_max b) (b_capacity b - soc)) - soc * b_self_discharge b).
    { rewrite max_charging_surplus, max_discharging_surplus by lra. unfold self_loss. lra. }
    set (x := soc + _ + _ - _) in *.
    assert (0 <= soc * b_self_discharge b) by nra.
    assert (soc * b_self_discharge b <= soc) by nra.
    assert (Hmn : 0 <= Qmin m (Qmin (b_charge_max b) (b_capacity b - soc))).
    { apply Q.min_glb; [lra|]. apply Q.min_glb; lra. }
    assert (Hmx : Qmin m (Qmin (b_charge_max b) (b_capacity b - soc)) <= b_capacity b - soc).
    { eapply Qle_trans; [apply Q.le_min_r|apply Q.le_min_r]. }
    rewrite <- E. qcases; lra.
Qed.

Lemma charge_limits b m soc :
  battery_ok b -> level_ok b soc -> 0 <= m ->
  let rise := new_soc b m soc - soc in
  rise <= m /\ rise <= b_charge_max b /\ rise <= b_capacity b - soc /\
  - (soc * b_self_discharge b) <= rise.
Proof.
  intros Hb Hl Hm rise. pose proof (new_soc_spec b m soc Hb Hl) as E.
  unfold spec_next in E. destruct (Qlt_le_dec m 0); [lra|].
  unfold rise. rewrite E.
  destruct Hb as (Hc & Hcm & Hdm & Hce & Hde & Hsd). destruct Hl as [Hs0 Hs1].
  assert (0 <= soc * b_self_discharge b) by nra.
  pose proof (Q.le_min_l m (Qmin (b_charge_max b) (b_capacity b - soc))).
  pose proof (Q.le_min_r m (Qmin (b_charge_max b) (b_capacity b - soc))).
  pose proof (Q.le_min_l (b_charge_max b) (b_capacity b - soc)).
  pose proof (Q.le_min_r (b_charge_max b) (b_capacity b - soc)).
  assert (Hmn : 0 <= Qmin m (Qmin (b_charge_max b) (b_capacity b - soc))).
  { apply Q.min_glb; [lra|]. apply Q.min_glb; lra. }
  repeat split; lra.
Qed.

Lemma discharge_limits b m soc :
  battery_ok b -> level_ok b soc -> m < 0 ->
  let fall := soc - new_soc b m soc in
  0 <= fall /\ fall <= b_discharge_max b + soc * b_self_discharge b /\
  fall <= - m * b_discharge_eff b + soc * b_self_discharge b.
Proof.
  intros Hb Hl Hm fall. pose proof (new_soc_spec b m soc Hb Hl) as E.
  unfold spec_next in E. destruct (Qlt_le_dec m 0); [|lra].
  unfold fall. rewrite E.
  destruct Hb as (Hc & Hcm & Hdm & Hce & Hde & Hsd). destruct Hl as [Hs0 Hs1].
  assert (0 <= soc * b_self_discharge b) by nra.
  pose proof (Q.le_min_l (- m * b_discharge_eff b) (b_discharge_max b)).
  pose proof (Q.le_min_r (- m * b_discharge_eff b) (b_discharge_max b)).
  assert (Hmn : 0 <= Qmin (- m * b_discharge_eff b) (b_discharge_max b)).
  { apply Q.min_glb; [nra|lra]. }
  set (y := soc - _ - _) in *.
  pose proof (Q.le_max_r 0 y). assert (Qmax 0 y <= soc) by (apply Q.max_lub; unfold y; lra).
  unfold y in *.
  repeat split; lra.
Qed.

Lemma idle_spec b soc :
  battery_ok b -> level_ok b soc -> new_soc b 0 soc == soc - soc * b_self_discharge b.
Proof.
  intros Hb Hl. rewrite (new_soc_spec b 0 soc Hb Hl). unfold spec_next.
  destruct (Qlt_le_dec 0 0); [lra|].
  destruct Hb as (Hc & Hcm & _). destruct Hl as [Hs0 Hs1].
  rewrite Q.min_l; [lra|]. apply Q.min_glb; lra.
Qed.

Lemma new_soc_rise b m soc :
  battery_ok b -> level_ok b soc -> new_soc b m soc <= soc + Qmax m 0.
Proof.
  intros Hb Hl. destruct (Qlt_le_dec m 0) as [Hm|Hm].
  - destruct (discharge_limits b m soc Hb Hl Hm) as (H & _ & _).
    pose proof (Q.le_max_r m 0). lra.
  - destruct (charge_limits b m soc Hb Hl Hm) as (H & _ & _).
    pose proof (Q.le_max_l m 0). lra.
Qed.

Lemma soc_final_range b soc ms :
  0 <= b_capacity b -> level_ok b soc -> level_ok b (soc_final b soc ms).
Proof.
  intros Hc Hl. unfold soc_final. revert soc Hl. induction ms as [|m ms IH]; intros soc Hl; [exact Hl|].
  cbn [fold_left]. apply IH. apply new_soc_range; exact Hc.
Qed.

Lemma no_energy_created b soc ms :
  battery_ok b -> level_ok b soc -> soc_final b soc ms <= soc + offered ms.
Proof.
  intros Hb. revert soc. unfold soc_final, offered.
  induction ms as [|m ms IH]; intros soc Hl; cbn [fold_left map].
  - change (qsum []) with 0. lra.
  - rewrite qsum_cons.
    assert (Hl' : level_ok b (new_soc b m soc)) by (apply new_soc_range; apply Hb).
    pose proof (IH _ Hl'). pose proof (new_soc_rise b m soc Hb Hl). lra.
Qed.

(** With a loss-free discharge path and enough power and charge, what is asked is
    exactly what leaves the store. *)
Lemma lossless_delivery b m soc :
  battery_ok b -> level_ok b soc -> b_discharge_eff b == 1 -> m < 0 ->
  - m <= b_discharge_max b -> - m + soc * b_self_discharge b <= soc ->
  soc - new_soc b m soc == - m + soc * b_self_discharge b.
Proof.
  intros Hb Hl He Hm H1 H2. rewrite (new_soc_spec b m soc Hb Hl). unfold spec_next.
  destruct (Qlt_le_dec m 0); [|lra].
  assert (E : - m * b_discharge_eff b == - m) by (rewrite He; lra).
  rewrite E, (Q.min_l (- m)) by lra. rewrite Q.max_r by lra. lra.
Qed.

Lemma fill_request b soc :
  battery_ok b -> level_ok b soc ->
  0 <= charge_to_capacity b soc <= b_charge_max b /\
  (charge_to_capacity b soc == b_charge_max b \/
   b_capacity b - soc <= charge_to_capacity b soc).
Proof.
  intros (Hc & Hcm & Hdm & Hce & Hde & Hsd) (Hs0 & Hs1).
  unfold charge_to_capacity, self_loss.
  assert (0 <= soc * b_self_discharge b) by nra.
  assert (0 <= (b_capacity b - soc) * b_charge_eff b) by nra.
  match goal with |- context [pmin ?a ?b] => destruct (pmin_cases a b) as [[E H1]|[E H1]]; rewrite !E end; split; lra.
Qed.

Lemma fill_request_exact b soc :
  charge_to_capacity b soc ==
  Qmin (b_capacity b - soc + (soc * b_self_discharge b + (b_capacity b - soc) * b_charge_eff b))
       (b_charge_max b).
Proof. unfold charge_to_capacity, self_loss. apply pmin_Qmin. Qed.

Lemma fill_full_zero b :
  battery_ok b -> b_self_discharge b == 0 -> charge_to_capacity b (b_capacity b) == 0.
Proof.
  intros (Hc & Hcm & _) Hsd. rewrite fill_request_exact.
  assert (E : b_capacity b - b_capacity b + (b_capacity b * b_self_discharge b +
     (b_capacity b - b_capacity b) * b_charge_eff b) == 0) by (rewrite Hsd; ring).
  rewrite E. apply Q.min_l. exact Hcm.
Qed.

(** Offering the requested amount fills the store (up to the leak of the hour) or
    charges at full power. *)
Lemma fill_books b soc :
  battery_ok b -> level_ok b soc ->
  let soc' := new_soc b (charge_to_capacity b soc) soc in
  soc' == b_capacity b - soc * b_self_discharge b \/
  soc' == soc + b_charge_max b - soc * b_self_discharge b.
Proof.
  intros Hb Hl soc'. unfold soc'.
  destruct (fill_request b soc Hb Hl) as [[H0 H1] H2].
  pose proof Hb as (Hc & Hcm & _). destruct Hl as [Hs0 Hs1].
  rewrite (new_soc_spec b _ soc Hb (conj Hs0 Hs1)). unfold spec_next.
  destruct (Qlt_le_dec (charge_to_capacity b soc) 0); [lra|].
  destruct (Q.min_spec (b_charge_max b) (b_capacity b - soc)) as [[A1 A2]|[A1 A2]]; rewrite A2.
  - destruct H2 as [H2|H2]; [|lra]. right. rewrite H2, Q.min_id. lra.
  - destruct H2 as [H2|H2].
    + left. rewrite Q.min_r by lra. lra.
    + left. rewrite Q.min_r by lra. lra.
Qed.

Lemma discharging_error m soc : m < 0 -> discharging m soc = Err TypeError.
Proof. intro H. unfold discharging. destruct (qle_spec 0 m); [lra|reflexivity]. Qed.
Lemma discharging_ok m soc : 0 <= m -> discharging m soc = Ok 0.
Proof. intro H. unfold discharging. destruct (qle_spec 0 m); [reflexivity|lra]. Qed.
Lemma total_losses_error b m soc : m < 0 -> total_losses b m soc = Err TypeError.
Proof. intro H. unfold total_losses. rewrite discharging_error by exact H. reflexivity. Qed.
Lemma total_losses_ok b m soc :
  0 <= m -> exists v, total_losses b m soc = Ok v /\
    v == (1 - b_charge_eff b) * charging b m soc - soc * b_self_discharge b.
Proof.
  intro H. unfold total_losses. rewrite discharging_ok by exact H. cbn [bind].
  eexists; split; [reflexivity|]. unfold self_loss. lra.
Qed.
