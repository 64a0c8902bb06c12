From Coq Require Import Sorting.Sorted Permutation String Setoid Qabs.
From Verif Require Import Base BaseL M_FixedOrder M_Tank S_Tank L_Tank L_TankFlow.


Lemma nmass_pos K : tank_ok K -> 0 < nmass K.
Proof.
  intros (Hc & Hn & _). unfold nmass. apply Qlt_shift_div_l; [|lra].
  change 0 with (inject_Z 0). rewrite <- Zlt_Qlt. lia.
Qed.

Lemma specific_heat_pos K T c : tank_ok K -> specific_heat K T = Ok c -> 0 < c.
Proof.
  intros (_ & _ & _ & _ & _ & _ & H). unfold specific_heat. destruct (_ && _); [|discriminate].
  destruct (k_cp K _) eqn:E; [|discriminate]. intro X. injection X as <-. eapply H, E.
Qed.

Lemma mapM_specific_pos K T cps :
  tank_ok K -> mapM (specific_heat K) T = Ok cps -> Forall (fun c => 0 < c) cps /\ length cps = length T.
Proof.
  intros HK H. split; [|eapply mapM_length, H]. revert cps H. induction T as [|x T IH]; intros cps; cbn.
  - intro H. injection H as <-. constructor.
  - destruct (specific_heat K x) as [c|] eqn:E; cbn [bind]; [|discriminate].
    destruct (mapM _ T) as [cs|]; cbn [bind]; [|discriminate]. intro H. injection H as <-.
    constructor; [eapply specific_heat_pos; eassumption|apply IH; reflexivity].
Qed.
Lemma cps_nth_pos cps (n i : nat) : Forall (fun c => 0 < c) cps -> length cps = n -> (i < n)%nat -> 0 < nth i cps 0.
Proof. intros F L Hi. rewrite Forall_forall in F. apply F, nth_In. lia. Qed.

Lemma k_value_pos K k : k_value K = Ok k -> 0 < k.
Proof.
  unfold k_value. destruct (String.eqb _ _); [intro H; injection H as <-; lra|].
  destruct (String.eqb _ _); [intro H; injection H as <-; lra|].
  destruct (String.eqb _ _); [intro H; injection H as <-; lra|discriminate].
Qed.
Lemma UA_nonneg K k : tank_ok K -> k_value K = Ok k -> 0 <= UA K k.
Proof.
  intros (_ & _ & Hw & Hp & Hi & He & _) Hk. apply k_value_pos in Hk. unfold UA.
  repeat apply Qmult_le_0_compat; lra.
Qed.
Lemma sealed_connections K : sealed K -> connections K == 0.
Proof. intros (H1 & H2 & H3). unfold connections. rewrite H1, H2, H3. ring. Qed.

Lemma bottom_last K T : length T = k_nodes K -> bottom K T = last T 0.
Proof.
  intro L. unfold bottom. rewrite <- L. clear L. induction T as [|x T IH]; [reflexivity|].
  destruct T as [|y T]; [reflexivity|]. cbn [length last] in *. rewrite <- IH. cbn. rewrite Nat.sub_0_r. reflexivity.
Qed.
Lemma top_hd T : top T = hd 0 T.
Proof. destruct T; reflexivity. Qed.

Lemma inner_step_inv K s source delta flow ret o d t T T' :
  inner_step K s source delta flow ret o d t T = Ok T' ->
  exists m1 T1 cps k Ta, mass_flow_calc K s flow ret source delta o d (last T 0) (hd 0 T) = Ok m1 /\
    (2 <= k_nodes K)%nat /\ length T = k_nodes K /\
    mapM (specific_heat K) T = Ok cps /\ k_value K = Ok k /\ amb_temp K t = Ok Ta /\
    T1 = map (fun i => Qred (nth i T 0 + dT K s T source flow ret (pmin m1 (nmass K)) (nmass K) k Ta cps i)) (seq 0 (k_nodes K)) /\
    T' = sort_desc T1.
Proof.
  unfold inner_step.
  destruct (mass_flow_calc _ _ _ _ _ _ _ _ _ _) as [m1|] eqn:E1; cbn [bind]; [|discriminate].
  destruct (node_mass K) as [mass|] eqn:E2; cbn [bind]; [|discriminate].
  destruct (euler _ _ _ _ _ _ _ _) as [T1|] eqn:E3; cbn [bind]; [|discriminate].
  intro H. injection H as <-. apply euler_inv in E3. destruct E3 as (cps & k & Ta & A1 & A2 & A3 & A4 & A5 & A6 & A7).
  rewrite E2 in A6. injection A6 as ->. exists m1, T1, cps, k, Ta.
  rewrite (bottom_last K T A2), top_hd in E1. auto 10.
Qed.

(** ** Mass flows *)
Lemma fdiv_inv a b q : fdiv a b = Ok q -> ~ b == 0 /\ q == a / b.
Proof. unfold fdiv. destruct (qeq_spec b 0); [discriminate|]. intro X. injection X as <-. split; [assumption|reflexivity]. Qed.

Lemma mass_charging K flow ret source delta o d tb tt m :
  tank_ok K -> mass_flow_calc K Charging flow ret source delta o d tb tt = Ok m ->
  exists cs cf, specific_heat K source = Ok cs /\ specific_heat K flow = Ok cf /\
    ~ source - tb == 0 /\ m * (source - tb) == 1000 * (o / cs - d / cf).
Proof.
  intros HK. unfold mass_flow_calc, source_out_pre_mix, DH_flow_post_mix.
  destruct (specific_heat K source) as [cs|] eqn:Es; cbn [bind]; [|discriminate].
  destruct (fdiv o _) as [a|] eqn:Ea; cbn [bind]; [|discriminate].
  destruct (specific_heat K flow) as [cf|] eqn:Ef; cbn [bind]; [|discriminate].
  destruct (fdiv d _) as [b|] eqn:Eb; cbn [bind]; [|discriminate].
  intro H. apply fdiv_inv in H, Ea, Eb. destruct H as [H1 H2], Ea as [A1 A2], Eb as [B1 B2].
  pose proof (specific_heat_pos _ _ _ HK Es). pose proof (specific_heat_pos _ _ _ HK Ef).
  exists cs, cf. split; [reflexivity|]. split; [reflexivity|]. split; [exact H1|]. rewrite H2, A2, B2. field.
  repeat split; try lra; try (intro Z; apply A1; rewrite Z; ring); intro Z; apply B1; rewrite Z; ring.
Qed.

Lemma mass_discharging K flow ret source delta o d tb tt m :
  tank_ok K -> mass_flow_calc K Discharging flow ret source delta o d tb tt = Ok m ->
  exists cs cf, specific_heat K source = Ok cs /\ specific_heat K flow = Ok cf /\
    ~ tt - ret == 0 /\ 0 <= m /\ m * Qabs.Qabs (tt - ret) == 1000 * Qabs.Qabs (d / cf - o / cs).
Proof.
  intros HK. unfold mass_flow_calc, source_out_pre_mix, DH_flow_post_mix.
  destruct (specific_heat K flow) as [cf|] eqn:Ef; cbn [bind]; [|discriminate].
  destruct (fdiv d _) as [b|] eqn:Eb; cbn [bind]; [|discriminate].
  destruct (specific_heat K source) as [cs|] eqn:Es; cbn [bind]; [|discriminate].
  destruct (fdiv o _) as [a|] eqn:Ea; cbn [bind]; [|discriminate].
  destruct (fdiv _ (tt - ret)) as [m0|] eqn:Em; cbn [bind]; [|discriminate].
  intro H. injection H as <-. apply fdiv_inv in Em, Ea, Eb. destruct Em as [H1 H2], Ea as [A1 A2], Eb as [B1 B2].
  pose proof (specific_heat_pos _ _ _ HK Es). pose proof (specific_heat_pos _ _ _ HK Ef).
  exists cs, cf. split; [reflexivity|]. split; [reflexivity|]. split; [exact H1|].
  assert (E : pabs m0 == Qabs.Qabs m0).
  { unfold pabs. destruct (qlt_spec m0 0); [rewrite Qabs.Qabs_neg by lra|rewrite Qabs.Qabs_pos by assumption]; reflexivity. }
  rewrite E. split; [apply Qabs.Qabs_nonneg|]. rewrite <- Qabs.Qabs_Qmult.
  setoid_replace 1000 with (Qabs.Qabs 1000) at 1 by reflexivity. rewrite <- Qabs.Qabs_Qmult.
  assert (X : m0 * (tt - ret) == 1000 * (d / cf - o / cs)).
  { rewrite H2, A2, B2. field. repeat split; try lra; try (intro Z; apply A1; rewrite Z; ring); intro Z; apply B1; rewrite Z; ring. }
  rewrite X. reflexivity.
Qed.

(** ** Energy balance of a step *)
Lemma euler_sum K s T source flow ret m mass k Ta cps (fl : nat -> Q) :
  length T = k_nodes K -> ~ k_width K == 0 -> length cps = length T ->
  (forall i, (i < k_nodes K)%nat ->
     dT K s T source flow ret m mass k Ta cps i == m / mass * fl i + standing_i K k Ta mass T cps i) ->
  content (map (fun i => Qred (nth i T 0 + dT K s T source flow ret m mass k Ta cps i)) (seq 0 (k_nodes K)))
  == content T + m / mass * sumn fl (k_nodes K) + standing K k Ta mass T cps.
Proof.
  intros L Hw Lc H. rewrite (content_sumn T), L.
  change (content (map ?f (seq 0 ?n))) with (sumn f n).
  rewrite (sumn_ext _ (fun i => (nth i T 0 + m / mass * fl i) + standing_i K k Ta mass T cps i)).
  2: { intros i Hi. rewrite Qred_correct, (H i Hi). ring. }
  rewrite sumn_plus, sumn_plus, sumn_scal. rewrite <- (standing_sumn K k Ta mass T cps Hw Lc), L. reflexivity.
Qed.

Lemma charging_content K source delta flow ret o d t T T' :
  tank_ok K -> stratified T -> inner_step K Charging source delta flow ret o d t T = Ok T' ->
  exists m1 cps k Ta cs cf,
    mapM (specific_heat K) T = Ok cps /\ k_value K = Ok k /\ amb_temp K t = Ok Ta /\
    specific_heat K source = Ok cs /\ specific_heat K flow = Ok cf /\
    m1 * (source - last T 0) == 1000 * (o / cs - d / cf) /\
    (last T 0 <= source ->
     content T' == content T + Qmin m1 (nmass K) / nmass K * (inject_Z (Z.of_nat (S (ties source T))) * source - last T 0)
                   + standing K k Ta (nmass K) T cps) /\
    (source < last T 0 ->
     content T' == content T - Qmin m1 (nmass K) / nmass K * last T 0
                   + standing K k Ta (nmass K) T cps).
Proof.
  intros HK HS H. pose proof (nmass_pos K HK) as Hm.
  apply inner_step_inv in H. destruct H as (m1 & T1 & cps & k & Ta & A1 & A2 & A3 & A4 & A5 & A6 & -> & ->).
  destruct (mass_charging _ _ _ _ _ _ _ _ _ _ HK A1) as (cs & cf & B1 & B2 & B3 & B4).
  destruct (mapM_specific_pos K T cps HK A4) as [Fc Lc].
  assert (Hw : ~ k_width K == 0) by (destruct HK as (_ & _ & Hw & _); lra).
  exists m1, cps, k, Ta, cs, cf. do 6 (split; [assumption|]).
  assert (E := euler_sum K Charging T source flow ret (pmin m1 (nmass K)) (nmass K) k Ta cps (flux_c K T source) A3 Hw Lc).
  rewrite <- (content_perm _ _ (Permutation_sym (sort_desc_perm _))).
  rewrite E; clear E.
  2: { intros i Hi. apply dT_charging; [assumption|assumption|lra|]. pose proof (cps_nth_pos cps (k_nodes K) i Fc ltac:(lia) Hi). lra. }
  rewrite flux_c_total by lia. rewrite <- (bottom_last K T A3). unfold bottom.
  rewrite pmin_Qmin. split; intro Hb.
  - rewrite count_flagged_eq by (try assumption; lia). ring.
  - rewrite count_flagged_cold by (try assumption; lia). change (inject_Z (Z.of_nat 0)) with 0. ring.
Qed.

Lemma discharging_content K source delta flow ret o d t T T' :
  tank_ok K -> stratified T -> inner_step K Discharging source delta flow ret o d t T = Ok T' ->
  exists m1 cps k Ta cs cf,
    mapM (specific_heat K) T = Ok cps /\ k_value K = Ok k /\ amb_temp K t = Ok Ta /\
    specific_heat K source = Ok cs /\ specific_heat K flow = Ok cf /\ 0 <= m1 /\
    m1 * Qabs.Qabs (hd 0 T - ret) == 1000 * Qabs.Qabs (d / cf - o / cs) /\
    (flow <= hd 0 T ->
     content T' == content T - Qmin m1 (nmass K) / nmass K * (hd 0 T - ret) + standing K k Ta (nmass K) T cps) /\
    (hd 0 T < flow -> content T' == content T + standing K k Ta (nmass K) T cps).
Proof.
  intros HK HS H. pose proof (nmass_pos K HK) as Hm.
  apply inner_step_inv in H. destruct H as (m1 & T1 & cps & k & Ta & A1 & A2 & A3 & A4 & A5 & A6 & -> & ->).
  destruct (mass_discharging _ _ _ _ _ _ _ _ _ _ HK A1) as (cs & cf & B1 & B2 & B3 & B4 & B5).
  destruct (mapM_specific_pos K T cps HK A4) as [Fc Lc].
  assert (Hw : ~ k_width K == 0) by (destruct HK as (_ & _ & Hw & _); lra).
  exists m1, cps, k, Ta, cs, cf. do 7 (split; [assumption|]).
  assert (E := euler_sum K Discharging T source flow ret (pmin m1 (nmass K)) (nmass K) k Ta cps (flux_d K T flow ret) A3 Hw Lc).
  rewrite <- (content_perm _ _ (Permutation_sym (sort_desc_perm _))).
  rewrite E; clear E.
  2: { intros i Hi. apply dT_discharging; try assumption; [lra|]. pose proof (cps_nth_pos cps (k_nodes K) i Fc ltac:(lia) Hi). lra. }
  rewrite flux_d_total by lia. rewrite <- top_hd. unfold top.
  rewrite pmin_Qmin. split; intro Hb.
  - destruct (qle_spec flow (nth 0 T 0)); [|lra]. ring.
  - destruct (qle_spec flow (nth 0 T 0)); [lra|]. ring.
Qed.

(** ** Temperature range *)
Lemma mix_bounds lo hi x v Ta mu la :
  lo <= x <= hi -> lo <= v <= hi -> lo <= Ta <= hi -> 0 <= mu -> 0 <= la ->
  (mu + la <= 1 -> lo <= x + mu * (v - x) + la * (Ta - x) <= hi) /\
  (mu <= 1 -> lo - la * (hi - lo) <= x + mu * (v - x) + la * (Ta - x) <= hi + la * (hi - lo)).
Proof.
  intros Hx Hv Ht Hm Hl. split; intro H.
  - split.
    + setoid_replace (x + mu * (v - x) + la * (Ta - x)) with ((1 - mu - la) * (x - lo) + mu * (v - lo) + la * (Ta - lo) + lo) by ring.
      assert (0 <= (1 - mu - la) * (x - lo)) by (apply Qmult_le_0_compat; lra).
      assert (0 <= mu * (v - lo)) by (apply Qmult_le_0_compat; lra).
      assert (0 <= la * (Ta - lo)) by (apply Qmult_le_0_compat; lra). lra.
    + setoid_replace (x + mu * (v - x) + la * (Ta - x)) with (hi - ((1 - mu - la) * (hi - x) + mu * (hi - v) + la * (hi - Ta))) by ring.
      assert (0 <= (1 - mu - la) * (hi - x)) by (apply Qmult_le_0_compat; lra).
      assert (0 <= mu * (hi - v)) by (apply Qmult_le_0_compat; lra).
      assert (0 <= la * (hi - Ta)) by (apply Qmult_le_0_compat; lra). lra.
  - assert (A : 0 <= (1 - mu) * (x - lo)) by (apply Qmult_le_0_compat; lra).
    assert (B : 0 <= mu * (v - lo)) by (apply Qmult_le_0_compat; lra).
    assert (C : 0 <= (1 - mu) * (hi - x)) by (apply Qmult_le_0_compat; lra).
    assert (D : 0 <= mu * (hi - v)) by (apply Qmult_le_0_compat; lra).
    assert (E : 0 <= la * (hi - Ta + (x - lo))) by (apply Qmult_le_0_compat; lra).
    assert (F : 0 <= la * (Ta - lo + (hi - x))) by (apply Qmult_le_0_compat; lra).
    split; nra.
Qed.

(** The receiving node of a charging tank without ties. *)
Lemma single_flag K T source i :
  stratified T -> length T = k_nodes K -> (1 <= k_nodes K)%nat -> last T 0 <= source -> no_tie source T ->
  (charging_function Charging T source i = true -> (i < k_nodes K)%nat -> i = j_c K T source) /\
  (j_c K T source < k_nodes K)%nat /\ charging_function Charging T source (j_c K T source) = true.
Proof.
  intros HS L Hn Hb Ht.
  assert (C : count_flagged K (charging_function Charging T source) = 1%nat).
  { rewrite count_flagged_eq by (try assumption; rewrite <- (bottom_last K T L) in Hb; exact Hb).
    rewrite no_tie_ties by assumption. reflexivity. }
  unfold count_flagged in C. unfold j_c, last_flagged.
  destruct (filter (charging_function Charging T source) (seq 0 (k_nodes K))) as [|x [|y l]] eqn:E; try discriminate.
  cbn [last].
  assert (Hx : In x (filter (charging_function Charging T source) (seq 0 (k_nodes K)))) by (rewrite E; left; reflexivity).
  apply filter_In in Hx. destruct Hx as [Hx1 Hx2]. apply in_seq in Hx1.
  split; [|split; [lia|exact Hx2]].
  intros H1 H2. assert (Hi : In i (filter (charging_function Charging T source) (seq 0 (k_nodes K)))).
  { apply filter_In. split; [apply in_seq; lia|exact H1]. }
  rewrite E in Hi. destruct Hi as [->|[]]. reflexivity.
Qed.

Lemma flux_c_form K T source i :
  stratified T -> length T = k_nodes K -> (2 <= k_nodes K)%nat -> (i < k_nodes K)%nat ->
  last T 0 <= source -> no_tie source T ->
  exists v, (v = source \/ v = nth i T 0 \/ (0 < i)%nat /\ v = nth (i - 1) T 0) /\ flux_c K T source i == v - nth i T 0.
Proof.
  intros HS L Hn Hi Hb Ht.
  destruct (single_flag K T source i HS L ltac:(lia) Hb Ht) as (A & B & C).
  unfold flux_c.
  destruct (charging_function Charging T source i) eqn:F.
  - specialize (A eq_refl Hi). rewrite <- A. exists source. split; [auto|].
    rewrite Nat.leb_refl, Nat.ltb_irrefl. cbn [orb flag]. ring.
  - assert (Hne : i <> j_c K T source) by (intro X; rewrite <- X in C; congruence).
    destruct (Nat.leb_spec (j_c K T source) i).
    + destruct (Nat.ltb_spec (j_c K T source) i); [|lia]. exists (nth (i - 1) T 0). split; [right; right; split; [lia|reflexivity]|].
      cbn [orb flag]. ring.
    + destruct (Nat.eqb_spec i (k_nodes K - 1)); [lia|]. destruct (Nat.ltb_spec (j_c K T source) i); [lia|].
      exists (nth i T 0). split; [auto|]. cbn [orb flag]. ring.
Qed.
Lemma flux_d_form K T flow ret i :
  length T = k_nodes K -> (i < k_nodes K)%nat ->
  exists v, (v = ret \/ v = nth i T 0 \/ (i + 1 < k_nodes K)%nat /\ v = nth (i + 1) T 0) /\ flux_d K T flow ret i == v - nth i T 0.
Proof.
  intros L Hi. unfold flux_d. destruct (qle flow _).
  - destruct (Nat.eqb_spec i (k_nodes K - 1)).
    + exists ret. split; [auto|reflexivity].
    + exists (nth (i + 1) T 0). split; [right; right; split; [lia|reflexivity]|reflexivity].
  - exists (nth i T 0). split; [auto|ring].
Qed.

Lemma within_nth lo hi T i : within lo hi T -> (i < length T)%nat -> lo <= nth i T 0 <= hi.
Proof. intros W Hi. unfold within in W. rewrite Forall_forall in W. apply W, nth_In, Hi. Qed.
Lemma within_perm lo hi T T' : Permutation T T' -> within lo hi T -> within lo hi T'.
Proof. intros P W. eapply Permutation_Forall; [exact P|exact W]. Qed.

Lemma standing_i_sealed K k Ta T cps i :
  tank_ok K -> sealed K -> 0 < nth i cps 0 ->
  standing_i K k Ta (nmass K) T cps i == lossfrac K k (nth i cps 0) * (Ta - nth i T 0).
Proof.
  intros HK Hs Hc. unfold standing_i, lossfrac. pose proof (nmass_pos K HK).
  rewrite loss_factor_UA by (destruct HK as (_ & _ & Hw & _); lra).
  rewrite connection_losses_eq, (sealed_connections K Hs). field. lra.
Qed.
Lemma lossfrac_nonneg K k c : tank_ok K -> k_value K = Ok k -> 0 < c -> 0 <= lossfrac K k c.
Proof.
  intros HK Hk Hc. unfold lossfrac. pose proof (nmass_pos K HK). apply Qle_shift_div_l.
  - apply Qmult_lt_0_compat; assumption.
  - rewrite Qmult_0_l. apply UA_nonneg; assumption.
Qed.

Lemma step_range K s source delta flow ret o d t T T' lo hi :
  tank_ok K -> sealed K -> stratified T ->
  inner_step K s source delta flow ret o d t T = Ok T' ->
  within lo hi T -> lo <= source <= hi -> lo <= ret <= hi ->
  (forall Ta, amb_temp K t = Ok Ta -> lo <= Ta <= hi) ->
  (s = Charging -> last T 0 <= source /\ no_tie source T /\
     forall m1, mass_flow_calc K s flow ret source delta o d (last T 0) (hd 0 T) = Ok m1 -> 0 <= m1) ->
  exists m1 k cps, mass_flow_calc K s flow ret source delta o d (last T 0) (hd 0 T) = Ok m1 /\ 0 <= m1 /\
    k_value K = Ok k /\ mapM (specific_heat K) T = Ok cps /\
    ((forall c, In c cps -> Qmin m1 (nmass K) / nmass K + lossfrac K k c <= 1) -> within lo hi T') /\
    (forall la, (forall c, In c cps -> lossfrac K k c <= la) ->
       within (lo - la * (hi - lo)) (hi + la * (hi - lo)) T').
Proof.
  intros HK Hs HS H W Hso Hre Hamb Hch. pose proof (nmass_pos K HK) as Hm.
  apply inner_step_inv in H. destruct H as (m1 & T1 & cps & k & Ta & A1 & A2 & A3 & A4 & A5 & A6 & -> & ->).
  specialize (Hamb Ta A6). destruct (mapM_specific_pos K T cps HK A4) as [Fc Lc].
  assert (Hm1 : 0 <= m1).
  { destruct s.
    - destruct (Hch eq_refl) as (_ & _ & X). apply X, A1.
    - destruct (mass_discharging _ _ _ _ _ _ _ _ _ _ HK A1) as (cs & cf & _ & _ & _ & X & _). exact X.
    - cbn in A1. injection A1 as <-. lra. }
  exists m1, k, cps. do 4 (split; [assumption|]).
  set (m := pmin m1 (nmass K)). assert (Em : Qmin m1 (nmass K) == m) by (unfold m; rewrite pmin_Qmin; reflexivity).
  set (mu := m / nmass K).
  assert (Hmu : 0 <= mu <= 1).
  { unfold mu. pose proof (pmin_le_r m1 (nmass K)). pose proof (pmin_glb m1 (nmass K) 0 Hm1 ltac:(lra)). fold m in H, H0. split.
    - apply Qle_shift_div_l; [exact Hm|lra].
    - apply Qle_shift_div_r; [exact Hm|lra]. }
  assert (N : forall i, (i < k_nodes K)%nat -> exists v, lo <= v <= hi /\
    nth i T 0 + dT K s T source flow ret m (nmass K) k Ta cps i
    == nth i T 0 + mu * (v - nth i T 0) + lossfrac K k (nth i cps 0) * (Ta - nth i T 0)).
  { intros i Hi. pose proof (cps_nth_pos cps (k_nodes K) i Fc ltac:(lia) Hi) as Hc.
    pose proof (within_nth lo hi T i W ltac:(lia)) as Wi.
    destruct s.
    - destruct (Hch eq_refl) as (X1 & X2 & _).
      destruct (flux_c_form K T source i HS A3 A2 Hi X1 X2) as (v & V & E). exists v. split.
      + destruct V as [->|[->|[Hp ->]]]; [assumption|assumption|]. apply (within_nth lo hi T (i - 1) W). lia.
      + rewrite dT_charging by (try assumption; lra). rewrite E, standing_i_sealed by assumption. fold mu. ring.
    - destruct (flux_d_form K T flow ret i A3 Hi) as (v & V & E). exists v. split.
      + destruct V as [->|[->|[Hp ->]]]; [assumption|assumption|]. apply (within_nth lo hi T (i + 1) W). lia.
      + rewrite dT_discharging by (try assumption; lra). rewrite E, standing_i_sealed by assumption. fold mu. ring.
    - exists (nth i T 0). split; [assumption|].
      rewrite dT_standby by (try assumption; lra). rewrite standing_i_sealed by assumption. ring. }
  assert (L : forall i, (i < k_nodes K)%nat -> 0 <= lossfrac K k (nth i cps 0)).
  { intros i Hi. apply lossfrac_nonneg; [assumption|assumption|]. apply (cps_nth_pos cps (k_nodes K)); [assumption|lia|assumption]. }
  split.
  - intro Hla. apply (within_perm _ _ _ _ (Permutation_sym (sort_desc_perm _))).
    unfold within. apply Forall_forall. intros x Hx. apply in_map_iff in Hx. destruct Hx as (i & <- & Hi). apply in_seq in Hi.
    destruct (N i ltac:(lia)) as (v & Hv & E). pose proof (within_nth lo hi T i W ltac:(lia)) as Wi.
    assert (Hl : mu + lossfrac K k (nth i cps 0) <= 1).
    { specialize (Hla (nth i cps 0) ltac:(apply nth_In; lia)). unfold mu. rewrite <- Em. exact Hla. }
    destruct (mix_bounds lo hi (nth i T 0) v Ta mu (lossfrac K k (nth i cps 0)) Wi Hv Hamb ltac:(lra) (L i ltac:(lia))) as [B _].
    specialize (B Hl). rewrite Qred_correct, E. exact B.
  - intros la Hla. apply (within_perm _ _ _ _ (Permutation_sym (sort_desc_perm _))).
    unfold within. apply Forall_forall. intros x Hx. apply in_map_iff in Hx. destruct Hx as (i & <- & Hi). apply in_seq in Hi.
    destruct (N i ltac:(lia)) as (v & Hv & E). pose proof (within_nth lo hi T i W ltac:(lia)) as Wi.
    specialize (Hla (nth i cps 0) ltac:(apply nth_In; lia)).
    destruct (mix_bounds lo hi (nth i T 0) v Ta mu (lossfrac K k (nth i cps 0)) Wi Hv Hamb ltac:(lra) (L i ltac:(lia))) as [_ B].
    specialize (B ltac:(lra)). rewrite Qred_correct, E.
    assert (lossfrac K k (nth i cps 0) * (hi - lo) <= la * (hi - lo)) by (apply Qmult_le_compat_r; lra). lra.
Qed.
