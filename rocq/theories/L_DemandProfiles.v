(** Lemmas on the profiles of dwellings. *)
From Coq Require Import String Setoid.
From Verif Require Import Base BaseL M_Kpi S_Kpi M_Demand S_Demand L_Grid L_Sweep L_FixedOrderRun L_Demand.

(** ** Names *)
Lemma smem_In x l : smem x l = true <-> In x l.
Proof.
  unfold smem. rewrite existsb_exists. split.
  - intros (y & Hy & E). apply String.eqb_eq in E. subst y. exact Hy.
  - intro H. exists x. split; [exact H|apply String.eqb_refl].
Qed.
Lemma clamp_spec t : clamp_temp t = Z.max (-3) (Z.min 14 t).
Proof. unfold clamp_temp. destruct (Z.ltb_spec 14 t); [lia|]. destruct (Z.ltb_spec t (-3)); lia. Qed.
Lemma small_cases (P : Z -> Prop) :
  Forall P [-3; -2; -1; 0; 1; 2; 3; 4; 5; 6; 7; 8; 9; 10; 11; 12; 13; 14]%Z -> forall t, (-3 <= t <= 14)%Z -> P t.
Proof.
  intros H t Ht. rewrite Forall_forall in H. apply H. cbn [In]. lia.
Qed.
Lemma sheet_name_clamp t : sheet_name (clamp_temp t) = sheet_for t /\ In (sheet_for t) sheets.
Proof.
  rewrite clamp_spec. unfold sheet_for.
  assert (H : (-3 <= Z.max (-3) (Z.min 14 t) <= 14)%Z) by lia. revert H.
  generalize (Z.max (-3) (Z.min 14 t)). apply small_cases.
  repeat (apply Forall_cons; [split; [reflexivity|apply smem_In; reflexivity]|]). apply Forall_nil.
Qed.

(** ** Factors *)
Lemma factor_cases ty b : (1 <= b <= 5)%Z ->
  exists f, floor_area b = Ok f /\
    round2 (f / (if String.eqb ty "detached" then 130 else if String.eqb ty "mid-terrace" then 70 else 90)) ==
    nth (Z.to_nat (b - 1)) (factors ty) 0.
Proof.
  intro H. unfold factors.
  assert (Hc : b = 1%Z \/ b = 2%Z \/ b = 3%Z \/ b = 4%Z \/ b = 5%Z) by lia.
  destruct (String.eqb ty "detached"), (String.eqb ty "mid-terrace");
  destruct Hc as [ -> | [ -> | [ -> | [ -> | -> ] ] ] ]; eexists; (split; [reflexivity|]); vm_compute; reflexivity.
Qed.
Lemma floor_area_ok b f : floor_area b = Ok f -> (1 <= b <= 5)%Z.
Proof.
  unfold floor_area. destruct b as [|[[[q|q|]|[q|q|]|]|[[q|q|]|[q|q|]|]|]|]; try discriminate; intros _; lia.
Qed.
Lemma floor_factor_ok ty ag b f : floor_factor ty ag b = Ok f ->
  In ty house_types /\ In ag house_ages /\ (1 <= b <= 5)%Z /\ f == nth (Z.to_nat (b - 1)) (factors ty) 0.
Proof.
  unfold floor_factor. destruct (smem ty house_types) eqn:E1; [|discriminate].
  destruct (smem ag house_ages) eqn:E2; [|discriminate]. cbn [andb].
  destruct (floor_area b) as [a|] eqn:Ea; [|discriminate]. cbn [bind]. intro H.
  apply smem_In in E1, E2. pose proof (floor_area_ok b a Ea) as Hb.
  destruct (factor_cases ty b Hb) as (a' & Ea' & Ef). rewrite Ea in Ea'.
  assert (a = a') by congruence. subst a'.
  repeat split; try assumption; try lia.
  assert (G : forall A (x y : A), Ok x = Ok y -> x = y) by congruence. apply G in H. rewrite <- H. exact Ef.
Qed.
Lemma floor_factor_total ty ag b : In ty house_types -> In ag house_ages -> (1 <= b <= 5)%Z ->
  exists f, floor_factor ty ag b = Ok f.
Proof.
  intros H1 H2 H3. unfold floor_factor. apply smem_In in H1, H2. rewrite H1, H2. cbn [andb].
  destruct (factor_cases ty b H3) as (f & -> & _). eexists. reflexivity.
Qed.
Lemma floor_factor_err ty ag b e : floor_factor ty ag b = Err e -> e = KeyError.
Proof.
  unfold floor_factor. destruct (_ && _); [|congruence].
  destruct (floor_area b) as [a|e'] eqn:E; [discriminate|]. cbn. intro H. injection H as ->.
  unfold floor_area in E. destruct b as [|[[[q|q|]|[q|q|]|]|[[q|q|]|[q|q|]|]|]|]; congruence.
Qed.

(** ** Temperatures *)
Lemma round_half_even_nearest q : nearest (round_half_even q) q.
Proof.
  unfold round_half_even. pose proof (Qfloor_bounds q) as [B1 B2]. set (f := Qfloor q) in *.
  unfold nearest. cbv zeta.
  destruct (qlt_spec (q - inject_Z f) (1 # 2)); [|destruct (qlt_spec (1 # 2) (q - inject_Z f)); [|destruct (Z.even f) eqn:Ev]];
    try (rewrite inject_Z_plus; change (inject_Z 1) with 1).
  - split; [lra|]. intros [H'|H']; lra.
  - split; [lra|]. intros [H'|H']; lra.
  - split; [lra|]. intros _. exact Ev.
  - split; [lra|]. intros _. rewrite Z.even_add, Ev. reflexivity.
Qed.
Lemma average_ok air day t : average_day_temperature air day = Ok t ->
  (24 * day + 24 <= length air)%nat /\ nearest t (day_mean air day).
Proof.
  unfold average_day_temperature. destruct (Nat.leb_spec (24 * day + 24) (length air)) as [H|]; [|discriminate].
  intro E. assert (G : forall A (x y : A), Ok x = Ok y -> x = y) by congruence. apply G in E. subst t.
  split; [exact H|]. rewrite firstn_skipn_at by lia. apply round_half_even_nearest.
Qed.
Lemma average_total air day : (24 * day + 24 <= length air)%nat -> exists t, average_day_temperature air day = Ok t.
Proof.
  intro H. unfold average_day_temperature. destruct (Nat.leb_spec (24 * day + 24) (length air)); [|lia]. eexists. reflexivity.
Qed.

(** ** One day of a row *)
Lemma dwelling_day_ok df air d day l : dwelling_day (Ok df) air d day = Ok l ->
  length l = 24%nat /\ known_dwelling d /\ exists t p, nearest t (day_mean air day) /\
    df (sheet_for t) (d_type d) (d_age d) = Ok p /\ length p = 24%nat /\
    forall i x, nth_error p i = Some x -> exists v, nth_error l i = Some v /\
      v == d_number d * nth (Z.to_nat (d_bedrooms d - 1)) (factors (d_type d)) 0 * x.
Proof.
  unfold dwelling_day, scaled_day_profile, standard_day_profile.
  destruct (average_day_temperature air day) as [t|] eqn:Et; [|discriminate]. cbn [bind].
  destruct (sheet_name_clamp t) as [-> _].
  destruct (df (sheet_for t) (d_type d) (d_age d)) as [p|] eqn:Ep; [|discriminate]. cbn [bind].
  destruct (floor_factor (d_type d) (d_age d) (d_bedrooms d)) as [f|] eqn:Ef; [|discriminate]. cbn [bind].
  rewrite map_length. destruct (Nat.eqb_spec (length p) 24) as [Lp|]; [|discriminate]. intro H.
  assert (G : forall A (x y : A), Ok x = Ok y -> x = y) by congruence. apply G in H. subst l.
  apply floor_factor_ok in Ef as (K1 & K2 & K3 & Ef). apply average_ok in Et as [_ Et].
  split; [rewrite !map_length; exact Lp|]. split; [exact (conj K1 (conj K2 K3))|].
  exists t, p. split; [exact Et|]. split; [exact Ep|]. split; [exact Lp|]. intros i x Hx.
  exists (x * f * d_number d). split; [rewrite !nth_error_map, Hx; reflexivity|]. rewrite Ef. ring.
Qed.
Lemma dwelling_day_total df air d day : complete_table df -> known_dwelling d -> (24 * day + 24 <= length air)%nat ->
  exists l, dwelling_day (Ok df) air d day = Ok l.
Proof.
  intros Hc (K1 & K2 & K3) Ha. unfold dwelling_day, scaled_day_profile, standard_day_profile.
  destruct (average_total air day Ha) as [t ->]. cbn [bind]. destruct (sheet_name_clamp t) as [-> Hs].
  destruct (Hc (sheet_for t) (d_type d) (d_age d) Hs K1 K2) as (p & -> & Lp). cbn [bind].
  destruct (floor_factor_total (d_type d) (d_age d) (d_bedrooms d) K1 K2 K3) as [f ->]. cbn [bind].
  rewrite map_length, Lp. eexists. reflexivity.
Qed.

(** ** Concatenation of days *)
Lemma concat_uniform_length {A} (ls : list (list A)) m : Forall (fun l => length l = m) ls ->
  length (concat ls) = (length ls * m)%nat.
Proof. induction 1 as [|l ls H _ IH]; [reflexivity|]. cbn [concat length]. rewrite app_length, H, IH. reflexivity. Qed.
Lemma concat_uniform_nth {A} (ls : list (list A)) m h : (0 < m)%nat -> Forall (fun l => length l = m) ls ->
  (h < length ls * m)%nat -> exists l, nth_error ls (h / m) = Some l /\ nth_error (concat ls) h = nth_error l (h mod m).
Proof.
  intros Hm F. revert h. induction F as [|l ls H _ IH]; intros h Hh; [cbn in Hh; lia|]. cbn [length concat] in *.
  destruct (le_lt_dec m h) as [Hge|Hlt].
  - destruct (IH (h - m)%nat) as (l' & E1 & E2); [lia|].
    assert (D : (h / m = S ((h - m) / m))%nat).
    { replace h with ((h - m) + 1 * m)%nat at 1 by lia. rewrite Nat.div_add by lia. lia. }
    assert (M : (h mod m = (h - m) mod m)%nat).
    { replace h with ((h - m) + 1 * m)%nat at 1 by lia. rewrite Nat.mod_add by lia. reflexivity. }
    exists l'. rewrite D, M. split; [exact E1|]. rewrite nth_error_app2 by lia. rewrite H. exact E2.
  - exists l. rewrite Nat.div_small, Nat.mod_small by lia. split; [reflexivity|]. rewrite nth_error_app1 by lia. reflexivity.
Qed.

(** ** One year of a row *)
Lemma dwelling_profile_ok df air d prof : dwelling_profile (Ok df) air d = Ok prof ->
  length prof = Z.to_nat 8760 /\
  forall h, (h < Z.to_nat 8760)%nat -> exists v, nth_error prof h = Some v /\ group_hour df air h d v.
Proof.
  unfold dwelling_profile. destruct (mapM (dwelling_day (Ok df) air d) (seq 0 365)) as [days|] eqn:E; [|discriminate].
  cbn [bind]. intro H. assert (G : forall A (x y : A), Ok x = Ok y -> x = y) by congruence. apply G in H. subst prof.
  assert (Ld : length days = 365%nat) by (rewrite (mapM_length _ _ _ E), seq_length; reflexivity).
  assert (N : forall k l, nth_error days k = Some l -> dwelling_day (Ok df) air d k = Ok l).
  { intros k l Hl. assert (Hk : (k < 365)%nat) by (rewrite <- Ld; apply nth_error_Some; congruence).
    destruct (mapM_nth_error _ _ _ k k E (nth_error_seq 365 k Hk)) as (l' & E1 & E2). congruence. }
  assert (F : Forall (fun l => length l = 24%nat) days).
  { apply Forall_forall. intros l Hl. apply In_nth_error in Hl as [k Hl].
    apply N in Hl. apply dwelling_day_ok in Hl. tauto. }
  split; [rewrite (concat_uniform_length days 24 F), Ld; lia|]. intros h Hh.
  destruct (concat_uniform_nth days 24 h ltac:(lia) F) as (l & E1 & E2); [rewrite Ld; lia|].
  apply N in E1. apply dwelling_day_ok in E1 as (Ll & K & t & p & Ht & Hp & Lp & Hv).
  assert (Hm : (h mod 24 < length p)%nat) by (rewrite Lp; apply Nat.mod_upper_bound; lia).
  destruct (nth_error p (h mod 24)) as [x|] eqn:Ex; [|apply nth_error_None in Ex; lia].
  destruct (Hv _ _ Ex) as (v & Ev & Eq). exists v. split; [rewrite E2; exact Ev|].
  exists t, p, x. repeat (split; [assumption|]). exact Eq.
Qed.
Lemma dwelling_profile_total df air d : complete_table df -> known_dwelling d -> (Z.to_nat 8760 <= length air)%nat ->
  exists prof, dwelling_profile (Ok df) air d = Ok prof.
Proof.
  intros Hc K La. unfold dwelling_profile.
  destruct (mapM_ok (dwelling_day (Ok df) air d) (seq 0 365)) as [days ->]; [|eexists; reflexivity].
  intros day Hday. apply in_seq in Hday. apply dwelling_day_total; [exact Hc|exact K|lia].
Qed.

(** ** All rows *)
Lemma sum_rows_ok (profs : list (list Q)) h s acc :
  foldM (fun a prof => x <- pidx prof h ;; Ok (a + x)) profs acc = Ok s ->
  exists vs, Forall2 (fun prof v => nth_error prof h = Some v) profs vs /\ s == acc + qsum vs.
Proof.
  revert acc. induction profs as [|prof profs IH]; intros acc; cbn [foldM].
  - intro H. assert (G : forall A (x y : A), Ok x = Ok y -> x = y) by congruence. apply G in H. subst s.
    exists []. split; [constructor|]. cbn. lra.
  - destruct (pidx prof h) as [x|] eqn:Ex; [|discriminate]. cbn [bind]. intro H.
    apply IH in H as (vs & F & E). exists (x :: vs). split; [constructor; [apply pidx_some; exact Ex|exact F]|].
    rewrite E. rewrite qsum_cons. lra.
Qed.
Lemma sum_rows_total (profs : list (list Q)) h acc : Forall (fun prof => (h < length prof)%nat) profs ->
  exists s, foldM (fun a prof => x <- pidx prof h ;; Ok (a + x)) profs acc = Ok s.
Proof.
  intro F. revert acc. induction F as [|prof profs H _ IH]; intro acc; cbn [foldM]; [eexists; reflexivity|].
  unfold pidx at 1. destruct (nth_error prof h) eqn:E; [|apply nth_error_None in E; lia]. cbn [bind]. apply IH.
Qed.
Lemma bedrooms_sum heating acc :
  fold_left (fun a d => a + inject_Z (d_bedrooms d) * d_number d) heating acc ==
  acc + qsum (map (fun d => inject_Z (d_bedrooms d) * d_number d) heating).
Proof.
  revert acc. induction heating as [|d l IH]; intro acc; cbn [fold_left map]; [cbn; lra|].
  rewrite IH, qsum_cons. lra.
Qed.
Lemma hot_water_spec hw heating : hot_water_hour hw heating == persons heating * hw / 24.
Proof. unfold hot_water_hour, persons. rewrite bedrooms_sum. field. Qed.

Lemma Forall2_nth {A B} (R : A -> B -> Prop) l l' : Forall2 R l l' <->
  length l = length l' /\ forall i x y, nth_error l i = Some x -> nth_error l' i = Some y -> R x y.
Proof.
  split.
  - induction 1 as [|x y l l' H _ [IH1 IH2]]; [split; [reflexivity|intros [|i]; discriminate]|].
    split; [cbn; lia|]. intros [|i] a b Ha Hb; [cbn in Ha, Hb; congruence|exact (IH2 i a b Ha Hb)].
  - revert l'. induction l as [|x l IH]; intros [|y l'] [E H]; cbn in E; try discriminate; constructor.
    + apply (H 0%nat); reflexivity.
    + apply IH. split; [lia|]. intros i a b. exact (H (S i) a b).
Qed.

Lemma profiles_ok df air heating profs : profiles_from_inputs (Ok df) air heating = Ok profs ->
  Forall2 (fun d prof => dwelling_profile (Ok df) air d = Ok prof) heating profs.
Proof. intro H. apply (mapM_Forall2 (dwelling_profile (Ok df) air) (fun d prof => dwelling_profile (Ok df) air d = Ok prof) heating profs) in H; [exact H|]. intros; reflexivity. Qed.

Lemma aggregate_ok df air hw heating y : aggregate (Ok df) air hw heating = Ok y ->
  length y = Z.to_nat 8760 /\
  forall h, (h < Z.to_nat 8760)%nat ->
    exists vs, Forall2 (group_hour df air h) heating vs /\ at_ y h == qsum vs + persons heating * hw / 24.
Proof.
  unfold aggregate. destruct (profiles_from_inputs (Ok df) air heating) as [profs|] eqn:E; [|discriminate]. cbn [bind].
  apply profiles_ok in E. set (n := Z.to_nat 8760) in *. intro H.
  assert (L : length y = n) by (rewrite (mapM_length _ _ _ H), seq_length; reflexivity).
  split; [exact L|]. intros h Hh.
  destruct (mapM_nth_error _ _ _ h h H (nth_error_seq n h Hh)) as (v & Ev & Ef).
  destruct (foldM _ profs 0) as [s|] eqn:Es in Ef; [|discriminate]. cbn [bind] in Ef.
  apply sum_rows_ok in Es as (vs & F & Es).
  destruct (pidx (repeat (hot_water_hour hw heating) n) h) as [w|] eqn:Ew; [|discriminate]. cbn [bind] in Ef.
  apply pidx_some in Ew. rewrite at_nth_error in Ew by (rewrite repeat_length; exact Hh).
  rewrite at_repeat in Ew by exact Hh. injection Ew as <-.
  assert (G : forall A (x y : A), Ok x = Ok y -> x = y) by congruence. apply G in Ef. subst v.
  exists vs. split.
  - clear -E F Hh. revert vs F. induction E as [|d prof heating profs Hd _ IH]; intros vs F; inversion F; subst; constructor.
    + apply dwelling_profile_ok in Hd as [_ Hd]. destruct (Hd h Hh) as (v & Ev & Hv). congruence.
    + apply IH. assumption.
  - rewrite at_nth_error in Ev by (rewrite L; exact Hh). injection Ev as Ev. rewrite Ev, Es, hot_water_spec. lra.
Qed.

Lemma aggregate_total df air hw heating : complete_table df -> Forall known_dwelling heating ->
  (Z.to_nat 8760 <= length air)%nat -> exists y, aggregate (Ok df) air hw heating = Ok y.
Proof.
  intros Hc K La. unfold aggregate.
  destruct (mapM_ok (dwelling_profile (Ok df) air) heating) as [profs E].
  { intros d Hd. rewrite Forall_forall in K. apply dwelling_profile_total; [exact Hc|apply K; exact Hd|exact La]. }
  unfold profiles_from_inputs. rewrite E. cbn [bind].
  apply (profiles_ok df air heating profs) in E. set (n := Z.to_nat 8760) in *.
  assert (F : Forall (fun prof => length prof = n) profs).
  { clear -E. induction E; constructor; [|assumption]. apply dwelling_profile_ok in H. tauto. }
  apply mapM_ok. intros h Hh. apply in_seq in Hh.
  destruct (sum_rows_total profs h 0) as [s ->]; [eapply Forall_impl; [|exact F]; cbn; intros; lia|]. cbn [bind].
  unfold pidx. rewrite at_nth_error by (rewrite repeat_length; lia). eexists. reflexivity.
Qed.

(** The day mean determines the degree. *)
Lemma nearest_unique z z' q : nearest z q -> nearest z' q -> z = z'.
Proof.
  intros [[A1 A2] A3] [[B1 B2] B3].
  assert (C1 : inject_Z z - inject_Z z' <= 1) by lra. assert (C2 : inject_Z z' - inject_Z z <= 1) by lra.
  assert (D1 : (z - z' <= 1)%Z) by (rewrite Zle_Qle; unfold Z.sub; rewrite inject_Z_plus, inject_Z_opp; change (inject_Z 1) with 1; lra).
  assert (D2 : (z' - z <= 1)%Z) by (rewrite Zle_Qle; unfold Z.sub; rewrite inject_Z_plus, inject_Z_opp; change (inject_Z 1) with 1; lra).
  destruct (Z.eq_dec z z') as [|N]; [assumption|exfalso].
  assert (Hc : z = (z' + 1)%Z \/ z' = (z + 1)%Z) by lia.
  destruct Hc as [->| ->]; rewrite inject_Z_plus in *; change (inject_Z 1) with 1 in *.
  - assert (E1 := A3 ltac:(left; lra)). assert (E2 := B3 ltac:(right; lra)).
    rewrite Z.even_add, E2 in E1. discriminate.
  - assert (E1 := A3 ltac:(right; lra)). assert (E2 := B3 ltac:(left; lra)).
    rewrite Z.even_add, E1 in E2. discriminate.
Qed.
Lemma group_hour_more df air h k d v v' : group_hour df air h d v -> group_hour df air h (more k d) v' -> v' == k * v.
Proof.
  intros (t & p & x & A1 & A2 & A3 & A4 & A5 & A6) (t' & p' & x' & B1 & B2 & B3 & B4 & B5 & B6).
  cbn in *. assert (t = t') by (eapply nearest_unique; eassumption). subst t'.
  rewrite A2 in B2. assert (p = p') by congruence. subst p'. rewrite A4 in B4. assert (x = x') by congruence. subst x'.
  rewrite B6, A6. ring.
Qed.
Lemma rows_more df air h k heating vs vs' :
  Forall2 (group_hour df air h) heating vs -> Forall2 (group_hour df air h) (map (more k) heating) vs' ->
  qsum vs' == k * qsum vs.
Proof.
  intro F. revert vs'. induction F as [|d v heating vs H _ IH]; intros vs' F'; inversion F'; subst.
  - cbn. lra.
  - rewrite !qsum_cons. rewrite (IH _ H4). rewrite (group_hour_more _ _ _ _ _ _ _ H H2). ring.
Qed.
Lemma persons_more k heating : persons (map (more k) heating) == k * persons heating.
Proof.
  unfold persons. induction heating as [|d l IH]; [cbn; lra|]. cbn [map]. rewrite !qsum_cons. cbn [more d_bedrooms d_number] in *.
  assert (E : forall a b c : Q, (3 # 2) * (a + b) == (3 # 2) * a + (3 # 2) * b) by (intros; ring).
  rewrite !Qmult_plus_distr_r. rewrite IH. ring.
Qed.

(** ** Electricity *)
Lemma time_of_year_spec h : (0 <= h < 8760)%Z -> in_period (h / 24) (time_of_year h).
Proof.
  intro H. unfold time_of_year.
  assert (D : (24 * (h / 24) <= h < 24 * (h / 24) + 24)%Z) by (pose proof (Z.div_mod h 24); pose proof (Z.mod_pos_bound h 24); lia).
  set (d := (h / 24)%Z) in *.
  destruct (Z.leb_spec 0 h); [|lia]. cbn [andb].
  assert (P : periods = [(0, Wtr); (90, Spr); (167, Smr); (237, Hsr); (281, Aut); (345, Wtr)]%Z) by reflexivity.
  unfold in_period. rewrite P.
  destruct (Z.ltb_spec h 2160).
  { exists [], 0%Z. eexists. split; [reflexivity|]. split; [lia|]. repeat constructor; cbn; lia. }
  destruct (Z.leb_spec 2160 h); [|lia]. cbn [andb]. destruct (Z.ltb_spec h 4008).
  { exists [(0, Wtr)]%Z, 90%Z. eexists. split; [reflexivity|]. split; [lia|]. repeat constructor; cbn; lia. }
  destruct (Z.leb_spec 4008 h); [|lia]. cbn [andb]. destruct (Z.ltb_spec h 5688).
  { exists [(0, Wtr); (90, Spr)]%Z, 167%Z. eexists. split; [reflexivity|]. split; [lia|]. repeat constructor; cbn; lia. }
  destruct (Z.leb_spec 5688 h); [|lia]. cbn [andb]. destruct (Z.ltb_spec h 6744).
  { exists [(0, Wtr); (90, Spr); (167, Smr)]%Z, 237%Z. eexists. split; [reflexivity|]. split; [lia|]. repeat constructor; cbn; lia. }
  destruct (Z.leb_spec 6744 h); [|lia]. cbn [andb]. destruct (Z.ltb_spec h 8280).
  { exists [(0, Wtr); (90, Spr); (167, Smr); (237, Hsr)]%Z, 281%Z. eexists. split; [reflexivity|]. split; [lia|]. repeat constructor; cbn; lia. }
  exists [(0, Wtr); (90, Spr); (167, Smr); (237, Hsr); (281, Aut)]%Z, 345%Z. eexists. split; [reflexivity|]. split; [lia|]. constructor.
Qed.

(** The rule repeats after 400 years: check one cycle. *)
Lemma first_weekday_next y : first_weekday (y + 1) = ((first_weekday y + days_in y) mod 7)%Z.
Proof.
  unfold first_weekday, days_in, leap. replace (y + 1 - 1)%Z with y by lia.
  set (c := ((y - 1) mod 400)%Z).
  assert (Hc : (0 <= c < 400)%Z) by (apply Z.mod_pos_bound; lia).
  assert (D : forall n, (0 < n)%Z -> Z.divide n 400 -> ((y - 1) mod n = c mod n)%Z).
  { intros n Hn Hd. apply Znumtheory.Zmod_div_mod; [exact Hn|lia|exact Hd]. }
  assert (E : forall n, (0 < n)%Z -> Z.divide n 400 -> (y mod n = (c + 1) mod n)%Z).
  { intros n Hn Hd. replace y with (y - 1 + 1)%Z at 1 by lia.
    rewrite <- (Zplus_mod_idemp_l (y - 1)), (D n Hn Hd), Zplus_mod_idemp_l. reflexivity. }
  assert (D4 : Z.divide 4 400) by (exists 100%Z; reflexivity).
  assert (D100 : Z.divide 100 400) by (exists 4%Z; reflexivity).
  assert (D400 : Z.divide 400 400) by (exists 1%Z; reflexivity).
  rewrite !(E 4%Z), !(E 100%Z), !(E 400%Z), (D 4%Z), (D 100%Z) by (assumption || lia).
  clearbody c. clear D E D4 D100 D400.
  assert (A : forallb (fun c => ((5 * ((c + 1) mod 4) + 4 * ((c + 1) mod 100) + 6 * ((c + 1) mod 400)) mod 7 =?
     ((5 * (c mod 4) + 4 * (c mod 100) + 6 * c) mod 7 +
      (if (((c + 1) mod 4 =? 0) && (negb ((c + 1) mod 100 =? 0) || ((c + 1) mod 400 =? 0)))%bool then 366 else 365)) mod 7)%Z)
     (zrange 0 400) = true) by (vm_compute; reflexivity).
  rewrite forallb_forall in A. specialize (A c). apply Z.eqb_eq. apply A. apply zrange_In. lia.
Qed.

Lemma hourly_means_nth p k : (2 * k + 1 < length p)%nat ->
  exists x, nth_error (hourly_means p) k = Some x /\ x == (at_ p (2 * k) + at_ p (2 * k + 1)) / 2.
Proof.
  revert p. induction k as [|k IH]; intros p H.
  - destruct p as [|a [|b p]]; cbn in H; try lia. eexists. split; reflexivity.
  - destruct p as [|a [|b p]]; cbn in H; try lia. destruct (IH p) as (x & E & Ex); [cbn in *; lia|].
    exists x. split; [exact E|]. rewrite Ex. unfold at_.
    replace (2 * S k)%nat with (S (S (2 * k))) by lia. replace (S (S (2 * k)) + 1)%nat with (S (S (2 * k + 1))) by lia. reflexivity.
Qed.
Lemma hourly_means_some p k x : nth_error (hourly_means p) k = Some x -> (2 * k + 1 < length p)%nat.
Proof.
  revert p. induction k as [|k IH]; intros p H; destruct p as [|a [|b p]]; cbn in H; try discriminate; cbn [length].
  - lia.
  - apply IH in H. lia.
Qed.

Lemma calendar_first_weekday jan1 : calendar jan1 -> forall y, first_weekday y = jan1 y.
Proof.
  intros [C0 C]. assert (B : forall y, (0 <= first_weekday y < 7)%Z) by (intro; apply Z.mod_pos_bound; lia).
  assert (U : forall n, first_weekday (2017 + Z.of_nat n) = jan1 (2017 + Z.of_nat n)%Z).
  { induction n as [|n IH]; [rewrite Z.add_0_r; rewrite C0; reflexivity|].
    replace (2017 + Z.of_nat (S n))%Z with (2017 + Z.of_nat n + 1)%Z by lia.
    rewrite first_weekday_next, (proj2 (C _)), IH. reflexivity. }
  assert (D : forall n, first_weekday (2017 - Z.of_nat n) = jan1 (2017 - Z.of_nat n)%Z).
  { induction n as [|n IH]; [rewrite Z.sub_0_r; rewrite C0; reflexivity|].
    set (y := (2017 - Z.of_nat (S n))%Z). replace (2017 - Z.of_nat n)%Z with (y + 1)%Z in IH by (unfold y; lia).
    rewrite first_weekday_next, (proj2 (C y)) in IH.
    pose proof (B y). pose proof (proj1 (C y)). Z.div_mod_to_equations. lia. }
  intro y. destruct (Z_le_gt_dec 2017 y) as [H|H].
  - specialize (U (Z.to_nat (y - 2017))). rewrite Z2Nat.id in U by lia. replace (2017 + (y - 2017))%Z with y in U by lia. exact U.
  - specialize (D (Z.to_nat (2017 - y))). rewrite Z2Nat.id in D by lia. replace (2017 - (2017 - y))%Z with y in D by lia. exact D.
Qed.
Lemma calendar_exists : calendar first_weekday.
Proof.
  split; [reflexivity|]. intro y. split; [apply Z.mod_pos_bound; lia|apply first_weekday_next].
Qed.

Lemma year_series_ok df jan1 year l : calendar jan1 -> year_time_series (Ok df) year = Ok l ->
  length l = Z.to_nat 8760 /\ forall h, (h < Z.to_nat 8760)%nat -> elec_hour df jan1 year h (at_ l h).
Proof.
  intros C H. unfold year_time_series in H. cbn [bind] in H.
  assert (L : length l = Z.to_nat 8760) by (rewrite (mapM_length _ _ _ H), zrange_length; reflexivity).
  split; [exact L|]. intros h Hh.
  destruct (mapM_nth_error _ _ _ h (Z.of_nat h) H) as (v & Ev & Ef).
  { rewrite nth_error_zrange by lia. reflexivity. }
  unfold day_of_week in Ef.
  destruct (Z.leb_spec 0 (Z.of_nat h)); [|lia]. destruct (Z.ltb_spec (Z.of_nat h) 8760); [|lia]. cbn [andb bind] in Ef.
  rewrite (calendar_first_weekday jan1 C) in Ef.
  assert (Ed : (Z.of_nat h / 24 = Z.of_nat (h / 24))%Z) by (rewrite Nat2Z.inj_div; reflexivity).
  assert (Em : Z.to_nat (Z.of_nat h mod 24) = (h mod 24)%nat).
  { change 24%Z with (Z.of_nat 24) at 1. rewrite <- Nat2Z.inj_mod. apply Nat2Z.id. }
  rewrite Em in Ef. rewrite Ed in Ef.
  pose proof (time_of_year_spec (Z.of_nat h) ltac:(lia)) as P. rewrite Ed in P.
  fold (of_weekday ((jan1 year + Z.of_nat (h / 24)) mod 7)) in Ef.
  destruct (df (time_of_year (Z.of_nat h)) _) as [col|] eqn:Ec; [|discriminate]. cbn [bind] in Ef.
  destruct (nth_error (hourly_means col) (h mod 24)) as [x|] eqn:Ex; [|discriminate].
  assert (G : forall A (x y : A), Ok x = Ok y -> x = y) by congruence. apply G in Ef. subst v.
  pose proof (hourly_means_some _ _ _ Ex) as Lc. destruct (hourly_means_nth col _ Lc) as (x' & Ex' & Eq).
  rewrite at_nth_error in Ev by (rewrite L; exact Hh). injection Ev as Ev.
  exists (time_of_year (Z.of_nat h)), col. split; [exact P|]. split; [exact Ec|]. split; [exact Lc|].
  rewrite Ev, <- Eq. assert (x = x') by congruence. subst x'. reflexivity.
Qed.
Lemma year_series_total df year : complete_columns df -> exists l, year_time_series (Ok df) year = Ok l.
Proof.
  intro Hc. unfold year_time_series. cbn [bind]. apply mapM_ok. intros h Hh. apply zrange_In in Hh.
  unfold day_of_week. destruct (Z.leb_spec 0 h); [|lia]. destruct (Z.ltb_spec h 8760); [|lia]. cbn [andb bind].
  destruct (Hc (time_of_year h) (if ((first_weekday year + h / 24) mod 7 =? 5)%Z then Sat
    else if ((first_weekday year + h / 24) mod 7 =? 6)%Z then Sun else Wd)) as (col & -> & Lc). cbn [bind].
  destruct (hourly_means_nth col (Z.to_nat (h mod 24))) as (x & -> & _); [|eexists; reflexivity].
  rewrite Lc. pose proof (Z.mod_pos_bound h 24). lia.
Qed.

Lemma aggregate_elec std heating acc : length acc = length std ->
  let y := fold_left (fun agg d => map (fun p => fst p + snd p) (combine agg (map (fun x => x * d_number d) std))) heating acc in
  length y = length std /\ forall h, (h < length std)%nat -> at_ y h == at_ acc h + numbers heating * at_ std h.
Proof.
  revert acc. induction heating as [|d l IH]; intros acc La; cbn [fold_left]; cbv zeta.
  - split; [exact La|]. intros h Hh. unfold numbers. cbn. lra.
  - set (acc' := map _ _).
    assert (La' : length acc' = length std) by (unfold acc'; rewrite map_length, combine_length, map_length; lia).
    destruct (IH acc' La') as [L1 H1]. split; [exact L1|]. intros h Hh. rewrite (H1 h Hh).
    assert (E : at_ acc' h == at_ acc h + d_number d * at_ std h).
    { unfold at_, acc'. rewrite (nth_indep _ 0 (fst (0, 0 * d_number d) + snd (0, 0 * d_number d))) by (fold acc'; lia).
      rewrite (map_nth (fun p => fst p + snd p)). rewrite combine_nth by (rewrite map_length; lia). cbn [fst snd].
      rewrite (map_nth (fun x => x * d_number d)). ring. }
    rewrite E. unfold numbers. cbn [map]. rewrite qsum_cons. ring.
Qed.

(** ** Smoothing a multiple *)
Lemma highest_scale f g a b k p q : 0 < k -> (forall h, (a <= h < b)%nat -> g h == k * f h) ->
  highest f a b p -> highest g a b q -> q == k * p.
Proof.
  intros Hk E [(h & Hh & Eh) U] [(h' & Hh' & Eh') U'].
  pose proof (U' h Hh) as A. rewrite (E h Hh), Eh in A.
  pose proof (U h' Hh') as B. rewrite (E h' Hh') in Eh'.
  assert (C : k * f h' <= k * p) by nra. lra.
Qed.
