(** C72 to C77: renewable generation. *)
From Coq Require Import String Ascii.
From Verif Require Import Base BaseL M_Renewables S_Renewables L_FixedOrderRun L_Renewables.
Open Scope Q_scope.
Local Open Scope list_scope.

(** ** C72: photovoltaic generation *)

Lemma value_exists {module inverter} (run : pvlib_model module inverter) P out h :
  pv_power run P = Ok out -> (h < hours_in_year)%nat ->
  exists v x, nth_error out h = Some v /\ v == Qmax 0 (kilowatts (pv_multiplier P) x) * month_factor (Z.of_nat h / 730) /\
    (~ pv_multiplier P == 0 -> pvlib_watts run P h x).
Proof.
  intros E H. destruct (Qeq_dec (pv_multiplier P) 0) as [Z|Z].
  - rewrite pv_power_zero in E by exact Z. apply Ok_inj in E. subst out. exists 0, 0.
    split; [apply nth_error_repeat_lt; exact H|]. split; [|intro; contradiction].
    assert (K : kilowatts (pv_multiplier P) 0 == 0) by (unfold kilowatts; rewrite Z; field).
    rewrite (Q.max_l 0 _) by (rewrite K; apply Qle_refl). ring.
  - destruct (pv_power_inv run P out E Z) as (weather & ac & W & R & L & Ll & V).
    destruct (nth_error ac h) as [a|] eqn:A.
    + destruct (V h a H A) as (v & Nv & Ev). exists v, (fillna0 a). split; [exact Nv|]. split; [exact Ev|].
      intros _. exists weather, ac, a. repeat split; try assumption. destruct a; [left|right]; split || idtac; reflexivity.
    + apply nth_error_None in A. lia.
Qed.

(** Every hour: 72.25 % of the power computed by pvlib (rounded to 0.01 W), in kW, times the
    number of systems and the correction factor of the hour; never less than zero. *)
Theorem C72_value : forall module inverter (run : pvlib_model module inverter) P out h x,
  pv_power run P = Ok out -> (h < hours_in_year)%nat -> pvlib_watts run P h x ->
  hour_value out h (Qmax 0 (round2 x * pv_multiplier P * 0.0007225) * month_factor (Z.of_nat h / 730)).
Proof.
  intros module inverter run P out h x E H (weather & ac & a & W & R & A & Ax).
  assert (K : forall k, kilowatts k x == round2 x * k * 0.0007225) by (intro k; unfold kilowatts; field).
  destruct (Qeq_dec (pv_multiplier P) 0) as [Z|Z].
  - rewrite pv_power_zero in E by exact Z. apply Ok_inj in E. subst out. exists 0. split; [apply nth_error_repeat_lt; exact H|].
    rewrite (Q.max_l 0 _); [ring|]. rewrite Z. setoid_replace (round2 x * 0 * 0.0007225) with 0 by ring. apply Qle_refl.
  - destruct (pv_power_inv run P out E Z) as (weather' & ac' & W' & R' & L & Ll & V).
    rewrite W in W'. injection W' as <-. rewrite R in R'. injection R' as <-.
    destruct (V h a H A) as (v & Nv & Ev). exists v. split; [exact Nv|]. rewrite Ev, <- K.
    destruct Ax as [->|[-> ->]]; reflexivity.
Qed.
Print Assumptions C72_value.

Theorem C72_hours : forall module inverter (run : pvlib_model module inverter) P out,
  pv_hourly run -> pv_power run P = Ok out -> length out = hours_in_year.
Proof.
  intros module inverter run P out HR E. destruct (Qeq_dec (pv_multiplier P) 0) as [Z|Z].
  - rewrite pv_power_zero in E by exact Z. apply Ok_inj in E. subst out. apply repeat_length.
  - destruct (pv_power_inv run P out E Z) as (weather & ac & W & R & L & _). rewrite L. exact (HR _ _ _ _ _ _ _ _ R).
Qed.
Print Assumptions C72_hours.

Theorem C72_nonneg : forall module inverter (run : pvlib_model module inverter) P out h,
  pv_power run P = Ok out -> (h < hours_in_year)%nat -> exists v, nth_error out h = Some v /\ 0 <= v.
Proof.
  intros module inverter run P out h E H. destruct (value_exists run P out h E H) as (v & x & N & V & _).
  exists v. split; [exact N|]. rewrite V. apply Qmult_le_0_compat; [apply Q.le_max_l|].
  apply Qlt_le_weak, month_factor_pos, hour_month, H.
Qed.
Print Assumptions C72_nonneg.

(** No systems, no power - whatever the weather sheet contains. *)
Theorem C72_none : forall module inverter (run : pvlib_model module inverter) P,
  pv_multiplier P == 0 -> pv_power run P = Ok (repeat 0 hours_in_year).
Proof. intros. apply pv_power_zero. assumption. Qed.
Print Assumptions C72_none.

(** A missing value of pvlib counts as no power. *)
Theorem C72_missing : forall module inverter (run : pvlib_model module inverter) P out h weather ac,
  pv_power run P = Ok out -> (h < hours_in_year)%nat -> pv_weather (pv_rows P) = Ok weather ->
  run (pv_latitude P) (pv_longitude P) (pv_tilt P) (pv_azimuth P) (pv_module P) (pv_inverter P) weather = Ok ac ->
  nth_error ac h = Some None -> hour_value out h 0.
Proof.
  intros module inverter run P out h weather ac E H W R A.
  destruct (C72_value module inverter run P out h 0 E H) as (v & N & V).
  - exists weather, ac, None. repeat split; try assumption. right. split; reflexivity.
  - exists v. split; [exact N|]. rewrite V. rewrite (Q.max_l 0 _); [ring|].
    setoid_replace (round2 0 * pv_multiplier P * 0.0007225) with 0; [apply Qle_refl|].
    setoid_replace (round2 0) with 0 by (vm_compute; reflexivity). ring.
Qed.
Print Assumptions C72_missing.

(** Generation is proportional to the number of systems. *)
Theorem C72_proportional : forall module inverter (run : pvlib_model module inverter) P out k,
  0 <= k -> ~ pv_multiplier P == 0 -> pv_power run P = Ok out ->
  exists out', pv_power run (systems (k * pv_multiplier P) P) = Ok out' /\
    forall h, (h < hours_in_year)%nat -> exists v v', nth_error out h = Some v /\ nth_error out' h = Some v' /\ v' == k * v.
Proof.
  intros module inverter run P out k Hk Z E.
  destruct (pv_power_inv run P out E Z) as (weather & ac & W & R & L & Ll & V).
  destruct (pv_power_ok run (systems (k * pv_multiplier P) P) weather ac W R Ll) as [out' E'].
  exists out'. split; [exact E'|]. intros h H.
  destruct (nth_error ac h) as [a|] eqn:A; [|apply nth_error_None in A; lia].
  destruct (V h a H A) as (v & N & Ev).
  assert (X : pvlib_watts run (systems (k * pv_multiplier P) P) h (fillna0 a)).
  { exists weather, ac, a. repeat split; try assumption. destruct a; [left; reflexivity|right; split; reflexivity]. }
  destruct (C72_value _ _ run _ out' h (fillna0 a) E' H X) as (v' & N' & Ev').
  exists v, v'. split; [exact N|]. split; [exact N'|]. rewrite Ev', Ev. cbn [systems pv_multiplier].
  assert (K : kilowatts (pv_multiplier P) (fillna0 a) == round2 (fillna0 a) * pv_multiplier P * 0.0007225) by (unfold kilowatts; field).
  rewrite K. set (q := round2 (fillna0 a) * pv_multiplier P * 0.0007225).
  setoid_replace (round2 (fillna0 a) * (k * pv_multiplier P) * 0.0007225) with (k * q) by (unfold q; ring).
  destruct (Qlt_le_dec q 0) as [Q|Q].
  - rewrite (Q.max_l 0 q) by lra. rewrite (Q.max_l 0 (k * q)); [ring|]. nra.
  - rewrite (Q.max_r 0 q) by lra. rewrite (Q.max_r 0 (k * q)); [ring|]. nra.
Qed.
Print Assumptions C72_proportional.

(** More power from pvlib never gives less generation. *)
Theorem C72_monotone : forall module inverter (run : pvlib_model module inverter) P P' out out' h x x',
  pv_power run P = Ok out -> pv_power run P' = Ok out' -> (h < hours_in_year)%nat ->
  pv_multiplier P' == pv_multiplier P -> 0 <= pv_multiplier P ->
  pvlib_watts run P h x -> pvlib_watts run P' h x' -> x <= x' ->
  exists v v', nth_error out h = Some v /\ nth_error out' h = Some v' /\ v <= v'.
Proof.
  intros module inverter run P P' out out' h x x' E E' H M Hm X X' Hx.
  destruct (C72_value _ _ run P out h x E H X) as (v & N & V).
  destruct (C72_value _ _ run P' out' h x' E' H X') as (v' & N' & V').
  exists v, v'. split; [exact N|]. split; [exact N'|]. rewrite V, V', M.
  apply Qmult_le_compat_r; [|apply Qlt_le_weak, month_factor_pos, hour_month, H].
  apply Q.max_le_compat_l. pose proof (round2_le x x' Hx) as R.
  apply Qmult_le_compat_r; [|vm_compute; discriminate]. apply Qmult_le_compat_r; assumption.
Qed.
Print Assumptions C72_monotone.

(** A weather sheet that does not cover the year is refused. *)
Theorem C72_wrong_year : forall module inverter (run : pvlib_model module inverter) P,
  ~ pv_multiplier P == 0 -> length (pv_rows P) <> hours_in_year -> pv_power run P = Err ValueError.
Proof.
  intros module inverter run P Z L. unfold pv_power. destruct (qeq_spec (pv_multiplier P) 0) as [C|_]; [contradiction|].
  unfold pv_weather. destruct (Nat.eqb_spec (length (pv_rows P)) year_rows) as [C|_]; [contradiction|reflexivity].
Qed.
Print Assumptions C72_wrong_year.

(** Otherwise the generation is computed if pvlib answers. *)
Theorem C72_completes : forall module inverter (run : pvlib_model module inverter) P,
  pv_hourly run -> length (pv_rows P) = hours_in_year ->
  (forall lat lon tilt az m v f, exists ac, run lat lon tilt az m v f = Ok ac) -> exists out, pv_power run P = Ok out.
Proof.
  intros module inverter run P HR L A.
  assert (W : exists f, pv_weather (pv_rows P) = Ok f).
  { unfold pv_weather. rewrite L. unfold hours_in_year. change year_rows with (Z.to_nat 8760). rewrite Nat.eqb_refl. eexists; reflexivity. }
  destruct W as [f W].
  destruct (A (pv_latitude P) (pv_longitude P) (pv_tilt P) (pv_azimuth P) (pv_module P) (pv_inverter P) f) as [ac R].
  apply (pv_power_ok run P f ac W R). rewrite (HR _ _ _ _ _ _ _ _ R). apply Nat.le_refl.
Qed.
Print Assumptions C72_completes.

(** The correction factor of an hour is that of the month of an hour at most 44 hours away ... *)
Theorem C72_month_partial : forall h, (0 <= h < 8760)%Z ->
  exists h', (0 <= h' < 8760)%Z /\ (Z.abs (h - h') <= 44)%Z /\ month_factor (h / 730) = month_factor (calendar_month h').
Proof. intros h H. destruct (months_close h H) as (h' & H1 & H2 & H3). exists h'. split; [exact H1|]. split; [lia|]. rewrite H3. reflexivity. Qed.
Print Assumptions C72_month_partial.

(** ... and not always that of the month of the hour itself: 20:00 on 31 January is corrected
    with the factor of February. *)
Definition sunny_row : wrow :=
  {| w_DHI := Some 100; w_GHI := Some 500; w_DNI := Some 600; w_wind_10 := Some 4; w_wind_50 := Some 6;
     w_roughness := Some (1 # 10); w_pressure := Some 101325; w_air := Some 15 |}.
Definition sunny_year : list wrow := repeat sunny_row hours_in_year.
Definition kilowatt_model : pvlib_model unit unit := fun _ _ _ _ _ _ _ => Ok (repeat (Some 1000) hours_in_year).
Definition small_pv (k : Q) : pv unit unit :=
  {| pv_module := tt; pv_inverter := tt; pv_multiplier := k; pv_tilt := 30; pv_azimuth := 180; pv_latitude := 56;
     pv_longitude := -4; pv_rows := sunny_year |}.
Lemma kilowatt_hourly : pv_hourly kilowatt_model.
Proof. intros lat lon tilt az m v f ac E. apply Ok_inj in E. subst ac. apply repeat_length. Qed.
Lemma sunny_length : length sunny_year = hours_in_year.
Proof. apply repeat_length. Qed.
Lemma sunny_weather : pv_weather sunny_year = Ok (filter (fun c => forallb present (snd c)) (pv_columns sunny_year)).
Proof. unfold pv_weather. rewrite sunny_length. unfold hours_in_year, year_rows. rewrite Nat.eqb_refl. reflexivity. Qed.
Lemma kilowatt_watts k h : (h < hours_in_year)%nat -> pvlib_watts kilowatt_model (small_pv k) h 1000.
Proof.
  intro H. exists (filter (fun c => forallb present (snd c)) (pv_columns sunny_year)), (repeat (Some 1000) hours_in_year), (Some 1000).
  split; [apply sunny_weather|]. split; [reflexivity|]. split; [apply nth_error_repeat_lt; exact H|left; reflexivity].
Qed.
Lemma kilowatt_out k : exists out, pv_power kilowatt_model (small_pv k) = Ok out.
Proof. apply C72_completes; [apply kilowatt_hourly|apply sunny_length|intros; eexists; reflexivity]. Qed.

Theorem C72_month_refuted : exists (run : pvlib_model unit unit) P out h x,
  pv_hourly run /\ pv_power run P = Ok out /\ (h < hours_in_year)%nat /\ pvlib_watts run P h x /\
  ~ hour_value out h (Qmax 0 (round2 x * pv_multiplier P * 0.0007225) * month_factor (calendar_month (Z.of_nat h))).
Proof.
  destruct (kilowatt_out 1) as [out E]. exists kilowatt_model, (small_pv 1), out, (Z.to_nat 740), 1000.
  assert (H : (Z.to_nat 740 < hours_in_year)%nat) by (unfold hours_in_year; lia).
  split; [apply kilowatt_hourly|]. split; [exact E|]. split; [exact H|]. split; [apply kilowatt_watts; exact H|].
  intros (v & N & V). destruct (C72_value _ _ _ _ out _ 1000 E H (kilowatt_watts 1 _ H)) as (v' & N' & V').
  rewrite N in N'. injection N' as <-. rewrite V' in V. revert V. vm_compute. discriminate.
Qed.
Print Assumptions C72_month_refuted.

(** Case: ten systems of 1 kW each deliver 7.225 kW times 0.984286745 in hour 2500 (April). *)
Example C72_case : exists out, pv_power kilowatt_model (small_pv 10) = Ok out /\
  hour_value out (Z.to_nat 2500) 7.111471732625 /\ calendar_month 2500 = 3%Z.
Proof.
  destruct (kilowatt_out 10) as [out E]. exists out. split; [exact E|]. split; [|reflexivity].
  assert (H : (Z.to_nat 2500 < hours_in_year)%nat) by (unfold hours_in_year; lia).
  destruct (C72_value _ _ _ _ out _ 1000 E H (kilowatt_watts 10 _ H)) as (v & N & V).
  exists v. split; [exact N|]. rewrite V. vm_compute. reflexivity.
Qed.
Print Assumptions C72_case.

(** ** C73: wind generation *)

Lemma user_frame run i c : ~ wi_multiplier i == 0 -> user_power run i = Ok c ->
  c_name c = "wind_user"%string /\ exists weather p, wind_weather (wi_weather i) = Ok weather /\
    run (user_machine i) weather = Ok p /\ c_data c = map (option_map (fun x => round2 (x * wi_multiplier i / 1000))) p.
Proof. intro Z. unfold user_power. destruct (qeq_spec (wi_multiplier i) 0); [contradiction|]. apply wind_frame. Qed.
Lemma database_frame run i c : ~ wi_multiplier i == 0 -> database_power run i = Ok c ->
  c_name c = "wind_database"%string /\ exists weather p, wind_weather (wi_weather i) = Ok weather /\
    run (database_machine i) weather = Ok p /\ c_data c = map (option_map (fun x => round2 (x * wi_multiplier i * (1 # 2) / 1000))) p.
Proof. intro Z. unfold database_power. destruct (qeq_spec (wi_multiplier i) 0); [contradiction|]. apply wind_frame. Qed.
Lemma farm_frame run i c : ~ wi_multiplier i == 0 -> wind_farm_power run i = Ok c ->
  c_name c = "wind_farm"%string /\ exists weather p, wind_weather (wi_weather i) = Ok weather /\
    run (farm_machine i) weather = Ok p /\ c_data c = map (option_map (fun x => round2 (x * (1 # 2) / 1000))) p.
Proof. intro Z. unfold wind_farm_power. destruct (qeq_spec (wi_multiplier i) 0); [contradiction|]. apply wind_frame. Qed.

Lemma entry_of_map (f : Q -> Q) tol (p : series) h a v : nth_error p h = Some (Some a) -> is_near tol (f a) v -> entry_near tol (map (option_map f) p) h v.
Proof. intros N V. exists (f a). split; [|exact V]. rewrite nth_error_map, N. reflexivity. Qed.
Lemma near_round x v : x == v -> is_near 0.005 (round2 x) v.
Proof. intro H. unfold is_near. pose proof (round2_bounds x) as B. rewrite <- H. setoid_replace 0.005 with (1 # 200) by reflexivity. exact B. Qed.

(** Every hour, to within 5 W: the power computed by windpowerlib in kW times the number of
    turbines; half of it for turbines of the database and for farms. *)
Theorem C73_user : forall run i c h x,
  user_power run i = Ok c -> ~ wi_multiplier i == 0 -> lib_watts run (user_machine i) (wi_weather i) h (Some x) ->
  entry_near 0.005 (c_data c) h (wi_multiplier i * (x / 1000)).
Proof.
  intros run i c h x E Z (f & p & F & R & N). destruct (user_frame run i c Z E) as (_ & f' & p' & F' & R' & D).
  rewrite F in F'. injection F' as <-. rewrite R in R'. injection R' as <-. rewrite D.
  apply (entry_of_map _ _ _ _ x _ N). apply near_round. field.
Qed.
Print Assumptions C73_user.
Theorem C73_database : forall run i c h x,
  database_power run i = Ok c -> ~ wi_multiplier i == 0 -> lib_watts run (database_machine i) (wi_weather i) h (Some x) ->
  entry_near 0.005 (c_data c) h (wi_multiplier i * (x / 1000) / 2).
Proof.
  intros run i c h x E Z (f & p & F & R & N). destruct (database_frame run i c Z E) as (_ & f' & p' & F' & R' & D).
  rewrite F in F'. injection F' as <-. rewrite R in R'. injection R' as <-. rewrite D.
  apply (entry_of_map _ _ _ _ x _ N). apply near_round. field.
Qed.
Print Assumptions C73_database.
Theorem C73_farm : forall run i c h x,
  wind_farm_power run i = Ok c -> ~ wi_multiplier i == 0 -> lib_watts run (farm_machine i) (wi_weather i) h (Some x) ->
  entry_near 0.005 (c_data c) h (x / 1000 / 2).
Proof.
  intros run i c h x E Z (f & p & F & R & N). destruct (farm_frame run i c Z E) as (_ & f' & p' & F' & R' & D).
  rewrite F in F'. injection F' as <-. rewrite R in R'. injection R' as <-. rewrite D.
  apply (entry_of_map _ _ _ _ x _ N). apply near_round. field.
Qed.
Print Assumptions C73_farm.

(** No turbines, no power - whatever the weather sheet contains. *)
Theorem C73_none : forall run i, wi_multiplier i == 0 ->
  (exists c, user_power run i = Ok c /\ c_data c = repeat (Some 0) hours_in_year) /\
  (exists c, database_power run i = Ok c /\ c_data c = repeat (Some 0) hours_in_year) /\
  (exists c, wind_farm_power run i = Ok c /\ c_data c = repeat (Some 0) hours_in_year).
Proof.
  intros run i Z. unfold user_power, database_power, wind_farm_power. destruct (qeq_spec (wi_multiplier i) 0); [|contradiction].
  repeat split; (eexists; split; [reflexivity|reflexivity]).
Qed.
Print Assumptions C73_none.

(** One value per hour, if windpowerlib computes one per hour. *)
Theorem C73_hours : forall run i c, wind_hourly run ->
  user_power run i = Ok c \/ database_power run i = Ok c \/ wind_farm_power run i = Ok c -> length (c_data c) = hours_in_year.
Proof.
  intros run i c HR E. destruct (Qeq_dec (wi_multiplier i) 0) as [Z|Z].
  - destruct (C73_none run i Z) as ((c1 & E1 & D1) & (c2 & E2 & D2) & (c3 & E3 & D3)).
    assert (c = c1 \/ c = c2 \/ c = c3) as [->|[->| ->]].
    { destruct E as [E|[E|E]]; [left|right; left|right; right]; congruence. }
    all: rewrite ?D1, ?D2, ?D3; apply repeat_length.
  - destruct E as [E|[E|E]];
      [destruct (user_frame run i c Z E) as (_ & f & p & F & R & D)|destruct (database_frame run i c Z E) as (_ & f & p & F & R & D)
      |destruct (farm_frame run i c Z E) as (_ & f & p & F & R & D)]; rewrite D, map_length; exact (HR _ _ _ R).
Qed.
Print Assumptions C73_hours.

Theorem C73_nonneg : forall run i c h x, nonneg_model run -> 0 <= wi_multiplier i ->
  user_power run i = Ok c \/ database_power run i = Ok c \/ wind_farm_power run i = Ok c ->
  nth_error (c_data c) h = Some (Some x) -> 0 <= x.
Proof.
  intros run i c h x HR Hm E N. destruct (Qeq_dec (wi_multiplier i) 0) as [Z|Z].
  - destruct (C73_none run i Z) as ((c1 & E1 & D1) & (c2 & E2 & D2) & (c3 & E3 & D3)).
    assert (c = c1 \/ c = c2 \/ c = c3) as K.
    { destruct E as [E|[E|E]]; [left|right; left|right; right]; congruence. }
    assert (D : c_data c = repeat (Some 0) hours_in_year) by (destruct K as [->|[->| ->]]; assumption).
    rewrite D in N. apply nth_error_In, repeat_spec in N. injection N as ->. apply Qle_refl.
  - assert (G : forall (f : Q -> Q) (p : series), (forall a, 0 <= a -> 0 <= f a) -> (forall a, In (Some a) p -> 0 <= a) ->
              c_data c = map (option_map f) p -> 0 <= x).
    { intros f p Hf Hp D. rewrite D, nth_error_map in N. destruct (nth_error p h) as [[a|]|] eqn:A; cbn [option_map] in N; try discriminate.
      injection N as <-. apply Hf, Hp. apply nth_error_In in A. exact A. }
    destruct E as [E|[E|E]];
      [destruct (user_frame run i c Z E) as (_ & f & p & F & R & D)|destruct (database_frame run i c Z E) as (_ & f & p & F & R & D)
      |destruct (farm_frame run i c Z E) as (_ & f & p & F & R & D)];
      apply (G _ _) with (3 := D); try (intros a A; exact (HR _ _ _ _ R A)); intros a A; apply pround_nonneg;
      (apply Qle_shift_div_l; [reflexivity|]; nra).
Qed.
Print Assumptions C73_nonneg.

(** A missing value of windpowerlib stays missing: the year of generation has a gap there. *)
Theorem C73_missing : forall run i c h, user_power run i = Ok c -> ~ wi_multiplier i == 0 ->
  (nth_error (c_data c) h = Some None <-> lib_watts run (user_machine i) (wi_weather i) h None).
Proof.
  intros run i c h E Z. destruct (user_frame run i c Z E) as (_ & f & p & F & R & D). rewrite D, nth_error_map. split.
  - intro N. exists f, p. split; [exact F|]. split; [exact R|]. destruct (nth_error p h) as [[a|]|]; cbn [option_map] in N; try discriminate. reflexivity.
  - intros (f' & p' & F' & R' & N). rewrite F in F'. injection F' as <-. rewrite R in R'. injection R' as <-. rewrite N. reflexivity.
Qed.
Print Assumptions C73_missing.

(** Twice the turbines, twice the power - to within the rounding. *)
Theorem C73_scaling : forall run i c c' k h x x',
  ~ wi_multiplier i == 0 -> ~ k == 0 -> 0 <= k -> user_power run i = Ok c -> user_power run (turbines (k * wi_multiplier i) i) = Ok c' ->
  nth_error (c_data c) h = Some (Some x) -> nth_error (c_data c') h = Some (Some x') ->
  is_near (0.005 * (1 + k)) x' (k * x).
Proof.
  intros run i c c' k h x x' Z K Hk E E' N N'.
  assert (Z' : ~ wi_multiplier (turbines (k * wi_multiplier i) i) == 0).
  { cbn [turbines wi_multiplier]. intro C. apply Qmult_integral in C as [C|C]; contradiction. }
  destruct (user_frame run i c Z E) as (_ & f & p & F & R & D).
  destruct (user_frame run _ c' Z' E') as (_ & f' & p' & F' & R' & D').
  change (wi_weather (turbines (k * wi_multiplier i) i)) with (wi_weather i) in F'. rewrite F in F'. injection F' as <-.
  change (user_machine (turbines (k * wi_multiplier i) i)) with (user_machine i) in R'. rewrite R in R'. injection R' as <-.
  rewrite D, nth_error_map in N. rewrite D', nth_error_map in N'.
  destruct (nth_error p h) as [[a|]|]; cbn [option_map] in N, N'; try discriminate.
  injection N as <-. injection N' as <-. cbn [turbines wi_multiplier].
  pose proof (round2_bounds (a * wi_multiplier i / 1000)) as B. pose proof (round2_bounds (a * (k * wi_multiplier i) / 1000)) as B'.
  assert (S : a * (k * wi_multiplier i) / 1000 == k * (a * wi_multiplier i / 1000)) by field.
  set (r' := round2 (a * (k * wi_multiplier i) / 1000)) in *. set (r := round2 (a * wi_multiplier i / 1000)) in *.
  set (y := a * wi_multiplier i / 1000) in *. clearbody r' r y. unfold is_near. rewrite S in B'. clear S.
  setoid_replace 0.005 with (1 # 200) by reflexivity. nra.
Qed.
Print Assumptions C73_scaling.

(** The same turbine under the same weather delivers half as much if it is taken from the
    database: the factor 0.5 is only applied there. *)
Definition blowing : wind_model := fun _ _ => Ok (repeat (Some 2000000) hours_in_year).
Definition two_megawatts (k : Q) : wind_inputs :=
  {| wi_name := "E-82/2000"; wi_hub := 78; wi_rotor := 82; wi_multiplier := k; wi_weather := sunny_year;
     wi_nominal := Some 2000000; wi_curve := Some [(0, 0); (25, 2000000)]; wi_efficiency := None |}.
Lemma blowing_hourly : wind_hourly blowing.
Proof. intros t f p E. apply Ok_inj in E. subst p. apply repeat_length. Qed.
Lemma blowing_nonneg : nonneg_model blowing.
Proof. intros t f p x E I. apply Ok_inj in E. subst p. apply repeat_spec in I. injection I as ->. vm_compute. discriminate. Qed.
Lemma blowing_complete : complete_model blowing.
Proof. intros t f p E I. apply Ok_inj in E. subst p. apply repeat_spec in I. discriminate. Qed.
Lemma sunny_wind_weather : exists f, wind_weather sunny_year = Ok f.
Proof. unfold wind_weather. rewrite sunny_length. unfold hours_in_year, year_rows. rewrite Nat.eqb_refl. eexists; reflexivity. Qed.
Lemma blowing_watts t h : (h < hours_in_year)%nat -> lib_watts blowing t sunny_year h (Some 2000000).
Proof.
  intro H. destruct sunny_wind_weather as [f F]. exists f, (repeat (Some 2000000) hours_in_year).
  split; [exact F|]. split; [reflexivity|apply nth_error_repeat_lt; exact H].
Qed.
Lemma blowing_ok k : (exists c, user_power blowing (two_megawatts k) = Ok c) /\ (exists c, database_power blowing (two_megawatts k) = Ok c).
Proof.
  destruct sunny_wind_weather as [f F]. unfold user_power, database_power.
  change (wi_weather (two_megawatts k)) with sunny_year. rewrite F. cbn [bind]. unfold blowing.
  split; (destruct (qeq (wi_multiplier (two_megawatts k)) 0); [eexists; reflexivity|]; cbn [bind]; eexists; reflexivity).
Qed.

Theorem C73_same_turbine_refuted : exists run i c c' h,
  wind_hourly run /\ nonneg_model run /\ (forall t t' f, run t f = run t' f) /\
  user_power run i = Ok c /\ database_power run i = Ok c' /\
  entry_near 0.005 (c_data c) h 6000 /\ entry_near 0.005 (c_data c') h 3000.
Proof.
  destruct (blowing_ok 3) as [[c E] [c' E']]. exists blowing, (two_megawatts 3), c, c', 0%nat.
  split; [apply blowing_hourly|]. split; [apply blowing_nonneg|]. split; [reflexivity|]. split; [exact E|]. split; [exact E'|].
  assert (H : (0 < hours_in_year)%nat) by (unfold hours_in_year; lia).
  assert (Z : ~ wi_multiplier (two_megawatts 3) == 0) by (vm_compute; discriminate).
  split.
  - destruct (C73_user _ _ c 0 2000000 E Z (blowing_watts _ _ H)) as (x & N & V). exists x. split; [exact N|].
    unfold is_near in *. setoid_replace (wi_multiplier (two_megawatts 3) * (2000000 / 1000)) with 6000 in V by (vm_compute; reflexivity). exact V.
  - destruct (C73_database _ _ c' 0 2000000 E' Z (blowing_watts _ _ H)) as (x & N & V). exists x. split; [exact N|].
    unfold is_near in *. setoid_replace (wi_multiplier (two_megawatts 3) * (2000000 / 1000) / 2) with 3000 in V by (vm_compute; reflexivity). exact V.
Qed.
Print Assumptions C73_same_turbine_refuted.

(** In general: twice the database figure, up to rounding. *)
Theorem C73_same_turbine_partial : forall run i c c' h x x',
  (forall t t' f, run t f = run t' f) -> user_power run i = Ok c -> database_power run i = Ok c' ->
  nth_error (c_data c) h = Some (Some x) -> nth_error (c_data c') h = Some (Some x') -> is_near 0.015 x (2 * x').
Proof.
  intros run i c c' h x x' S E E' N N'. destruct (Qeq_dec (wi_multiplier i) 0) as [Z|Z].
  - destruct (C73_none run i Z) as ((c1 & E1 & D1) & (c2 & E2 & D2) & _).
    assert (c = c1) by congruence. assert (c' = c2) by congruence. subst c1 c2.
    rewrite D1 in N. rewrite D2 in N'. apply nth_error_In, repeat_spec in N. apply nth_error_In, repeat_spec in N'.
    injection N as ->. injection N' as ->. split; vm_compute; discriminate.
  - destruct (user_frame run i c Z E) as (_ & f & p & F & R & D). destruct (database_frame run i c' Z E') as (_ & f' & p' & F' & R' & D').
    rewrite F in F'. injection F' as <-. rewrite (S _ (user_machine i) f), R in R'. injection R' as <-.
    rewrite D, nth_error_map in N. rewrite D', nth_error_map in N'.
    destruct (nth_error p h) as [[a|]|]; cbn [option_map] in N, N'; try discriminate. injection N as <-. injection N' as <-.
    pose proof (round2_bounds (a * wi_multiplier i / 1000)) as B. pose proof (round2_bounds (a * wi_multiplier i * (1 # 2) / 1000)) as B'.
    assert (Y : a * wi_multiplier i * (1 # 2) / 1000 == (a * wi_multiplier i / 1000) / 2) by field.
    set (r' := round2 (a * wi_multiplier i * (1 # 2) / 1000)) in *. set (r := round2 (a * wi_multiplier i / 1000)) in *.
    set (y := a * wi_multiplier i / 1000) in *. clearbody r r' y. rewrite Y in B'. unfold is_near.
    setoid_replace 0.015 with (3 # 200) by reflexivity. assert (y / 2 == (1 # 2) * y) as Y2 by field. rewrite Y2 in B'. lra.
Qed.
Print Assumptions C73_same_turbine_partial.

(** ** C74: the generation the controllers see *)

Lemma nth_add_series a b k : (k < length a)%nat -> (k < length b)%nat ->
  nth_error (add_series a b) k = Some (add_opt (nth k a None) (nth k b None)).
Proof.
  intros Ha Hb. unfold add_series. rewrite nth_error_map, L_Grid.nth_error_seq by lia. reflexivity.
Qed.
Lemma add_series_length a b : length (add_series a b) = Nat.max (length a) (length b).
Proof. unfold add_series. rewrite map_length, seq_length. reflexivity. Qed.
Lemma nth_of_error {A} (l : list A) k x d : nth_error l k = Some x -> nth k l d = x.
Proof. revert k. induction l as [|y l IH]; intros [|k]; cbn; intro H; try discriminate; [congruence|apply IH; exact H]. Qed.

Lemma generation_inv {module inverter} rw (rp : pvlib_model module inverter) u d P g :
  renewable_generation rw rp u d P = Ok g ->
  exists cu cd, user_power rw u = Ok cu /\ database_power rw d = Ok cd /\ pv_power rp P = Ok (g_PV g) /\
    g_wind g = add_series (c_data cu) (c_data cd) /\ g_total g = add_series (g_wind g) (map Some (g_PV g)).
Proof.
  unfold renewable_generation. destruct (user_power rw u) as [cu|e]; cbn [bind]; [|discriminate].
  unfold get_column. destruct (String.eqb (c_name cu) "wind_user"); cbn [bind]; [|discriminate].
  destruct (database_power rw d) as [cd|e]; cbn [bind]; [|discriminate].
  destruct (String.eqb (c_name cd) "wind_database"); cbn [bind]; [|discriminate].
  destruct (pv_power rp P) as [pv|e]; cbn [bind]; [|discriminate].
  intro E. apply Ok_inj in E. subst g. exists cu, cd. repeat split; reflexivity.
Qed.

(** Every hour, the wind is the sum of both kinds of turbines and the total is wind plus PV. *)
Theorem C74_sum : forall module inverter rw (rp : pvlib_model module inverter) u d P g h wu wd,
  wind_hourly rw -> pv_hourly rp -> renewable_generation rw rp u d P = Ok g -> (h < hours_in_year)%nat ->
  (exists cu, user_power rw u = Ok cu /\ nth_error (c_data cu) h = Some (Some wu)) ->
  (exists cd, database_power rw d = Ok cd /\ nth_error (c_data cd) h = Some (Some wd)) ->
  exists p, nth_error (g_PV g) h = Some p /\ entry (g_wind g) h (wu + wd) /\ entry (g_total g) h (wu + wd + p).
Proof.
  intros module inverter rw rp u d P g h wu wd HW HP E H (cu & Eu & Nu) (cd & Ed & Nd).
  destruct (generation_inv rw rp u d P g E) as (cu' & cd' & Eu' & Ed' & Ep & Gw & Gt).
  assert (cu' = cu) by congruence. assert (cd' = cd) by congruence. subst cu' cd'.
  assert (Lu : length (c_data cu) = hours_in_year) by (apply (C73_hours rw u cu HW); left; exact Eu).
  assert (Ld : length (c_data cd) = hours_in_year) by (apply (C73_hours rw d cd HW); right; left; exact Ed).
  assert (Lp : length (g_PV g) = hours_in_year) by (apply (C72_hours _ _ rp P _ HP Ep)).
  destruct (nth_error (g_PV g) h) as [p|] eqn:Np; [|apply nth_error_None in Np; lia].
  exists p. split; [reflexivity|].
  assert (W : nth_error (g_wind g) h = Some (Some (wu + wd))).
  { rewrite Gw, nth_add_series by lia. rewrite (nth_of_error _ _ _ None Nu), (nth_of_error _ _ _ None Nd). reflexivity. }
  split; [exists (wu + wd); split; [exact W|reflexivity]|].
  exists (wu + wd + p). split; [|reflexivity].
  assert (Lw : length (g_wind g) = hours_in_year) by (rewrite Gw, add_series_length, Lu, Ld; apply Nat.max_id).
  rewrite Gt, nth_add_series; [|lia|rewrite map_length; lia].
  rewrite (nth_of_error _ _ _ None W). rewrite (nth_of_error (map Some (g_PV g)) h (Some p) None); [reflexivity|].
  rewrite nth_error_map, Np. reflexivity.
Qed.
Print Assumptions C74_sum.

(** With complete, non-negative answers of windpowerlib the year of generation is complete:
    one non-negative number for every hour, in both columns. *)
Theorem C74_complete : forall module inverter rw (rp : pvlib_model module inverter) u d P g h,
  wind_hourly rw -> pv_hourly rp -> nonneg_model rw -> complete_model rw -> 0 <= wi_multiplier u -> 0 <= wi_multiplier d ->
  renewable_generation rw rp u d P = Ok g -> (h < hours_in_year)%nat ->
  exists w p, nth_error (g_wind g) h = Some (Some w) /\ nth_error (g_PV g) h = Some p /\ 0 <= w /\ 0 <= p /\
              entry (g_total g) h (w + p).
Proof.
  intros module inverter rw rp u d P g h HW HP HN HC Hu Hd E H.
  destruct (generation_inv rw rp u d P g E) as (cu & cd & Eu & Ed & Ep & Gw & Gt).
  assert (Ku : exists wu, nth_error (c_data cu) h = Some (Some wu)).
  { destruct (Qeq_dec (wi_multiplier u) 0) as [Z|Z].
    - destruct (C73_none rw u Z) as ((c1 & E1 & D1) & _). assert (cu = c1) by congruence. subst c1. exists 0. rewrite D1. apply nth_error_repeat_lt, H.
    - destruct (user_frame rw u cu Z Eu) as (_ & f & p & F & R & D). rewrite D, nth_error_map.
      assert (L : length p = hours_in_year) by (exact (HW _ _ _ R)).
      destruct (nth_error p h) as [[a|]|] eqn:A.
      + eexists; reflexivity.
      + exfalso. apply (HC _ _ _ R). apply nth_error_In in A. exact A.
      + apply nth_error_None in A. lia. }
  assert (Kd : exists wd, nth_error (c_data cd) h = Some (Some wd)).
  { destruct (Qeq_dec (wi_multiplier d) 0) as [Z|Z].
    - destruct (C73_none rw d Z) as (_ & (c1 & E1 & D1) & _). assert (cd = c1) by congruence. subst c1. exists 0. rewrite D1. apply nth_error_repeat_lt, H.
    - destruct (database_frame rw d cd Z Ed) as (_ & f & p & F & R & D). rewrite D, nth_error_map.
      assert (L : length p = hours_in_year) by (exact (HW _ _ _ R)).
      destruct (nth_error p h) as [[a|]|] eqn:A.
      + eexists; reflexivity.
      + exfalso. apply (HC _ _ _ R). apply nth_error_In in A. exact A.
      + apply nth_error_None in A. lia. }
  destruct Ku as [wu Nu], Kd as [wd Nd].
  destruct (C74_sum _ _ rw rp u d P g h wu wd HW HP E H) as (p & Np & (w & Nw & Vw) & (t & Nt & Vt)).
  { exists cu. split; assumption. } { exists cd. split; assumption. }
  assert (0 <= wu) by (apply (C73_nonneg rw u cu h wu HN Hu); [left; exact Eu|exact Nu]).
  assert (0 <= wd) by (apply (C73_nonneg rw d cd h wd HN Hd); [right; left; exact Ed|exact Nd]).
  destruct (C72_nonneg _ _ rp P (g_PV g) h Ep H) as (p' & Np' & Hp). rewrite Np in Np'. injection Np' as <-.
  exists w, p. split; [exact Nw|]. split; [exact Np|]. split; [rewrite Vw; lra|]. split; [exact Hp|].
  exists t. split; [exact Nt|]. rewrite Vt, Vw. reflexivity.
Qed.
Print Assumptions C74_complete.

(** A single hour that windpowerlib cannot compute leaves the total without a value, although
    PV treats such an hour as zero. *)
Definition gap_model : wind_model := fun _ _ => Ok (None :: repeat (Some 2000000) (Z.to_nat 8759)).
Theorem C74_complete_refuted : exists rw (rp : pvlib_model unit unit) u d P g,
  wind_hourly rw /\ pv_hourly rp /\ nonneg_model rw /\ 0 <= wi_multiplier u /\ 0 <= wi_multiplier d /\
  renewable_generation rw rp u d P = Ok g /\ nth_error (g_total g) 0 = Some None.
Proof.
  assert (HW : wind_hourly gap_model).
  { intros t f p E. apply Ok_inj in E. subst p. cbn [length]. rewrite repeat_length. unfold hours_in_year. lia. }
  destruct sunny_wind_weather as [f F]. destruct (kilowatt_out 1) as [out Eo].
  assert (Eu : user_power gap_model (two_megawatts 1) = Ok {| c_name := "wind_user"; c_data :=
     map (option_map (fun x => round2 (x * wi_multiplier (two_megawatts 1) / 1000))) (None :: repeat (Some 2000000) (Z.to_nat 8759)) |}).
  { unfold user_power. change (qeq (wi_multiplier (two_megawatts 1)) 0) with false. change (wi_weather (two_megawatts 1)) with sunny_year. rewrite F. reflexivity. }
  destruct (C73_none gap_model (two_megawatts 0)) as (_ & (cd & Ed & Dd) & _); [reflexivity|].
  assert (Nd : c_name cd = "wind_database"%string).
  { unfold database_power in Ed. change (qeq (wi_multiplier (two_megawatts 0)) 0) with true in Ed. apply Ok_inj in Ed. subst cd. reflexivity. }
  eexists gap_model, kilowatt_model, (two_megawatts 1), (two_megawatts 0), (small_pv 1), _.
  split; [exact HW|]. split; [apply kilowatt_hourly|]. split.
  { intros t f' p x E I. apply Ok_inj in E. subst p. destruct I as [I|I]; [discriminate|]. apply repeat_spec in I. injection I as ->. vm_compute. discriminate. }
  split; [vm_compute; discriminate|]. split; [vm_compute; discriminate|]. split.
  { unfold renewable_generation. rewrite Eu. cbn [bind]. unfold get_column at 1. cbn [c_name c_data]. rewrite String.eqb_refl. cbn [bind].
    rewrite Ed. cbn [bind]. unfold get_column. rewrite Nd, String.eqb_refl. cbn [bind]. rewrite Eo. cbn [bind]. reflexivity. }
  cbn [g_total]. rewrite Dd.
  assert (Lo : length out = hours_in_year) by (apply (C72_hours _ _ _ _ _ kilowatt_hourly Eo)).
  assert (H : (0 < hours_in_year)%nat) by (unfold hours_in_year; lia).
  rewrite nth_add_series.
  - assert (W : forall l, nth 0 (add_series (None :: l) (repeat (Some 0) hours_in_year)) None = None).
    { intro l. apply nth_of_error. rewrite nth_add_series; [reflexivity|cbn [length]; lia|rewrite repeat_length; exact H]. }
    cbn [map option_map]. rewrite W. reflexivity.
  - rewrite add_series_length. cbn [map length]. lia.
  - rewrite map_length. lia.
Qed.
Print Assumptions C74_complete_refuted.

(** Case for [C74_complete]: three and one turbines of 2 MW and ten PV systems. *)
Example C74_case : exists g, renewable_generation blowing kilowatt_model (two_megawatts 3) (two_megawatts 1) (small_pv 10) = Ok g /\
  wind_hourly blowing /\ pv_hourly kilowatt_model /\ nonneg_model blowing /\ complete_model blowing /\
  entry_near 0.01 (g_wind g) (Z.to_nat 2500) 7000.
Proof.
  destruct (blowing_ok 3) as [[cu Eu] _]. destruct (blowing_ok 1) as [_ [cd Ed]]. destruct (kilowatt_out 10) as [out Eo].
  assert (Zu : ~ wi_multiplier (two_megawatts 3) == 0) by (vm_compute; discriminate).
  assert (Zd : ~ wi_multiplier (two_megawatts 1) == 0) by (vm_compute; discriminate).
  destruct (user_frame _ _ _ Zu Eu) as (Nu & _). destruct (database_frame _ _ _ Zd Ed) as (Nd & _).
  assert (G : exists g, renewable_generation blowing kilowatt_model (two_megawatts 3) (two_megawatts 1) (small_pv 10) = Ok g).
  { unfold renewable_generation. rewrite Eu. cbn [bind]. unfold get_column at 1. rewrite Nu, String.eqb_refl. cbn [bind].
    rewrite Ed. cbn [bind]. unfold get_column. rewrite Nd, String.eqb_refl. cbn [bind]. rewrite Eo. cbn [bind]. eexists; reflexivity. }
  destruct G as [g G]. exists g. split; [exact G|]. split; [apply blowing_hourly|]. split; [apply kilowatt_hourly|].
  split; [apply blowing_nonneg|]. split; [apply blowing_complete|].
  assert (H : (Z.to_nat 2500 < hours_in_year)%nat) by (unfold hours_in_year; lia).
  destruct (C73_user _ _ cu _ 2000000 Eu Zu (blowing_watts _ _ H)) as (x & Nx & Vx).
  destruct (C73_database _ _ cd _ 2000000 Ed Zd (blowing_watts _ _ H)) as (y & Ny & Vy).
  destruct (C74_sum _ _ _ _ _ _ _ g (Z.to_nat 2500) x y blowing_hourly kilowatt_hourly G H) as (p & _ & (w & Nw & Vw) & _).
  { exists cu. split; assumption. } { exists cd. split; assumption. }
  exists w. split; [exact Nw|]. unfold is_near in *. rewrite Vw.
  setoid_replace (wi_multiplier (two_megawatts 3) * (2000000 / 1000)) with 6000 in Vx by (vm_compute; reflexivity).
  setoid_replace (wi_multiplier (two_megawatts 1) * (2000000 / 1000) / 2) with 1000 in Vy by (vm_compute; reflexivity).
  lra.
Qed.
Print Assumptions C74_case.

(** ** C75: inputs of the PV plant without effect *)

(** The inverter, the surface type, the name of the location and the altitude entered by the
    user do not matter. *)
Theorem C75_ignored : forall module inverter cec sandia (inverters : string -> option inverter) i inv surface loc alt,
  new_pv (module := module) cec sandia inverters (renamed inv surface loc alt i) = new_pv cec sandia inverters i.
Proof. reflexivity. Qed.
Print Assumptions C75_ignored.

(** The plant does not get the inverter the user named, even if it is in the library. *)
Theorem C75_inverter_refuted : exists (cec sandia : string -> option unit) (inverters : string -> option Z) i P v,
  new_pv cec sandia inverters i = Ok P /\ lists inverters (pi_inverter_name i) v /\ pv_inverter P <> v.
Proof.
  set (inverters := fun n => if String.eqb n "iPower__SHO_4_8__240V_" then Some 4800%Z
                             else if String.eqb n "ABB__PVI_10_0" then Some 10000%Z else None).
  exists (fun _ => Some tt), (fun _ => None), inverters,
    {| pi_module_name := "Any Module"; pi_inverter_name := "ABB: PVI-10.0"; pi_multiplier := 1; pi_tilt := 30;
       pi_azimuth := 180; pi_surface_type := "grass"; pi_loc_name := "Findhorn"; pi_latitude := 57; pi_longitude := -3;
       pi_altitude := 10; pi_weather := [] |}.
  eexists _, 10000%Z. split; [reflexivity|]. split.
  - exists "ABB__PVI_10_0"%string. split; [|reflexivity]. apply library_name_clean. vm_compute. reflexivity.
  - cbn. discriminate.
Qed.
Print Assumptions C75_inverter_refuted.

(** What the plant does get: the module named, from the CEC library if it is there and from the
    Sandia library otherwise, and one fixed inverter. *)
Theorem C75_module_partial : forall module inverter cec sandia (inverters : string -> option inverter) i P,
  new_pv (module := module) cec sandia inverters i = Ok P ->
  (lists cec (pi_module_name i) (pv_module P) \/
   ((forall m, ~ lists cec (pi_module_name i) m) /\ lists sandia (pi_module_name i) (pv_module P))) /\
  inverters "iPower__SHO_4_8__240V_"%string = Some (pv_inverter P) /\
  pv_multiplier P = pi_multiplier i /\ pv_tilt P = pi_tilt i /\ pv_azimuth P = pi_azimuth i /\
  pv_latitude P = pi_latitude i /\ pv_longitude P = pi_longitude i /\ pv_rows P = pi_weather i.
Proof.
  intros module inverter cec sandia inverters i P. unfold new_pv.
  assert (K : library_name (pi_module_name i) (clean_name (pi_module_name i))) by (apply library_name_clean; reflexivity).
  destruct (cec (clean_name (pi_module_name i))) as [m|] eqn:C.
  - cbn [bind]. destruct (inverters _) as [v|] eqn:V; cbn [bind]; [|discriminate]. intro E. apply Ok_inj in E. subst P. cbn.
    split; [left; exists (clean_name (pi_module_name i)); split; assumption|]. repeat split; exact V || reflexivity.
  - destruct (sandia (clean_name (pi_module_name i))) as [m|] eqn:S; cbn [bind]; [|discriminate].
    destruct (inverters _) as [v|] eqn:V; cbn [bind]; [|discriminate]. intro E. apply Ok_inj in E. subst P. cbn.
    split; [right; split|]; [|exists (clean_name (pi_module_name i)); split; assumption|repeat split; exact V || reflexivity].
    intros m' (key & Hk & Hm). apply library_name_clean in Hk. subst key. congruence.
Qed.
Print Assumptions C75_module_partial.

(** Air temperature and wind speed are handed over under names that pvlib does not know, so
    they do not matter either. *)
Theorem C75_air_temperature : forall module inverter (run : pvlib_model module inverter) P w,
  reads_known_names run -> same_irradiance (pv_rows P) w -> pv_power run (under w P) = pv_power run P.
Proof.
  intros module inverter run P w HR HS. unfold pv_power. cbn [under pv_multiplier pv_rows pv_latitude pv_longitude pv_tilt pv_azimuth pv_module pv_inverter].
  destruct (qeq (pv_multiplier P) 0); [reflexivity|].
  pose proof (pvlib_sees_pv_weather _ _ HS) as K.
  destruct (pv_weather (pv_rows P)) as [f|e], (pv_weather w) as [g|e']; cbn [bind]; try contradiction.
  - rewrite (HR _ _ _ _ _ _ f g K). reflexivity.
  - congruence.
Qed.
Print Assumptions C75_air_temperature.

(** A pvlib whose answer depends on the air temperature it is told (20 degrees if it is not
    told any), and a heat wave that leaves the generation unchanged. *)
Definition told_temperature (f : list (string * series)) : Q :=
  match find (fun c => String.eqb (fst c) "temp_air") (pvlib_sees f) with
  | Some (_, Some t :: _) => t
  | _ => 20
  end.
Definition warm_model : pvlib_model unit unit := fun _ _ _ _ _ _ f => Ok (repeat (Some (1000 - 4 * (told_temperature f - 20))) hours_in_year).
Definition hot_row : wrow :=
  {| w_DHI := Some 100; w_GHI := Some 500; w_DNI := Some 600; w_wind_10 := Some 4; w_wind_50 := Some 6;
     w_roughness := Some (1 # 10); w_pressure := Some 101325; w_air := Some 45 |}.
Lemma hot_same n : same_irradiance (repeat sunny_row n) (repeat hot_row n).
Proof. induction n as [|n IH]; cbn [repeat]; constructor; [repeat split; reflexivity|exact IH]. Qed.
Theorem C75_air_temperature_refuted : exists (run : pvlib_model unit unit) P w out,
  reads_known_names run /\ same_irradiance (pv_rows P) w /\
  (exists f g, run 0 0 0 0 tt tt [("temp_air"%string, [f])] <> run 0 0 0 0 tt tt [("temp_air"%string, [g])]) /\
  nth_error (pv_rows P) 0 = Some sunny_row /\ nth_error w 0 = Some hot_row /\
  pv_power run P = Ok out /\ pv_power run (under w P) = Ok out.
Proof.
  assert (HR : reads_known_names warm_model).
  { intros lat lon tilt az m v f g S. unfold warm_model, told_temperature. rewrite S. reflexivity. }
  assert (HS : same_irradiance (pv_rows (small_pv 1)) (repeat hot_row hours_in_year)) by apply hot_same.
  destruct (C72_completes _ _ warm_model (small_pv 1)) as [out E].
  { intros lat lon tilt az m v f ac Ea. apply Ok_inj in Ea. subst ac. apply repeat_length. }
  { apply sunny_length. } { intros. eexists. reflexivity. }
  exists warm_model, (small_pv 1), (repeat hot_row hours_in_year), out.
  split; [exact HR|]. split; [exact HS|]. split.
  { exists (Some 10), (Some 30). unfold warm_model. intro C. apply Ok_inj in C.
    assert (H : (0 < hours_in_year)%nat) by (unfold hours_in_year; lia).
    assert (D : nth_error (repeat (Some (1000 - 4 * (told_temperature [("temp_air"%string, [Some 10])] - 20))) hours_in_year) 0 =
                nth_error (repeat (Some (1000 - 4 * (told_temperature [("temp_air"%string, [Some 30])] - 20))) hours_in_year) 0) by (rewrite C; reflexivity).
    rewrite !nth_error_repeat_lt in D by exact H. revert D. vm_compute. discriminate. }
  assert (H : (0 < hours_in_year)%nat) by (unfold hours_in_year; lia).
  split; [apply nth_error_repeat_lt; exact H|]. split; [apply nth_error_repeat_lt; exact H|].
  split; [exact E|]. rewrite (C75_air_temperature _ _ _ _ _ HR HS). exact E.
Qed.
Print Assumptions C75_air_temperature_refuted.

(** ** C76: the helper functions of the module *)

(** The helpers for wind never return, whatever the inputs ... *)
Theorem C76_wind_user_never : forall run user name subname, exists e, wind_user_power run user name subname = Err e.
Proof.
  intros run user name subname. unfold wind_user_power. destruct (user name subname) as [i|e]; cbn [bind]; [|eexists; reflexivity].
  destruct (user_power run i) as [c|e] eqn:E; cbn [bind]; [|eexists; reflexivity]. exists KeyError.
  unfold get_column. replace (c_name c) with "wind_user"%string; [reflexivity|].
  unfold user_power in E. destruct (qeq (wi_multiplier i) 0); [apply Ok_inj in E; subst c; reflexivity|].
  symmetry. apply (wind_frame _ _ _ _ _ _ E).
Qed.
Print Assumptions C76_wind_user_never.
Theorem C76_wind_database_never : forall run database name subname, exists e, wind_database_power run database name subname = Err e.
Proof.
  intros run database name subname. unfold wind_database_power. destruct (database name subname) as [i|e]; cbn [bind]; [|eexists; reflexivity].
  destruct (database_power run i) as [c|e] eqn:E; cbn [bind]; [|eexists; reflexivity]. exists KeyError.
  unfold get_column. replace (c_name c) with "wind_database"%string; [reflexivity|].
  unfold database_power in E. destruct (qeq (wi_multiplier i) 0); [apply Ok_inj in E; subst c; reflexivity|].
  symmetry. apply (wind_frame _ _ _ _ _ _ E).
Qed.
Print Assumptions C76_wind_database_never.
(** ... nor does the helper for the total. *)
Theorem C76_total_never : forall module inverter run user database cec sandia (inverters : string -> option inverter) run_pv pv_in,
  exists e, sum_renewable_generation (module := module) run user database cec sandia inverters run_pv pv_in = Err e.
Proof. intros. eexists. reflexivity. Qed.
Print Assumptions C76_total_never.
(** In particular they fail for turbines whose power is computed without any problem. *)
Theorem C76_wind_refuted : exists run i c d, wind_hourly run /\ user_power run i = Ok c /\ database_power run i = Ok d /\
  forall name subname, wind_user_power run (fun _ _ => Ok i) name subname = Err KeyError /\
                       wind_database_power run (fun _ _ => Ok i) name subname = Err KeyError.
Proof.
  destruct (blowing_ok 3) as [[c E] [d D]]. exists blowing, (two_megawatts 3), c, d. split; [apply blowing_hourly|].
  split; [exact E|]. split; [exact D|]. intros name subname.
  unfold wind_user_power, wind_database_power. cbn [bind]. rewrite E, D. cbn [bind]. unfold get_column.
  destruct (user_frame blowing (two_megawatts 3) c ltac:(vm_compute; discriminate) E) as (-> & _).
  destruct (database_frame blowing (two_megawatts 3) d ltac:(vm_compute; discriminate) D) as (-> & _). split; reflexivity.
Qed.
Print Assumptions C76_wind_refuted.

(** The helper for PV works: it yields the generation of the plant the inputs describe. *)
Theorem C76_PV_partial : forall module inverter cec sandia (inverters : string -> option inverter) run pv_in name subname i P out,
  pv_in name subname = Ok i -> new_pv (module := module) cec sandia inverters i = Ok P -> pv_power run P = Ok out ->
  PV_power cec sandia inverters run pv_in name subname = Ok out.
Proof. intros module inverter cec sandia inverters run pv_in name subname i P out I H E. unfold PV_power. rewrite I. cbn [bind]. rewrite H. exact E. Qed.
Print Assumptions C76_PV_partial.

(** ** C77: names of PV modules *)

(** A product listed by either library is found under the name printed in the catalogue ... *)
Theorem C77_found : forall module inverter cec sandia (inverters : string -> option inverter) i m,
  lists cec (pi_module_name i) m \/ lists sandia (pi_module_name i) m ->
  inverters "iPower__SHO_4_8__240V_"%string <> None -> exists P, new_pv (module := module) cec sandia inverters i = Ok P.
Proof.
  intros module inverter cec sandia inverters i m L V. unfold new_pv.
  destruct (inverters _) as [v|] eqn:Ev; [|contradiction].
  assert (K : cec (clean_name (pi_module_name i)) = Some m \/ sandia (clean_name (pi_module_name i)) = Some m).
  { destruct L as [(key & Hk & Hm)|(key & Hk & Hm)]; apply library_name_clean in Hk; subst key; [left|right]; exact Hm. }
  destruct (cec (clean_name (pi_module_name i))) as [m'|]; cbn [bind]; [eexists; reflexivity|].
  destruct K as [K|K]; [discriminate|]. rewrite K. cbn [bind]. eexists; reflexivity.
Qed.
Print Assumptions C77_found.

(** ... and any other name is refused. *)
Theorem C77_refused : forall module inverter cec sandia (inverters : string -> option inverter) i,
  (forall m, ~ lists cec (pi_module_name i) m) -> (forall m, ~ lists sandia (pi_module_name i) m) ->
  new_pv (module := module) cec sandia inverters i = Err KeyError.
Proof.
  intros module inverter cec sandia inverters i H1 H2. unfold new_pv.
  assert (K : library_name (pi_module_name i) (clean_name (pi_module_name i))) by (apply library_name_clean; reflexivity).
  destruct (cec (clean_name (pi_module_name i))) as [m|] eqn:C.
  { exfalso. apply (H1 m). exists (clean_name (pi_module_name i)). split; assumption. }
  destruct (sandia (clean_name (pi_module_name i))) as [m|] eqn:S; [|reflexivity].
  exfalso. apply (H2 m). exists (clean_name (pi_module_name i)). split; assumption.
Qed.
Print Assumptions C77_refused.

(** The library name is accepted as well, since it is its own library name. *)
Theorem C77_library_name : forall product key, library_name product key -> library_name key key.
Proof.
  intros product key H. unfold library_name in *. induction H as [|x y l l' Hxy H IH]; constructor; [|exact IH].
  destruct Hxy as [[_ ->]|[N ->]]; right; (split; [|reflexivity]); [|exact N].
  intro I. cbn in I. repeat destruct I as [I|I]; try discriminate. contradiction.
Qed.
Print Assumptions C77_library_name.

(** Products whose names differ in separators only are not told apart. *)
Theorem C77_distinct_refuted : exists a b key, a <> b /\ library_name a key /\ library_name b key.
Proof.
  exists "Solar X-1.5"%string, "Solar-X 1-5"%string, "Solar_X_1_5"%string.
  split; [discriminate|]. split; apply library_name_clean; vm_compute; reflexivity.
Qed.
Print Assumptions C77_distinct_refuted.
Theorem C77_distinct_partial : forall a b key,
  (forall c, In c (list_ascii_of_string a) \/ In c (list_ascii_of_string b) -> ~ In c separators) ->
  library_name a key -> library_name b key -> a = b.
Proof.
  intros a b key H Ha Hb.
  assert (G : forall s, (forall c, In c (list_ascii_of_string s) -> ~ In c separators) -> library_name s key -> key = s).
  { intros s Hs Hk. unfold library_name in Hk.
    rewrite <- (string_of_list_ascii_of_string key), <- (string_of_list_ascii_of_string s). f_equal.
    induction Hk as [|x y l l' Hxy Hk IH]; [reflexivity|]. f_equal; [|apply IH; intros c Hc; apply Hs; right; exact Hc].
    destruct Hxy as [[I _]|[_ E]]; [|exact E]. exfalso. apply (Hs x); [left; reflexivity|exact I]. }
  transitivity key; [symmetry|]; apply G; try assumption; intros c Hc; apply H; [left|right]; exact Hc.
Qed.
Print Assumptions C77_distinct_partial.
Example C77_case : library_name "1Soltech 1STH-215-P (Mono, 6"")" "1Soltech_1STH_215_P__Mono__6__".
Proof. apply library_name_clean. vm_compute. reflexivity. Qed.
