(** C72 and C73 continued: what the two libraries are given. *)
From Coq Require Import String.
From Verif Require Import Base BaseL M_Renewables S_Renewables L_Renewables P_Renewables S_Weather.

Lemma no_gap_iff s : forallb present s = true <-> no_gap s.
Proof.
  rewrite forallb_forall. unfold no_gap. split; intros H x Hx; specialize (H x Hx); destruct x; cbn in *; congruence.
Qed.
Lemma some_value_iff s : existsb present s = true <-> some_value s.
Proof.
  rewrite existsb_exists. unfold some_value. split; [intros (x & Hx & P); destruct x; [eauto|discriminate P]|intros (q & Hq); exists (Some q); auto].
Qed.
Lemma nodup_filter {A B} (f : A * B -> bool) l : NoDup (map fst l) -> NoDup (map fst (filter f l)).
Proof.
  induction l as [|x l IH]; cbn; intro H; [constructor|]. inversion H as [|y m N D]; subst. destruct (f x); cbn; [|apply IH, D]. constructor; [|apply IH, D].
  intro C. apply N. apply in_map_iff in C as (z & E & Z). apply filter_In in Z as (Z & _). apply in_map_iff. exists z. auto.
Qed.
Lemma columns_filter {name} (all : list (name * (wrow -> option Q))) cols (ok : series -> bool) (fit : series -> Prop) w :
  (forall s, ok s = true <-> fit s) -> NoDup (map fst cols) -> (forall n s, In (n, s) cols <-> exists c, In (n, c) all /\ s = map c w) ->
  columns_of all fit w (filter (fun c => ok (snd c)) cols).
Proof.
  intros O D C. split; [apply nodup_filter, D|]. intros n s. rewrite filter_In, C. cbn [snd]. rewrite O. split.
  - intros ((c & H & E) & F). exists c. auto.
  - intros (c & H & E & F). split; [exists c; auto|exact F].
Qed.
Lemma pv_given w f : pv_weather w = Ok f -> length w = hours_in_year /\ columns_of sun_columns no_gap w f.
Proof.
  unfold pv_weather. destruct (Nat.eqb_spec (length w) year_rows) as [E|E]; [|discriminate]. intro H. apply Ok_inj in H. subst f. split; [exact E|].
  apply columns_filter; [exact no_gap_iff| |].
  - unfold pv_columns. cbn [map fst]. repeat constructor; cbn; intuition discriminate.
  - unfold pv_columns, sun_columns. intros n s. split.
    + cbn [In]. intro K. repeat (destruct K as [K|K]; [injection K as <- <-; eexists; split; [|reflexivity]; cbn; tauto|]). destruct K.
    + intros (c & K & ->). cbn [In] in K. repeat (destruct K as [K|K]; [injection K as <- <-; cbn; tauto|]). destruct K.
Qed.
Lemma wind_given w f : wind_weather w = Ok f -> length w = hours_in_year /\ columns_of wind_sheet some_value w f.
Proof.
  unfold wind_weather. destruct (Nat.eqb_spec (length w) year_rows) as [E|E]; [|discriminate]. intro H. apply Ok_inj in H. subst f. split; [exact E|].
  apply columns_filter; [exact some_value_iff| |].
  - unfold wind_columns. cbn [map fst]. repeat constructor; cbn; intuition discriminate.
  - unfold wind_columns, wind_sheet. intros n s. split.
    + cbn [In]. intro K. repeat (destruct K as [K|K]; [injection K as <- <-; eexists; split; [|reflexivity]; cbn; tauto|]). destruct K.
    + intros (c & K & ->). cbn [In] in K. repeat (destruct K as [K|K]; [injection K as <- <-; cbn; tauto|]). destruct K.
Qed.
(** pvlib is given a year of the irradiance, temperature and wind columns of the sheet that have no gap, and the generation is computed from its answer. *)
Theorem C72_given : forall module inverter (run : pvlib_model module inverter) P out, pv_power run P = Ok out -> ~ pv_multiplier P == 0 ->
  exists f ac, length (pv_rows P) = hours_in_year /\ columns_of sun_columns no_gap (pv_rows P) f /\
    run (pv_latitude P) (pv_longitude P) (pv_tilt P) (pv_azimuth P) (pv_module P) (pv_inverter P) f = Ok ac /\
    forall h x, (h < hours_in_year)%nat -> nth_error ac h = Some (Some x) -> hour_value out h (Qmax 0 (round2 x * pv_multiplier P * 0.0007225) * month_factor (Z.of_nat h / 730)).
Proof.
  intros module inverter run P out E Z. destruct (pv_power_inv run P out E Z) as (f & ac & W & R & _). exists f, ac.
  destruct (pv_given _ _ W) as (L & C). split; [exact L|]. split; [exact C|]. split; [exact R|]. intros h x H A. apply (C72_value _ _ run P out h x E H).
  exists f, ac, (Some x). auto.
Qed.
Print Assumptions C72_given.
(** windpowerlib is given a year of the wind columns of the sheet that are not empty, at their heights. *)
Theorem C73_given : forall run i, ~ wi_multiplier i == 0 ->
  (forall c, user_power run i = Ok c -> exists f p, length (wi_weather i) = hours_in_year /\ columns_of wind_sheet some_value (wi_weather i) f /\ run (user_machine i) f = Ok p /\
     forall h x, nth_error p h = Some (Some x) -> entry_near 0.005 (c_data c) h (wi_multiplier i * (x / 1000))) /\
  (forall c, database_power run i = Ok c -> exists f p, length (wi_weather i) = hours_in_year /\ columns_of wind_sheet some_value (wi_weather i) f /\ run (database_machine i) f = Ok p /\
     forall h x, nth_error p h = Some (Some x) -> entry_near 0.005 (c_data c) h (wi_multiplier i * (x / 1000) / 2)) /\
  (forall c, wind_farm_power run i = Ok c -> exists f p, length (wi_weather i) = hours_in_year /\ columns_of wind_sheet some_value (wi_weather i) f /\ run (farm_machine i) f = Ok p /\
     forall h x, nth_error p h = Some (Some x) -> entry_near 0.005 (c_data c) h (x / 1000 / 2)).
Proof.
  intros run i Z. split; [|split]; intros c E.
  - destruct (user_frame run i c Z E) as (_ & f & p & F & R & _). destruct (wind_given _ _ F) as (L & C). exists f, p. split; [exact L|]. split; [exact C|]. split; [exact R|].
    intros h x N. apply (C73_user run i c h x E Z). exists f, p. auto.
  - destruct (database_frame run i c Z E) as (_ & f & p & F & R & _). destruct (wind_given _ _ F) as (L & C). exists f, p. split; [exact L|]. split; [exact C|]. split; [exact R|].
    intros h x N. apply (C73_database run i c h x E Z). exists f, p. auto.
  - destruct (farm_frame run i c Z E) as (_ & f & p & F & R & _). destruct (wind_given _ _ F) as (L & C). exists f, p. split; [exact L|]. split; [exact C|]. split; [exact R|].
    intros h x N. apply (C73_farm run i c h x E Z). exists f, p. auto.
Qed.
Print Assumptions C73_given.
(** A column with a gap does not reach pvlib but does reach windpowerlib. *)
Example C73_given_case : let w := [{| w_DHI := None; w_GHI := None; w_DNI := None; w_wind_10 := Some 3; w_wind_50 := Some 4; w_roughness := None; w_pressure := None; w_air := Some 8 |};
    {| w_DHI := None; w_GHI := None; w_DNI := None; w_wind_10 := None; w_wind_50 := Some 4; w_roughness := None; w_pressure := None; w_air := Some 9 |}] in
  ~ no_gap (map w_wind_10 w) /\ some_value (map w_wind_10 w) /\ no_gap (map w_air w) /\ ~ some_value (map w_pressure w).
Proof.
  cbv zeta. split; [|split; [|split]].
  - intro H. apply (H None); [right; left; reflexivity|reflexivity].
  - exists 3. left. reflexivity.
  - intros x [<-|[<-|[]]]; discriminate.
  - intros (q & [H|[H|[]]]); discriminate.
Qed.
