(** Standard test regression: properties C78, C79 and C80. *)
From Coq Require Import Permutation.
From Verif Require Import Base BaseL M_HeatPump S_HeatPump L_HeatPump M_Regression S_Regression L_Regression L_LeastSquares.
Open Scope Q_scope.
Local Open Scope list_scope.

(** The contract assumed of the library's fit is met by an executable function. *)
Theorem C78_contract_met : exists ols, least_squares ols.
Proof. exists gram_schmidt. exact gram_schmidt_least_squares. Qed.
Print Assumptions C78_contract_met.

(** C78: the predictions are the best quadratic surfaces through the test points. *)
Theorem C78_best : forall ols pts r,
  least_squares ols -> train_points ols pts = Ok r ->
  best_surface (predict_cop r) (cop_points pts) /\ best_surface (predict_duty r) (duty_points pts).
Proof. intros ols pts r HL E. apply (train_points_best ols pts r HL E). Qed.
Print Assumptions C78_best.

(** Data lying on a quadratic surface are reproduced exactly. *)
Theorem C78_exact : forall ols pts r,
  least_squares ols -> train_points ols pts = Ok r ->
  (forall g, quadratic g -> passes g (cop_points pts) -> passes (predict_cop r) (cop_points pts)) /\
  (forall g, quadratic g -> passes g (duty_points pts) -> passes (predict_duty r) (duty_points pts)).
Proof.
  intros ols pts r HL E. destruct (train_points_best ols pts r HL E) as (_ & B & B').
  split; intros g Hg P; eapply best_passes; try eassumption; exists g; split; assumption.
Qed.
Print Assumptions C78_exact.

(** Over the test points the errors of the prediction cancel, also when weighted with either
    temperature. *)
Theorem C78_balanced : forall ols pts r,
  least_squares ols -> train_points ols pts = Ok r ->
  forall weight, quadratic weight ->
  qsum (map (fun p => (predict_cop r (p_ambient p) (p_flow p) - p_COSP p) * weight (p_ambient p) (p_flow p)) pts) == 0 /\
  qsum (map (fun p => (predict_duty r (p_ambient p) (p_flow p) - p_duty p) * weight (p_ambient p) (p_flow p)) pts) == 0.
Proof.
  intros ols pts r HL E w Hw. destruct (train_points_best ols pts r HL E) as (_ & B & B').
  pose proof (best_orthogonal _ _ w B Hw) as O. pose proof (best_orthogonal _ _ w B' Hw) as O'.
  unfold msum, cop_points, duty_points in O, O'. rewrite map_map in O, O'. unfold resid, at_m in O, O'. cbn [fst snd] in O, O'.
  split; assumption.
Qed.
Print Assumptions C78_balanced.
(** In particular (weight 1) the mean predicted COP over the test points is the mean COSP. *)
Theorem C78_mean : forall ols pts r,
  least_squares ols -> train_points ols pts = Ok r ->
  qsum (map (fun p => predict_cop r (p_ambient p) (p_flow p)) pts) == qsum (map p_COSP pts) /\
  qsum (map (fun p => predict_duty r (p_ambient p) (p_flow p)) pts) == qsum (map p_duty pts).
Proof.
  intros ols pts r HL E. destruct (C78_balanced ols pts r HL E (fun _ _ => 1) (quadratic_const 1)) as [B B'].
  assert (G : forall (h k : test_point -> Q), qsum (map (fun p => (h p - k p) * 1) pts) == qsum (map h pts) - qsum (map k pts)).
  { intros h k. clear. induction pts as [|p pts IH]; [unfold qsum; cbn; ring|]. cbn [map]. rewrite !qsum_cons, IH. ring. }
  rewrite G in B, B'. split; lra.
Qed.
Print Assumptions C78_mean.

Lemma squared_error_perm g pts pts' : Permutation pts pts' -> squared_error g pts == squared_error g pts'.
Proof.
  intro H. unfold squared_error. induction H; cbn [map]; rewrite ?qsum_cons; try lra; reflexivity.
Qed.
Lemma best_perm g pts pts' : Permutation pts pts' -> best_surface g pts -> best_surface g pts'.
Proof.
  intros H [Q B]. split; [exact Q|]. intros g' Q'. rewrite <- !(squared_error_perm _ pts pts' H). apply B, Q'.
Qed.
Lemma best_determined g g' pts : best_surface g pts -> best_surface g' pts -> determined pts -> forall a f, g a f == g' a f.
Proof.
  intros B B' D a f. assert (Z : g a f - g' a f == 0); [|lra].
  apply (D (fun a f => g a f - g' a f)).
  - apply quadratic_minus; [apply B|apply B'].
  - intros a0 f0 y I. rewrite (best_unique g g' pts B B' a0 f0 y I). ring.
Qed.

(** Neither the order of the rows nor the fitting algorithm matters at the tested temperatures,
    nor anywhere when these determine a quadratic surface. *)
Theorem C78_unique : forall ols ols' pts pts' r r',
  least_squares ols -> least_squares ols' -> Permutation pts pts' ->
  train_points ols pts = Ok r -> train_points ols' pts' = Ok r' ->
  (forall p, In p pts -> predict_cop r (p_ambient p) (p_flow p) == predict_cop r' (p_ambient p) (p_flow p) /\
                         predict_duty r (p_ambient p) (p_flow p) == predict_duty r' (p_ambient p) (p_flow p)) /\
  (determined (cop_points pts) -> forall a f, predict_cop r a f == predict_cop r' a f) /\
  (determined (duty_points pts) -> forall a f, predict_duty r a f == predict_duty r' a f).
Proof.
  intros ols ols' pts pts' r r' HL HL' HP E E'.
  destruct (train_points_best ols pts r HL E) as (_ & C & D). destruct (train_points_best ols' pts' r' HL' E') as (_ & C' & D').
  apply (best_perm _ _ (cop_points pts)) in C'; [|apply Permutation_map, Permutation_sym, HP].
  apply (best_perm _ _ (duty_points pts)) in D'; [|apply Permutation_map, Permutation_sym, HP].
  split; [|split; intros Hd a f; eapply best_determined; eassumption].
  intros p I. split.
  - apply (best_unique _ _ _ C C' _ _ (p_COSP p)). apply (in_map (fun p => (p_ambient p, p_flow p, p_COSP p))), I.
  - apply (best_unique _ _ _ D D' _ _ (p_duty p)). apply (in_map (fun p => (p_ambient p, p_flow p, p_duty p))), I.
Qed.
Print Assumptions C78_unique.

(** Scaling the duties of the tables, as a sweep over heat pump sizes does, scales the predicted
    duty at every tested temperature (everywhere when these determine a quadratic surface) and
    leaves every COP alone. *)
Theorem C78_scaled : forall ols tables ratio r r',
  least_squares ols ->
  train_points ols (regression_data tables) = Ok r ->
  train_points ols (regression_data (scale_tables ratio tables)) = Ok r' ->
  (forall a f, predict_cop r' a f = predict_cop r a f) /\
  (forall p, In p (regression_data tables) -> predict_duty r' (p_ambient p) (p_flow p) == ratio * predict_duty r (p_ambient p) (p_flow p)) /\
  (determined (duty_points (regression_data tables)) -> forall a f, predict_duty r' a f == ratio * predict_duty r a f).
Proof.
  intros ols tables ratio r r' HL E E'. rewrite regression_data_scale in E'. set (pts := regression_data tables) in *.
  destruct (train_points_best ols _ r HL E) as (_ & _ & D). destruct (train_points_best ols _ r' HL E') as (_ & _ & D').
  rewrite (duty_points_rescale ratio pts) in D' by (rewrite map_map; reflexivity).
  pose proof (best_rescale _ ratio _ D) as D2. split; [|split].
  - apply train_points_ok in E as [_ ->]. apply train_points_ok in E' as [_ ->].
    unfold predict_cop. cbn [r_cop]. rewrite !map_map. reflexivity.
  - intros p I. apply (best_unique _ _ _ D' D2 _ _ (p_duty p * ratio)). unfold rescale, duty_points. rewrite map_map. cbn [fst snd].
    apply (in_map (fun p => (p_ambient p, p_flow p, p_duty p * ratio))), I.
  - intro Hd. apply (best_determined _ _ _ D' D2). intros g Qg Z. apply Hd; [exact Qg|]. intros a f y I.
    apply (Z a f (y * ratio)). unfold rescale. apply (in_map (fun m => (fst m, snd m * ratio))) in I. exact I.
Qed.
Print Assumptions C78_scaled.

(** The hours of a heat pump with this model are points of the two best surfaces, at the hour's
    ambient and flow temperature; only peak data of an air source pump are derated, by a tenth
    at or below five degrees. *)
Theorem C78_hour : forall lc ols pts r hp flow ps h a f,
  least_squares ols -> train_points ols pts = Ok r ->
  h_model hp = MStandard (standard_oracle r) -> ~ h_capacity hp == 0 -> h_flow hp = PdSeries flow ->
  performance lc hp = Ok ps ->
  nth_error (heat_resource hp) h = Some a -> nth_error flow h = Some f ->
  exists cop_surface duty_surface,
    best_surface cop_surface (cop_points pts) /\ best_surface duty_surface (duty_points pts) /\
    hour_perf ps h (match h_data_input hp with
                    | INTEGRATED => cop_surface a f
                    | PEAK => if Qlt_le_dec 5 a then cop_surface a f else cop_surface a f * (9 # 10)
                    end)
              (duty_surface a f) /\
    (h_data_input hp = PEAK -> h_type hp = ASHP).
Proof.
  intros lc ols pts r hp flow ps h a f HL E HM NC HF HP Ha Hf.
  destruct (train_points_best ols pts r HL E) as (_ & C & D). exists (predict_cop r), (predict_duty r).
  split; [exact C|]. split; [exact D|].
  unfold performance in HP. rewrite (qeq_false _ _ NC), HM, HF in HP. cbn [bind dot_values standard_oracle std_cop std_duty] in HP.
  assert (Nc : nth_error (zip2 (predict_cop r) (heat_resource hp) flow) h = Some (predict_cop r a f)) by (apply zip2_nth; assumption).
  assert (Nd : nth_error (zip2 (predict_duty r) (heat_resource hp) flow) h = Some (predict_duty r a f)) by (apply zip2_nth; assumption).
  assert (PA : forall cs ds c d, perf_array cs ds = Ok ps -> nth_error cs h = Some c -> nth_error ds h = Some d -> nth_error ps h = Some {| cop := c; duty := d |}).
  { intros cs ds c d H1 H2 H3. unfold perf_array in H1. destruct (Nat.eqb _ _); [|discriminate]. apply Ok_inj in H1. rewrite <- H1.
    apply (zip2_nth (fun c d => {| cop := c; duty := d |})); assumption. }
  destruct (h_data_input hp).
  - split; [|discriminate]. exists {| cop := predict_cop r a f; duty := predict_duty r a f |}. split; [|split; reflexivity].
    eapply PA; eassumption.
  - destruct (h_type hp) eqn:T; try discriminate. split; [|reflexivity].
    assert (Nz : nth_error (zip2 (fun x t => x * defrost t) (zip2 (predict_cop r) (heat_resource hp) flow) (heat_resource hp)) h = Some (predict_cop r a f * defrost a)) by (apply (zip2_nth (fun x t => x * defrost t)); assumption).
    exists {| cop := predict_cop r a f * defrost a; duty := predict_duty r a f |}. split; [eapply PA; eassumption|].
    cbn [cop duty]. split; [|reflexivity]. unfold defrost. destruct (Qlt_le_dec 5 a) as [L|L]; qcases; try lra; try ring.
Qed.
Print Assumptions C78_hour.

(** ** Test data in the shape of the workbook *)
Definition tested (a f c d : Q) : test_point := {| p_ambient := a; p_flow := f; p_COSP := c; p_duty := d |}.
Definition example_points : list test_point :=
  [tested (-5) 35 1 6; tested 0 35 2 7; tested 5 35 3 8; tested (-5) 45 1 6; tested 0 45 2 7; tested (-5) 55 1 6].
Definition full (a c d : Q) : test_row := {| t_ambient := Some a; t_COSP := Some c; t_duty := Some d; t_percent := Some 100 |}.
Definition example_tables : list (list test_row * option Q) :=
  [([full (-5) 1 6; full 0 2 7; full 5 3 8], Some 35); ([full (-5) 1 6; full 0 2 7], Some 45); ([full (-5) 1 6], Some 55); ([], None)].

Lemma example_data : regression_data example_tables = example_points.
Proof. reflexivity. Qed.

Lemma example_determined sel : determined (map (fun p => (p_ambient p, p_flow p, sel p)) example_points).
Proof.
  intros g (c0 & c1 & c2 & c3 & c4 & c5 & H) Z.
  assert (Z' : forall p, In p example_points -> g (p_ambient p) (p_flow p) == 0).
  { intros p I. apply (Z _ _ (sel p)). apply (in_map (fun p => (p_ambient p, p_flow p, sel p))), I. }
  assert (E1 := Z' _ (or_introl eq_refl)).
  assert (E2 := Z' _ (or_intror (or_introl eq_refl))).
  assert (E3 := Z' _ (or_intror (or_intror (or_introl eq_refl)))).
  assert (E4 := Z' _ (or_intror (or_intror (or_intror (or_introl eq_refl))))).
  assert (E5 := Z' _ (or_intror (or_intror (or_intror (or_intror (or_introl eq_refl)))))).
  assert (E6 := Z' _ (or_intror (or_intror (or_intror (or_intror (or_intror (or_introl eq_refl))))))).
  rewrite H in E1, E2, E3, E4, E5, E6. cbn [p_ambient p_flow tested] in *.
  change (Qpower (-5) 2) with 25 in *. change (Qpower 35 2) with 1225 in *. change (Qpower 0 2) with 0 in *. change (Qpower 5 2) with 25 in *.
  change (Qpower 45 2) with 2025 in *. change (Qpower 55 2) with 3025 in *. clear Z Z'.
  assert (c3 == 0) by lra. assert (c4 == 0) by lra. assert (c5 == 0) by lra. assert (c1 == 0) by lra. assert (c2 == 0) by lra. assert (c0 == 0) by lra.
  intros a f. rewrite H, H0, H1, H2, H3, H4, H5. ring.
Qed.

Lemma example_trained ols : exists r, train_points ols example_points = Ok r.
Proof. eexists. reflexivity. Qed.

Lemma example_prediction ols r : least_squares ols -> train_points ols example_points = Ok r ->
  forall a f, predict_cop r a f == 2 + a * (1 # 5) /\ predict_duty r a f == 7 + a * (1 # 5).
Proof.
  intros HL E a f. destruct (train_points_best ols _ r HL E) as (_ & C & D).
  assert (G : forall c g sel, best_surface g (map (fun p => (p_ambient p, p_flow p, sel p)) example_points) ->
    (forall p, In p example_points -> sel p == c + p_ambient p * (1 # 5)) -> g a f == c + a * (1 # 5)).
  { intros c g sel B S. assert (QL : quadratic (fun a f => c + a * (1 # 5))) by (exists c, (1 # 5), 0, 0, 0, 0; intros; ring).
    assert (P : passes (fun a f => c + a * (1 # 5)) (map (fun p => (p_ambient p, p_flow p, sel p)) example_points)).
    { intros a0 f0 y I. apply in_map_iff in I as (p & Ep & I). injection Ep as <- <- <-. symmetry. apply S, I. }
    pose proof (best_passes _ _ B (ex_intro _ _ (conj QL P))) as PG.
    assert (Z : g a f - (c + a * (1 # 5)) == 0); [|lra].
    apply (example_determined sel (fun a f => g a f - (c + a * (1 # 5)))).
    - apply quadratic_minus; [apply B|exact QL].
    - intros a0 f0 y I. rewrite (PG _ _ _ I), (P _ _ _ I). ring. }
  split.
  - apply (G 2 _ p_COSP C). intros p I. repeat (destruct I as [<-|I]; [reflexivity|]). destruct I.
  - apply (G 7 _ p_duty D). intros p I. repeat (destruct I as [<-|I]; [reflexivity|]). destruct I.
Qed.

Example C78_case : exists r,
  train_points gram_schmidt (regression_data example_tables) = Ok r /\
  predict_cop r 10 40 == 4 /\ predict_duty r 10 40 == 9 /\ determined (duty_points (regression_data example_tables)).
Proof.
  destruct (example_trained gram_schmidt) as [r E]. exists r. rewrite example_data.
  split; [exact E|]. destruct (example_prediction _ _ gram_schmidt_least_squares E 10 40) as [P1 P2].
  split; [rewrite P1; reflexivity|]. split; [rewrite P2; reflexivity|]. apply example_determined.
Qed.
(** A case in which no surface passes through the points: equal temperatures, two results. *)
Example C78_case_mean : forall ols r, least_squares ols ->
  train_points ols [tested 0 35 2 7; tested 0 35 3 7] = Ok r -> predict_cop r 0 35 == 5 # 2.
Proof.
  intros ols r HL E. destruct (C78_mean _ _ _ HL E) as [M _]. cbn [map p_ambient p_flow p_COSP tested] in M.
  rewrite !qsum_cons in M. unfold qsum in M. cbn [fold_left] in M. lra.
Qed.

(** A heat pump to which [C78_hour] applies: peak data, 0 degrees outside, 35 degrees flow. *)
Example C78_case_hour : forall lc, exists r hp ps,
  train_points gram_schmidt example_points = Ok r /\ h_model hp = MStandard (standard_oracle r) /\
  performance lc hp = Ok ps /\ forall h, (Z.of_nat h < 8760)%Z -> hour_perf ps h (18 # 10) 7.
Proof.
  intro lc. destruct (example_trained gram_schmidt) as [r E].
  set (hp := {| h_type := ASHP; h_capacity := 10; h_ambient_delta_t := 5; h_minimum_runtime := 0; h_minimum_output := 0; h_data_input := PEAK;
    h_flow := PdSeries (repeat 35 ANNUAL_HOURS); h_return := PdSeries (repeat 30 ANNUAL_HOURS);
    h_air := repeat 0 ANNUAL_HOURS; h_water := repeat 8 ANNUAL_HOURS; h_model := MStandard (standard_oracle r) |}).
  assert (FY : forall q : Q, full_year (repeat q ANNUAL_HOURS)) by (intro q; unfold full_year; rewrite repeat_length; apply ANNUAL_HOURS_Z).
  assert (NC : ~ h_capacity hp == 0) by discriminate.
  assert (LN : forall (g : Q -> Q -> Q), length (zip2 g (repeat 0 ANNUAL_HOURS) (repeat 35 ANNUAL_HOURS)) = length (repeat 35 ANNUAL_HOURS)).
  { intro g. rewrite zip2_length; rewrite !repeat_length; reflexivity. }
  destruct (performance_standard lc hp (standard_oracle r) (repeat 35 ANNUAL_HOURS) NC eq_refl eq_refl (FY 35) (FY 0) (LN _) (LN _)) as (ps & P & _).
  exists r, hp, ps. split; [exact E|]. split; [reflexivity|]. split; [exact P|]. intros h H.
  assert (Hn : (h < ANNUAL_HOURS)%nat) by (pose proof ANNUAL_HOURS_Z; lia).
  destruct (C78_hour lc gram_schmidt example_points r hp (repeat 35 ANNUAL_HOURS) ps h 0 35 gram_schmidt_least_squares E eq_refl NC eq_refl P
    (nth_error_repeat_lt 0 _ h Hn) (nth_error_repeat_lt 35 _ h Hn)) as (cs & ds & B & B' & (p & Np & Pc & Pd) & _).
  destruct (train_points_best _ _ _ gram_schmidt_least_squares E) as (_ & C & D).
  destruct (example_prediction _ _ gram_schmidt_least_squares E 0 35) as [P1 P2].
  exists p. split; [exact Np|]. cbn [hp h_data_input] in Pc. destruct (Qlt_le_dec 5 0) as [L|L]; [discriminate|].
  rewrite Pc, Pd, (best_determined _ _ _ B C (example_determined p_COSP)), (best_determined _ _ _ B' D (example_determined p_duty)), P1, P2.
  split; reflexivity.
Qed.

(** C79: the test points are the rows, among the first eight of each table, without any
    missing cell. *)
Theorem C79_used : forall tables p,
  In p (regression_data tables) <-> exists rows flow, In (rows, flow) tables /\ measured rows flow p.
Proof.
  intros tables p. unfold regression_data. rewrite in_flat_map. split.
  - intros (r & I & C). apply in_flat_map in I as ([rows flow] & T & I). exists rows, flow. split; [exact T|].
    apply with_flow_In. exists r. split; assumption.
  - intros (rows & flow & T & M). apply with_flow_In in M as (r & I & C). exists r. split; [|exact C].
    apply in_flat_map. exists (rows, flow). split; [exact T|exact I].
Qed.
Print Assumptions C79_used.

(** Without a single complete row the model is refused, otherwise it is built. *)
Theorem C79_refused : forall ols pts, train_points ols pts = Err ValueError <-> pts = [].
Proof.
  intros ols pts. unfold train_points, train. rewrite !map_length, Nat.eqb_refl. cbn [negb orb].
  destruct pts; cbn [length Nat.eqb]; split; intro H; try reflexivity; discriminate.
Qed.
Print Assumptions C79_refused.
Theorem C79_built : forall ols pts, pts <> [] -> exists r, train_points ols pts = Ok r.
Proof.
  intros ols pts N. unfold train_points, train. rewrite !map_length, Nat.eqb_refl. cbn [negb orb].
  destruct pts; [contradiction|]. eexists. reflexivity.
Qed.
Print Assumptions C79_built.

(** Used directly, the model is refused when the three inputs differ in length. *)
Theorem C79_lengths : forall ols x cosp duties,
  train ols x cosp duties = Err IndexError <-> length x <> length cosp \/ length x <> length duties.
Proof.
  intros ols x cosp duties. unfold train.
  destruct (Nat.eqb_spec (length x) (length cosp)) as [A|A], (Nat.eqb_spec (length x) (length duties)) as [B|B]; cbn [negb orb];
    split; intro H; try reflexivity; try tauto.
  destruct (Nat.eqb (length x) 0); discriminate.
Qed.
Print Assumptions C79_lengths.

(** A row with all the values that the regression uses can be left out: the capacity
    percentage, which it does not use, is missing. *)
Definition no_percent (a c d : Q) : test_row := {| t_ambient := Some a; t_COSP := Some c; t_duty := Some d; t_percent := None |}.
Theorem C79_needed_refuted : exists tables rows flow k r a c d,
  In (rows, Some flow) tables /\ nth_error rows k = Some r /\ (k < 8)%nat /\
  t_ambient r = Some a /\ t_COSP r = Some c /\ t_duty r = Some d /\
  ~ In (tested a flow c d) (regression_data tables) /\
  forall ols, train_points ols (regression_data tables) = Err ValueError.
Proof.
  exists [([no_percent 0 3 8], Some 35)], [no_percent 0 3 8], 35, 0%nat, (no_percent 0 3 8), 0, 3, 8.
  split; [left; reflexivity|]. split; [reflexivity|]. split; [lia|]. repeat split; try reflexivity. cbn. tauto.
Qed.
Print Assumptions C79_needed_refuted.
(** It is used when the percentage is filled in. *)
Theorem C79_needed_partial : forall tables rows flow k r a c d pc,
  In (rows, Some flow) tables -> nth_error rows k = Some r -> (k < 8)%nat ->
  t_ambient r = Some a -> t_COSP r = Some c -> t_duty r = Some d -> t_percent r = Some pc ->
  In (tested a flow c d) (regression_data tables).
Proof.
  intros tables rows flow k r a c d pc T N K A C D P. apply C79_used. exists rows, (Some flow). split; [exact T|].
  exists k, r, pc. repeat split; assumption.
Qed.
Print Assumptions C79_needed_partial.
Example C79_case : In (tested 0 45 2 7) (regression_data example_tables) /\ length (regression_data example_tables) = 6%nat.
Proof. split; [cbn; tauto|reflexivity]. Qed.

(** C80: positive test results can give a negative COP, whatever least-squares fit is used. *)
Theorem C80_positive_refuted : exists pts a f,
  (forall p, In p pts -> 0 < p_COSP p /\ 0 < p_duty p) /\ determined (cop_points pts) /\
  (exists p, In p pts /\ p_flow p == f) /\
  forall ols r, least_squares ols -> train_points ols pts = Ok r -> predict_cop r a f < 0.
Proof.
  exists example_points, (-15), 35. split.
  { intros p I. repeat (destruct I as [<-|I]; [split; reflexivity|]). destruct I. }
  split; [apply example_determined|]. split; [exists (tested (-5) 35 1 6); split; [left; reflexivity|reflexivity]|].
  intros ols r HL E. destruct (example_prediction ols r HL E (-15) 35) as [P _]. rewrite P. reflexivity.
Qed.
Print Assumptions C80_positive_refuted.
(** The same with a negative heat output. *)
Theorem C80_duty_refuted : exists pts a f,
  (forall p, In p pts -> 0 < p_COSP p /\ 0 < p_duty p) /\ determined (duty_points pts) /\
  forall ols r, least_squares ols -> train_points ols pts = Ok r -> predict_duty r a f < 0.
Proof.
  exists example_points, (-40), 35. split.
  { intros p I. repeat (destruct I as [<-|I]; [split; reflexivity|]). destruct I. }
  split; [apply example_determined|].
  intros ols r HL E. destruct (example_prediction ols r HL E (-40) 35) as [_ P]. rewrite P. reflexivity.
Qed.
Print Assumptions C80_duty_refuted.
(** At the tested temperatures, results on a quadratic surface stay positive. *)
Theorem C80_positive_partial : forall ols pts r g,
  least_squares ols -> train_points ols pts = Ok r ->
  quadratic g -> passes g (cop_points pts) -> (forall p, In p pts -> 0 < p_COSP p) ->
  forall p, In p pts -> 0 < predict_cop r (p_ambient p) (p_flow p).
Proof.
  intros ols pts r g HL E Qg P Pos p I. destruct (C78_exact ols pts r HL E) as [X _].
  rewrite (X g Qg P _ _ (p_COSP p)); [apply Pos, I|]. apply (in_map (fun p => (p_ambient p, p_flow p, p_COSP p))), I.
Qed.
Print Assumptions C80_positive_partial.
