From Coq Require Import String Ascii.
From Verif Require Import Base BaseL M_HeatPump S_HeatPump.

Lemma qeq_false a b : ~ a == b -> qeq a b = false.
Proof. intro H. destruct (qeq_spec a b); [contradiction|reflexivity]. Qed.
Lemma qeq_true a b : a == b -> qeq a b = true.
Proof. intro H. destruct (qeq_spec a b); [reflexivity|contradiction]. Qed.

Lemma div_pos_le a b c : 0 < c -> a <= b -> a / c <= b / c.
Proof. intros Hc H. unfold Qdiv. apply Qmult_le_compat_r; [exact H|]. apply Qinv_le_0_compat. lra. Qed.

Lemma thermal_output_exact capacity e p d :
  ~ capacity == 0 -> 0 < cop p ->
  fst (thermal_output capacity e p d) == Qmin (e * cop p) (Qmin d (duty p)) /\
  snd (thermal_output capacity e p d) * cop p == fst (thermal_output capacity e p d).
Proof.
  intros Hc Hp. unfold thermal_output. rewrite qeq_false by exact Hc. cbn [fst snd].
  split.
  - rewrite !pmin_Qmin, Q.min_assoc. reflexivity.
  - field. lra.
Qed.

Lemma thermal_output_elec_bound capacity e p d :
  0 <= e -> 0 < cop p -> snd (thermal_output capacity e p d) <= e.
Proof.
  intros He Hp. unfold thermal_output. destruct (qeq_spec capacity 0); cbn [snd]; [exact He|].
  apply Qle_shift_div_r; [exact Hp|].
  eapply Qle_trans; [apply pmin_le_l|]. apply pmin_le_l.
Qed.

Lemma thermal_output_nonneg capacity e p d :
  0 <= e -> 0 <= d -> perf_ok p ->
  0 <= fst (thermal_output capacity e p d) /\ 0 <= snd (thermal_output capacity e p d).
Proof.
  intros He Hd [Hp Hu]. unfold thermal_output. destruct (qeq_spec capacity 0); cbn [fst snd]; [lra|].
  assert (0 <= pmin (pmin (e * cop p) d) (duty p)).
  { apply pmin_glb; [apply pmin_glb; [nra|lra]|lra]. }
  split; [assumption|]. apply Qle_shift_div_l; [exact Hp|]. lra.
Qed.

Lemma thermal_output_off capacity e p d :
  capacity == 0 -> thermal_output capacity e p d = (0, 0).
Proof. intro H. unfold thermal_output. rewrite qeq_true by exact H. reflexivity. Qed.

Lemma elec_usage_exact capacity d p :
  ~ capacity == 0 -> 0 < cop p -> elec_usage capacity d p * cop p == Qmin d (duty p).
Proof.
  intros Hc Hp. unfold elec_usage. rewrite qeq_false by exact Hc.
  destruct (pmin_cases (d / cop p) (duty p / cop p)) as [[E H]|[E H]]; rewrite E.
  - rewrite Q.min_l; [field; lra|].
    assert (A : d / cop p * cop p <= duty p / cop p * cop p) by (apply Qmult_le_compat_r; lra).
    setoid_replace (d / cop p * cop p) with d in A by (field; lra).
    setoid_replace (duty p / cop p * cop p) with (duty p) in A by (field; lra). exact A.
  - rewrite Q.min_r; [field; lra|].
    assert (A : duty p / cop p * cop p <= d / cop p * cop p) by (apply Qmult_le_compat_r; lra).
    setoid_replace (d / cop p * cop p) with d in A by (field; lra).
    setoid_replace (duty p / cop p * cop p) with (duty p) in A by (field; lra). exact A.
Qed.

Lemma elec_usage_off capacity d p : capacity == 0 -> elec_usage capacity d p = 0.
Proof. intro H. unfold elec_usage. rewrite qeq_true by exact H. reflexivity. Qed.

Lemma elec_usage_mono capacity d1 d2 p :
  0 < cop p -> d1 <= d2 -> elec_usage capacity d1 p <= elec_usage capacity d2 p.
Proof.
  intros Hp H. unfold elec_usage. destruct (qeq_spec capacity 0); [lra|].
  pose proof (div_pos_le d1 d2 (cop p) Hp H).
  apply pmin_glb.
  - eapply Qle_trans; [apply pmin_le_l|assumption].
  - apply pmin_le_r.
Qed.

Lemma Qmult_cancel_r a b c : 0 < c -> a * c == b * c -> a == b.
Proof. intros Hc H. apply Qmult_inj_r with c; [lra|exact H]. Qed.

Lemma elec_round_trip capacity e p d :
  0 < cop p ->
  elec_usage capacity (fst (thermal_output capacity e p d)) p == snd (thermal_output capacity e p d).
Proof.
  intro Hp. destruct (qeq_spec capacity 0) as [H|H].
  - rewrite thermal_output_off, elec_usage_off by exact H. reflexivity.
  - apply (Qmult_cancel_r _ _ (cop p)); [exact Hp|].
    rewrite elec_usage_exact by assumption.
    destruct (thermal_output_exact capacity e p d H Hp) as [E1 E2]. rewrite E2.
    apply Q.min_l. rewrite E1. eapply Qle_trans; [apply Q.le_min_r|apply Q.le_min_r].
Qed.

(** ** Enumerations *)
Lemma upper_ascii_idem c : upper_ascii (upper_ascii c) = upper_ascii c.
Proof. destruct c as [[] [] [] [] [] [] [] []]; reflexivity. Qed.
Lemma upper_idem s : upper (upper s) = upper s.
Proof. induction s as [|c s IH]; cbn [upper]; [reflexivity|]. rewrite upper_ascii_idem, IH. reflexivity. Qed.

Lemma read_enum_case_insensitive {A} (ms : list A) v s1 s2 :
  upper s1 = upper s2 -> read_enum ms v s1 = read_enum ms v s2.
Proof. intro H. unfold read_enum. rewrite H. reflexivity. Qed.

Lemma read_enum_spec {A} (ms : list A) v s :
  (forall a, read_enum ms v s = Ok a -> In a ms /\ v a = upper s) /\
  (read_enum ms v s = Err ValueError <-> ~ exists a, In a ms /\ v a = upper s).
Proof.
  unfold read_enum, from_value.
  destruct (existsb (fun m => String.eqb (v m) (upper s)) ms) eqn:E.
  - assert (Hex : exists a, In a ms /\ v a = upper s).
    { apply existsb_exists in E. destruct E as [a [Ha Hv]]. exists a. split; [exact Ha|apply String.eqb_eq; exact Hv]. }
    destruct (find (fun m => String.eqb (v m) (upper s)) ms) as [a|] eqn:F.
    + apply find_some in F. destruct F as [F1 F2]. split.
      * intros b [= <-]. split; [exact F1|apply String.eqb_eq; exact F2].
      * split; [discriminate|]. intro H. contradiction.
    + exfalso. destruct Hex as [a [Ha Hv]]. apply (find_none _ _ F) in Ha.
      rewrite Hv, String.eqb_refl in Ha. discriminate.
  - split; [discriminate|]. split; [|reflexivity].
    intros _ [a [Ha Hv]].
    assert (existsb (fun m => String.eqb (v m) (upper s)) ms = true).
    { apply existsb_exists. exists a. split; [exact Ha|]. rewrite Hv. apply String.eqb_refl. }
    congruence.
Qed.

Lemma read_fuel_spec s :
  (forall f, read_fuel s = Ok f <-> fuel_value f = upper s) /\
  (forall x, read_fuel s = Err x -> x = KeyError) /\
  (read_fuel s = Err KeyError <-> ~ exists f, fuel_value f = upper s).
Proof.
  unfold read_fuel, from_value. set (u := upper s).
  destruct (find (fun m => String.eqb (fuel_value m) u) fuels) as [a|] eqn:F.
  - apply find_some in F. destruct F as [_ F2]. apply String.eqb_eq in F2.
    split; [|split; [discriminate|split; [discriminate|intro H; exfalso; apply H; exists a; exact F2]]].
    intro f. split; [intros [= <-]; exact F2|]. rewrite <- F2. destruct f, a; cbn; congruence.
  - assert (N : forall f, fuel_value f <> u).
    { intros f H. assert (I : In f fuels) by (destruct f; cbn; auto 6). apply (find_none _ _ F) in I.
      rewrite H, String.eqb_refl in I. discriminate. }
    split; [|split; [congruence|split; [|reflexivity]]].
    + intro f. split; [discriminate|]. intro H. exfalso. exact (N f H).
    + intros _ [f H]. exact (N f H).
Qed.

(** ** Back-up heater *)
Lemma fuel_eqb_eq a b : fuel_eqb a b = true <-> a = b.
Proof. destruct a, b; cbn; split; congruence. Qed.

Lemma make_aux_spec f e t :
  match make_aux f e t with
  | Ok a => a_fuel a = f /\ a_efficiency a = e /\
            (f = ELECTRIC -> a_cost a = None /\ a_energy_density a = None) /\
            (f <> ELECTRIC -> exists c d, In (f, (c, d)) t /\ a_cost a = Some c /\ a_energy_density a = Some d)
  | Err x => x = KeyError /\ f <> ELECTRIC /\ ~ exists cd, In (f, cd) t
  end.
Proof.
  assert (Hl : forall f', match fuel_lookup t f' with
             | Some (c, d) => In (f', (c, d)) t
             | None => ~ exists cd, In (f', cd) t end).
  { intro f'. unfold fuel_lookup.
    destruct (find (fun e => fuel_eqb (fst e) f') (rev t)) as [[f0 [c d]]|] eqn:F; cbn [option_map snd].
    - apply find_some in F. destruct F as [F1 F2]. cbn [fst] in F2. apply fuel_eqb_eq in F2. subst f0.
      apply in_rev. exact F1.
    - intros [cd Hin]. apply in_rev in Hin. apply (find_none _ _ F) in Hin. cbn [fst] in Hin.
      assert (fuel_eqb f' f' = true) by (apply fuel_eqb_eq; reflexivity). congruence. }
  unfold make_aux.
  destruct f;
    try (match goal with |- context [fuel_lookup t ?x] => specialize (Hl x); destruct (fuel_lookup t x) as [[c d]|] end;
         cbn; [ repeat split; try congruence; intros _; exists c, d; auto
              | repeat split; [discriminate|exact Hl] ]).
  cbn. repeat split; intros; congruence.
Qed.

Lemma fuel_usage_spec e d :
  (e == 0 -> fuel_usage e d = Err ZeroDivisionError) /\
  (~ e == 0 -> exists u, fuel_usage e d = Ok u /\ u * e == d).
Proof.
  unfold fuel_usage. split; intro H.
  - rewrite qeq_true by exact H. reflexivity.
  - rewrite qeq_false by exact H. eexists; split; [reflexivity|]. field. exact H.
Qed.

(** ** Yearly inputs and model selection *)
Lemma ANNUAL_HOURS_Z : Z.of_nat ANNUAL_HOURS = 8760%Z.
Proof. unfold ANNUAL_HOURS. rewrite Z2Nat.id; [reflexivity|discriminate]. Qed.

Opaque ANNUAL_HOURS.

Lemma check_full_year_scalar q : check_full_year (Scalar q) = Ok (NpArray (repeat q ANNUAL_HOURS)).
Proof. unfold check_full_year. rewrite repeat_length, Nat.eqb_refl. reflexivity. Qed.
Lemma check_full_year_series l :
  (Z.of_nat (length l) = 8760%Z -> check_full_year (PdSeries l) = Ok (PdSeries l)) /\
  (Z.of_nat (length l) <> 8760%Z -> check_full_year (PdSeries l) = Err ValueError).
Proof.
  unfold check_full_year. rewrite <- ANNUAL_HOURS_Z.
  destruct (Nat.eqb_spec (length l) ANNUAL_HOURS); split; intro H; try reflexivity; lia.
Qed.
Lemma check_full_year_array l :
  (Z.of_nat (length l) = 8760%Z -> check_full_year (NpArray l) = Ok (NpArray l)) /\
  (Z.of_nat (length l) <> 8760%Z -> check_full_year (NpArray l) = Err ValueError).
Proof.
  unfold check_full_year. rewrite <- ANNUAL_HOURS_Z.
  destruct (Nat.eqb_spec (length l) ANNUAL_HOURS); split; intro H; try reflexivity; lia.
Qed.

Lemma zip2_length {A B C} (f : A -> B -> C) a b : length a = length b -> length (zip2 f a b) = length a.
Proof. revert b. induction a as [|x a IH]; intros [|y b] H; cbn in *; try reflexivity; try discriminate. f_equal. apply IH. lia. Qed.
Lemma zip4_length f a b c d : length a = length b -> length a = length c -> length a = length d -> length (zip4 f a b c d) = length a.
Proof. revert b c d. induction a as [|x a IH]; intros [|y b] [|z c] [|w d] H1 H2 H3; cbn in *; try reflexivity; try discriminate. f_equal. apply IH; lia. Qed.

Lemma zip2_nth {A B C} (f : A -> B -> C) a b i x y :
  nth_error a i = Some x -> nth_error b i = Some y -> nth_error (zip2 f a b) i = Some (f x y).
Proof.
  revert b i. induction a as [|x' a IH]; intros [|y' b] [|i]; cbn; try discriminate.
  - intros [= ->] [= ->]. reflexivity.
  - apply IH.
Qed.

Lemma perf_array_length c d l : perf_array c d = Ok l -> length l = length c.
Proof.
  unfold perf_array. destruct (Nat.eqb_spec (length c) (length d)); [|discriminate].
  intros [= <-]. apply zip2_length. exact e.
Qed.

Lemma nth_error_repeat_lt {A} (x : A) n i : (i < n)%nat -> nth_error (repeat x n) i = Some x.
Proof. revert i. induction n as [|n IH]; intros [|i] H; cbn; try lia; [reflexivity|]. apply IH. lia. Qed.

Lemma perf_array_repeat c d n : perf_array (repeat c n) (repeat d n) = Ok (repeat {| cop := c; duty := d |} n).
Proof.
  unfold perf_array. rewrite !repeat_length, Nat.eqb_refl. f_equal.
  induction n as [|n IH]; cbn; [reflexivity|]. f_equal. exact IH.
Qed.

Lemma performance_zero_capacity lc h :
  h_capacity h == 0 -> performance lc h = Ok (repeat {| cop := 1#2; duty := 0 |} ANNUAL_HOURS).
Proof. intro H. unfold performance. rewrite qeq_true by exact H. apply perf_array_repeat. Qed.

Lemma performance_simple lc h c :
  ~ h_capacity h == 0 -> h_model h = MSimple c ->
  performance lc h = Ok (repeat {| cop := c; duty := h_capacity h |} ANNUAL_HOURS).
Proof. intros H E. unfold performance. rewrite qeq_false by exact H. rewrite E. apply perf_array_repeat. Qed.

(** The workbook supplies the return temperature as a single number, so the
    Lorentz model can never be evaluated from it. *)
Lemma lorentz_scalar_return_fails lc h s q :
  ~ h_capacity h == 0 -> h_model h = MLorentz s ->
  check_full_year (Scalar q) = Ok (h_return h) ->
  performance lc h = Err AttributeError.
Proof.
  intros H E R. unfold performance. rewrite qeq_false by exact H. rewrite E.
  rewrite check_full_year_scalar in R. injection R as R. rewrite <- R.
  destruct (h_flow h); reflexivity.
Qed.

Lemma performance_lorentz_series lc h s f r :
  ~ h_capacity h == 0 -> h_model h = MLorentz s ->
  h_flow h = PdSeries f -> h_return h = PdSeries r ->
  full_year f -> full_year r -> full_year (heat_resource h) ->
  exists l, performance lc h = Ok l /\ full_year l /\
    forall i p, nth_error l i = Some p -> duty p <= h_capacity h.
Proof.
  intros H E F R Hf Hr Ha. unfold performance. rewrite qeq_false by exact H. rewrite E, F, R. cbn [dot_values bind].
  unfold full_year in *. pose proof ANNUAL_HOURS_Z as HA.
  set (cs := zip4 (lc s) f r (heat_resource h) _).
  assert (Hl : length cs = ANNUAL_HOURS).
  { unfold cs. rewrite zip4_length; try rewrite map_length; lia. }
  unfold perf_array. rewrite repeat_length, Hl, Nat.eqb_refl.
  eexists; split; [reflexivity|]. split.
  - rewrite zip2_length by (rewrite repeat_length; exact Hl). lia.
  - intros i p Hp.
    assert (Hgen : forall n cs i p, nth_error (zip2 (fun c d => {| cop := c; duty := d |}) cs
                  (repeat (lorentz_duty s (h_capacity h)) n)) i = Some p -> duty p = lorentz_duty s (h_capacity h)).
    { clear. induction n as [|n IH]; intros [|c cs] [|i] p; cbn; try discriminate.
      - intros [= <-]. reflexivity.
      - apply IH. }
    rewrite (Hgen _ _ _ _ Hp). apply pmin_le_r.
Qed.

Lemma init_generic_fails ty cap dt rt mo di fl re air wat s l o :
  init_heat_pump ty GENERIC cap dt rt mo di fl re air wat s l o = Err KeyError.
Proof. reflexivity. Qed.

Lemma make_model_missing :
  make_model SIMPLE None None None = Err ValueError /\
  make_model LORENTZ None None None = Err ValueError /\
  make_model STANDARD None None None = Err ValueError.
Proof. repeat split. Qed.

Lemma performance_standard lc h o f :
  ~ h_capacity h == 0 -> h_model h = MStandard o -> h_flow h = PdSeries f ->
  full_year f -> full_year (heat_resource h) ->
  length (std_cop o (heat_resource h) f) = length f ->
  length (std_duty o (heat_resource h) f) = length f ->
  match h_data_input h, h_type h with
  | INTEGRATED, _ | PEAK, ASHP => exists l, performance lc h = Ok l /\ full_year l
  | PEAK, _ => performance lc h = Err ValueError
  end.
Proof.
  intros H E F Hf Ha H1 H2. unfold performance. rewrite qeq_false by exact H. rewrite E, F. cbn [dot_values bind].
  unfold full_year in *.
  destruct (h_data_input h), (h_type h); try reflexivity;
    unfold perf_array;
    rewrite ?zip2_length by lia; rewrite H1, H2, Nat.eqb_refl;
    (eexists; split; [reflexivity|]); rewrite !zip2_length; rewrite ?zip2_length; lia.
Qed.

(** ** Generic regression *)
Lemma generic_cop_defrost ty flow amb :
  amb <= 5 ->
  generic_cop ty flow amb == (9#10) * (match ty with
    | ASHP => (681 # 100) - (121 # 1000) * (flow - amb) + (63 # 100000) * ((flow - amb) * (flow - amb))
    | _ => (877 # 100) - (15 # 100) * (flow - amb) + (734 # 1000000) * ((flow - amb) * (flow - amb)) end).
Proof.
  intro H. unfold generic_cop, defrost. destruct (qle_spec amb 5); [|lra]. destruct ty; ring.
Qed.

(** For the temperature lifts of the fit (up to 96 K) a larger lift at the same
    ambient never raises the COP. *)
Lemma generic_cop_antitone ty f1 f2 amb :
  f1 <= f2 -> f2 - amb <= 96 -> generic_cop ty f2 amb <= generic_cop ty f1 amb.
Proof.
  intros H1 H2. unfold generic_cop, defrost.
  set (x := f1 - amb). set (y := f2 - amb).
  assert (Hxy : x <= y) by (unfold x, y; lra). assert (Hy : y <= 96) by (unfold y; lra).
  assert (0 <= (y - x) * (192 - y - x)) by (apply Qmult_le_0_compat; lra).
  assert (Ha : (681 # 100) - (121 # 1000) * y + (63 # 100000) * (y * y) <=
               (681 # 100) - (121 # 1000) * x + (63 # 100000) * (x * x)) by nra.
  assert (Hg : (877 # 100) - (15 # 100) * y + (734 # 1000000) * (y * y) <=
               (877 # 100) - (15 # 100) * x + (734 # 1000000) * (x * x)) by nra.
  destruct ty; destruct (qle amb 5); nra.
Qed.
