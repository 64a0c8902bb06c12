(** C30-C32, C53: electricity tariffs. *)
From Coq Require Import String.
From Verif Require Import Base BaseL M_FixedOrder M_Tank M_Grid S_Grid L_Grid.
Open Scope string_scope.

(** ** Example inputs: Thursdays cost 1, other days 0; market at 100 all year; the wind
    farm gives 10 in the first half of the year and nothing in the second. *)
Definition ex_grid (name : string) (year : Z) : grid :=
  {| g_tariff := name; g_flat := 12 # 100;
     g_periods := [ ("Monday", repeat 0 24); ("Tuesday", repeat 0 24); ("Wednesday", repeat 0 24);
                    ("Thursday", repeat 1 24); ("Friday", repeat 0 24); ("Saturday", repeat 0 24);
                    ("Sunday", repeat 0 24) ];
     g_year := year; g_market := repeat 100 (Z.to_nat 8760);
     g_premium := 10; g_maximum := 225; g_lower_percent := 3 # 4; g_higher_percent := 1 # 4;
     g_lower_penalty := 20; g_higher_discount := 30;
     g_wind := (repeat 10 (Z.to_nat 4380) ++ repeat 0 (Z.to_nat 4380))%list |}.
Example ex_grid_complete name year : (1 <= year <= 9999)%Z -> complete_inputs (ex_grid name year).
Proof.
  intro Hy. split; [|split; [exact Hy|split; [|split; [|split]]]].
  - intros d Hd. assert (E : (d = 0 \/ d = 1 \/ d = 2 \/ d = 3 \/ d = 4 \/ d = 5 \/ d = 6)%Z) by lia.
    decompose [or] E; subst; (eexists; split; [reflexivity|reflexivity]).
  - cbn [g_market ex_grid]. rewrite repeat_length. lia.
  - cbn [g_wind ex_grid]. rewrite app_length, !repeat_length. lia.
  - exists 75%Z. split; [lia|reflexivity].
  - exists 25%Z. split; [lia|reflexivity].
Qed.
Lemma ex_grid_series name year : In name known -> (1 <= year <= 9999)%Z -> exists l, import_cost_series (ex_grid name year) = Ok (Some l).
Proof. intros I Hy. apply series_total; [apply ex_grid_complete, Hy|exact I]. Qed.

(** ** C30 *)
Theorem C30_known_tariffs : forall G,
  let names := [ "Flat rates"; "Variable periods"; "Time of use - WM"; "Time of use - PPA + FR";
                 "Time of use - PPA + WM"; "Time of use - PPA + VP" ] in
  (In (g_tariff G) names -> init_grid G = Ok G) /\
  (~ In (g_tariff G) names -> init_grid G = Err UnboundLocalError /\ import_cost_series G = Ok None).
Proof. exact known_tariffs. Qed.
Print Assumptions C30_known_tariffs.
Theorem C30_complete_inputs_give_a_series : forall G, complete_inputs G -> init_grid G = Ok G ->
  exists l, import_cost_series G = Ok (Some l).
Proof.
  intros G H I. apply series_total; [exact H|]. rewrite init_grid_spec in I.
  destruct (in_dec string_dec (g_tariff G) known); [assumption|discriminate].
Qed.
Print Assumptions C30_complete_inputs_give_a_series.
Theorem C30_whole_year : forall G l, import_cost_series G = Ok (Some l) -> whole_year l.
Proof. exact series_year. Qed.
Print Assumptions C30_whole_year.
Theorem C30_flat_constant : forall G l, g_tariff G = "Flat rates" -> import_cost_series G = Ok (Some l) ->
  forall t, (0 <= t < 8760)%Z -> price_at l t (g_flat G).
Proof. exact flat_series. Qed.
Print Assumptions C30_flat_constant.
Theorem C30_period_prices : forall G l, g_tariff G = "Variable periods" -> import_cost_series G = Ok (Some l) ->
  forall k h, (0 <= k <= 364)%Z -> (0 <= h < 24)%Z -> exists p, price_at l (24 * k + h) p /\
    ((k < 364)%Z \/ ~ leap (g_year G) -> entered G (weekday_name (weekday (g_year G) k)) h p) /\
    (k = 364%Z -> leap (g_year G) -> entered G (weekday_name (weekday (g_year G) 365)) h p).
Proof. exact periods_series. Qed.
Print Assumptions C30_period_prices.
(** Full statement: every day carries the prices of its own weekday.  Missing: the last
    simulated day of a leap year. *)
Theorem C30_correct_weekday_partial : forall G l, ~ leap (g_year G) ->
  g_tariff G = "Variable periods" -> import_cost_series G = Ok (Some l) ->
  forall k h p, (0 <= k <= 364)%Z -> (0 <= h < 24)%Z -> price_at l (24 * k + h) p ->
  entered G (weekday_name (weekday (g_year G) k)) h p.
Proof.
  intros G l NL E H k h p Hk Hh Hp. destruct (periods_series G l E H k h Hk Hh) as (q & Hq & A & _).
  unfold price_at in *. rewrite Hq in Hp. injection Hp as <-. apply A. right. exact NL.
Qed.
Print Assumptions C30_correct_weekday_partial.
Theorem C30_correct_weekday_refuted : exists G l k h p,
  complete_inputs G /\ g_tariff G = "Variable periods" /\ import_cost_series G = Ok (Some l) /\
  (0 <= k <= 364)%Z /\ (0 <= h < 24)%Z /\ price_at l (24 * k + h) p /\
  ~ entered G (weekday_name (weekday (g_year G) k)) h p.
Proof.
  set (G := ex_grid "Variable periods" 2020).
  destruct (ex_grid_series "Variable periods" 2020) as [l Hl]; [cbn; tauto|lia|]. fold G in Hl.
  destruct (periods_series G l eq_refl Hl 364 0 ltac:(lia) ltac:(lia)) as (p & Hp & _ & B).
  exists G, l, 364%Z, 0%Z, p. split; [apply ex_grid_complete; lia|]. do 2 (split; [reflexivity || exact Hl|]).
  split; [lia|]. split; [lia|]. split; [exact Hp|].
  assert (L : leap 2020) by (apply leapb_spec; rewrite leapb_mod; reflexivity).
  specialize (B eq_refl L). intro W.
  assert (E1 : weekday (g_year G) 365 = 3%Z) by (unfold weekday; rewrite days_before_year_spec by (cbn; lia); reflexivity).
  assert (E2 : weekday (g_year G) 364 = 2%Z) by (unfold weekday; rewrite days_before_year_spec by (cbn; lia); reflexivity).
  rewrite E1 in B. rewrite E2 in W. destruct B as (c & F & N). destruct W as (c' & F' & N').
  cbn in F, F'. injection F as <-. injection F' as <-. cbn in N, N'. rewrite <- N in N'. discriminate N'.
Qed.
Print Assumptions C30_correct_weekday_refuted.
(** The hypotheses hold for the ordinary year 2021, which began on a Friday. *)
Example C30_ordinary_year : ~ leap 2021 /\ weekday 2021 0 = 4%Z /\ weekday 2021 364 = 4%Z /\
  exists l, import_cost_series (ex_grid "Variable periods" 2021) = Ok (Some l) /\
    price_at l 144 1 /\ price_at l 0 0.
Proof.
  assert (NL : ~ leap 2021) by (intro L; apply leapb_spec in L; rewrite leapb_mod in L; discriminate L).
  split; [exact NL|].
  do 2 (split; [unfold weekday; rewrite days_before_year_spec by lia; reflexivity|]).
  destruct (ex_grid_series "Variable periods" 2021) as [l Hl]; [cbn; tauto|lia|]. exists l. split; [exact Hl|].
  destruct (periods_series (ex_grid "Variable periods" 2021) l eq_refl Hl 6 0 ltac:(lia) ltac:(lia)) as (p & Hp & A & _).
  destruct (periods_series (ex_grid "Variable periods" 2021) l eq_refl Hl 0 0 ltac:(lia) ltac:(lia)) as (q & Hq & B & _).
  specialize (A (or_introl eq_refl)). specialize (B (or_introl eq_refl)). cbn [g_year ex_grid] in A, B.
  assert (E1 : weekday 2021 6 = 3%Z) by (unfold weekday; rewrite days_before_year_spec by lia; reflexivity).
  assert (E2 : weekday 2021 0 = 4%Z) by (unfold weekday; rewrite days_before_year_spec by lia; reflexivity).
  rewrite E1 in A. rewrite E2 in B. destruct A as (c & F & N). destruct B as (c' & F' & N').
  cbn in F, F'. injection F as <-. injection F' as <-. cbn in N, N'. injection N as <-. injection N' as <-. auto.
Qed.

(** ** C31 *)
Theorem C31_market_price : forall G l, g_tariff G = "Time of use - WM" -> import_cost_series G = Ok (Some l) ->
  forall d h, (0 <= d < 365)%Z -> (0 <= h < 24)%Z -> exists p m,
    price_at l (24 * d + h) p /\ price_at (g_market G) (24 * d + h) m /\
    ((16 <= h <= 18)%Z -> p == Qmin ((22#10) * m + g_premium G) (g_maximum G)) /\
    (~ (16 <= h <= 18)%Z -> p == Qmin ((22#10) * m) (g_maximum G)).
Proof. exact market_series. Qed.
Print Assumptions C31_market_price.
Theorem C31_never_above_maximum : forall G l, g_tariff G = "Time of use - WM" -> import_cost_series G = Ok (Some l) ->
  Forall (fun p => p <= g_maximum G) l.
Proof. exact market_capped. Qed.
Print Assumptions C31_never_above_maximum.
(** Market 100: 220 off peak; 230 at the peak is capped to 225. *)
Example C31_case : exists l, import_cost_series (ex_grid "Time of use - WM" 2021) = Ok (Some l) /\
  (exists p, price_at l 15 p /\ p == 220) /\ (exists p, price_at l 16 p /\ p == 225).
Proof.
  destruct (ex_grid_series "Time of use - WM" 2021) as [l Hl]; [cbn; tauto|lia|]. exists l. split; [exact Hl|].
  split.
  - destruct (market_series (ex_grid "Time of use - WM" 2021) l eq_refl Hl 0 15 ltac:(lia) ltac:(lia)) as (p & m & Hp & Hm & _ & B).
    exists p. split; [exact Hp|]. rewrite B by lia. apply nth_error_In, repeat_spec in Hm. subst m. reflexivity.
  - destruct (market_series (ex_grid "Time of use - WM" 2021) l eq_refl Hl 0 16 ltac:(lia) ltac:(lia)) as (p & m & Hp & Hm & A & _).
    exists p. split; [exact Hp|]. rewrite A by lia. apply nth_error_In, repeat_spec in Hm. subst m. reflexivity.
Qed.

(** ** C32 *)
Theorem C32_agreement_price : forall G base l name under,
  g_tariff G = name -> agreement_over name under ->
  import_cost_series (with_tariff under G) = Ok (Some base) -> import_cost_series G = Ok (Some l) ->
  exists lo hi, wind_farm_info G = Ok {| w_lower := lo; w_higher := hi; w_power := g_wind G |} /\
    (g_higher_percent G <= g_lower_percent G -> lo <= hi) /\
    forall t, (0 <= t < 8760)%Z -> exists p b q, price_at (g_wind G) t p /\ price_at base t b /\ price_at l t q /\
      (hi <= p -> q = b - g_higher_discount G) /\
      (p < hi -> p <= lo -> q = b + g_lower_penalty G) /\
      (p < hi -> lo < p -> q = b).
Proof. exact ppa_series_spec. Qed.
Print Assumptions C32_agreement_price.

(** Counting in the example wind series. *)
Lemma count_repeat (f : Q -> bool) x n : length (filter f (repeat x n)) = if f x then n else 0%nat.
Proof. induction n as [|n IH]; [cbn; destruct (f x); reflexivity|]. cbn [repeat filter]. destruct (f x); cbn [length]; [rewrite IH|exact IH]; reflexivity. Qed.
Lemma ex_bands name year lo hi pw :
  wind_farm_info (ex_grid name year) = Ok {| w_lower := lo; w_higher := hi; w_power := pw |} -> lo = 0 /\ hi = 10.
Proof.
  intro H. apply wind_inv in H as (HL & HH & _). cbn [w_lower w_higher] in *.
  apply band_counts in HL as (IL & _ & _ & _ & CL). apply band_counts in HH as (IH & _ & CH & _).
  cbn [g_wind g_lower_percent g_higher_percent ex_grid] in *. unfold count in *.
  rewrite filter_app, !app_length, !count_repeat, !repeat_length in *.
  apply in_app_or in IL. apply in_app_or in IH. split.
  - destruct IL as [I|I]; apply repeat_spec in I; [|exact I]. subst lo. exfalso.
    change (qlt 10 10) with false in CL. change (qlt 0 10) with true in CL. cbv iota in CL.
    rewrite Nat.add_0_l, Nat2Z.inj_add, Z2Nat.id in CL by lia. apply CL. reflexivity.
  - destruct IH as [I|I]; apply repeat_spec in I; [exact I|]. subst hi. exfalso.
    change (qlt 0 10) with true in CH. change (qlt 0 0) with false in CH. cbv iota in CH.
    rewrite Nat.add_0_r, Nat2Z.inj_add, Z2Nat.id in CH by lia. discriminate CH.
Qed.

(** Full statement: the maximum price is respected under an agreement too.  The
    penalty is added after the cap. *)
Theorem C32_maximum_refuted : exists G l, complete_inputs G /\ g_tariff G = "Time of use - PPA + WM" /\
  import_cost_series G = Ok (Some l) /\ exists t q, (0 <= t < 8760)%Z /\ price_at l t q /\ g_maximum G < q.
Proof.
  set (n := "Time of use - PPA + WM").
  destruct (ex_grid_series n 2021) as [l Hl]; [cbn; tauto|lia|].
  destruct (ex_grid_series "Time of use - WM" 2021) as [base Hb]; [cbn; tauto|lia|].
  exists (ex_grid n 2021), l. split; [apply ex_grid_complete; lia|]. split; [reflexivity|]. split; [exact Hl|].
  destruct (ppa_series_spec (ex_grid n 2021) base l _ _ eq_refl over_market Hb Hl) as (lo & hi & Ew & _ & H).
  apply ex_bands in Ew as [-> ->].
  destruct (H 4384%Z ltac:(lia)) as (p & b & q & Hp & Hbb & Hq & _ & P & _).
  unfold price_at in Hp. cbn [g_wind ex_grid] in Hp.
  rewrite nth_error_app2 in Hp by (rewrite repeat_length; lia). apply nth_error_In, repeat_spec in Hp. subst p.
  exists 4384%Z, q. split; [lia|]. split; [exact Hq|]. rewrite P by lra.
  destruct (market_series (ex_grid "Time of use - WM" 2021) base eq_refl Hb 182 16 ltac:(lia) ltac:(lia)) as (p & m & Ep & Em & A & _).
  unfold price_at in *. change (24 * 182 + 16)%Z with 4384%Z in *. rewrite Ep in Hbb. injection Hbb as <-.
  specialize (A ltac:(lia)). rewrite A. apply nth_error_In, repeat_spec in Em. subst m. reflexivity.
Qed.
Print Assumptions C32_maximum_refuted.
Theorem C32_maximum_partial : forall G l base, g_tariff G = "Time of use - PPA + WM" ->
  import_cost_series (with_tariff "Time of use - WM" G) = Ok (Some base) -> import_cost_series G = Ok (Some l) ->
  0 <= g_higher_discount G ->
  exists lo hi, wind_farm_info G = Ok {| w_lower := lo; w_higher := hi; w_power := g_wind G |} /\
    forall t p q, (0 <= t < 8760)%Z -> price_at (g_wind G) t p -> price_at l t q ->
      (lo < p \/ hi <= p \/ g_lower_penalty G <= 0 -> q <= g_maximum G) /\
      q <= g_maximum G + Qmax 0 (g_lower_penalty G).
Proof. exact ppa_max. Qed.
Print Assumptions C32_maximum_partial.
(** The hypotheses hold, with a discount in January and a penalty in December. *)
Example C32_case : exists base l, import_cost_series (ex_grid "Flat rates" 2021) = Ok (Some base) /\
  import_cost_series (ex_grid "Time of use - PPA + FR" 2021) = Ok (Some l) /\
  price_at l 0 ((12 # 100) - 30) /\ price_at l 8000 ((12 # 100) + 20).
Proof.
  set (n := "Time of use - PPA + FR").
  destruct (ex_grid_series n 2021) as [l Hl]; [cbn; tauto|lia|].
  destruct (ex_grid_series "Flat rates" 2021) as [base Hb]; [cbn; tauto|lia|].
  exists base, l. split; [exact Hb|]. split; [exact Hl|].
  destruct (ppa_series_spec (ex_grid n 2021) base l _ _ eq_refl over_flat Hb Hl) as (lo & hi & Ew & _ & H).
  apply ex_bands in Ew as [-> ->]. split.
  - destruct (H 0%Z ltac:(lia)) as (p & b & q & Hp & Hbb & Hq & P & _). unfold price_at in *.
    rewrite (flat_series (ex_grid "Flat rates" 2021) base eq_refl Hb 0 ltac:(lia)) in Hbb. injection Hbb as <-.
    cbn [g_wind ex_grid] in Hp. rewrite nth_error_app1 in Hp by (rewrite repeat_length; lia). apply nth_error_In, repeat_spec in Hp.
    subst p. rewrite P in Hq by lra. exact Hq.
  - destruct (H 8000%Z ltac:(lia)) as (p & b & q & Hp & Hbb & Hq & _ & P & _). unfold price_at in *.
    rewrite (flat_series (ex_grid "Flat rates" 2021) base eq_refl Hb 8000 ltac:(lia)) in Hbb. injection Hbb as <-.
    cbn [g_wind ex_grid] in Hp. rewrite nth_error_app2 in Hp by (rewrite repeat_length; lia). apply nth_error_In, repeat_spec in Hp.
    subst p. rewrite P in Hq by lra. exact Hq.
Qed.

(** ** C53 *)
(** A band splits the hours of the wind series in the entered proportion, up to half a
    percent, and is one of the outputs of the series. *)
Theorem C53_band_share : forall power percent b, band power percent = Ok b ->
  In b power /\
  (let n := inject_Z (Z.of_nat (length power)) in
   (percent - (1#200)) * n <= count (fun x => qle b x) power /\
   count (fun x => qlt b x) power < (percent + (1#200)) * n /\
   (1 - percent - (1#200)) * n < count (fun x => qle x b) power /\
   count (fun x => qlt x b) power <= (1 - percent + (1#200)) * n).
Proof. exact band_counts. Qed.
Print Assumptions C53_band_share.
(** A band exists exactly for whole percentages; any other entry stops the run. *)
Theorem C53_band_defined : forall power percent, (200 <= length power)%nat ->
  ((exists b, band power percent = Ok b) <-> whole_percent percent) /\
  (~ whole_percent percent -> band power percent = Err ValueError).
Proof. exact band_defined. Qed.
Print Assumptions C53_band_defined.
Example C53_case : exists b, band (g_wind (ex_grid "Flat rates" 2021)) (1#4) = Ok b /\ b = 10 /\
  band (g_wind (ex_grid "Flat rates" 2021)) (1#8) = Err ValueError.
Proof.
  destruct (wind_total (ex_grid "Flat rates" 2021)) as [[lo hi pw] Ew]; try apply (ex_grid_complete "Flat rates" 2021); try lia.
  pose proof (ex_bands _ _ _ _ _ Ew) as [-> ->]. apply wind_inv in Ew as (_ & E & _). exists 10. split; [exact E|]. split; [reflexivity|].
  apply C53_band_defined.
  - cbn [g_wind ex_grid]. rewrite app_length, !repeat_length. lia.
  - intros (k & Hk & E8). unfold Qdiv in E8. unfold Qeq in E8. cbn in E8. lia.
Qed.
