From Verif Require Import Base BaseL M_HeatPump S_HeatPump L_HeatPump M_Tools S_Tools.

Lemma skipn_skipn {A} a b (l : list A) : skipn a (skipn b l) = skipn (b + a) l.
Proof. revert l. induction b as [|b IH]; intros [|x l]; cbn; try reflexivity; [destruct a; reflexivity|apply IH]. Qed.

(** Consecutive slices glue together. *)
Lemma pslice_app {A} (a b c : nat) (l : list A) :
  (a <= b <= c)%nat -> (pslice a b l ++ pslice b c l)%list = pslice a c l.
Proof.
  intros H. unfold pslice.
  replace (c - a)%nat with ((b - a) + (c - b))%nat by lia.
  replace (skipn b l) with (skipn (b - a) (skipn a l)).
  2: { rewrite skipn_skipn. f_equal. lia. }
  generalize (skipn a l) as m, (b - a)%nat as x, (c - b)%nat as y. clear.
  intros m x. revert m. induction x as [|x IH]; intros [|h m] y; cbn; try reflexivity.
  - destruct y; reflexivity.
  - f_equal. apply IH.
Qed.

Fixpoint chained (a : Z) (l : list (Z * Z)) : Prop :=
  match l with [] => True | (x, y) :: r => x = a /\ (0 <= x <= y)%Z /\ chained y r end.

Lemma concat_chain {A} (year : list A) l a :
  (0 <= a)%Z -> chained a l ->
  concat (map (fun ab => zslice (fst ab) (snd ab) year) l) = zslice a (last (map snd l) a) year
  /\ (a <= last (map snd l) a)%Z.
Proof.
  revert a. induction l as [|[x y] l IH]; intros a Ha H.
  - cbn. split; [|lia]. unfold zslice, pslice. rewrite Nat.sub_diag. reflexivity.
  - destruct H as [-> [H1 H2]]. destruct (IH y ltac:(lia) H2) as [E1 E2].
    cbn [map concat fst snd]. rewrite E1.
    rewrite last_cons_default. split; [|lia]. unfold zslice. apply pslice_app. lia.
Qed.

Lemma pslice_full {A} (n : nat) (l : list A) : length l = n -> pslice 0 n l = l.
Proof. intro H. unfold pslice. rewrite Nat.sub_0_r, skipn_O, <- H. apply firstn_all. Qed.

Lemma month_split_concat {A} (year : list A) : full_year year -> concat (month_split year) = year.
Proof.
  intro H. unfold month_split.
  destruct (concat_chain year month_bounds 0%Z) as [E _].
  - lia.
  - cbn. lia.
  - rewrite E. cbn [month_bounds map snd last]. unfold zslice, full_year in *.
    apply pslice_full. lia.
Qed.

Lemma zslice_length {A} a b (l : list A) :
  (0 <= a <= b)%Z -> (b <= Z.of_nat (length l))%Z -> Z.of_nat (length (zslice a b l)) = (b - a)%Z.
Proof. intros H1 H2. unfold zslice, pslice. rewrite firstn_length, skipn_length. lia. Qed.

Lemma month_split_lengths {A} (year : list A) : full_year year ->
  map (fun m => Z.of_nat (length m)) (month_split year) = map (fun d => 24 * d)%Z days_in_month.
Proof.
  intro H. unfold month_split, full_year in *. rewrite map_map.
  unfold month_bounds. cbn [map fst snd]. rewrite !zslice_length by lia. reflexivity.
Qed.

Lemma qsum_concat (ls : list (list Q)) : qsum (concat ls) == qsum (map qsum ls).
Proof. induction ls as [|l ls IH]; [reflexivity|]. cbn [concat map]. rewrite qsum_app, qsum_cons, IH. reflexivity. Qed.

Lemma sum_monthly_eq year : sum_monthly year = map (fun m => qsum m / 1000) (month_split year).
Proof. unfold sum_monthly, month_split. rewrite map_map. reflexivity. Qed.

Lemma qsum_scale c l : qsum (map (fun x => x / c) l) == qsum l / c.
Proof.
  induction l as [|x l IH]; [unfold Qdiv; cbn; ring|]. cbn [map]. rewrite !qsum_cons, IH. unfold Qdiv. ring.
Qed.

Lemma sum_monthly_total year : full_year year -> qsum (sum_monthly year) == sum_year year / 1000.
Proof.
  intro H. rewrite sum_monthly_eq, <- (map_map qsum (fun q => q / 1000)), qsum_scale.
  rewrite <- qsum_concat, month_split_concat by exact H. reflexivity.
Qed.

Lemma qsum_mono_bounds l lo hi : Forall (fun x => lo <= x <= hi) l ->
  lo * inject_Z (Z.of_nat (length l)) <= qsum l <= hi * inject_Z (Z.of_nat (length l)).
Proof.
  induction 1 as [|x l Hx Hl IH]; [cbn [length Z.of_nat qsum fold_right]; change (inject_Z 0) with 0; lra|].
  rewrite qsum_cons. cbn [length]. rewrite Nat2Z.inj_succ. unfold Z.succ. rewrite inject_Z_plus.
  change (inject_Z 1) with 1. lra.
Qed.

Lemma qmean_exact l : l <> [] -> qmean l * inject_Z (Z.of_nat (length l)) == qsum l.
Proof.
  intro H. unfold qmean. field. destruct l; [congruence|]. cbn [length]. 
  rewrite Nat2Z.inj_succ. intro E.
  assert (0 < inject_Z (Z.succ (Z.of_nat (length l)))) by (rewrite <- (Qlt_alt 0) || (change 0 with (inject_Z 0); rewrite <- Zlt_Qlt; lia)). lra.
Qed.

Lemma qmean_bounds l lo hi : l <> [] -> Forall (fun x => lo <= x <= hi) l -> lo <= qmean l <= hi.
Proof.
  intros H F. pose proof (qmean_exact l H) as E. pose proof (qsum_mono_bounds l lo hi F) as B.
  assert (0 < inject_Z (Z.of_nat (length l))).
  { destruct l; [congruence|]. change 0 with (inject_Z 0). rewrite <- Zlt_Qlt. cbn. lia. }
  set (n := inject_Z (Z.of_nat (length l))) in *. rewrite <- E in B.
  split; apply Qmult_lt_0_le_reg_r with n; lra.
Qed.

Lemma mean_monthly_eq year : mean_monthly year = map qmean (month_split year).
Proof. unfold mean_monthly, month_split. rewrite map_map. reflexivity. Qed.

Lemma month_nonempty {A} (year : list A) m : full_year year -> In m (month_split year) -> m <> [].
Proof.
  intros H Hin ->. pose proof (month_split_lengths year H) as E.
  apply (in_map (fun m => Z.of_nat (length m))) in Hin. rewrite E in Hin. cbn in Hin. intuition discriminate.
Qed.

Lemma mean_monthly_bounds year lo hi : full_year year -> Forall (fun x => lo <= x <= hi) year ->
  Forall (fun x => lo <= x <= hi) (mean_monthly year).
Proof.
  intros H F. rewrite mean_monthly_eq. apply Forall_forall. intros x Hx.
  apply in_map_iff in Hx. destruct Hx as [m [<- Hm]].
  apply qmean_bounds; [eapply month_nonempty; eassumption|].
  rewrite <- (month_split_concat year H) in F. rewrite Forall_forall in *.
  intros y Hy. apply F. apply in_concat. exists m. auto.
Qed.

Lemma mean_monthly_total year : full_year year ->
  qsum (zip2 (fun m d => m * inject_Z (24 * d)) (mean_monthly year) days_in_month) == sum_year year.
Proof.
  intro H. unfold sum_year. rewrite <- (month_split_concat year H) at 2. rewrite qsum_concat.
  pose proof (month_split_lengths year H) as L. rewrite mean_monthly_eq.
  assert (NE : forall m, In m (month_split year) -> m <> []) by (intros; eapply month_nonempty; eassumption).
  revert L NE. generalize (month_split year) as ms, days_in_month as ds. clear.
  induction ms as [|m ms IH]; intros [|d ds] L NE; try discriminate; [reflexivity|].
  cbn [map zip2] in L |- *. injection L as L1 L2. rewrite !qsum_cons, IH by (auto; intros; apply NE; right; auto).
  rewrite <- (qmean_exact m) by (apply NE; left; reflexivity). rewrite L1. reflexivity.
Qed.

(** ** Surplus and deficit *)
Lemma surplus_deficit_hour_spec g d :
  let b := surplus_deficit_hour g d in
  0 <= bal_surplus b /\ 0 <= bal_deficit b /\ (bal_surplus b == 0 \/ bal_deficit b == 0) /\ bal_surplus b - bal_deficit b == g - d /\ bal_RES_used b == d - bal_deficit b /\ bal_RES_used b == g - bal_surplus b /\ bal_match b == g - d.
Proof.
  cbn zeta. unfold surplus_deficit_hour. destruct (qle_spec (g - d) 0); cbn;
    destruct (pmin_cases g d) as [[E ?]|[E ?]]; rewrite E; repeat split; try lra;
    try (left; lra); right; lra.
Qed.

Lemma surplus_deficit_hour_values g d :
  let b := surplus_deficit_hour g d in
  bal_surplus b == Qmax 0 (g - d) /\ bal_deficit b == Qmax 0 (d - g) /\ bal_RES_used b == Qmin g d.
Proof.
  cbn zeta. unfold surplus_deficit_hour. destruct (qle_spec (g - d) 0); cbn; rewrite pmin_Qmin;
    (split; [|split]); try reflexivity.
  - rewrite Q.max_l; lra.
  - rewrite Q.max_r; lra.
  - rewrite Q.max_r; lra.
  - rewrite Q.max_l; lra.
Qed.

Lemma surplus_deficit_year_spec gen dem :
  match surplus_deficit_year gen dem with
  | Ok l => full_year gen /\ full_year dem /\ full_year l /\     forall h g d, nth_error gen h = Some g -> nth_error dem h = Some d ->
        nth_error l h = Some (surplus_deficit_hour g d)
  | Err KeyError => (Z.of_nat (length gen) < 8760 \/ Z.of_nat (length dem) < 8760)%Z
  | Err ValueError => (8760 < Z.of_nat (length gen) \/ 8760 < Z.of_nat (length dem))%Z
  | Err _ => False
  end.
Proof.
  pose proof ANNUAL_HOURS_Z as HA. unfold surplus_deficit_year, full_year.
  destruct (Nat.ltb_spec (Nat.min (length gen) (length dem)) ANNUAL_HOURS); [lia|].
  destruct (Nat.ltb_spec ANNUAL_HOURS (Nat.max (length gen) (length dem))); [lia|].
  repeat split; try lia.
  - rewrite zip2_length; lia.
  - intros h g d. apply zip2_nth.
Qed.

(** ** Balance checks *)
Lemma round1_pos_inv x : 0 < round1 x -> 1#20 <= x.
Proof.
  intro H. unfold round1, pround in *.
  assert (E : round_half_even (x * inject_Z 10) <> 0%Z /\ (0 < round_half_even (x * inject_Z 10))%Z).
  { assert (0 < round_half_even (x * inject_Z 10))%Z; [|lia].
    apply Z.nle_gt. intro C. rewrite Zle_Qle in C. change (inject_Z 0) with 0 in C.
    change (inject_Z 10) with 10 in *.
    assert (inject_Z (round_half_even (x * 10)) / 10 <= 0) by (apply Qle_shift_div_r; lra). lra. }
  destruct E as [_ E]. assert (E1 : (1 <= round_half_even (x * inject_Z 10))%Z) by lia.
  rewrite Zle_Qle in E1. change (inject_Z 1) with 1 in E1.
  pose proof (round_half_even_bounds (x * inject_Z 10)) as B. change (inject_Z 10) with 10 in *. lra.
Qed.
Lemma round1_zero_inv x : round1 x == 0 -> - (1#20) <= x <= 1#20.
Proof. intro H. pose proof (round1_bounds x). lra. Qed.
Lemma round1_neg_inv x : round1 x < 0 -> x <= - (1#20).
Proof.
  intro H. unfold round1, pround in *.
  assert (E : (round_half_even (x * inject_Z 10) < 0)%Z).
  { apply Z.nle_gt. intro C. rewrite Zle_Qle in C. change (inject_Z 0) with 0 in C.
    change (inject_Z 10) with 10 in *.
    assert (0 <= inject_Z (round_half_even (x * 10)) / 10) by (apply Qle_shift_div_l; lra). lra. }
  assert (E1 : (round_half_even (x * inject_Z 10) <= -1)%Z) by lia.
  rewrite Zle_Qle in E1. change (inject_Z (-1)) with (-1) in E1.
  pose proof (round_half_even_bounds (x * inject_Z 10)) as B. change (inject_Z 10) with 10 in *. lra.
Qed.

Lemma heat_demand_check_spec d g :
  match heat_demand_check d g with
  | Ok true => - (6#100) <= d - g <= 6#100
  | Ok false => 4#100 <= d - g
  | Err e => e = SystemExit /\ 4#100 <= g - d
  end.
Proof.
  unfold heat_demand_check. pose proof (round2_bounds d). pose proof (round2_bounds g).
  destruct (qeq_spec (round1 (round2 d - round2 g)) 0) as [E|E].
  - apply round1_zero_inv in E. lra.
  - destruct (qlt_spec 0 (round1 (round2 d - round2 g))) as [P|P].
    + apply round1_pos_inv in P. lra.
    + split; [reflexivity|]. assert (P' : round1 (round2 d - round2 g) < 0) by lra.
      apply round1_neg_inv in P'. lra.
Qed.

Lemma round2_of_cents a b : round2 (round2 a - round2 b) == round2 a - round2 b.
Proof.
  unfold round2 at 1, pround.
  set (i := round_half_even (a * inject_Z 100)). set (j := round_half_even (b * inject_Z 100)).
  assert (E : (round2 a - round2 b) * inject_Z 100 == inject_Z (i - j)).
  { unfold round2, pround. fold i j. unfold Z.sub. rewrite inject_Z_plus, inject_Z_opp.
    change (inject_Z 100) with 100. field. }
  assert (R : forall x k, x == inject_Z k -> round_half_even x = k).
  { clear. intros x k H. pose proof (round_half_even_bounds x) as B.
    assert (L : (round_half_even x < k + 1)%Z).
    { rewrite Zlt_Qlt, inject_Z_plus. change (inject_Z 1) with 1. lra. }
    assert (G : (k - 1 < round_half_even x)%Z).
    { rewrite Zlt_Qlt. unfold Z.sub. rewrite inject_Z_plus, inject_Z_opp. change (inject_Z 1) with 1. lra. }
    lia. }
  rewrite (R _ _ E). unfold round2, pround. fold i j.
  unfold Z.sub. rewrite inject_Z_plus, inject_Z_opp. change (inject_Z 100) with 100. field.
Qed.

Lemma surplus_check_spec s u :
  match surplus_check s u with
  | Ok true => round2 u < round2 s
  | Ok false => round2 u == round2 s
  | Err e => e = SystemExit /\ round2 s < round2 u
  end.
Proof.
  unfold surplus_check. pose proof (round2_of_cents s u) as E.
  destruct (qlt_spec 0 (round2 (round2 s - round2 u))) as [P|P]; [lra|].
  destruct (qeq_spec (round2 (round2 s - round2 u)) 0) as [Z|Z]; [lra|].
  split; [reflexivity|]. 
  assert (round2 (round2 s - round2 u) < 0) by lra. lra.
Qed.
