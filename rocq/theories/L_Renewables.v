(** Lemmas on renewable generation. *)
From Coq Require Import String Ascii.
From Verif Require Import Base BaseL M_Renewables S_Renewables L_FixedOrderRun L_Grid.
Open Scope Q_scope.
Local Open Scope list_scope.

(** ** Rounding is monotone *)
Lemma Qfloor_mono x y : x <= y -> (Qfloor x <= Qfloor y)%Z.
Proof. apply Qfloor_resp_le. Qed.

Lemma round_half_even_le x y : x <= y -> (round_half_even x <= round_half_even y)%Z.
Proof.
  intro H. unfold round_half_even. pose proof (Qfloor_mono _ _ H) as F.
  destruct (Z.eq_dec (Qfloor x) (Qfloor y)) as [E|E].
  - rewrite E. qcases; try lia; try lra. destruct (Z.even (Qfloor y)); lia. destruct (Z.even (Qfloor y)); lia.
  - assert ((Qfloor x + 1 <= Qfloor y)%Z) by lia.
    qcases; repeat match goal with |- context [Z.even ?a] => destruct (Z.even a) end; lia.
Qed.

Lemma pround_le n x y : x <= y -> pround n x <= pround n y.
Proof.
  intro H. unfold pround. apply Qmult_le_compat_r; [|apply Qinv_le_0_compat; rewrite <- (Zle_Qle 0); lia].
  rewrite <- Zle_Qle. apply round_half_even_le. apply Qmult_le_compat_r; [exact H|].
  rewrite <- (Zle_Qle 0). lia.
Qed.
Lemma round2_le x y : x <= y -> round2 x <= round2 y.
Proof. apply pround_le. Qed.

Lemma round2_nonpos x : x <= 0 -> round2 x <= 0.
Proof. intro H. apply (Qle_trans _ (round2 0)); [apply round2_le; exact H|vm_compute; discriminate]. Qed.

(** ** The correction loop *)
Lemma put_length {A} (l : list A) i x : (i < length l)%nat -> length (put l i x) = length l.
Proof.
  intro H. unfold put. rewrite app_length. cbn [length]. rewrite firstn_length, skipn_length. lia.
Qed.

Lemma put_nth {A} (l : list A) i x k : (i < length l)%nat ->
  nth_error (put l i x) k = if Nat.eqb k i then Some x else nth_error l k.
Proof.
  revert i k. induction l as [|a l IH]; intros i k H; cbn [length] in H; [lia|].
  destruct i as [|i]; destruct k as [|k]; try reflexivity.
  change (put (a :: l) (S i) x) with (a :: put l i x). cbn [nth_error Nat.eqb]. apply IH. lia.
Qed.

Lemma correction_nth m : (0 <= m < 12)%Z ->
  exists c, nth_error correction (Z.to_nat m) = Some c /\ c == month_factor m.
Proof.
  intro H. assert (m = 0 \/ m = 1 \/ m = 2 \/ m = 3 \/ m = 4 \/ m = 5 \/ m = 6 \/ m = 7 \/ m = 8 \/ m = 9 \/ m = 10 \/ m = 11)%Z as D by lia.
  repeat destruct D as [->|D]; try (subst m); (eexists; split; [reflexivity|reflexivity]).
Qed.

Lemma correct_loop (l : list Q) n : (Z.of_nat n <= 8760)%Z -> (n <= length l)%nat ->
  exists l', foldM correct_hour (zrange 0 (Z.of_nat n)) l = Ok l' /\ length l' = length l /\
    (forall k, (k < n)%nat -> exists x c, nth_error l k = Some x /\
       c == month_factor (Z.of_nat k / 730) /\ nth_error l' k = Some (x * c)) /\
    (forall k, (n <= k)%nat -> nth_error l' k = nth_error l k).
Proof.
  induction n as [|n IH]; intros H1 H2.
  - exists l. split; [reflexivity|]. split; [reflexivity|]. split; [intros; lia|reflexivity].
  - destruct IH as (l' & E & L & Hlo & Hhi); [lia|lia|].
    rewrite (zrange_split 0 (Z.of_nat n) (Z.of_nat (S n))) by lia.
    rewrite foldM_app, E. cbn [bind].
    assert (Z : zrange (Z.of_nat n) (Z.of_nat (S n)) = [Z.of_nat n]).
    { unfold zrange. replace (Z.to_nat (Z.of_nat (S n) - Z.of_nat n)) with 1%nat by lia. cbn [seq map]. f_equal. lia. }
    rewrite Z. cbn [foldM]. unfold correct_hour at 1. rewrite Nat2Z.id.
    assert (X : exists x, nth_error l n = Some x).
    { destruct (nth_error l n) as [x|] eqn:N; [exists x; reflexivity|]. apply nth_error_None in N. lia. }
    destruct X as [x X]. unfold pidx. rewrite (Hhi n (Nat.le_refl n)), X. cbn [bind].
    destruct (correction_nth (Z.of_nat n / 730)) as (c & C & Cf).
    { split; [apply Z.div_pos; lia|apply Z.div_lt_upper_bound; lia]. }
    rewrite C. cbn [bind].
    exists (put l' n (x * c)). split; [reflexivity|]. split; [rewrite put_length; lia|]. split.
    + intros k Hk. rewrite put_nth by lia. destruct (Nat.eqb_spec k n) as [->|Nk].
      * exists x, c. split; [exact X|]. split; [exact Cf|reflexivity].
      * apply Hlo. lia.
    + intros k Hk. rewrite put_nth by lia. destruct (Nat.eqb_spec k n); [lia|]. apply Hhi. lia.
Qed.

Lemma correct_short (l : list Q) : (length l < Z.to_nat 8760)%nat ->
  exists e, foldM correct_hour (zrange 0 8760) l = Err e.
Proof.
  intro H. rewrite (zrange_split 0 (Z.of_nat (length l)) 8760) by lia. rewrite foldM_app.
  destruct (correct_loop l (length l)) as (l' & E & L & Hlo & Hhi); [lia|lia|].
  rewrite E. cbn [bind].
  rewrite (zrange_split (Z.of_nat (length l)) (Z.of_nat (length l) + 1) 8760) by lia. rewrite foldM_app.
  assert (Z : zrange (Z.of_nat (length l)) (Z.of_nat (length l) + 1) = [Z.of_nat (length l)]).
  { unfold zrange. replace (Z.to_nat (Z.of_nat (length l) + 1 - Z.of_nat (length l))) with 1%nat by lia. cbn [seq map]. f_equal. lia. }
  rewrite Z. cbn [foldM]. unfold correct_hour at 1. rewrite Nat2Z.id. unfold pidx.
  rewrite (proj2 (nth_error_None l' (length l))) by lia. exists IndexError. reflexivity.
Qed.

(** ** PV *)
Definition kilowatts (k x : Q) : Q := round2 x * k * (1 # 1000) * (85 # 100) * (85 # 100).

Lemma pv_power_inv {module inverter} (run : pvlib_model module inverter) P out :
  pv_power run P = Ok out -> ~ pv_multiplier P == 0 ->
  exists weather ac, pv_weather (pv_rows P) = Ok weather /\
    run (pv_latitude P) (pv_longitude P) (pv_tilt P) (pv_azimuth P) (pv_module P) (pv_inverter P) weather = Ok ac /\
    length out = length ac /\ (hours_in_year <= length ac)%nat /\
    forall h a, (h < hours_in_year)%nat -> nth_error ac h = Some a ->
      hour_value out h (Qmax 0 (kilowatts (pv_multiplier P) (fillna0 a)) * month_factor (Z.of_nat h / 730)).
Proof.
  unfold pv_power. intros E N. destruct (qeq_spec (pv_multiplier P) 0) as [Z|_]; [contradiction|].
  destruct (pv_weather (pv_rows P)) as [weather|e]; cbn [bind] in E; [|discriminate].
  destruct (run (pv_latitude P) (pv_longitude P) (pv_tilt P) (pv_azimuth P) (pv_module P) (pv_inverter P) weather) as [ac|e] eqn:R; cbn [bind] in E; [|discriminate].
  exists weather, ac. split; [reflexivity|]. split; [exact R|].
  rewrite map_map in E.
  set (l := map _ ac) in E.
  assert (Ll : length l = length ac) by (unfold l; apply map_length).
  assert (Hlong : (hours_in_year <= length ac)%nat).
  { destruct (le_lt_dec hours_in_year (length ac)) as [H|H]; [exact H|].
    destruct (correct_short l) as [e Ee]; [rewrite Ll; exact H|]. rewrite Ee in E. discriminate. }
  destruct (correct_loop l hours_in_year) as (l' & E' & L' & Hlo & _); [unfold hours_in_year; lia|lia|].
  replace (Z.of_nat hours_in_year) with 8760%Z in E' by (unfold hours_in_year; lia).
  rewrite E' in E. injection E as <-. split; [congruence|]. split; [exact Hlong|].
  intros h a Hh Ha. destruct (Hlo h Hh) as (x & c & X & C & V).
  exists (x * c). split; [exact V|]. unfold l in X. rewrite nth_error_map, Ha in X. cbn [option_map] in X.
  injection X as <-. rewrite C. unfold kilowatts. set (q := _ * _ * _ * _ * _).
  assert (Q : (if qlt q 0 then 0 else q) == Qmax 0 q).
  { destruct (qlt_spec q 0) as [H|H]; symmetry; [apply Q.max_l; lra|apply Q.max_r; exact H]. }
  rewrite Q. reflexivity.
Qed.

Lemma pv_power_zero {module inverter} (run : pvlib_model module inverter) P :
  pv_multiplier P == 0 -> pv_power run P = Ok (repeat 0 hours_in_year).
Proof. intro H. unfold pv_power. destruct (qeq_spec (pv_multiplier P) 0); [reflexivity|contradiction]. Qed.

(** Success of the computation. *)
Lemma pv_power_ok {module inverter} (run : pvlib_model module inverter) P weather ac :
  pv_weather (pv_rows P) = Ok weather ->
  run (pv_latitude P) (pv_longitude P) (pv_tilt P) (pv_azimuth P) (pv_module P) (pv_inverter P) weather = Ok ac ->
  (hours_in_year <= length ac)%nat -> exists out, pv_power run P = Ok out.
Proof.
  intros W R L. unfold pv_power. destruct (qeq (pv_multiplier P) 0); [eexists; reflexivity|].
  rewrite W. cbn [bind]. rewrite R. cbn [bind]. rewrite map_map. set (l := map _ ac).
  destruct (correct_loop l hours_in_year) as (l' & E' & _); [unfold hours_in_year; lia|unfold l; rewrite map_length; exact L|].
  replace (Z.of_nat hours_in_year) with 8760%Z in E' by (unfold hours_in_year; lia). exists l'. exact E'.
Qed.

Lemma month_factor_pos m : (0 <= m < 12)%Z -> 0 < month_factor m.
Proof.
  intro H. assert (m = 0 \/ m = 1 \/ m = 2 \/ m = 3 \/ m = 4 \/ m = 5 \/ m = 6 \/ m = 7 \/ m = 8 \/ m = 9 \/ m = 10 \/ m = 11)%Z as D by lia.
  repeat destruct D as [->|D]; try (subst m); vm_compute; reflexivity.
Qed.
Lemma hour_month h : (h < hours_in_year)%nat -> (0 <= Z.of_nat h / 730 < 12)%Z.
Proof. unfold hours_in_year. intro H. split; [apply Z.div_pos; lia|apply Z.div_lt_upper_bound; lia]. Qed.

Lemma nth_error_repeat_lt {A} (x : A) n h : (h < n)%nat -> nth_error (repeat x n) h = Some x.
Proof. revert h. induction n as [|n IH]; intros [|h] H; [lia|lia|reflexivity|]. cbn [repeat nth_error]. apply IH. lia. Qed.

(** Calendar *)
Lemma months_close h : (0 <= h < 8760)%Z ->
  exists h', (0 <= h' < 8760)%Z /\ (- 44 <= h - h' <= 44)%Z /\ (h / 730 = calendar_month h')%Z.
Proof.
  intro H. unfold calendar_month.
  assert (M : (0 <= h / 730 < 12)%Z) by (split; [apply Z.div_pos; lia|apply Z.div_lt_upper_bound; lia]).
  assert (B : (730 * (h / 730) <= h < 730 * (h / 730) + 730)%Z).
  { pose proof (Z.mul_div_le h 730 ltac:(lia)). pose proof (Z.mul_succ_div_gt h 730 ltac:(lia)). lia. }
  set (m := (h / 730)%Z) in *. clearbody m.
  assert (D : (m = 0 \/ m = 1 \/ m = 2 \/ m = 3 \/ m = 4 \/ m = 5 \/ m = 6 \/ m = 7 \/ m = 8 \/ m = 9 \/ m = 10 \/ m = 11)%Z) by lia.
  assert (G : forall lo hi, (lo * 24 <= hi * 24 - 1 -> hi <= 365 -> 0 <= lo -> lo * 24 - 44 <= h -> h <= hi * 24 + 43 ->
             exists h', 0 <= h' < 8760 /\ -44 <= h - h' <= 44 /\ lo <= h' / 24 < hi)%Z).
  { intros lo hi P1 P2 P3 P4 P5. exists (Z.max (lo * 24) (Z.min (hi * 24 - 1) h)).
    split; [lia|]. split; [lia|]. split; [apply Z.div_le_lower_bound; lia|apply Z.div_lt_upper_bound; lia]. }
  repeat destruct D as [->|D]; try (subst m).
  Local Ltac fin G lo hi :=
    destruct (G lo hi) as (h' & H1 & H2 & H3); [lia|lia|lia|lia|lia|];
    exists h'; split; [exact H1|]; split; [exact H2|];
    repeat match goal with |- context [(?a <? ?b)%Z] => destruct (Z.ltb_spec a b); try lia end.
  - fin G 0%Z 31%Z.
  - fin G 31%Z 59%Z.
  - fin G 59%Z 90%Z.
  - fin G 90%Z 120%Z.
  - fin G 120%Z 151%Z.
  - fin G 151%Z 181%Z.
  - fin G 181%Z 212%Z.
  - fin G 212%Z 243%Z.
  - fin G 243%Z 273%Z.
  - fin G 273%Z 304%Z.
  - fin G 304%Z 334%Z.
  - fin G 334%Z 365%Z.
Qed.

(** ** Weather columns *)
Lemma pvlib_sees_pv_weather a b : same_irradiance a b ->
  match pv_weather a, pv_weather b with
  | Ok f, Ok g => pvlib_sees f = pvlib_sees g
  | Err e, Err e' => e = e'
  | _, _ => False
  end.
Proof.
  intro H. unfold pv_weather.
  assert (L : length a = length b) by (clear -H; induction H; [reflexivity|cbn [length]; congruence]).
  assert (M : map w_DHI a = map w_DHI b /\ map w_GHI a = map w_GHI b /\ map w_DNI a = map w_DNI b).
  { induction H as [|x y a b (H1 & H2 & H3) H IH]; [repeat split; reflexivity|].
    cbn [length] in L. destruct IH as (I1 & I2 & I3); [lia|]. cbn [map]. rewrite H1, H2, H3, I1, I2, I3. repeat split; reflexivity. }
  rewrite L. destruct (Nat.eqb (length b) year_rows); [|reflexivity].
  destruct M as (M1 & M2 & M3). unfold pv_columns. rewrite M1, M2, M3.
  unfold pvlib_sees.
  assert (C : forall p q (l : list (string * series)), filter p (filter q l) = filter q (filter p l)).
  { intros p q l. induction l as [|x l IH]; [reflexivity|]. cbn [filter].
    destruct (q x) eqn:Q, (p x) eqn:P; cbn [filter]; rewrite ?Q, ?P, IH; reflexivity. }
  rewrite (C _ _ (_ :: _)), (C _ _ (("dhi"%string, map w_DHI b) :: _ :: _ :: (_, map w_wind_10 b) :: _)). reflexivity.
Qed.

(** ** Names *)
Lemma replace1_chars c s : list_ascii_of_string (replace1 c s) =
  map (fun x => if Ascii.eqb x c then "_"%char else x) (list_ascii_of_string s).
Proof. unfold replace1. apply list_ascii_of_string_of_list_ascii. Qed.

Definition clean_char (x : ascii) : ascii :=
  if existsb (Ascii.eqb x) separators then "_"%char else x.

Lemma clean_name_chars s : list_ascii_of_string (clean_name s) = map clean_char (list_ascii_of_string s).
Proof.
  unfold clean_name. rewrite !replace1_chars, !map_map. apply map_ext. intro x.
  unfold clean_char, separators. cbn [existsb].
  repeat match goal with
  | |- context [Ascii.eqb x ?c] =>
      destruct (Ascii.eqb_spec x c); [subst x; vm_compute; reflexivity|]; cbn [orb]
  end.
  replace (Ascii.eqb x quote) with false.
  - repeat match goal with |- context [Ascii.eqb x ?c] => destruct (Ascii.eqb_spec x c); [contradiction|] end. reflexivity.
  - symmetry. apply Ascii.eqb_neq. assumption.
Qed.

Lemma clean_char_same x y : same_but_separators x y <-> y = clean_char x.
Proof.
  unfold same_but_separators, clean_char. destruct (existsb (Ascii.eqb x) separators) eqn:E.
  - apply existsb_exists in E as (c & I & Ec). apply Ascii.eqb_eq in Ec as <-. split.
    + intros [[_ H]|[H _]]; [exact H|contradiction].
    + intro H. left. split; assumption.
  - assert (N : ~ In x separators).
    { intro I. assert (existsb (Ascii.eqb x) separators = true) by (apply existsb_exists; exists x; split; [exact I|apply Ascii.eqb_refl]). congruence. }
    split.
    + intros [[H _]|[_ H]]; [contradiction|exact H].
    + intro H. right. split; assumption.
Qed.

Lemma library_name_clean p k : library_name p k <-> k = clean_name p.
Proof.
  unfold library_name.
  assert (G : forall l l', Forall2 same_but_separators l l' <-> l' = map clean_char l).
  { induction l as [|x l IH]; intro l'; split.
    - intro H. inversion H. reflexivity.
    - intros ->. constructor.
    - intro H. inversion H; subst. cbn [map]. f_equal; [apply clean_char_same; assumption|apply IH; assumption].
    - intros ->. cbn [map]. constructor; [apply clean_char_same; reflexivity|apply IH; reflexivity]. }
  rewrite G, <- clean_name_chars. split.
  - intro H. rewrite <- (string_of_list_ascii_of_string k), H. apply string_of_list_ascii_of_string.
  - intros ->. reflexivity.
Qed.

(** ** Wind *)
Lemma wind_frame (run : wind_model) (t : machine) (w : list wrow) name f c :
  (weather <- wind_weather w ;; p <- run t weather ;;
   Ok {| c_name := name; c_data := map (option_map f) p |}) = Ok c ->
  c_name c = name /\ exists weather p, wind_weather w = Ok weather /\ run t weather = Ok p /\ c_data c = map (option_map f) p.
Proof.
  destruct (wind_weather w) as [weather|e]; cbn [bind]; [|discriminate].
  destruct (run t weather) as [p|e] eqn:R; cbn [bind]; [|discriminate].
  intros [= <-]. split; [reflexivity|]. exists weather, p. repeat split; assumption.
Qed.

Lemma lib_watts_fun run t w h a b : lib_watts run t w h a -> lib_watts run t w h b -> a = b.
Proof. intros (f & p & F & P & N) (f' & p' & F' & P' & N'). congruence. Qed.

Lemma Ok_inj {A} (x y : A) : Ok x = Ok y -> x = y.
Proof. congruence. Qed.
