(** Lemmas about the figures. *)
From Coq Require Import String.
From Verif Require Import Base BaseL M_HeatPump M_Tools M_FixedOrder M_Sweep M_Kpi M_Plots S_Plots L_FixedOrderRun.
Open Scope string_scope.
Local Open Scope list_scope.
Local Open Scope nat_scope.

Ltac take H := match type of H with bind ?e _ = Ok _ =>
  let E := fresh "E" in let l := fresh "l" in destruct e as [l|] eqn:E; cbn [bind] in H; [|discriminate H] end.

Lemma nth_firstn {A} (l : list A) n i : nth_error (firstn n l) i = if i <? n then nth_error l i else None.
Proof.
  revert n i. induction l as [|x l IH]; intros n i; [rewrite firstn_nil; destruct (i <? n), i; reflexivity|].
  destruct n as [|n]; [destruct i; reflexivity|]. destruct i as [|i]; [reflexivity|]. cbn [firstn nth_error]. rewrite IH.
  change (S i <? S n) with (i <? n). reflexivity.
Qed.
Lemma nth_skipn {A} (l : list A) n i : nth_error (skipn n l) i = nth_error l (n + i).
Proof. revert l. induction n as [|n IH]; intros [|x l]; cbn [skipn Nat.add nth_error]; try reflexivity; [destruct i; reflexivity|]. apply IH. Qed.

Lemma skipn_at {A} (l : list A) a x : nth_error l a = Some x -> skipn a l = x :: skipn (S a) l.
Proof.
  revert l. induction a as [|a IH]; intros [|y l] H; try discriminate H; [injection H as ->; reflexivity|].
  change (skipn (S a) (y :: l)) with (skipn a l). rewrite (IH l H). reflexivity.
Qed.

Lemma collect_from {A} (rs : list record) (f : record -> A) N : forall a l,
  mapM (fun i => r <- pidx rs i ;; Ok (f r)) (seq a N) = Ok l ->
  l = map f (firstn N (skipn a rs)) /\ (N = 0 \/ a + N <= length rs).
Proof.
  induction N as [|N IH]; intros a l H.
  - cbn in H. injection H as <-. split; [reflexivity|left; reflexivity].
  - cbn [seq mapM] in H. unfold pidx in H at 1. destruct (nth_error rs a) as [r|] eqn:E; cbn [bind] in H; [|discriminate H].
    destruct (mapM _ (seq (S a) N)) as [l'|] eqn:M; cbn [bind] in H; [|discriminate H]. apply IH in M as [-> M].
    injection H as <-. pose proof (nth_error_Some rs a) as B. rewrite E in B.
    assert (a < length rs) by (apply B; discriminate).
    split; [|right; destruct M; lia].
    rewrite (skipn_at _ _ _ E). reflexivity.
Qed.
Lemma collect_to {A} (rs : list record) (f : record -> A) N : forall a,
  a + N <= length rs -> exists l, mapM (fun i => r <- pidx rs i ;; Ok (f r)) (seq a N) = Ok l.
Proof.
  induction N as [|N IH]; intros a H; [exists []; reflexivity|].
  cbn [seq mapM]. unfold pidx at 1. destruct (nth_error rs a) as [r|] eqn:E.
  - cbn [bind]. destruct (IH (S a)) as [l ->]; [lia|]. eexists. reflexivity.
  - apply nth_error_None in E. lia.
Qed.

Definition column {A} (rs : list record) (n : Z) (f : record -> A) : list A := map f (firstn (Z.to_nat n) rs).
Lemma collect_inv {A} rs n (f : record -> A) l :
  collect rs n f = Ok l -> l = column rs n f /\ Z.to_nat n <= length rs.
Proof. intro H. apply collect_from in H as [-> H]. rewrite skipn_O. split; [reflexivity|]. destruct H; lia. Qed.
Lemma collect_ok {A} rs n (f : record -> A) : Z.to_nat n <= length rs -> collect rs n f = Ok (column rs n f).
Proof.
  intro H. destruct (collect_to rs f (Z.to_nat n) 0) as [l E]; [lia|]. unfold collect. rewrite E.
  apply collect_from in E as [-> _]. reflexivity.
Qed.
Lemma column_nth {A} rs n (f : record -> A) i y :
  nth_error (column rs n f) i = Some y <-> i < Z.to_nat n /\ exists rc, nth_error rs i = Some rc /\ y = f rc.
Proof.
  unfold column. rewrite nth_error_map, nth_firstn. destruct (Nat.ltb_spec i (Z.to_nat n)).
  - destruct (nth_error rs i) as [rc|]; cbn; split.
    + intros [= <-]. eauto.
    + intros (_ & r & [= <-] & ->). reflexivity.
    + discriminate.
    + intros (_ & r & E & _). discriminate E.
  - cbn. split; [discriminate|lia].
Qed.
Lemma column_length {A} rs n (f : record -> A) : Z.to_nat n <= length rs -> length (column rs n f) = Z.to_nat n.
Proof. intro H. unfold column. rewrite map_length, firstn_length. lia. Qed.

Lemma cut_nth {A} w (l : list A) i :
  (0 <= fst w)%Z -> nth_error (cut w l) i = if i <? Z.to_nat (snd w) then nth_error l (Z.to_nat (fst w) + i) else None.
Proof.
  intro H. unfold cut, zslice, pslice. rewrite nth_firstn, nth_skipn.
  replace (Z.to_nat (fst w + snd w) - Z.to_nat (fst w)) with (Z.to_nat (snd w)) by lia. reflexivity.
Qed.
Lemma cut_length {A} w (l : list A) :
  (0 <= fst w)%Z -> Z.to_nat (fst w) + Z.to_nat (snd w) <= length l -> length (cut w l) = Z.to_nat (snd w).
Proof.
  intros H L. unfold cut, zslice, pslice. rewrite firstn_length, skipn_length. lia.
Qed.

Lemma draw_inv s t xl yl leg x ys P :
  draw s t xl yl leg x ys = Ok P ->
  P = {| pn_shape := s; pn_title := t; pn_xlabel := xl; pn_ylabel := yl; pn_legend := leg;
         pn_ticks := []; pn_total := None; pn_x := x; pn_y := ys |} /\
  Forall (fun y => length y = length x) ys.
Proof.
  unfold draw. intro H.
  assert (M : forall zs, mapM (fun y : list Q => if Nat.eqb (length x) (length y) then Ok y else Err ValueError) ys = Ok zs ->
    zs = ys /\ Forall (fun y => length y = length x) ys).
  { clear H. induction ys as [|y ys IH]; intros zs E; cbn [mapM] in E.
    - injection E as <-. split; [reflexivity|constructor].
    - destruct (Nat.eqb_spec (length x) (length y)); cbn [bind] in E; [|discriminate E].
      destruct (mapM _ ys) as [l|]; cbn [bind] in E; [|discriminate E]. destruct (IH l eq_refl) as [-> F].
      injection E as <-. split; [reflexivity|]. constructor; [congruence|exact F]. }
  destruct (mapM _ ys) as [zs|]; cbn [bind] in H; [|discriminate H]. destruct (M zs eq_refl) as [-> F].
  injection H as <-. split; [reflexivity|exact F].
Qed.
Lemma draw_ok s t xl yl leg x ys :
  Forall (fun y => length y = length x) ys -> exists P, draw s t xl yl leg x ys = Ok P.
Proof.
  intro F. unfold draw.
  assert (E : mapM (fun y : list Q => if Nat.eqb (length x) (length y) then Ok y else Err ValueError) ys = Ok ys).
  { induction F as [|y ys Hy F IH]; [reflexivity|]. cbn [mapM]. rewrite Hy, Nat.eqb_refl. cbn [bind]. rewrite IH. reflexivity. }
  rewrite E. eexists. reflexivity.
Qed.

(** The columns of the array of node temperatures. *)
Lemma columns_inv rows ys :
  columns rows = Ok ys ->
  (rows = [] /\ ys = [[]]) \/
  exists k, 0 < length rows /\ Forall (fun r => length r = k) rows /\ length ys = k /\
    forall j col, nth_error ys j = Some col -> j < k /\ length col = length rows /\
      forall i y, nth_error col i = Some y <-> exists r, nth_error rows i = Some r /\ nth_error r j = Some y.
Proof.
  unfold columns, nodes in *. destruct rows as [|row rows]; [intros [= <-]; left; split; reflexivity|]. intro H. right.
  destruct (forallb _ _) eqn:F; [|discriminate H]. injection H as <-.
  set (all := row :: rows) in *. rewrite forallb_forall in F. exists (length row).
  split; [cbn; lia|]. split; [apply Forall_forall; intros r Hr; apply Nat.eqb_eq; apply F; exact Hr|].
  split; [rewrite map_length, seq_length; reflexivity|].
  intros j col Hc. rewrite nth_error_map in Hc. destruct (nth_error (seq 0 (length row)) j) as [j'|] eqn:E; [|discriminate Hc].
  injection Hc as <-.
  assert (Hj : j < length row) by (pose proof (nth_error_Some (seq 0 (length row)) j) as B; rewrite E, seq_length in B; apply B; discriminate).
  rewrite (nth_error_nth' _ 0) in E by (rewrite seq_length; exact Hj). rewrite seq_nth in E by exact Hj. injection E as <-. cbn [Nat.add].
  change (nth j row 0%Q :: map (fun r : list Q => nth j r 0%Q) rows) with (map (fun r : list Q => nth j r 0%Q) all).
  split; [exact Hj|]. split; [apply map_length|].
  intros i y. rewrite nth_error_map. destruct (nth_error all i) as [r|] eqn:Er; cbn [option_map].
  - assert (L : length r = length row) by (apply Nat.eqb_eq, F, (nth_error_In _ _ Er)).
    assert (N : nth_error r j = Some (nth j r 0%Q)) by (apply nth_error_nth'; lia).
    split.
    + intros [= <-]. exists r. split; [reflexivity|exact N].
    + intros (r' & [= <-] & N'). congruence.
  - split; [discriminate|]. intros (r' & E & _). discriminate E.
Qed.
Lemma columns_ok rows k : Forall (fun r => length r = k) rows ->
  exists ys, columns rows = Ok ys /\ Forall (fun y => length y = length rows) ys.
Proof.
  intro F. destruct rows as [|row rows]; [exists [[]]; split; [reflexivity|repeat constructor]|].
  unfold columns. pose proof (Forall_inv F) as E. cbn in E.
  assert (B : forallb (fun r => Nat.eqb (length r) (length row)) (row :: rows) = true).
  { apply forallb_forall. intros r Hr. rewrite Forall_forall in F. rewrite (F r Hr), E. apply Nat.eqb_refl. }
  rewrite B. eexists. split; [reflexivity|]. apply Forall_forall. intros y Hy. apply in_map_iff in Hy as (j & <- & _).
  apply map_length.
Qed.

(** ** What a figure holds *)
Definition holds (rs : list record) (n : Z) (w : Z * Z) (xs : list Z) (fig : figure) : Prop :=
  Z.to_nat n <= length rs /\ time_axis fig hour_axis /\
  (forall p c leg q, shows (fg_file fig) p c leg q ->
     named fig p c leg /\ exists P, nth_error (fg_panels fig) p = Some P /\ pn_x P = xs /\
       nth_error (pn_y P) c = Some (cut w (column rs n q)) /\ length (cut w (column rs n q)) = length xs) /\
  (forall p, shows_nodes (fg_file fig) p ->
     exists P, nth_error (fg_panels fig) p = Some P /\ pn_x P = xs /\ columns (cut w (column rs n r_nodes)) = Ok (pn_y P) /\
       Forall (fun y => length y = length xs) (pn_y P)) /\
  (forall p title qs, stacked (fg_file fig) p title qs ->
     exists P, nth_error (fg_panels fig) p = Some P /\ pn_shape P = Stacked /\ pn_title P = title /\ pn_x P = xs /\
       pn_y P = map (fun q => cut w (column rs n q)) qs /\
       Forall (fun q => length (cut w (column rs n q)) = length xs) qs).

Ltac known :=
  repeat match goal with
  | E : series _ _ _ = Ok _ |- _ => unfold series in E
  | E : collect _ _ _ = Ok _ |- _ => apply collect_inv in E; let L := fresh "L" in destruct E as [E L]; subst
  | E : draw _ _ _ _ _ _ _ = Ok _ |- _ => apply draw_inv in E; let F := fresh "F" in destruct E as [E F]; subst
  | E : draw_nodes _ _ _ _ _ _ = Ok _ |- _ => unfold draw_nodes in E; take E
  end.
Ltac lengths :=
  repeat match goal with
  | F : Forall _ (_ :: _) |- _ => let F1 := fresh "F" in let F2 := fresh "F" in inversion_clear F as [|? ? F1 F2]
  end.
Ltac all_curves :=
  let p := fresh "p" in let c := fresh "c" in let leg := fresh "leg" in let q := fresh "q" in let S := fresh "S" in
  intros p c leg q S; cbn [fg_file] in S; inversion S; subst; clear S;
  (split; [eexists; split; reflexivity|]);
  eexists; (split; [reflexivity|]); (split; [reflexivity|]); (split; [reflexivity|]); assumption.
Ltac all_stacks :=
  let p := fresh "p" in let t := fresh "t" in let qs := fresh "qs" in let S := fresh "S" in
  intros p t qs S; cbn [fg_file] in S; inversion S; subst; clear S;
  eexists; (split; [reflexivity|]); (split; [reflexivity|]); (split; [reflexivity|]); (split; [reflexivity|]);
  (split; [reflexivity|]); repeat constructor; assumption.
Ltac all_nodes := intros p S; cbn [fg_file] in S; inversion S; subst; clear S.

Lemma operation_inv rs n s per fig :
  operation rs n s per = Ok fig ->
  exists w, period_timesteps n s per = Ok w /\ fg_file fig = "operation.png" /\ holds rs n w (zrange 0 (snd w)) fig.
Proof.
  unfold operation. intro H. repeat take H. known. injection H as <-.
  eexists. split; [reflexivity|]. split; [reflexivity|].
  split; [assumption|]. split; [eexists; split; reflexivity|].
  split; [lengths; all_curves|].
  split; [|all_stacks]. all_nodes. eexists. split; [reflexivity|]. split; [reflexivity|]. split; [eassumption|assumption].
Qed.
Lemma elec_inv rs n s per fig :
  elec_demand_and_RES rs n s per = Ok fig ->
  exists w, period_timesteps n s per = Ok w /\ fg_file fig = "electricity_demand_and_generation.png" /\ holds rs n w (hours w) fig.
Proof.
  unfold elec_demand_and_RES. intro H. repeat take H. known. injection H as <-.
  eexists. split; [reflexivity|]. split; [reflexivity|].
  split; [assumption|]. split; [eexists; split; reflexivity|].
  split; [lengths; all_curves|]. split; [all_nodes|]. lengths; all_stacks.
Qed.
Lemma heat_inv rs n s per figs :
  HP_and_heat_demand rs n s per = Ok figs ->
  exists w f1 f2, period_timesteps n s per = Ok w /\ figs = [f1; f2] /\
    fg_file f1 = "heat_demand_and_heat_pump.png" /\ holds rs n w (hours w) f1 /\
    fg_file f2 = "heatpump_cop_and_duty.png" /\ holds rs n w (hours w) f2.
Proof.
  unfold HP_and_heat_demand. intro H. repeat take H. known. injection H as <-.
  eexists _, _, _. split; [reflexivity|]. split; [reflexivity|].
  split; [reflexivity|]. split; [|split; [reflexivity|]].
  all: (split; [assumption|]); (split; [eexists; split; reflexivity|]); (split; [lengths; all_curves|]); (split; [all_nodes|]); lengths; all_stacks.
Qed.
Lemma TS_inv rs n s per fig :
  TS rs n s per = Ok fig ->
  exists w, period_timesteps n s per = Ok w /\ fg_file fig = "thermal_storage.png" /\ holds rs n w (hours w) fig /\
    exists rc P, nth_error rs (Z.to_nat (fst w)) = Some rc /\ nth_error (fg_panels fig) 2 = Some P /\
      pn_legend P = node_names (length (r_nodes rc)).
Proof.
  unfold TS. intro H. repeat take H. known. injection H as <-.
  eexists. split; [reflexivity|]. split; [reflexivity|]. split.
  - split; [assumption|]. split; [eexists; split; reflexivity|].
    split; [lengths; all_curves|].
    split; [|all_stacks]. all_nodes. eexists. split; [reflexivity|]. split; [reflexivity|]. split; [eassumption|assumption].
  - match goal with E : pidx _ _ = Ok _ |- _ => unfold pidx in E; destruct (nth_error (column rs n r_nodes) _) as [y|] eqn:N; [|discriminate E]; injection E as <- end.
    apply column_nth in N as (_ & rc & N & ->). exists rc. eexists. split; [exact N|]. split; reflexivity.
Qed.
Lemma ES_inv rs n s per fig :
  ES rs n s per = Ok fig ->
  exists w, period_timesteps n s per = Ok w /\ fg_file fig = "electrical_storage.png" /\ holds rs n w (hours w) fig.
Proof.
  unfold ES. intro H. repeat take H. known. injection H as <-.
  eexists. split; [reflexivity|]. split; [reflexivity|].
  split; [assumption|]. split; [eexists; split; reflexivity|].
  split; [lengths; all_curves|]. split; [all_nodes|]. lengths; all_stacks.
Qed.
Lemma grid_inv rs n s per fig :
  grid_figure rs n s per = Ok fig ->
  exists w, period_timesteps n s per = Ok w /\ fg_file fig = "grid.png" /\ holds rs n w (hours w) fig.
Proof.
  unfold grid_figure. intro H. repeat take H. known. injection H as <-.
  eexists. split; [reflexivity|]. split; [reflexivity|].
  split; [assumption|]. split; [eexists; split; reflexivity|].
  split; [lengths; all_curves|]. split; [all_nodes|]. lengths; all_stacks.
Qed.
Lemma bars_inv rs n fig :
  RES_bar rs n = Ok fig ->
  (0 <= n)%Z /\ Z.to_nat n <= length rs /\ fig =
    {| fg_file := bar_file; fg_panels := [bars "Total Wind Production (MWh)" (column rs n (fun r => rf r RES_wind));
         bars "Total PV Production (MWh)" (column rs n (fun r => rf r RES_PV));
         bars "Total RES Production (MWh)" (column rs n (fun r => rf r RES_generation_total))] |}.
Proof.
  unfold RES_bar. intro H. destruct (Z.ltb_spec n 0); cbn [bind] in H; [discriminate H|]. repeat take H. known. injection H as <-.
  split; [assumption|]. split; [assumption|reflexivity].
Qed.

Lemma nth_zrange_inv a b i x : nth_error (zrange a b) i = Some x -> i < Z.to_nat (b - a) /\ x = (a + Z.of_nat i)%Z.
Proof.
  intro H. assert (L : i < Z.to_nat (b - a)).
  { rewrite <- zrange_length. apply nth_error_Some. congruence. }
  rewrite nth_zrange in H by exact L. injection H as <-. split; [exact L|reflexivity].
Qed.

Lemma holds_points rs n w lo fig p c leg q :
  (0 <= fst w)%Z -> holds rs n w (zrange lo (lo + snd w)) fig -> shows (fg_file fig) p c leg q ->
  named fig p c leg /\
  forall x y, point fig p c x y <->
    (lo <= x < lo + snd w)%Z /\ exists rc, nth_error rs (Z.to_nat (x - lo + fst w)) = Some rc /\ y = q rc.
Proof.
  intros H0 (HL & _ & H & _ & _) S. destruct (H p c leg q S) as (N & P & HP & Hx & Hy & L). split; [exact N|].
  intros x y. split.
  - intros (P' & ys & i & HP' & Hys & Hi & Hv). assert (P' = P) by congruence. subst P'.
    assert (ys = cut w (column rs n q)) by congruence. subst ys. rewrite Hx in Hi. apply nth_zrange_inv in Hi as [Li ->].
    rewrite cut_nth in Hv by exact H0. destruct (Nat.ltb_spec i (Z.to_nat (snd w))); [|discriminate Hv].
    apply column_nth in Hv as (_ & rc & E & ->). split; [lia|]. exists rc. split; [|reflexivity].
    replace (Z.to_nat (lo + Z.of_nat i - lo + fst w)) with (Z.to_nat (fst w) + i) by lia. exact E.
  - intros (R & rc & E & ->). exists P, (cut w (column rs n q)), (Z.to_nat (x - lo)).
    split; [exact HP|]. split; [exact Hy|].
    assert (Li : Z.to_nat (x - lo) < length (cut w (column rs n q))) by (rewrite L, zrange_length; lia).
    split; [rewrite Hx, nth_zrange by lia; f_equal; lia|].
    destruct (nth_error (cut w (column rs n q)) (Z.to_nat (x - lo))) as [v|] eqn:V; [|apply nth_error_None in V; lia].
    rewrite cut_nth in V by exact H0. destruct (Nat.ltb_spec (Z.to_nat (x - lo)) (Z.to_nat (snd w))); [|discriminate V].
    apply column_nth in V as (_ & rc' & E' & ->).
    replace (Z.to_nat (fst w) + Z.to_nat (x - lo)) with (Z.to_nat (x - lo + fst w)) in E' by lia. congruence.
Qed.
Lemma holds_nodes rs n w lo fig p :
  (0 <= fst w)%Z -> holds rs n w (zrange lo (lo + snd w)) fig -> shows_nodes (fg_file fig) p ->
  forall k x y, point fig p k x y <->
    (lo <= x < lo + snd w)%Z /\ exists rc, nth_error rs (Z.to_nat (x - lo + fst w)) = Some rc /\ nth_error (r_nodes rc) k = Some y.
Proof.
  intros H0 (HL & _ & Hc0 & H & _) S k x y. destruct (H p S) as (P & HP & Hx & Hc & L).
  assert (Lx : length (cut w (column rs n r_nodes)) = Z.to_nat (snd w)).
  { assert (A : exists q : record -> Q, length (cut w (column rs n q)) = length (zrange lo (lo + snd w))).
    { inversion S as [F|F]; rewrite <- F in *;
        [destruct (Hc0 _ _ _ _ Sh_op1) as (_ & _ & _ & _ & _ & A)|destruct (Hc0 _ _ _ _ Sh_ts1) as (_ & _ & _ & _ & _ & A)]; eexists; exact A. }
    destruct A as [q A]. rewrite zrange_length in A. unfold cut, zslice, pslice, column, nodes in *.
    rewrite firstn_length, skipn_length, map_length in *. lia. }
  assert (Key : forall i r, nth_error (cut w (column rs n r_nodes)) i = Some r <->
    i < Z.to_nat (snd w) /\ Z.to_nat (fst w) + i < Z.to_nat n /\ exists rc, nth_error rs (Z.to_nat (fst w) + i) = Some rc /\ r = r_nodes rc).
  { intros i r. rewrite cut_nth by exact H0. destruct (Nat.ltb_spec i (Z.to_nat (snd w))).
    - rewrite column_nth. tauto.
    - split; [discriminate|lia]. }
  destruct (columns_inv _ _ Hc) as [[E1 E2]|(m & Lr & Fm & Lm & Hcol)].
  - rewrite E1 in Lx. cbn in Lx. split.
    + intros (P' & ys & i & HP' & Hys & Hi & Hv). assert (P' = P) by congruence. subst P'. rewrite E2 in Hys.
      destruct k as [|[|k]]; cbn in Hys; try discriminate Hys. injection Hys as <-. destruct i; discriminate Hv.
    + intros (R & _). lia.
  - split.
    + intros (P' & ys & i & HP' & Hys & Hi & Hv). assert (P' = P) by congruence. subst P'. rewrite Hx in Hi.
      apply nth_zrange_inv in Hi as [Li ->]. destruct (Hcol k ys Hys) as (_ & _ & Hr). apply Hr in Hv as (r & Er & Ek).
      apply Key in Er as (_ & _ & rc & E & ->). split; [lia|]. exists rc. split; [|exact Ek].
      replace (Z.to_nat (lo + Z.of_nat i - lo + fst w)) with (Z.to_nat (fst w) + i) by lia. exact E.
    + intros (R & rc & E & Ek). set (i := Z.to_nat (x - lo)) in *.
      destruct (nth_error (cut w (column rs n r_nodes)) i) as [r|] eqn:V; [|apply nth_error_None in V; lia].
      pose proof V as V'. apply Key in V' as (_ & _ & rc' & E' & Er).
      replace (Z.to_nat (fst w) + i) with (Z.to_nat (x - lo + fst w)) in E' by lia. assert (rc' = rc) by congruence. subst rc' r.
      rewrite Forall_forall in Fm. pose proof (Fm _ (nth_error_In _ _ V)) as Lk.
      assert (Hk : k < m) by (rewrite <- Lk; apply nth_error_Some; congruence).
      destruct (nth_error (pn_y P) k) as [col|] eqn:Ec; [|apply nth_error_None in Ec; lia].
      exists P, col, i. split; [exact HP|]. split; [exact Ec|].
      split; [rewrite Hx, nth_zrange by lia; f_equal; lia|].
      destruct (Hcol k col Ec) as (_ & _ & Hr). apply Hr. exists (r_nodes rc). split; [exact V|exact Ek].
Qed.

(** ** The figures of a run *)
Lemma all_plots_inv rs n s per b figs :
  all_plots rs n s per b = Ok figs ->
  exists w, period_timesteps n s per = Ok w /\ map fg_file figs = (figure_files ++ (if b then [bar_file] else []))%list /\
    forall fig, In fig figs ->
      (fg_file fig = "operation.png" /\ holds rs n w (zrange 0 (snd w)) fig) \/
      (fg_file fig <> "operation.png" /\ fg_file fig <> bar_file /\ holds rs n w (hours w) fig) \/
      (fg_file fig = bar_file /\ b = true /\ RES_bar rs n = Ok fig).
Proof.
  unfold all_plots. intro H.
  take H. take H. take H. take H. take H. take H. take H. injection H as <-.
  apply operation_inv in E as (w & Ew & F1 & H1). exists w. split; [exact Ew|].
  apply elec_inv in E0 as (w' & Ew' & F2 & H2). rewrite Ew in Ew'. injection Ew' as <-.
  apply heat_inv in E1 as (w' & g1 & g2 & Ew' & -> & F3 & H3 & F4 & H4). rewrite Ew in Ew'. injection Ew' as <-.
  apply TS_inv in E2 as (w' & Ew' & F5 & H5 & _). rewrite Ew in Ew'. injection Ew' as <-.
  apply ES_inv in E3 as (w' & Ew' & F6 & H6). rewrite Ew in Ew'. injection Ew' as <-.
  apply grid_inv in E4 as (w' & Ew' & F7 & H7). rewrite Ew in Ew'. injection Ew' as <-.
  assert (B : map fg_file l5 = (if b then [bar_file] else [])%list /\ forall f, In f l5 -> fg_file f = bar_file /\ b = true /\ RES_bar rs n = Ok f).
  { destruct b; [|injection E5 as <-; split; [reflexivity|intros f []]].
    destruct (RES_bar rs n) as [f|] eqn:Eb; cbn [bind] in E5; [|discriminate E5]. injection E5 as <-.
    assert (Ff : fg_file f = bar_file) by (apply bars_inv in Eb as (_ & _ & ->); reflexivity).
    split; [cbn; rewrite Ff; reflexivity|]. intros g [<-|[]]. auto. }
  destruct B as [B1 B2]. split.
  - cbn [map app]. rewrite B1, F1, F2, F3, F4, F5, F6, F7. reflexivity.
  - intros fig Hin.
    assert (D : forall f nm, fg_file f = nm -> nm <> "operation.png" -> nm <> bar_file -> holds rs n w (hours w) f ->
      (fg_file f = "operation.png" /\ holds rs n w (zrange 0 (snd w)) f) \/
      (fg_file f <> "operation.png" /\ fg_file f <> bar_file /\ holds rs n w (hours w) f) \/
      (fg_file f = bar_file /\ b = true /\ RES_bar rs n = Ok f)).
    { intros f nm E' N1 N2 Hh. right; left. rewrite E'. auto. }
    cbn [app] in Hin.
    destruct Hin as [<-|[<-|[<-|[<-|[<-|[<-|[<-|Hin]]]]]]];
      [left; auto|apply (D _ _ F2)|apply (D _ _ F3)|apply (D _ _ F4)|apply (D _ _ F5)|apply (D _ _ F6)|apply (D _ _ F7)|];
      try assumption; try discriminate.
    right; right. apply B2. exact Hin.
Qed.

(** The four windows. *)
Lemma run_plots_inv rs n s out per figs :
  run_plots rs n s = Ok out -> In (per, figs) out ->
  exists w b, all_plots rs n s per b = Ok figs /\ period_timesteps n s per = Ok w /\
    ((n <> 8760%Z /\ per = "User" /\ w = (0%Z, n) /\ b = true) \/
     (n = 8760%Z /\ per = "Year" /\ w = (0, 8760)%Z /\ b = true) \/
     (n = 8760%Z /\ per = "Winter" /\ w = (24, 168)%Z /\ b = false) \/
     (n = 8760%Z /\ per = "Summer" /\ w = (4380, 168)%Z /\ b = false)).
Proof.
  unfold run_plots. intros H Hin. destruct (Z.eqb_spec n 8760) as [->|N].
  - cbn [mapM] in H. repeat take H. injection H as <-.
    repeat match goal with E : (_ <- ?e ;; _) = Ok _ |- _ => destruct e eqn:?; cbn [bind] in E; [|discriminate E] end.
    repeat match goal with E : Ok _ = Ok _ |- _ => injection E as <- end.
    destruct Hin as [[= <- <-]|[[= <- <-]|[[= <- <-]|[]]]]; 
      (match goal with E : all_plots _ _ _ ?p _ = Ok ?f |- exists _ _, all_plots _ _ _ ?p _ = Ok ?f /\ _ =>
         eexists _, _; (split; [exact E|]); (split; [reflexivity|]) end);
      [right; left|right; right; left|right; right; right]; repeat split; reflexivity.
  - take H. injection H as <-. destruct Hin as [[= <- <-]|[]]. exists (0%Z, n), true. split; [exact E|].
    unfold period_timesteps. destruct (Z.eqb_spec n 8760); [contradiction|]. split; [reflexivity|]. left. auto.
Qed.

Lemma figure_window rs n s out per figs fig :
  run_plots rs n s = Ok out -> In (per, figs) out -> In fig figs -> fg_file fig <> bar_file ->
  exists w lo off, (0 <= fst w)%Z /\ holds rs n w (zrange lo (lo + snd w)) fig /\ off = (fst w - lo)%Z /\
    drawn n per (fg_file fig) lo (lo + snd w) off.
Proof.
  intros H Hp Hf Nb. destruct (run_plots_inv _ _ _ _ _ _ H Hp) as (w & b & A & W & C).
  destruct (all_plots_inv _ _ _ _ _ _ A) as (w' & W' & _ & F). assert (w' = w) by congruence. subst w'.
  destruct (F fig Hf) as [[E Hh]|[(E & _ & Hh)|(E & _)]]; [| |contradiction].
  - exists w, 0%Z, (fst w). destruct C as [(N & -> & -> & _)|[(N & -> & -> & _)|[(N & -> & -> & _)|(N & -> & -> & _)]]];
      cbn [fst snd] in *; (split; [lia|]); (split; [exact Hh|]); (split; [lia|]); rewrite ?E; constructor; assumption.
  - exists w, (fst w), 0%Z. destruct C as [(N & -> & -> & _)|[(N & -> & -> & _)|[(N & -> & -> & _)|(N & -> & -> & _)]]];
      unfold hours in Hh; cbn [fst snd] in *; (split; [lia|]); (split; [exact Hh|]); (split; [lia|]); constructor; assumption.
Qed.

Lemma holds_stack rs n w lo fig p title qs :
  (0 <= fst w)%Z -> holds rs n w (zrange lo (lo + snd w)) fig -> stacked (fg_file fig) p title qs ->
  forall x y, stack fig p title x y <->
    (lo <= x < lo + snd w)%Z /\ exists rc, nth_error rs (Z.to_nat (x - lo + fst w)) = Some rc /\ y = qsum (map (fun q => q rc) qs).
Proof.
  intros H0 (HL & _ & _ & _ & H) S x y. destruct (H p title qs S) as (P & HP & Hs & Ht & Hx & Hy & L).
  assert (Ne : qs <> []) by (inversion S; discriminate). clear S H.
  assert (Key : forall i rc, i < Z.to_nat (snd w) -> nth_error rs (Z.to_nat (fst w) + i) = Some rc ->
     forall bands, Forall2 (fun ys b => nth_error ys i = Some b) (map (fun q => cut w (column rs n q)) qs) bands <->
       bands = map (fun q => q rc) qs).
  { intros i rc Li E.
    assert (V : forall q, In q qs -> nth_error (cut w (column rs n q)) i = Some (q rc)).
    { intros q Hq. rewrite Forall_forall in L. specialize (L q Hq). rewrite zrange_length in L.
      destruct (nth_error (cut w (column rs n q)) i) as [v|] eqn:V; [|apply nth_error_None in V; lia].
      rewrite cut_nth in V by exact H0. destruct (Nat.ltb_spec i (Z.to_nat (snd w))); [|lia].
      apply column_nth in V as (_ & rc' & E' & ->). congruence. }
    clear L Ne Hy. induction qs as [|q qs IH]; intro bands; cbn [map].
    - split; [intro F; inversion F; reflexivity|intros ->; constructor].
    - split.
      + intro F. inversion_clear F as [|? b ? bs Fb Fbs]. rewrite (V q (or_introl eq_refl)) in Fb. injection Fb as <-.
        f_equal. apply IH; [intros q' Hq'; apply V; right; exact Hq'|exact Fbs].
      + intros ->. constructor; [apply V; left; reflexivity|].
        apply IH; [intros q' Hq'; apply V; right; exact Hq'|reflexivity]. }
  split.
  - intros (P' & i & bands & HP' & _ & _ & Hi & Fb & ->). assert (P' = P) by congruence. subst P'.
    rewrite Hx in Hi. apply nth_zrange_inv in Hi as [Li ->]. rewrite Hy in Fb. split; [lia|].
    destruct qs as [|q qs]; [contradiction|]. inversion Fb as [|? b ? bs Fb1 _]; subst.
    rewrite cut_nth in Fb1 by exact H0. destruct (Nat.ltb_spec i (Z.to_nat (snd w))); [|discriminate Fb1].
    apply column_nth in Fb1 as (_ & rc & E & _). exists rc.
    replace (Z.to_nat (lo + Z.of_nat i - lo + fst w)) with (Z.to_nat (fst w) + i) by lia. split; [exact E|].
    f_equal. apply (Key i rc); [assumption|exact E|exact Fb].
  - intros (R & rc & E & ->). exists P, (Z.to_nat (x - lo)), (map (fun q => q rc) qs).
    split; [exact HP|]. split; [exact Hs|]. split; [exact Ht|]. split; [rewrite Hx, nth_zrange by lia; f_equal; lia|].
    split; [|reflexivity]. rewrite Hy. apply (Key _ rc); [lia| |reflexivity].
    replace (Z.to_nat (fst w) + Z.to_nat (x - lo)) with (Z.to_nat (x - lo + fst w)) by lia. exact E.
Qed.

(** ** When all figures are drawn *)
Lemma column_cut {A} rs n w (f : record -> A) :
  (0 <= fst w)%Z -> (0 <= snd w)%Z -> (fst w + snd w <= n)%Z -> Z.to_nat n <= length rs ->
  length (cut w (column rs n f)) = Z.to_nat (snd w).
Proof. intros. apply cut_length; [assumption|]. rewrite column_length by assumption. lia. Qed.

Lemma all_plots_ok rs n s per b w :
  period_timesteps n s per = Ok w -> (0 <= fst w)%Z -> (0 <= snd w)%Z -> (fst w + snd w <= n)%Z -> (fst w < n)%Z ->
  Z.to_nat n <= length rs -> same_nodes rs -> exists figs, all_plots rs n s per b = Ok figs.
Proof.
  intros W W0 W1 W2 W3 HL [k Hk].
  assert (C : forall A (f : record -> A), collect rs n f = Ok (column rs n f)) by (intros; apply collect_ok; exact HL).
  assert (D1 : forall q : record -> Q, length (cut w (column rs n q)) = length (zrange 0 (snd w)))
    by (intro q; rewrite column_cut, zrange_length by assumption; f_equal; lia).
  assert (D2 : forall q : record -> Q, length (cut w (column rs n q)) = length (hours w))
    by (intro q; unfold hours; rewrite column_cut, zrange_length by assumption; f_equal; lia).
  assert (G : forall t xl yl leg xs, length xs = Z.to_nat (snd w) ->
    exists P, draw_nodes t xl yl leg xs (cut w (column rs n r_nodes)) = Ok P).
  { intros t xl yl leg xs Lx. unfold draw_nodes.
    destruct (columns_ok (cut w (column rs n r_nodes)) k) as (ys & E & F).
    { apply Forall_forall. intros r Hr. apply In_nth_error in Hr as [i Hi]. rewrite cut_nth in Hi by exact W0.
      destruct (i <? _); [|discriminate Hi]. apply column_nth in Hi as (_ & rc & Hi & ->).
      rewrite Forall_forall in Hk. apply Hk. exact (nth_error_In _ _ Hi). }
    rewrite E. cbn [bind]. apply draw_ok. rewrite column_cut in F by assumption. rewrite Lx. exact F. }
  assert (Z1 : length (zrange 0 (snd w)) = Z.to_nat (snd w)) by (rewrite zrange_length; f_equal; lia).
  assert (Z2 : length (hours w) = Z.to_nat (snd w)) by (unfold hours; rewrite zrange_length; f_equal; lia).
  assert (T : exists y, pidx (column rs n r_nodes) (Z.to_nat (fst w)) = Ok y).
  { unfold pidx. destruct (nth_error (column rs n r_nodes) (Z.to_nat (fst w))) eqn:E; [eexists; reflexivity|].
    apply nth_error_None in E. rewrite column_length in E by exact HL. lia. }
  destruct T as [y0 T].
  unfold all_plots, operation, elec_demand_and_RES, HP_and_heat_demand, TS, ES, grid_figure, RES_bar, series.
  rewrite !C. cbn [bind]. rewrite W. cbn [bind].
  Ltac go D1 D2 G Z1 Z2 T :=
    match goal with
    | |- context [draw ?s ?t ?xl ?yl ?leg (zrange 0 ?m) ?ys] =>
        let P := fresh "P" in let E := fresh "E" in
        destruct (draw_ok s t xl yl leg (zrange 0 m) ys) as [P E]; [repeat constructor; apply D1|rewrite E; clear E; cbn [bind]]
    | |- context [draw ?s ?t ?xl ?yl ?leg (hours ?w) ?ys] =>
        let P := fresh "P" in let E := fresh "E" in
        destruct (draw_ok s t xl yl leg (hours w) ys) as [P E]; [repeat constructor; apply D2|rewrite E; clear E; cbn [bind]]
    | |- context [draw_nodes ?t ?xl ?yl ?leg ?xs _] =>
        let P := fresh "P" in let E := fresh "E" in
        destruct (G t xl yl leg xs) as [P E]; [first [exact Z1|exact Z2]|rewrite E; clear E; cbn [bind]]
    | |- context [pidx _ _] => rewrite T; cbn [bind]
    end.
  repeat go D1 D2 G Z1 Z2 T.
  destruct (Z.ltb_spec n 0); [lia|]. destruct b; cbn [bind]; eexists; reflexivity.
Qed.

Lemma run_plots_ok rs n s :
  (0 < n)%Z -> Z.to_nat n <= length rs -> same_nodes rs -> exists out, run_plots rs n s = Ok out.
Proof.
  intros Hn HL Hk. unfold run_plots. destruct (Z.eqb_spec n 8760) as [->|N].
  - destruct (all_plots_ok rs 8760 s "Year" true (0, 8760)%Z) as [f1 E1]; try (cbn [fst snd]; lia); try assumption; [reflexivity|].
    destruct (all_plots_ok rs 8760 s "Winter" false (24, 168)%Z) as [f2 E2]; try (cbn [fst snd]; lia); try assumption; [reflexivity|].
    destruct (all_plots_ok rs 8760 s "Summer" false (4380, 168)%Z) as [f3 E3]; try (cbn [fst snd]; lia); try assumption; [reflexivity|].
    cbn [mapM]. change ("Year" =? "Year")%string with true. change ("Winter" =? "Year")%string with false.
    change ("Summer" =? "Year")%string with false. rewrite E1. cbn [bind]. rewrite E2. cbn [bind]. rewrite E3. eexists. reflexivity.
  - destruct (all_plots_ok rs n s "User" true (0%Z, n)) as [f E]; try (cbn [fst snd]; lia); try assumption;
      [unfold period_timesteps; destruct (Z.eqb_spec n 8760); [contradiction|reflexivity]|].
    rewrite E. eexists. reflexivity.
Qed.

Definition caption (fig : figure) : list (string * string) := map (fun P => (pn_title P, pn_ylabel P)) (fg_panels fig).
Lemma all_captions rs n s per b figs : all_plots rs n s per b = Ok figs -> forall fig, In fig figs -> fg_file fig <> bar_file -> caption fig = captions (fg_file fig).
Proof.
  unfold all_plots. intro H. take H. take H. take H. take H. take H. take H. take H. injection H as <-.
  assert (B : forall f, In f l5 -> fg_file f = bar_file).
  { destruct b; [|injection E5 as <-; intros f []]. destruct (RES_bar rs n) as [f|] eqn:Eb; cbn [bind] in E5; [|discriminate E5]. injection E5 as <-.
    intros g [<-|[]]. apply bars_inv in Eb as (_ & _ & ->). reflexivity. }
  assert (H0 : caption l = captions (fg_file l)) by (clear - E; unfold operation in E; repeat take E; known; injection E as <-; reflexivity).
  assert (H1 : caption l0 = captions (fg_file l0)) by (clear - E0; unfold elec_demand_and_RES in E0; repeat take E0; known; injection E0 as <-; reflexivity).
  assert (H2 : Forall (fun f => caption f = captions (fg_file f)) l1) by (clear - E1; unfold HP_and_heat_demand in E1; repeat take E1; known; injection E1 as <-; repeat constructor; reflexivity).
  assert (H3 : caption l2 = captions (fg_file l2)) by (clear - E2; unfold TS in E2; repeat take E2; known; injection E2 as <-; reflexivity).
  assert (H4 : caption l3 = captions (fg_file l3)) by (clear - E3; unfold ES in E3; repeat take E3; known; injection E3 as <-; reflexivity).
  assert (H5 : caption l4 = captions (fg_file l4)) by (clear - E4; unfold grid_figure in E4; repeat take E4; known; injection E4 as <-; reflexivity).
  intros fig Hin Nb. cbn [app] in Hin. destruct Hin as [<-|[<-|Hin]]; [assumption|assumption|]. apply in_app_or in Hin as [Hin|Hin].
  - rewrite Forall_forall in H2. apply H2, Hin.
  - destruct Hin as [<-|[<-|[<-|Hin]]]; try assumption. apply B in Hin. contradiction.
Qed.
