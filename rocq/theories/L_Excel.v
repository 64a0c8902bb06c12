(** Lemmas on reading the workbook. *)
From Coq Require Import String Ascii.
From Verif Require Import Base BaseL M_HeatPump M_Sweep M_Regression M_Excel S_Excel.
Local Open Scope nat_scope.
Local Open Scope list_scope.

Ltac inv_bind H :=
  repeat match type of H with
  | bind ?e _ = Ok _ => let v := fresh "v" in let E := fresh "E" in destruct e as [v|?] eqn:E; cbn [bind] in H; [|discriminate H]
  end.

Lemma label_eqb_eq a b : label_eqb a b = true <-> a = b.
Proof.
  destruct a, b; cbn; try (split; [discriminate|intro H; discriminate H]).
  - rewrite Nat.eqb_eq. split; congruence.
  - rewrite String.eqb_eq. split; congruence.
  - rewrite Nat.eqb_eq. split; congruence.
Qed.
Lemma label_eqb_refl a : label_eqb a a = true.
Proof. apply label_eqb_eq. reflexivity. Qed.
Lemma lmem_In l ls : lmem l ls = true <-> In l ls.
Proof.
  unfold lmem. rewrite existsb_exists. split.
  - intros (x & I & E). apply label_eqb_eq in E. subst. exact I.
  - intro I. exists l. split; [exact I|apply label_eqb_refl].
Qed.
Lemma lmem_nIn l ls : lmem l ls = false <-> ~ In l ls.
Proof. rewrite <- lmem_In. destruct (lmem l ls); split; congruence. Qed.

Lemma find_label_In l axis j : find_label l axis = Ok j -> In (l, j) axis.
Proof.
  unfold find_label. destruct (find _ axis) as [[l' j']|] eqn:F; [|discriminate]. intro H. injection H as <-.
  apply find_some in F as [I E]. cbn [fst] in E. apply label_eqb_eq in E. subst l'. exact I.
Qed.
Lemma find_label_ok l j axis : In (l, j) axis -> exists i, find_label l axis = Ok i.
Proof.
  intro I. unfold find_label. destruct (find _ axis) as [e|] eqn:F; [eexists; reflexivity|].
  exfalso. pose proof (find_none _ _ F (l, j) I) as N. cbn [fst] in N. rewrite label_eqb_refl in N. discriminate.
Qed.

(** ** Selections of a sheet *)
Definition cellf (s : sheet) (r c : nat) : value := nth c (nth r (s_cells s) []) None.
Definition ucols (a m : nat) : list (label * nat) := map (fun k => (Unnamed k, k)) (seq a m).
Definition prows (a m : nat) : list (label * nat) := map (fun k => (Pos k, k)) (seq a m).
Definition plain_sheet (s : sheet) : Prop := exists w, s_header s = map Unnamed (seq 0 w).

Lemma combine_map_seq {A} (f : nat -> A) l : combine (map f l) l = map (fun k => (f k, k)) l.
Proof. induction l as [|x l IH]; [reflexivity|]. cbn. rewrite IH. reflexivity. Qed.
Lemma frame_cols s : plain_sheet s -> f_cols (frame_of s) = ucols 0 (length (s_header s)).
Proof.
  intros [w H]. cbn [frame_of f_cols]. unfold enumerate. rewrite H, map_length, seq_length. apply combine_map_seq.
Qed.
Lemma frame_rows s : f_rows (frame_of s) = prows 0 (length (s_cells s)).
Proof. reflexivity. Qed.
Lemma frame_at s r c : f_at (frame_of s) r c = cellf s r c.
Proof. reflexivity. Qed.

Lemma ucols_In a m l j : In (l, j) (ucols a m) <-> l = Unnamed j /\ a <= j < a + m.
Proof.
  unfold ucols. rewrite in_map_iff. split.
  - intros (k & E & I). injection E as <- <-. apply in_seq in I. split; [reflexivity|lia].
  - intros [-> H]. exists j. split; [reflexivity|apply in_seq; lia].
Qed.
Lemma prows_In a m l j : In (l, j) (prows a m) <-> l = Pos j /\ a <= j < a + m.
Proof.
  unfold prows. rewrite in_map_iff. split.
  - intros (k & E & I). injection E as <- <-. apply in_seq in I. split; [reflexivity|lia].
  - intros [-> H]. exists j. split; [reflexivity|apply in_seq; lia].
Qed.
Lemma ucols_length a m : length (ucols a m) = m.
Proof. unfold ucols. rewrite map_length, seq_length. reflexivity. Qed.
Lemma prows_length a m : length (prows a m) = m.
Proof. unfold prows. rewrite map_length, seq_length. reflexivity. Qed.
Lemma ucols_app a m n : ucols a (m + n) = ucols a m ++ ucols (a + m) n.
Proof. unfold ucols. rewrite seq_app, map_app. reflexivity. Qed.
Lemma prows_app a m n : prows a (m + n) = prows a m ++ prows (a + m) n.
Proof. unfold prows. rewrite seq_app, map_app. reflexivity. Qed.
Lemma prows_snd a m : map snd (prows a m) = seq a m.
Proof. unfold prows. rewrite map_map. apply map_id. Qed.
Lemma ucols_snd a m : map snd (ucols a m) = seq a m.
Proof. unfold ucols. rewrite map_map. apply map_id. Qed.

(** A selection keeps the labels of the sheet. *)
Record view (s : sheet) (f : frame) : Prop := {
  v_at : forall r c, f_at f r c = cellf s r c;
  v_cols : forall l j, In (l, j) (f_cols f) -> l = Unnamed j /\ j < length (s_header s);
  v_rows : forall l j, In (l, j) (f_rows f) -> l = Pos j /\ j < length (s_cells s) }.

Lemma view_frame s : plain_sheet s -> view s (frame_of s).
Proof.
  intro P. constructor.
  - reflexivity.
  - intros l j I. rewrite (frame_cols s P) in I. apply ucols_In in I as [-> H]. split; [reflexivity|lia].
  - intros l j I. rewrite frame_rows in I. apply prows_In in I as [-> H]. split; [reflexivity|lia].
Qed.

Lemma drop_spec ls axis axis' : drop ls axis = Ok axis' ->
  (forall l, In l ls -> In l (map fst axis)) /\ axis' = filter (fun e => negb (lmem (fst e) ls)) axis.
Proof.
  unfold drop. destruct (forallb _ ls) eqn:F; [|discriminate]. intro H. injection H as <-. split; [|reflexivity].
  rewrite forallb_forall in F. intros l I. apply lmem_In, F, I.
Qed.
Lemma drop_ok ls axis : (forall l, In l ls -> In l (map fst axis)) ->
  drop ls axis = Ok (filter (fun e => negb (lmem (fst e) ls)) axis).
Proof.
  intro H. unfold drop. replace (forallb _ ls) with true; [reflexivity|]. symmetry. apply forallb_forall. intros l I. apply lmem_In, H, I.
Qed.
Lemma drop_rows_spec ls f f' : drop_rows ls f = Ok f' ->
  (forall l, In l ls -> In l (map fst (f_rows f))) /\
  f_rows f' = filter (fun e => negb (lmem (fst e) ls)) (f_rows f) /\ f_cols f' = f_cols f /\ f_at f' = f_at f.
Proof.
  unfold drop_rows. intro H. destruct (drop ls (f_rows f)) as [rows|] eqn:E; cbn [bind] in H; [|discriminate].
  injection H as <-. apply drop_spec in E as [E1 E2]. repeat split; assumption.
Qed.
Lemma drop_cols_spec ls f f' : drop_cols ls f = Ok f' ->
  (forall l, In l ls -> In l (map fst (f_cols f))) /\
  f_cols f' = filter (fun e => negb (lmem (fst e) ls)) (f_cols f) /\ f_rows f' = f_rows f /\ f_at f' = f_at f.
Proof.
  unfold drop_cols. intro H. destruct (drop ls (f_cols f)) as [cols|] eqn:E; cbn [bind] in H; [|discriminate].
  injection H as <-. apply drop_spec in E as [E1 E2]. repeat split; assumption.
Qed.
Lemma view_drop_rows s ls f f' : drop_rows ls f = Ok f' -> view s f -> view s f'.
Proof.
  intros H V. apply drop_rows_spec in H as (_ & HR & HC & HA). constructor.
  - intros r c. rewrite HA. apply V.
  - intros l j I. rewrite HC in I. apply V, I.
  - intros l j I. rewrite HR in I. apply filter_In in I as [I _]. apply V, I.
Qed.
Lemma view_drop_cols s ls f f' : drop_cols ls f = Ok f' -> view s f -> view s f'.
Proof.
  intros H V. apply drop_cols_spec in H as (_ & HC & HR & HA). constructor.
  - intros r c. rewrite HA. apply V.
  - intros l j I. rewrite HC in I. apply filter_In in I as [I _]. apply V, I.
  - intros l j I. rewrite HR in I. apply V, I.
Qed.
Lemma view_iloc s a b f : view s f -> view s (iloc a b f).
Proof.
  intro V. constructor; [apply V|apply V|]. intros l j I. apply (v_rows s f V). cbn [iloc f_rows] in I.
  rewrite <- (firstn_skipn a (f_rows f)). apply in_or_app. right. rewrite <- (firstn_skipn (b - a) (skipn a (f_rows f))). apply in_or_app. left. exact I.
Qed.
Lemma view_dropna s f : view s f -> view s (dropna f).
Proof. intro V. constructor; [apply V|apply V|]. intros l j I. cbn [dropna f_rows] in I. apply filter_In in I as [I _]. apply V, I. Qed.

Lemma at_view s f c r v : view s f -> at_ f c r = Ok v ->
  v = cellf s r c /\ c < length (s_header s) /\ r < length (s_cells s).
Proof.
  intros V H. unfold at_, at_label in H. inv_bind H. injection H as <-.
  apply find_label_In in E, E0. apply V in E as [E1 E2]. apply V in E0 as [E3 E4]. injection E1 as <-. injection E3 as <-.
  rewrite (v_at s f V). repeat split; assumption.
Qed.
Lemma at_ok s f c r : view s f -> In (Unnamed c, c) (f_cols f) -> In (Pos r, r) (f_rows f) -> at_ f c r = Ok (cellf s r c).
Proof.
  intros V C R. unfold at_, at_label. destruct (find_label_ok _ _ _ C) as [j Ej]. destruct (find_label_ok _ _ _ R) as [i Ei].
  rewrite Ej, Ei. cbn [bind]. apply find_label_In in Ej, Ei. apply V in Ej as [Ej _]. apply V in Ei as [Ei _].
  injection Ej as <-. injection Ei as <-. rewrite (v_at s f V). reflexivity.
Qed.

(** ** Renamed columns *)
Lemma find_renamed m nm axis j :
  (forall l i, In (l, i) axis -> forall t, l <> Named t) ->
  find_label (Named nm) (map (fun e => (renamed m (fst e), snd e)) axis) = Ok j ->
  exists l, In (l, j) axis /\ In (l, nm) m.
Proof.
  intros N H. apply find_label_In in H. apply in_map_iff in H as ([l i] & E & I). cbn [fst snd] in E. injection E as E <-.
  exists l. split; [exact I|]. unfold renamed in E. destruct (find _ m) as [[l' nm']|] eqn:F.
  - apply find_some in F as [F1 F2]. cbn [fst snd] in *. apply label_eqb_eq in F2. subst l'. injection E as ->. exact F1.
  - exfalso. exact (N l i I nm E).
Qed.
Lemma find_renamed_ok m nm axis l j :
  In (l, j) axis -> renamed m l = Named nm -> exists i, find_label (Named nm) (map (fun e => (renamed m (fst e), snd e)) axis) = Ok i.
Proof.
  intros I R. apply (find_label_ok _ j). apply in_map_iff. exists (l, j). split; [cbn [fst snd]; rewrite R; reflexivity|exact I].
Qed.

Lemma reset_rows_snd f : map snd (f_rows (reset_index f)) = map snd (f_rows f).
Proof.
  cbn [reset_index f_rows]. generalize (f_rows f). intro l. generalize 0.
  induction l as [|e l IH]; intro k; [reflexivity|]. cbn [length seq map combine snd]. rewrite IH. reflexivity.
Qed.

Lemma find_reset0 f i : find_label (Pos 0) (f_rows (reset_index f)) = Ok i -> exists rest, map snd (f_rows f) = i :: rest.
Proof.
  cbn [reset_index f_rows]. destruct (f_rows f) as [|[l j] rows]; [discriminate|]. cbn. intro H. injection H as <-. exists (map snd rows). reflexivity.
Qed.
Lemma find_reset0_ok f i rest : map snd (f_rows f) = i :: rest -> find_label (Pos 0) (f_rows (reset_index f)) = Ok i.
Proof. cbn [reset_index f_rows]. destruct (f_rows f) as [|[l j] rows]; [discriminate|]. cbn. intro H. injection H as <- _. reflexivity. Qed.

(** A named column of a selection *)
Lemma named_column_view s m f nm col : view s f -> named_column (reset_index (rename m f)) nm = Ok col ->
  exists c, In (Unnamed c, nm) m /\ In (Unnamed c, c) (f_cols f) /\ col = map (fun r => cellf s r c) (map snd (f_rows f)).
Proof.
  intros V H. unfold named_column, column in H. inv_bind H. injection H as <-. cbn [reset_index rename f_cols] in E.
  apply find_renamed in E as (l & I & M).
  - pose proof (proj1 (v_cols s f V l v I)) as ->. exists v. split; [exact M|]. split; [exact I|].
    transitivity (map (fun r => f_at f r v) (map snd (f_rows (reset_index (rename m f))))).
    + rewrite map_map. reflexivity.
    + rewrite (reset_rows_snd (rename m f)). apply map_ext. intro r. apply V.
  - intros l i I t. rewrite (proj1 (v_cols s f V l i I)). discriminate.
Qed.
Lemma named_column_ok m f nm c : In (Unnamed c, c) (f_cols f) -> renamed m (Unnamed c) = Named nm ->
  exists col, named_column (reset_index (rename m f)) nm = Ok col.
Proof.
  intros I R. unfold named_column, column. cbn [reset_index rename f_cols].
  destruct (find_renamed_ok m nm (f_cols f) _ c I R) as [i ->]. eexists. reflexivity.
Qed.
Lemma first_of_view s m f nm v : view s f -> first_of (reset_index (rename m f)) nm = Ok v ->
  exists c r rest, In (Unnamed c, nm) m /\ In (Unnamed c, c) (f_cols f) /\ map snd (f_rows f) = r :: rest /\ v = cellf s r c.
Proof.
  intros V H. unfold first_of, at_label in H. inv_bind H. injection H as <-. rename v0 into j, v1 into i.
  apply (find_reset0 (rename m f)) in E0 as [rest E0]. cbn [rename f_rows] in E0. cbn [reset_index rename f_cols] in E.
  apply find_renamed in E as (l & I & M).
  - pose proof (proj1 (v_cols s f V l j I)) as ->. exists j, i, rest. split; [exact M|]. split; [exact I|]. split; [exact E0|].
    apply V.
  - intros l k I t. rewrite (proj1 (v_cols s f V l k I)). discriminate.
Qed.
Lemma list_first_view s m f nm v : view s f -> list_first (reset_index (rename m f)) (Named nm) = Ok v ->
  exists c r rest, In (Unnamed c, nm) m /\ In (Unnamed c, c) (f_cols f) /\ map snd (f_rows f) = r :: rest /\ v = cellf s r c.
Proof.
  intros V H. unfold list_first in H. inv_bind H. destruct (named_column_view s m f nm v0 V E) as (c & M & I & ->).
  destruct (map snd (f_rows f)) as [|r rest]; [discriminate|]. cbn [map] in H. injection H as <-. exists c, r, rest. repeat split; assumption.
Qed.

(** ** Blocks turned on their side *)
Lemma iloc_prows a b n : firstn (b - a) (skipn a (prows 0 n)) = prows a (Nat.min (b - a) (n - a)).
Proof.
  unfold prows. rewrite skipn_map, firstn_map. f_equal.
  destruct (le_lt_dec n a) as [H|H].
  - rewrite skipn_all2 by (rewrite seq_length; exact H). rewrite firstn_nil. replace (Nat.min (b - a) (n - a)) with 0 by lia. reflexivity.
  - replace n with (a + (n - a)) at 1 by lia. rewrite seq_app, skipn_app, seq_length, Nat.sub_diag, skipn_all2 by (rewrite seq_length; lia).
    cbn [app skipn]. destruct (le_lt_dec (n - a) (b - a)) as [K|K].
    + rewrite firstn_all2 by (rewrite seq_length; lia). f_equal. lia.
    + replace (n - a) with ((b - a) + (n - a - (b - a))) at 1 by lia. rewrite seq_app, firstn_app, seq_length, Nat.sub_diag. cbn [firstn].
      rewrite firstn_all2 by (rewrite seq_length; lia). rewrite app_nil_r. f_equal. lia.
Qed.

Definition side (s : sheet) (a b : nat) : frame := reset_index (transpose (iloc a b (frame_of s))).
Lemma side_rows s a b : plain_sheet s -> f_rows (side s a b) = prows 0 (length (s_header s)).
Proof.
  intro P. unfold side. cbn [reset_index transpose iloc f_rows f_cols]. rewrite (frame_cols s P), ucols_length, ucols_snd. apply combine_map_seq.
Qed.
Lemma side_cols s a b : f_cols (side s a b) = prows a (Nat.min (b - a) (length (s_cells s) - a)).
Proof. unfold side. cbn [reset_index transpose iloc f_rows f_cols]. rewrite frame_rows. apply iloc_prows. Qed.
Lemma side_at s a b r c : f_at (side s a b) r c = cellf s c r.
Proof. reflexivity. Qed.

Lemma filter_keep (ls : list nat) a m : (forall k, In k ls -> k < a) ->
  filter (fun e => negb (lmem (fst e) (Ps ls))) (prows a m) = prows a m.
Proof.
  intro H. unfold prows. revert a H. induction m as [|m IH]; intros a H; [reflexivity|]. cbn [seq map filter fst].
  replace (lmem (Pos a) (Ps ls)) with false.
  - cbn [negb]. f_equal. apply IH. intros k I. specialize (H k I). lia.
  - symmetry. apply lmem_nIn. unfold Ps. rewrite in_map_iff. intros (k & E & I). injection E as ->. specialize (H a I). lia.
Qed.

(** Dropping all the columns below [n] but column [k] leaves column [k] first. *)
Lemma side_first (gone : list nat) k n w axis :
  axis = prows 0 w -> (forall l, In l (Ps gone) -> In l (map fst axis)) ->
  filter (fun e => negb (lmem (fst e) (Ps gone))) (prows 0 n) = [(Pos k, k)] ->
  (exists g, In g gone /\ n = S g) -> (forall g, In g gone -> g < n) ->
  exists rest, map snd (filter (fun e => negb (lmem (fst e) (Ps gone))) axis) = k :: rest /\ n <= w.
Proof.
  intros -> H F (g & Ig & ->) B.
  assert (Hg : g < w).
  { specialize (H (Pos g)). unfold Ps in H. rewrite in_map_iff in H. destruct (in_map_iff fst (prows 0 w) (Pos g)) as [X _].
    destruct X as ([l j] & E & I); [apply H; exists g; split; [reflexivity|exact Ig]|]. cbn [fst] in E. subst l.
    apply prows_In in I as [E I]. injection E as ->. lia. }
  replace w with (S g + (w - S g)) by lia. rewrite prows_app, filter_app, F, filter_keep by exact B.
  eexists. split; [reflexivity|lia].
Qed.

Lemma first_of_side s m f nm v k rest : f_at f = (fun r c => cellf s c r) ->
  (forall l j, In (l, j) (f_cols f) -> l = Pos j) -> map snd (f_rows f) = k :: rest ->
  first_of (reset_index (rename m f)) nm = Ok v ->
  exists r, In (Pos r, nm) m /\ In (Pos r, r) (f_cols f) /\ v = cellf s r k.
Proof.
  intros HA HC HR H. unfold first_of, at_label in H. inv_bind H. injection H as <-. rename v0 into j, v1 into i.
  apply (find_reset0 (rename m f)) in E0 as [rest' E0]. cbn [rename f_rows] in E0. rewrite HR in E0. injection E0 as <- _.
  cbn [reset_index rename f_cols] in E. apply find_renamed in E as (l & I & M).
  - pose proof (HC l j I) as ->. exists j. split; [exact M|]. split; [exact I|]. cbn [reset_index rename f_at]. rewrite HA. reflexivity.
  - intros l q I t. rewrite (HC l q I). discriminate.
Qed.

(** ** Rows of a series *)
Lemma filter_none ls a m : (forall k, a <= k < a + m -> In k ls) -> filter (fun e => negb (lmem (fst e) (Ps ls))) (prows a m) = [].
Proof.
  unfold prows. revert a. induction m as [|m IH]; intros a H; [reflexivity|]. cbn [seq map filter fst].
  replace (lmem (Pos a) (Ps ls)) with true; [cbn [negb]; apply IH; intros k K; apply H; lia|].
  symmetry. apply lmem_In, in_map, H. lia.
Qed.
Lemma rows_below ls n axis : axis = prows 0 n -> forall k, In k ls -> (forall l, In l (Ps ls) -> In l (map fst axis)) -> k < n.
Proof.
  intros -> k I H. specialize (H (Pos k) (in_map Pos _ _ I)). apply in_map_iff in H as ([l j] & E & J). cbn [fst] in E. subst l.
  apply prows_In in J as [E J]. injection E as ->. lia.
Qed.

Lemma reads_down_map (wb : workbook) name s c (ch : ascii) from from2 m :
  wb name = Some s -> letter ch = c -> from2 = from + 2 -> m = length (s_cells s) - from ->
  reads_down wb name ch from2 (map (fun r => cellf s r c) (seq from m)).
Proof.
  intros W L -> ->. unfold reads_down, last_row, xl. rewrite W, L, map_length, seq_length. split; [lia|].
  intros h H. rewrite nth_error_map. replace (nth_error (seq from (length (s_cells s) - from)) h) with (Some (from + h)).
  - cbn [option_map]. unfold cellf. replace (from + 2 + h - 2) with (from + h) by lia. reflexivity.
  - symmetry. rewrite nth_error_nth' with (d := 0) by (rewrite seq_length; exact H). rewrite seq_nth by exact H. reflexivity.
Qed.
Lemma reads_down_to_map (wb : workbook) name s c (ch : ascii) from from2 n m :
  wb name = Some s -> letter ch = c -> from2 = from + 2 -> m = Nat.min n (length (s_cells s) - from) ->
  reads_down_to wb name ch from2 n (map (fun r => cellf s r c) (seq from m)).
Proof.
  intros W L -> ->. unfold reads_down_to, last_row, xl. rewrite W, L, map_length, seq_length. split; [lia|].
  intros h H. rewrite nth_error_map. replace (nth_error (seq from (Nat.min n (length (s_cells s) - from))) h) with (Some (from + h)).
  - cbn [option_map]. unfold cellf. replace (from + 2 + h - 2) with (from + h) by lia. reflexivity.
  - symmetry. rewrite nth_error_nth' with (d := 0) by (rewrite seq_length; exact H). rewrite seq_nth by exact H. reflexivity.
Qed.
