(** Each sheet of the workbook: success and the cells it hands on. *)
From Coq Require Import String Ascii Sorted.
From Verif Require Import Base BaseL M_HeatPump M_Sweep M_Regression M_Excel S_Excel L_Excel.
Local Open Scope nat_scope.
Local Open Scope list_scope.

(** The only entry of a list of headings with a given name *)
Ltac named_in M :=
  repeat (destruct M as [M|M]; [first [discriminate M | injection M as <-]|]); try contradiction M.

(** ** Which rows and columns a selection has *)
Definition has_col (f : frame) (c : nat) : Prop := In (Unnamed c, c) (f_cols f).
Definition has_row (f : frame) (r : nat) : Prop := In (Pos r, r) (f_rows f).

Lemma has_col_frame s c : plain_sheet s -> has_col (frame_of s) c <-> c < length (s_header s).
Proof. intro P. unfold has_col. rewrite (frame_cols s P), ucols_In. intuition lia. Qed.
Lemma has_row_frame s r : has_row (frame_of s) r <-> r < length (s_cells s).
Proof. unfold has_row. rewrite frame_rows, prows_In. intuition lia. Qed.

Lemma drop_cols_ok s ks f : view s f -> (forall k, In k ks -> has_col f k) ->
  exists f', drop_cols (Us ks) f = Ok f' /\ view s f' /\ f_rows f' = f_rows f /\
  forall c, has_col f' c <-> has_col f c /\ ~ In c ks.
Proof.
  intros V H. assert (E : exists f', drop_cols (Us ks) f = Ok f').
  { unfold drop_cols. rewrite drop_ok; [eexists; reflexivity|]. intros l I. apply in_map_iff in I as (k & <- & I).
    apply in_map_iff. exists (Unnamed k, k). split; [reflexivity|apply H, I]. }
  destruct E as [f' E]. exists f'. split; [exact E|]. split; [exact (view_drop_cols s _ f f' E V)|].
  apply drop_cols_spec in E as (_ & HC & HR & _). split; [exact HR|]. intro c. unfold has_col. rewrite HC, filter_In. cbn [fst].
  rewrite negb_true_iff, lmem_nIn. unfold Us. rewrite in_map_iff. split; intros [A B]; (split; [exact A|]).
  - intro I. apply B. exists c. split; [reflexivity|exact I].
  - intros (k & E & I). injection E as <-. exact (B I).
Qed.
Lemma drop_rows_ok s ks f : view s f -> (forall k, In k ks -> has_row f k) ->
  exists f', drop_rows (Ps ks) f = Ok f' /\ view s f' /\ f_cols f' = f_cols f /\
  f_rows f' = filter (fun e => negb (lmem (fst e) (Ps ks))) (f_rows f) /\
  forall r, has_row f' r <-> has_row f r /\ ~ In r ks.
Proof.
  intros V H. assert (E : exists f', drop_rows (Ps ks) f = Ok f').
  { unfold drop_rows. rewrite drop_ok; [eexists; reflexivity|]. intros l I. apply in_map_iff in I as (k & <- & I).
    apply in_map_iff. exists (Pos k, k). split; [reflexivity|apply H, I]. }
  destruct E as [f' E]. exists f'. split; [exact E|]. split; [exact (view_drop_rows s _ f f' E V)|].
  apply drop_rows_spec in E as (_ & HR & HC & _). split; [exact HC|]. split; [exact HR|]. intro c. unfold has_row. rewrite HR, filter_In. cbn [fst].
  rewrite negb_true_iff, lmem_nIn. unfold Ps. rewrite in_map_iff. split; intros [A B]; (split; [exact A|]).
  - intro I. apply B. exists c. split; [reflexivity|exact I].
  - intros (k & E & I). injection E as <-. exact (B I).
Qed.
Lemma has_row_iloc s a b f n : f_rows f = prows 0 n -> view s f -> forall r, has_row (iloc a b f) r <-> a <= r < b /\ r < n.
Proof.
  intros H V r. unfold has_row. cbn [iloc f_rows]. rewrite H, iloc_prows, prows_In. split; [intros [_ K]; lia|intro K; split; [reflexivity|lia]].
Qed.

(** ** Cells *)
Lemma xl_cell (wb : workbook) name s c ch r r2 : wb name = Some s -> letter ch = c -> r2 = r + 2 -> xl wb name ch r2 = cellf s r c.
Proof. intros W <- ->. unfold xl. rewrite W. replace (r + 2 - 2) with r by lia. reflexivity. Qed.
Lemma at_frame (wb : workbook) name s f c ch r r2 : wb name = Some s -> view s f -> letter ch = c -> r2 = r + 2 -> has_col f c -> has_row f r ->
  at_ f c r = Ok (xl wb name ch r2).
Proof. intros W V L R HC HR. rewrite (xl_cell wb name s c ch r r2 W L R). apply at_ok; assumption. Qed.
Lemma at_frame_inv (wb : workbook) name s f c ch r r2 v : wb name = Some s -> view s f -> letter ch = c -> r2 = r + 2 ->
  at_ f c r = Ok v -> v = xl wb name ch r2.
Proof. intros W V L R E. rewrite (xl_cell wb name s c ch r r2 W L R). apply at_view with (1 := V) in E. apply E. Qed.

(** A named column, a first entry of a named column *)
Lemma column_cells (wb : workbook) name s m f nm c : wb name = Some s -> view s f -> has_col f c -> renamed m (Unnamed c) = Named nm ->
  (forall c', In (Unnamed c', nm) m -> c' = c) ->
  named_column (reset_index (rename m f)) nm = Ok (map (fun r => cellf s r c) (map snd (f_rows f))).
Proof.
  intros W V HC R Un. destruct (named_column_ok m f nm c HC R) as [col E]. rewrite E. f_equal.
  destruct (named_column_view s m f nm col V E) as (c' & M & _ & ->). rewrite (Un c' M). reflexivity.
Qed.
Lemma first_cell (wb : workbook) name s m f nm c r rest : wb name = Some s -> view s f -> has_col f c -> renamed m (Unnamed c) = Named nm ->
  (forall c', In (Unnamed c', nm) m -> c' = c) -> map snd (f_rows f) = r :: rest ->
  first_of (reset_index (rename m f)) nm = Ok (cellf s r c).
Proof.
  intros W V HC R Un HR.
  assert (X : exists v, first_of (reset_index (rename m f)) nm = Ok v).
  { unfold first_of, at_label. cbn [reset_index rename f_cols]. destruct (find_renamed_ok m nm (f_cols f) _ c HC R) as [i ->]. cbn [bind].
    change (f_rows (reset_index (rename m f))) with (f_rows (reset_index f)).
    pose proof (find_reset0_ok f r rest HR) as Z. rewrite Z. eexists. reflexivity. }
  destruct X as [v E]. rewrite E. f_equal. destruct (first_of_view s m f nm v V E) as (c' & r' & rest' & M & _ & HR' & ->).
  rewrite HR in HR'. injection HR' as <- _. rewrite (Un c' M). reflexivity.
Qed.

(** Blocks turned on their side *)
Record lying (s : sheet) (k : nat) (f : frame) : Prop := {
  l_at : f_at f = (fun r c => cellf s c r);
  l_cols : forall l j, In (l, j) (f_cols f) -> l = Pos j;
  l_rows : exists rest, map snd (f_rows f) = k :: rest }.

Lemma side_ok s a b gone k n : plain_sheet s -> n <= length (s_header s) ->
  filter (fun e => negb (lmem (fst e) (Ps gone))) (prows 0 n) = [(Pos k, k)] ->
  (exists g, In g gone /\ n = S g) -> (forall g, In g gone -> g < n) ->
  exists f, drop_rows (Ps gone) (reset_index (transpose (iloc a b (frame_of s)))) = Ok f /\ lying s k f /\
    f_cols f = prows a (Nat.min (b - a) (length (s_cells s) - a)).
Proof.
  intros P W F G B. change (reset_index (transpose (iloc a b (frame_of s)))) with (side s a b).
  assert (D : forall l, In l (Ps gone) -> In l (map fst (f_rows (side s a b)))).
  { intros l I. apply in_map_iff in I as (g & <- & I). apply in_map_iff. exists (Pos g, g). split; [reflexivity|].
    rewrite (side_rows s a b P). apply prows_In. split; [reflexivity|]. specialize (B g I). lia. }
  unfold drop_rows. rewrite (drop_ok _ _ D). cbn [bind]. eexists. split; [reflexivity|].
  split; [|cbn [f_cols]; apply side_cols]. constructor.
  - reflexivity.
  - intros l j I. cbn [f_cols] in I. rewrite side_cols in I. apply prows_In in I. apply I.
  - cbn [f_rows]. destruct (side_first gone k n _ _ (side_rows s a b P) D F G B) as (rest & E & _). exists rest. exact E.
Qed.
Lemma lying_cell (wb : workbook) name s m k f nm r r2 ch : wb name = Some s -> lying s k f -> letter ch = k -> r2 = r + 2 ->
  In (Pos r, r) (f_cols f) -> renamed m (Pos r) = Named nm -> (forall r', In (Pos r', nm) m -> r' = r) ->
  first_of (reset_index (rename m f)) nm = Ok (xl wb name ch r2).
Proof.
  intros W L <- -> HC R Un. destruct (l_rows s _ f L) as [rest HR].
  assert (X : exists v, first_of (reset_index (rename m f)) nm = Ok v).
  { unfold first_of, at_label. cbn [reset_index rename f_cols]. destruct (find_renamed_ok m nm (f_cols f) _ r HC R) as [i ->]. cbn [bind].
    change (f_rows (reset_index (rename m f))) with (f_rows (reset_index f)).
    pose proof (find_reset0_ok f _ rest HR) as Z. rewrite Z. eexists. reflexivity. }
  destruct X as [v E]. rewrite E. f_equal.
  destruct (first_of_side s m f nm v _ rest (l_at s _ f L) (l_cols s _ f L) HR E) as (r' & M & _ & ->). rewrite (Un r' M).
  symmetry. apply xl_cell; [exact W|reflexivity|lia].
Qed.
Lemma lying_drop s k ks f : lying s k f -> (forall r, In r ks -> In (Pos r, r) (f_cols f)) ->
  exists f', drop_cols (Ps ks) f = Ok f' /\ lying s k f' /\ forall r, In (Pos r, r) (f_cols f') <-> In (Pos r, r) (f_cols f) /\ ~ In r ks.
Proof.
  intros L H. unfold drop_cols. rewrite drop_ok; cbn [bind].
  - eexists. split; [reflexivity|]. split.
    + constructor; cbn [f_at f_cols f_rows]; [apply L| |apply L]. intros l j I. apply filter_In in I as [I _]. apply (l_cols s k f L l j I).
    + intro r. cbn [f_cols]. rewrite filter_In. cbn [fst]. rewrite negb_true_iff, lmem_nIn. unfold Ps. rewrite in_map_iff. split; intros [A B]; (split; [exact A|]).
      * intro I. apply B. exists r. split; [reflexivity|exact I].
      * intros (k' & E & I). injection E as <-. exact (B I).
  - intros l I. apply in_map_iff in I as (r & <- & I). apply in_map_iff. exists (Pos r, r). split; [reflexivity|apply H, I].
Qed.

(** ** Parametric, Controller *)
Ltac sheet_of P W := let s := fresh "s" in destruct W as (s & W & ?Wc & ?Wr); pose proof (P _ _ W : plain_sheet s).
Ltac cell_tac W V := first [eapply (at_frame _ _ _ _ _ _ _ _ W V); [reflexivity|reflexivity| |]].

Lemma get_sheet_ok (wb : workbook) name s : wb name = Some s -> get_sheet wb name = Ok (frame_of s).
Proof. intro W. unfold get_sheet. rewrite W. reflexivity. Qed.
Lemma get_sheet_inv (wb : workbook) name f : get_sheet wb name = Ok f -> exists s, wb name = Some s /\ f = frame_of s.
Proof. unfold get_sheet. destruct (wb name) as [s|]; [|discriminate]. intro H. injection H as <-. exists s. split; reflexivity. Qed.

Lemma parametric_ok wb : plain wb -> reaches wb "Parametric" "F" 7 ->
  x_parametric wb = Ok {| hp_max := xl wb "Parametric" "D" 6; hp_min := xl wb "Parametric" "E" 6; hp_step := xl wb "Parametric" "F" 6;
                          ts_max := xl wb "Parametric" "D" 7; ts_min := xl wb "Parametric" "E" 7; ts_step := xl wb "Parametric" "F" 7 |}.
Proof.
  intros P (s & W & Wc & Wr). pose proof (P _ _ W : plain_sheet s) as PS. pose proof (view_frame s PS) as V.
  change (letter "F") with 5 in Wc.
  assert (A : forall c ch r r2, letter ch = c -> r2 = r + 2 -> c < 6 -> r < 6 -> at_ (frame_of s) c r = Ok (xl wb "Parametric" ch r2)).
  { intros c ch r r2 L R Hc Hr. apply (at_frame wb _ s _ c ch r r2 W V L R).
    - apply has_col_frame; [exact PS|lia].
    - apply has_row_frame. lia. }
  unfold x_parametric. rewrite (get_sheet_ok _ _ _ W). cbn [bind].
  rewrite (A 3 "D"%char 4 6), (A 4 "E"%char 4 6), (A 5 "F"%char 4 6), (A 3 "D"%char 5 7), (A 4 "E"%char 5 7), (A 5 "F"%char 5 7) by (reflexivity || lia). reflexivity.
Qed.

Lemma controller_ok wb below above : plain wb -> reaches wb "Controller" "G" 9 ->
  order_of (xl wb "Controller" "D" 9) = Ok below -> order_of (xl wb "Controller" "D" 8) = Ok above ->
  x_controller wb = Ok {| k_controller := xl wb "Controller" "D" 5; k_first_hour := xl wb "Controller" "G" 5; k_timesteps := xl wb "Controller" "G" 6;
                          k_setpoint := xl wb "Controller" "D" 7; k_horizon := xl wb "Controller" "G" 9; k_below := below; k_above := above |}.
Proof.
  intros P (s & W & Wc & Wr) OB OA. pose proof (P _ _ W : plain_sheet s) as PS. pose proof (view_frame s PS) as V.
  change (letter "G") with 6 in Wc.
  assert (A : forall c ch r r2, letter ch = c -> r2 = r + 2 -> c < 7 -> r < 8 -> at_ (frame_of s) c r = Ok (xl wb "Controller" ch r2)).
  { intros c ch r r2 L R Hc Hr. apply (at_frame wb _ s _ c ch r r2 W V L R).
    - apply has_col_frame; [exact PS|lia].
    - apply has_row_frame. lia. }
  unfold x_controller. rewrite (get_sheet_ok _ _ _ W). cbn [bind].
  rewrite (A 3 "D"%char 3 5), (A 6 "G"%char 3 5), (A 6 "G"%char 4 6), (A 3 "D"%char 5 7), (A 6 "G"%char 7 9), (A 3 "D"%char 7 9), (A 3 "D"%char 6 8) by (reflexivity || lia).
  cbn [bind]. rewrite OB. cbn [bind]. rewrite OA. reflexivity.
Qed.

(** ** Series *)
Lemma drop_front s n : forall axis, axis = prows 0 (length (s_cells s)) -> n <= length (s_cells s) ->
  filter (fun e => negb (lmem (fst e) (Ps (seq 0 n)))) axis = prows n (length (s_cells s) - n).
Proof.
  intros axis -> H. replace (length (s_cells s)) with (n + (length (s_cells s) - n)) at 1 by lia.
  rewrite prows_app, filter_app, filter_none, filter_keep; [reflexivity| |].
  - intros k I. apply in_seq in I. lia.
  - intros k K. apply in_seq. lia.
Qed.

(** A frame whose named columns are the columns of a sheet from a row on *)
Lemma column_down (wb : workbook) name s m f nm c ch from from2 n : wb name = Some s -> view s f -> has_col f c -> letter ch = c -> from2 = from + 2 ->
  renamed m (Unnamed c) = Named nm -> (forall c', In (Unnamed c', nm) m -> c' = c) -> f_rows f = prows from n -> n = length (s_cells s) - from ->
  series wb (reset_index (rename m f)) nm name ch from2.
Proof.
  intros W V HC L F R Un HR HN. eexists. split; [apply (column_cells wb name s m f nm c W V HC R Un)|].
  rewrite HR, prows_snd. apply (reads_down_map wb name s c ch from from2 n W L F HN).
Qed.
Lemma column_down_to (wb : workbook) name s m f nm c ch from from2 n N : wb name = Some s -> view s f -> has_col f c -> letter ch = c -> from2 = from + 2 ->
  renamed m (Unnamed c) = Named nm -> (forall c', In (Unnamed c', nm) m -> c' = c) -> f_rows f = prows from n -> n = Nat.min N (length (s_cells s) - from) ->
  series_to wb (reset_index (rename m f)) nm name ch from2 N.
Proof.
  intros W V HC L F R Un HR HN. eexists. split; [apply (column_cells wb name s m f nm c W V HC R Un)|].
  rewrite HR, prows_snd. apply (reads_down_to_map wb name s c ch from from2 N n W L F HN).
Qed.

Ltac un := let c' := fresh "c" in let M := fresh "M" in intros c' M; named_in M; reflexivity.
Ltac notin := let I := fresh "I" in intro I; cbn in I; repeat (destruct I as [I|I]; [discriminate I|]); contradiction I.
Ltac small := let I := fresh "I" in intros ? I; repeat (destruct I as [<-|I]; [|]); [..|contradiction I].

Lemma frame_col s c : plain_sheet s -> c < length (s_header s) -> has_col (frame_of s) c.
Proof. intros P H. apply has_col_frame; assumption. Qed.
Lemma frame_row s r : r < length (s_cells s) -> has_row (frame_of s) r.
Proof. intro H. apply has_row_frame; assumption. Qed.
Lemma in_list_lt (ks : list nat) n k : forallb (fun k => k <? n) ks = true -> In k ks -> k < n.
Proof. intros H I. rewrite forallb_forall in H. apply Nat.ltb_lt, H, I. Qed.

(** One named column, from the hypotheses [wb name = Some s], [view s f], the columns and the rows of [f] *)
Ltac down W V HC HR :=
  match goal with
  | |- series _ _ _ _ ?ch ?from =>
      let c := eval vm_compute in (letter ch) in let k := eval vm_compute in (from - 2) in
      eapply (column_down _ _ _ _ _ _ c ch k from _ W V); [apply HC; [lia|notin]|reflexivity|reflexivity|reflexivity|un|exact HR|reflexivity]
  | |- series_to _ _ _ _ ?ch ?from ?n =>
      let c := eval vm_compute in (letter ch) in let k := eval vm_compute in (from - 2) in
      eapply (column_down_to _ _ _ _ _ _ c ch k from _ n W V); [apply HC; [lia|notin]|reflexivity|reflexivity|reflexivity|un|exact HR|try reflexivity]
  end.

Lemma resources_ok wb : plain wb -> reaches wb "Weather resources" "O" 5 ->
  exists f, x_resources wb = Ok f /\ let N := "Weather resources"%string in
    series wb f "DHI" N "D" 6 /\ series wb f "GHI" N "E" 6 /\ series wb f "DNI" N "F" 6 /\
    series wb f "wind_speed_10" N "G" 6 /\ series wb f "wind_speed_50" N "H" 6 /\ series wb f "roughness_length" N "I" 6 /\
    series wb f "pressure" N "J" 6 /\ series wb f "air_temperature" N "K" 6 /\ series wb f "air_density" N "L" 6 /\
    series wb f "water_temperature" N "M" 6.
Proof.
  intros P (s & W & Wc & Wr). pose proof (P _ _ W : plain_sheet s) as PS. pose proof (view_frame s PS) as V.
  change (letter "O") with 14 in Wc. unfold x_resources. rewrite (get_sheet_ok _ _ _ W). cbn [bind].
  destruct (drop_cols_ok s [0; 1; 2; 13; 14] (frame_of s) V) as (f1 & E1 & V1 & R1 & C1).
  { intros k I. apply frame_col; [exact PS|]. apply (in_list_lt _ 15) in I; [lia|reflexivity]. }
  rewrite E1. cbn [bind].
  destruct (drop_rows_ok s [0; 1; 2; 3] f1 V1) as (f2 & E2 & V2 & C2 & R2 & _).
  { intros k I. unfold has_row. rewrite R1. apply frame_row. apply (in_list_lt _ 4) in I; [lia|reflexivity]. }
  rewrite E2. cbn [bind]. eexists. split; [reflexivity|].
  assert (HR : f_rows f2 = prows 4 (length (s_cells s) - 4)).
  { rewrite R2, R1. apply (drop_front s 4); [reflexivity|lia]. }
  assert (HC : forall c, c < 15 -> ~ In c [0; 1; 2; 13; 14] -> has_col f2 c).
  { intros c Hc Hn. unfold has_col. rewrite C2. apply C1. split; [apply frame_col; [exact PS|lia]|exact Hn]. }
  repeat match goal with |- _ /\ _ => split end; down W V2 HC HR.
Qed.

Lemma column_picks (wb : workbook) name s m f nm c ch rows : wb name = Some s -> view s f -> has_col f c -> letter ch = c ->
  renamed m (Unnamed c) = Named nm -> (forall c', In (Unnamed c', nm) m -> c' = c) ->
  map (fun r => r + 2) (map snd (f_rows f)) = rows -> picks wb (reset_index (rename m f)) nm name ch rows.
Proof.
  intros W V HC L R Un <-. unfold picks. rewrite (column_cells wb name s m f nm c W V HC R Un). f_equal. rewrite (map_map (fun r => r + 2)).
  apply map_ext. intro r. symmetry. apply xl_cell; [exact W|exact L|reflexivity].
Qed.
Ltac pick W V HC HR :=
  match goal with
  | |- picks _ _ _ _ ?ch _ =>
      let c := eval vm_compute in (letter ch) in
      eapply (column_picks _ _ _ _ _ _ c ch _ W V); [apply HC; [lia|notin]|reflexivity|reflexivity|un|exact HR]
  end.
Lemma shift_seq a m : map (fun r => r + 2) (seq a m) = seq (a + 2) m.
Proof. revert a. induction m as [|m IH]; intro a; [reflexivity|]. cbn [seq map]. rewrite IH. reflexivity. Qed.

Lemma demands_ok wb : plain wb -> reaches wb "Demand gen" "H" 37 ->
  exists f, x_demands wb = Ok (xl wb "Demand gen" "D" 17, f) /\
    let N := "Demand gen"%string in let rows := seq 6 10 ++ seq 38 (last_row wb N - 37) in
    picks wb f "Type" N "D" rows /\ picks wb f "Age" N "E" rows /\ picks wb f "Bedrooms" N "F" rows /\ picks wb f "Number of type" N "G" rows.
Proof.
  intros P (s & W & Wc & Wr). pose proof (P _ _ W : plain_sheet s) as PS. pose proof (view_frame s PS) as V.
  change (letter "H") with 7 in Wc. unfold x_demands. rewrite (get_sheet_ok _ _ _ W). cbn [bind].
  rewrite (at_frame wb "Demand gen" s (frame_of s) 3 "D" 15 17 W V); [|reflexivity|reflexivity|apply frame_col; [exact PS|lia]|apply frame_row; lia].
  cbn [bind].
  destruct (drop_cols_ok s [0; 1; 2; 7] (frame_of s) V) as (f1 & E1 & V1 & R1 & C1).
  { intros k I. apply frame_col; [exact PS|]. apply (in_list_lt _ 8) in I; [lia|reflexivity]. }
  rewrite E1. cbn [bind].
  destruct (drop_rows_ok s [0; 1; 2; 3] f1 V1) as (f2 & E2 & V2 & C2 & R2 & H2).
  { intros k I. unfold has_row. rewrite R1. apply frame_row. apply (in_list_lt _ 4) in I; [lia|reflexivity]. }
  rewrite E2. cbn [bind].
  assert (HR : f_rows f2 = prows 4 (length (s_cells s) - 4)).
  { rewrite R2, R1. apply (drop_front s 4); [reflexivity|lia]. }
  destruct (drop_rows_ok s (seq 14 22) f2 V2) as (f3 & E3 & V3 & C3 & R3 & _).
  { intros k I. apply in_seq in I. unfold has_row. rewrite HR. apply prows_In. split; [reflexivity|lia]. }
  rewrite E3. cbn [bind]. eexists. split; [reflexivity|].
  assert (HR3 : map (fun r => r + 2) (map snd (f_rows f3)) = seq 6 10 ++ seq 38 (last_row wb "Demand gen" - 37)).
  { rewrite R3, HR. replace (length (s_cells s) - 4) with (10 + (22 + (length (s_cells s) - 36))) by lia.
    rewrite !prows_app, !filter_app. rewrite (filter_none _ (4 + 10) 22) by (intros k K; apply in_seq; lia).
    rewrite (filter_keep _ (4 + 10 + 22)) by (intros k I; apply in_seq in I; lia).
    rewrite !map_app, prows_snd, shift_seq. cbn [app map]. unfold last_row. rewrite W.
    replace (length (s_cells s) + 1 - 37) with (length (s_cells s) - 36) by lia. reflexivity. }
  assert (HC : forall c, c < 8 -> ~ In c [0; 1; 2; 7] -> has_col f3 c).
  { intros c Hc Hn. unfold has_col. rewrite C3, C2. apply C1. split; [apply frame_col; [exact PS|lia]|exact Hn]. }
  cbv zeta. repeat match goal with |- _ /\ _ => split end; pick W V3 HC HR3.
Qed.

Lemma demand_input_ok wb : plain wb -> reaches wb "Demand input" "I" 8 ->
  exists f, x_demand_input wb = Ok (xl wb "Demand input" "I" 6, xl wb "Demand input" "I" 8, f) /\ let N := "Demand input"%string in
    series wb f "heat demand" N "D" 6 /\ series wb f "electrical demand" N "E" 6 /\
    series wb f "temp_flow" N "F" 6 /\ series wb f "temp_source" N "G" 6.
Proof.
  intros P (s & W & Wc & Wr). pose proof (P _ _ W : plain_sheet s) as PS. pose proof (view_frame s PS) as V.
  change (letter "I") with 8 in Wc. unfold x_demand_input. rewrite (get_sheet_ok _ _ _ W). cbn [bind].
  rewrite (at_frame wb "Demand input" s (frame_of s) 8 "I" 4 6 W V); [|reflexivity|reflexivity|apply frame_col; [exact PS|lia]|apply frame_row; lia].
  cbn [bind].
  rewrite (at_frame wb "Demand input" s (frame_of s) 8 "I" 6 8 W V); [|reflexivity|reflexivity|apply frame_col; [exact PS|lia]|apply frame_row; lia].
  cbn [bind].
  destruct (drop_cols_ok s [0; 1; 2; 7; 8] (frame_of s) V) as (f1 & E1 & V1 & R1 & C1).
  { intros k I. apply frame_col; [exact PS|]. apply (in_list_lt _ 9) in I; [lia|reflexivity]. }
  rewrite E1. cbn [bind].
  destruct (drop_rows_ok s [0; 1; 2; 3] f1 V1) as (f2 & E2 & V2 & C2 & R2 & _).
  { intros k I. unfold has_row. rewrite R1. apply frame_row. apply (in_list_lt _ 4) in I; [lia|reflexivity]. }
  rewrite E2. cbn [bind]. eexists. split; [reflexivity|].
  assert (HR : f_rows f2 = prows 4 (length (s_cells s) - 4)).
  { rewrite R2, R1. apply (drop_front s 4); [reflexivity|lia]. }
  assert (HC : forall c, c < 9 -> ~ In c [0; 1; 2; 7; 8] -> has_col f2 c).
  { intros c Hc Hn. unfold has_col. rewrite C2. apply C1. split; [apply frame_col; [exact PS|lia]|exact Hn]. }
  cbv zeta. repeat match goal with |- _ /\ _ => split end; down W V2 HC HR.
Qed.

Lemma wind_farm_ok wb : plain wb -> reaches wb "Wind farm" "G" 19 ->
  exists f, x_wind_farm wb = Ok {| wf_name := xl wb "Wind farm" "C" 15; wf_hub := xl wb "Wind farm" "D" 15; wf_rotor := xl wb "Wind farm" "E" 15;
      wf_number := xl wb "Wind farm" "F" 15; wf_efficiency := xl wb "Wind farm" "G" 15; wf_resources := f |} /\ let N := "Wind farm"%string in
    series wb f "wind_speed_10" N "C" 20 /\ series wb f "wind_speed_50" N "D" 20 /\ series wb f "roughness_length" N "E" 20 /\
    series wb f "pressure" N "F" 20 /\ series wb f "air_temperature" N "G" 20.
Proof.
  intros P (s & W & Wc & Wr). pose proof (P _ _ W : plain_sheet s) as PS. pose proof (view_frame s PS) as V.
  change (letter "G") with 6 in Wc. unfold x_wind_farm. rewrite (get_sheet_ok _ _ _ W). cbn [bind].
  assert (A : forall c ch r r2, letter ch = c -> r2 = r + 2 -> c < 7 -> r < 18 -> at_ (frame_of s) c r = Ok (xl wb "Wind farm" ch r2)).
  { intros c ch r r2 L R Hc Hr. apply (at_frame wb _ s _ c ch r r2 W V L R); [apply frame_col; [exact PS|lia]|apply frame_row; lia]. }
  rewrite (A 2 "C"%char 13 15), (A 3 "D"%char 13 15), (A 4 "E"%char 13 15), (A 5 "F"%char 13 15), (A 6 "G"%char 13 15) by (reflexivity || lia).
  cbn [bind].
  destruct (drop_cols_ok s [0; 1] (frame_of s) V) as (f1 & E1 & V1 & R1 & C1).
  { intros k I. apply frame_col; [exact PS|]. apply (in_list_lt _ 2) in I; [lia|reflexivity]. }
  rewrite E1. cbn [bind].
  destruct (drop_rows_ok s (seq 0 18) f1 V1) as (f2 & E2 & V2 & C2 & R2 & _).
  { intros k I. unfold has_row. rewrite R1. apply frame_row. apply in_seq in I. lia. }
  rewrite E2. cbn [bind]. eexists. split; [reflexivity|].
  assert (HR : f_rows f2 = prows 18 (length (s_cells s) - 18)).
  { rewrite R2, R1. apply (drop_front s 18); [reflexivity|lia]. }
  assert (HC : forall c, c < 7 -> ~ In c [0; 1] -> has_col f2 c).
  { intros c Hc Hn. unfold has_col. rewrite C2. apply C1. split; [apply frame_col; [exact PS|lia]|exact Hn]. }
  cbv zeta. repeat match goal with |- _ /\ _ => split end; down W V2 HC HR.
Qed.

(** ** Rows without gaps *)
Lemma filter_first {A} (p : A -> bool) (f : nat -> A) n r rest :
  filter p (map f (seq 0 n)) = map f (r :: rest) -> (forall i j, f i = f j -> i = j) ->
  p (f r) = true /\ r < n /\ forall r', r' < r -> p (f r') = false.
Proof.
  intros H Inj.
  assert (X : forall a, filter p (map f (seq a n)) = map f (r :: rest) -> p (f r) = true /\ a <= r < a + n /\ forall r', a <= r' < r -> p (f r') = false).
  { clear H. induction n as [|n IH]; intros a H; [discriminate|]. cbn [seq map filter] in H. destruct (p (f a)) eqn:E.
    - cbn [map] in H. injection H as H _. apply Inj in H. subst a. split; [exact E|]. split; [lia|]. intros r' K. lia.
    - destruct (IH (S a) H) as (X1 & X2 & X3). split; [exact X1|]. split; [lia|]. intros r' K. destruct (Nat.eq_dec r' a) as [->|N]; [exact E|apply X3; lia]. }
  destruct (X 0 H) as (X1 & X2 & X3). split; [exact X1|]. split; [lia|]. intros r' K. apply X3. lia.
Qed.
Lemma filter_first_ok p n r : p (Pos r, r) = true -> r < n -> (forall r', r' < r -> p (Pos r', r') = false) ->
  exists rest, map snd (filter p (prows 0 n)) = r :: rest.
Proof.
  intros H Hr F. replace n with (r + (1 + (n - r - 1))) by lia. rewrite !prows_app, !filter_app.
  replace (filter p (prows 0 r)) with (@nil (label * nat)).
  - cbn [Nat.add]. change (prows r 1) with [(Pos r, r)]. cbn [filter]. rewrite H. cbn [app map snd]. eexists. reflexivity.
  - symmetry. clear H Hr. assert (X : forall a m, (forall r', a <= r' < a + m -> p (Pos r', r') = false) -> filter p (prows a m) = []).
    { intros a m. revert a. induction m as [|m IH]; intros a K; [reflexivity|]. unfold prows. cbn [seq map filter]. rewrite K by lia. apply IH. intros r' L. apply K. lia. }
    apply X. intros r' K. apply F. lia.
Qed.
Lemma filter_empty p n : (forall r, r < n -> p (Pos r, r) = false) -> filter p (prows 0 n) = [].
Proof.
  intro H. assert (X : forall a m, (forall r', a <= r' < a + m -> p (Pos r', r') = false) -> filter p (prows a m) = []).
  { intros a m. revert a. induction m as [|m IH]; intros a K; [reflexivity|]. unfold prows. cbn [seq map filter]. rewrite K by lia. apply IH. intros r' L. apply K. lia. }
  apply X. intros r' K. apply H. lia.
Qed.
Lemma filter_filter {A} (p q : A -> bool) l : filter p (filter q l) = filter (fun x => q x && p x) l.
Proof. induction l as [|x l IH]; [reflexivity|]. cbn [filter]. destruct (q x); cbn [filter andb]; rewrite IH; reflexivity. Qed.

Lemma forallb_same {A} (p q : A -> bool) l : (forall x, p x = q x) -> forallb p l = forallb q l.
Proof. intro H. induction l as [|x l IH]; [reflexivity|]. cbn [forallb]. rewrite H, IH. reflexivity. Qed.

(** The frame left by dropping columns [gone] and rows [skip] and then every row with a gap *)
Definition gapless (s : sheet) (gone skip : list nat) (f : frame) : Prop :=
  view s f /\ (forall c, has_col f c <-> c < length (s_header s) /\ ~ In c gone) /\
  f_rows f = filter (fun e => negb (lmem (fst e) (Ps skip)) && forallb (fun c => filled (cellf s (snd e) (snd c))) (f_cols f)) (prows 0 (length (s_cells s))).
Lemma gapless_ok s gone skip : plain_sheet s -> (forall k, In k gone -> k < length (s_header s)) -> (forall k, In k skip -> k < length (s_cells s)) ->
  exists f1 f2, drop_cols (Us gone) (frame_of s) = Ok f1 /\ drop_rows (Ps skip) f1 = Ok f2 /\ gapless s gone skip (dropna f2).
Proof.
  intros PS HG HS. pose proof (view_frame s PS) as V.
  destruct (drop_cols_ok s gone (frame_of s) V) as (f1 & E1 & V1 & R1 & C1).
  { intros k I. apply frame_col; [exact PS|apply HG, I]. }
  destruct (drop_rows_ok s skip f1 V1) as (f2 & E2 & V2 & C2 & R2 & _).
  { intros k I. unfold has_row. rewrite R1. apply frame_row, HS, I. }
  exists f1, f2. split; [exact E1|]. split; [exact E2|]. split; [apply view_dropna, V2|]. split.
  - intro c. unfold has_col. cbn [dropna f_cols]. rewrite C2. specialize (C1 c). unfold has_col in C1. rewrite C1. pose proof (has_col_frame s c PS) as X. unfold has_col in X. rewrite X. reflexivity.
  - cbn [dropna f_rows f_cols]. rewrite R2, R1, frame_rows, filter_filter. apply filter_ext. intros [l r]. cbn [fst snd]. f_equal.
    apply forallb_same. intro c. rewrite (v_at s f2 V2). reflexivity.
Qed.

(** Completeness of a row in the sense of the specification *)
Lemma complete_row (wb : workbook) name s gone skip f from but r : wb name = Some s -> gapless s gone skip f ->
  (forall c, c < length (s_header s) -> (~ In c gone <-> from <= c /\ ~ In c but)) -> r < length (s_cells s) ->
  forallb (fun c => filled (cellf s r (snd c))) (f_cols f) = true <-> complete wb name from but (r + 2).
Proof.
  intros W (V & HC & _) HG Hr. rewrite forallb_forall. unfold complete, last_row, width. rewrite W. replace (r + 2 - 2) with r by lia. split.
  - intro F. split; [lia|]. intros c K NB. assert (I : has_col f c) by (apply HC; split; [lia|]; apply HG; [lia|]; split; [lia|exact NB]).
    specialize (F _ I). cbn [snd] in F. unfold cellf in F. intro E. rewrite E in F. discriminate.
  - intros [_ F] [l j] I. cbn [snd]. destruct (v_cols s f V l j I) as [-> Hj]. assert (J : has_col f j) by exact I. apply HC in J as [_ J].
    apply HG in J; [|exact Hj]. destruct J as [J1 J2]. specialize (F j (conj J1 Hj) J2). unfold cellf. destruct (nth j (nth r (s_cells s) []) None); [reflexivity|congruence].
Qed.
Lemma skipped_row r skip : lmem (Pos r) (Ps skip) = true <-> In (r + 2) (map (fun k => k + 2) skip).
Proof.
  rewrite lmem_In. unfold Ps. rewrite !in_map_iff. split.
  - intros (k & E & I). injection E as ->. exists r. split; [reflexivity|exact I].
  - intros (k & E & I). exists k. split; [f_equal; lia|exact I].
Qed.
Lemma gapless_first (wb : workbook) name s gone skip skip2 f from but r : wb name = Some s -> gapless s gone skip f ->
  (forall c, c < length (s_header s) -> (~ In c gone <-> from <= c /\ ~ In c but)) -> skip2 = map (fun k => k + 2) skip ->
  first_complete wb name from but skip2 r -> exists rest, map snd (f_rows f) = (r - 2) :: rest.
Proof.
  intros W G HG -> (C & NS & F). pose proof C as [[C1 C2] _]. unfold last_row in C2. rewrite W in C2.
  pose proof G as (V & HC & HR). rewrite HR. apply filter_first_ok.
  - cbn [fst snd]. apply andb_true_intro. split.
    + rewrite negb_true_iff. destruct (lmem (Pos (r - 2)) (Ps skip)) eqn:E; [|reflexivity]. apply skipped_row in E. replace (r - 2 + 2) with r in E by lia. contradiction.
    + apply (complete_row wb name s gone skip f from but (r - 2) W G HG); [lia|]. replace (r - 2 + 2) with r by lia. exact C.
  - lia.
  - intros r' K. cbn [fst snd]. destruct (negb _ && _) eqn:E; [|reflexivity]. exfalso. apply andb_prop in E as [E1 E2].
    apply (F (r' + 2)); [lia| |apply (complete_row wb name s gone skip f from but r' W G HG); [lia|exact E2]].
    intro I. apply skipped_row in I. rewrite I in E1. discriminate.
Qed.
Lemma gapless_empty (wb : workbook) name s gone skip skip2 f from but : wb name = Some s -> gapless s gone skip f ->
  (forall c, c < length (s_header s) -> (~ In c gone <-> from <= c /\ ~ In c but)) -> skip2 = map (fun k => k + 2) skip ->
  (forall r, ~ In r skip2 -> ~ complete wb name from but r) -> f_rows f = [].
Proof.
  intros W G HG -> F. pose proof G as (V & HC & HR). rewrite HR. apply filter_empty.
  intros r K. cbn [fst snd]. destruct (negb _ && _) eqn:E; [|reflexivity]. exfalso. apply andb_prop in E as [E1 E2].
  apply (F (r + 2)); [|apply (complete_row wb name s gone skip f from but r W G HG); [exact K|exact E2]].
  intro I. apply skipped_row in I. rewrite I in E1. discriminate.
Qed.

(** The values of the first row without a gap, and the error if there is none *)
Lemma gapless_cell (wb : workbook) name s gone skip skip2 f from but r m nm c ch : wb name = Some s -> gapless s gone skip f ->
  (forall c, c < length (s_header s) -> (~ In c gone <-> from <= c /\ ~ In c but)) -> skip2 = map (fun k => k + 2) skip ->
  first_complete wb name from but skip2 r -> letter ch = c -> c < length (s_header s) -> ~ In c gone ->
  renamed m (Unnamed c) = Named nm -> (forall c', In (Unnamed c', nm) m -> c' = c) ->
  first_of (reset_index (rename m f)) nm = Ok (xl wb name ch r) /\ list_first (reset_index (rename m f)) (Named nm) = Ok (xl wb name ch r).
Proof.
  intros W G HG S2 FC L Hc NG R Un. destruct (gapless_first wb name s gone skip skip2 f from but r W G HG S2 FC) as [rest HR].
  pose proof G as (V & HC & _). assert (H : has_col f c) by (apply HC; split; assumption).
  assert (X : cellf s (r - 2) c = xl wb name ch r).
  { symmetry. apply xl_cell; [exact W|exact L|]. destruct FC as ([? _] & _). lia. }
  split.
  - rewrite <- X. apply (first_cell wb name s m f nm c _ rest W V H R Un HR).
  - unfold list_first. pose proof (column_cells wb name s m f nm c W V H R Un) as E. unfold named_column in E. rewrite E, HR. cbn [bind map]. rewrite X. reflexivity.
Qed.
Lemma gapless_none (wb : workbook) name s gone skip skip2 f from but m nm c : wb name = Some s -> gapless s gone skip f ->
  (forall c, c < length (s_header s) -> (~ In c gone <-> from <= c /\ ~ In c but)) -> skip2 = map (fun k => k + 2) skip ->
  (forall r, ~ In r skip2 -> ~ complete wb name from but r) -> c < length (s_header s) -> ~ In c gone -> renamed m (Unnamed c) = Named nm ->
  first_of (reset_index (rename m f)) nm = Err KeyError /\ list_first (reset_index (rename m f)) (Named nm) = Err IndexError.
Proof.
  intros W G HG S2 F Hc NG R. pose proof (gapless_empty wb name s gone skip skip2 f from but W G HG S2 F) as HR.
  pose proof G as (V & HC & _). assert (H : has_col f c) by (apply HC; split; assumption).
  destruct (find_renamed_ok m nm (f_cols f) _ c H R) as [i Hi]. split.
  - unfold first_of, at_label. cbn [reset_index rename f_cols f_rows]. rewrite Hi. cbn [bind]. rewrite HR. reflexivity.
  - unfold list_first, column. cbn [reset_index rename f_cols f_rows]. rewrite Hi. cbn [bind]. rewrite HR. reflexivity.
Qed.

Lemma sorted_filter p a m : StronglySorted lt (map (fun r => r + 2) (map snd (filter p (prows a m)))).
Proof.
  revert a. induction m as [|m IH]; intro a; [constructor|]. unfold prows. cbn [seq map filter]. destruct (p (Pos a, a)); [|apply IH].
  cbn [map snd]. constructor; [apply IH|]. apply Forall_forall. intros x I. apply in_map_iff in I as (r & <- & I). apply in_map_iff in I as ([l j] & <- & I).
  apply filter_In in I as [I _]. apply (prows_In (S a) m) in I as [_ I]. cbn [snd]. lia.
Qed.
Lemma gapless_rows (wb : workbook) name s gone skip skip2 f from but : wb name = Some s -> gapless s gone skip f ->
  (forall c, c < length (s_header s) -> (~ In c gone <-> from <= c /\ ~ In c but)) -> skip2 = map (fun k => k + 2) skip ->
  StronglySorted lt (map (fun r => r + 2) (map snd (f_rows f))) /\
  forall r, In r (map (fun r => r + 2) (map snd (f_rows f))) <-> complete wb name from but r /\ ~ In r skip2.
Proof.
  intros W G HG ->. pose proof G as (V & HC & HR). split; [rewrite HR; apply sorted_filter|]. intro r2. rewrite HR, map_map. split.
  - intro I. apply in_map_iff in I as ([l r] & <- & I). apply filter_In in I as [I F]. apply prows_In in I as [-> I]. cbn [fst snd] in *.
    apply andb_prop in F as [F1 F2]. split; [apply (complete_row wb name s gone skip f from but r W G HG); [lia|exact F2]|].
    intro K. apply skipped_row in K. rewrite K in F1. discriminate.
  - intros [C NS]. pose proof C as [[C1 C2] _]. unfold last_row in C2. rewrite W in C2. apply in_map_iff. exists (Pos (r2 - 2), r2 - 2). cbn [snd]. split; [lia|].
    apply filter_In. split; [apply prows_In; split; [reflexivity|lia]|]. cbn [fst snd]. apply andb_true_intro. split.
    + rewrite negb_true_iff. destruct (lmem (Pos (r2 - 2)) (Ps skip)) eqn:K; [|reflexivity]. apply skipped_row in K. replace (r2 - 2 + 2) with r2 in K by lia. contradiction.
    + apply (complete_row wb name s gone skip f from but (r2 - 2) W G HG); [lia|]. replace (r2 - 2 + 2) with r2 by lia. exact C.
Qed.

Lemma electrical_ok wb : plain wb -> reaches wb "Electrical storage" "I" 5 ->
  exists s f, wb "Electrical storage"%string = Some s /\ gapless s [0; 1] [3] f /\
    x_electrical_storage wb = Ok (reset_index (rename [(U 2, "capacity"); (U 3, "initial state"); (U 4, "charge max"); (U 5, "discharge max");
      (U 6, "charge eff"); (U 7, "discharge eff"); (U 8, "self discharge")]%string f)).
Proof.
  intros P (s & W & Wc & Wr). pose proof (P _ _ W : plain_sheet s) as PS. change (letter "I") with 8 in Wc.
  destruct (gapless_ok s [0; 1] [3] PS) as (f1 & f2 & E1 & E2 & G).
  { intros k I. apply (in_list_lt _ 2) in I; [lia|reflexivity]. }
  { intros k I. apply (in_list_lt _ 4) in I; [lia|reflexivity]. }
  exists s, (dropna f2). split; [exact W|]. split; [exact G|].
  unfold x_electrical_storage. rewrite (get_sheet_ok _ _ _ W). cbn [bind]. rewrite E1. cbn [bind]. rewrite E2. reflexivity.
Qed.
Lemma PV_ok wb : plain wb -> reaches wb "PV inputs" "H" 20 ->
  exists s f g, wb "PV inputs"%string = Some s /\ gapless s [0; 1; 6; 7] [13; 17; 18] f /\ gapless s [0; 1] [17] g /\
    x_PV wb = Ok (reset_index (rename [(U 2, "name"); (U 3, "latitude"); (U 4, "longitude"); (U 5, "altitude")]%string f),
                  reset_index (rename [(U 2, "module"); (U 3, "inverter"); (U 4, "multiplier"); (U 5, "surface_tilt");
                                       (U 6, "surface_azimuth"); (U 7, "surface_type")]%string g)).
Proof.
  intros P (s & W & Wc & Wr). pose proof (P _ _ W : plain_sheet s) as PS. change (letter "H") with 7 in Wc.
  destruct (gapless_ok s [0; 1; 6; 7] [13; 17; 18] PS) as (f1 & f2 & E1 & E2 & G).
  { intros k I. apply (in_list_lt _ 8) in I; [lia|reflexivity]. }
  { intros k I. apply (in_list_lt _ 19) in I; [lia|reflexivity]. }
  destruct (gapless_ok s [0; 1] [17] PS) as (g1 & g2 & F1 & F2 & G').
  { intros k I. apply (in_list_lt _ 8) in I; [lia|reflexivity]. }
  { intros k I. apply (in_list_lt _ 19) in I; [lia|reflexivity]. }
  exists s, (dropna f2), (dropna g2). split; [exact W|]. split; [exact G|]. split; [exact G'|].
  unfold x_PV. rewrite (get_sheet_ok _ _ _ W). cbn [bind]. rewrite E1. cbn [bind]. rewrite E2. cbn [bind]. rewrite F1. cbn [bind]. rewrite F2. reflexivity.
Qed.
Lemma wind_ok wb : plain wb -> reaches wb "Wind inputs" "G" 23 ->
  exists s f g h, wb "Wind inputs"%string = Some s /\ gapless s [0; 1; 6] [12; 17; 18] f /\ gapless s [0; 1] [17] g /\
    gapless s [0; 1; 4; 5; 6] [12; 13; 17; 18; 21] h /\
    x_wind wb = Ok (reset_index (rename [(U 2, "turbine_name"); (U 3, "hub_height"); (U 4, "rotor_diameter"); (U 5, "multiplier")]%string f),
                    reset_index (rename [(U 2, "turbine_name"); (U 3, "hub_height"); (U 4, "rotor_diameter"); (U 5, "multiplier");
                                 (U 6, "nominal_power")]%string g),
                    reset_index (rename [(U 2, "value"); (U 3, "wind_speed")]%string h)).
Proof.
  intros P (s & W & Wc & Wr). pose proof (P _ _ W : plain_sheet s) as PS. change (letter "G") with 6 in Wc.
  destruct (gapless_ok s [0; 1; 6] [12; 17; 18] PS) as (f1 & f2 & E1 & E2 & G).
  { intros k I. apply (in_list_lt _ 7) in I; [lia|reflexivity]. }
  { intros k I. apply (in_list_lt _ 19) in I; [lia|reflexivity]. }
  destruct (gapless_ok s [0; 1] [17] PS) as (g1 & g2 & F1 & F2 & G').
  { intros k I. apply (in_list_lt _ 7) in I; [lia|reflexivity]. }
  { intros k I. apply (in_list_lt _ 19) in I; [lia|reflexivity]. }
  destruct (gapless_ok s [0; 1; 4; 5; 6] [12; 13; 17; 18; 21] PS) as (h1 & h2 & H1 & H2 & G'').
  { intros k I. apply (in_list_lt _ 7) in I; [lia|reflexivity]. }
  { intros k I. apply (in_list_lt _ 22) in I; [lia|reflexivity]. }
  exists s, (dropna f2), (dropna g2), (dropna h2). split; [exact W|]. split; [exact G|]. split; [exact G'|]. split; [exact G''|].
  unfold x_wind. rewrite (get_sheet_ok _ _ _ W). cbn [bind]. rewrite E1. cbn [bind]. rewrite E2. cbn [bind]. rewrite F1. cbn [bind]. rewrite F2. cbn [bind].
  rewrite H1. cbn [bind]. rewrite H2. reflexivity.
Qed.

(** ** Grid *)
Lemma grid_ok wb : plain wb -> reaches wb "Grid" "W" 42 -> let N := "Grid"%string in
  exists vp wm bm ppa, x_grid wb = Ok {| g_export := xl wb N "D" 9; g_tariff := xl wb N "D" 5; g_balancing := xl wb N "H" 5; g_services := xl wb N "J" 5;
      g_flat_import := xl wb N "C" 9; g_flat_export := xl wb N "D" 9; g_periods := vp; g_year := xl wb N "N" 42;
      g_wholesale := wm; g_balancing_series := bm; g_ppa_output := ppa; g_premium := xl wb N "G" 9; g_maximum := xl wb N "H" 9;
      g_lower_percent := xl wb N "J" 9; g_higher_percent := xl wb N "K" 9; g_lower_penalty := xl wb N "L" 9; g_higher_discount := xl wb N "M" 9 |} /\
    (series_to wb vp "Monday" N "H" 18 24 /\ series_to wb vp "Tuesday" N "I" 18 24 /\ series_to wb vp "Wednesday" N "J" 18 24 /\
     series_to wb vp "Thursday" N "K" 18 24 /\ series_to wb vp "Friday" N "L" 18 24 /\ series_to wb vp "Saturday" N "M" 18 24 /\
     series_to wb vp "Sunday" N "N" 18 24) /\
    series_to wb wm "wholesale_market" N "C" 12 (Z.to_nat 8760) /\ series_to wb bm "balancing_mechanism" N "D" 12 (Z.to_nat 8760) /\
    series_to wb ppa "ppa_output" N "E" 12 (Z.to_nat 8760).
Proof.
  intros P (s & W & Wc & Wr) N. subst N. pose proof (P _ _ W : plain_sheet s) as PS. pose proof (view_frame s PS) as V.
  change (letter "W") with 22 in Wc. unfold x_grid. rewrite (get_sheet_ok _ _ _ W). cbn [bind].
  assert (A : forall c ch r r2, letter ch = c -> r2 = r + 2 -> c < 23 -> r < 41 -> at_ (frame_of s) c r = Ok (xl wb "Grid" ch r2)).
  { intros c ch r r2 L R Hc Hr. apply (at_frame wb _ s _ c ch r r2 W V L R); [apply frame_col; [exact PS|lia]|apply frame_row; lia]. }
  rewrite (A 3 "D"%char 7 9), (A 3 "D"%char 3 5), (A 7 "H"%char 3 5), (A 9 "J"%char 3 5) by (reflexivity || lia). cbn [bind].
  destruct (drop_cols_ok s (0 :: 1 :: seq 14 9) (frame_of s) V) as (f1 & E1 & V1 & R1 & C1).
  { intros k I. apply frame_col; [exact PS|]. apply (in_list_lt _ 23) in I; [lia|reflexivity]. }
  rewrite E1. cbn [bind]. rewrite frame_rows in R1.
  assert (HC1 : forall c, 2 <= c < 14 -> has_col f1 c).
  { intros c Hc. apply C1. split; [apply frame_col; [exact PS|lia]|]. intros [I|[I|I]]; [lia|lia|]. apply in_seq in I. lia. }
  assert (HR1 : forall r, r < 41 -> has_row f1 r).
  { intros r Hr. unfold has_row. rewrite R1. apply prows_In. split; [reflexivity|lia]. }
  destruct (drop_cols_ok s [2; 3; 4; 6; 5; 10; 11; 12; 13] f1 V1) as (g1 & F1 & VG1 & RG1 & _).
  { intros k I. apply HC1. split; [|apply (in_list_lt _ 14) in I; [lia|reflexivity]]. cbn in I. lia. }
  rewrite F1. cbn [bind].
  destruct (drop_rows_ok s [3; 5] g1 VG1) as (g2 & F2 & VG2 & CG2 & _ & RG2).
  { intros k I. unfold has_row. rewrite RG1. apply HR1. cbn in I. lia. }
  rewrite F2. cbn [bind].
  destruct (drop_rows_ok s (9 :: seq 13 27) g2 VG2) as (g3 & F3 & _).
  { intros k I. apply RG2. split.
    - unfold has_row. rewrite RG1. apply HR1. destruct I as [<-|I]; [lia|]. apply in_seq in I. lia.
    - intro J. cbn in J. destruct I as [<-|I]; [lia|]. apply in_seq in I. lia. }
  rewrite F3. cbn [bind].
  assert (B : forall c ch r r2, letter ch = c -> r2 = r + 2 -> 2 <= c < 14 -> r < 41 -> at_ f1 c r = Ok (xl wb "Grid" ch r2)).
  { intros c ch r r2 L R Hc Hr. apply (at_frame wb _ s _ c ch r r2 W V1 L R); [apply HC1; lia|apply HR1; lia]. }
  rewrite (B 2 "C"%char 7 9), (B 3 "D"%char 7 9) by (reflexivity || lia). cbn [bind].
  assert (D : forall a b ks, (forall k, In k ks -> 2 <= k < 14) -> exists f', drop_cols (Us ks) (iloc a b f1) = Ok f' /\ view s f' /\
            (forall c, 2 <= c < 14 -> ~ In c ks -> has_col f' c) /\ f_rows f' = prows a (Nat.min (b - a) (length (s_cells s) - a))).
  { intros a b ks K. destruct (drop_cols_ok s ks (iloc a b f1) (view_iloc s a b f1 V1)) as (f' & E' & V' & R' & C').
    - intros k I. apply HC1, K, I.
    - exists f'. split; [exact E'|]. split; [exact V'|]. split; [intros c Hc Hn; apply C'; split; [apply HC1; exact Hc|exact Hn]|].
      rewrite R'. cbn [iloc f_rows]. rewrite R1. apply iloc_prows. }
  destruct (D 16 40 [2; 3; 4; 5; 6]) as (vp & E2 & V2 & C2 & R2). { intros k I. cbn in I. lia. }
  rewrite E2. cbn [bind]. rewrite (B 13 "N"%char 40 42) by (reflexivity || lia). cbn [bind].
  destruct (D 10 (Z.to_nat 8770) (seq 3 11)) as (wm & E3 & V3 & C3 & R3). { intros k I. apply in_seq in I. lia. }
  rewrite E3. cbn [bind].
  destruct (D 10 (Z.to_nat 8770) (2 :: seq 4 10)) as (bm & E4 & V4 & C4 & R4). { intros k [<-|I]; [lia|]. apply in_seq in I. lia. }
  rewrite E4. cbn [bind].
  destruct (D 10 (Z.to_nat 8770) (2 :: 3 :: seq 5 9)) as (pp & E5 & V5 & C5 & R5). { intros k [<-|[<-|I]]; [lia|lia|]. apply in_seq in I. lia. }
  rewrite E5. cbn [bind].
  rewrite (B 6 "G"%char 7 9), (B 7 "H"%char 7 9), (B 9 "J"%char 7 9), (B 10 "K"%char 7 9), (B 11 "L"%char 7 9), (B 12 "M"%char 7 9) by (reflexivity || lia). cbn [bind].
  do 4 eexists. split; [reflexivity|]. replace (Z.to_nat 8770 - 10) with (Z.to_nat 8760) in R3, R4, R5 by lia.
  repeat match goal with |- _ /\ _ => split end.
  1-7: down W V2 C2 R2.
  - down W V3 C3 R3.
  - down W V4 C4 R4.
  - down W V5 C5 R5.
Qed.

(** ** Aux heat *)
Lemma aux_ok wb f0 f1 f2 f3 : plain wb -> reaches wb "Aux heat" "E" 11 -> let N := "Aux heat"%string in
  cell_fuel (xl wb N "C" 6) = Ok f0 -> cell_fuel (xl wb N "C" 9) = Ok f1 -> cell_fuel (xl wb N "C" 10) = Ok f2 -> cell_fuel (xl wb N "C" 11) = Ok f3 ->
  x_aux wb = Ok {| x_fuel := f0; x_efficiency := xl wb N "D" 6;
    x_fuel_info := [(f1, (xl wb N "D" 9, xl wb N "E" 9)); (f2, (xl wb N "D" 10, xl wb N "E" 10)); (f3, (xl wb N "D" 11, xl wb N "E" 11))] |}.
Proof.
  intros P (s & W & Wc & Wr) N F0 F1 F2 F3. subst N. pose proof (P _ _ W : plain_sheet s) as PS. pose proof (view_frame s PS) as V.
  change (letter "E") with 4 in Wc. unfold x_aux. rewrite (get_sheet_ok _ _ _ W). cbn [bind].
  assert (A : forall c ch r r2, letter ch = c -> r2 = r + 2 -> c < 5 -> r < 10 -> at_ (frame_of s) c r = Ok (xl wb "Aux heat" ch r2)).
  { intros c ch r r2 L R Hc Hr. apply (at_frame wb _ s _ c ch r r2 W V L R); [apply frame_col; [exact PS|lia]|apply frame_row; lia]. }
  rewrite (A 2 "C"%char 4 6), (A 3 "D"%char 4 6) by (reflexivity || lia). cbn [bind]. rewrite F0. cbn [bind mapM].
  rewrite (A 2 "C"%char 7 9), (A 3 "D"%char 7 9), (A 4 "E"%char 7 9) by (reflexivity || lia). cbn [bind]. rewrite F1. cbn [bind].
  rewrite (A 2 "C"%char 8 10), (A 3 "D"%char 8 10), (A 4 "E"%char 8 10) by (reflexivity || lia). cbn [bind]. rewrite F2. cbn [bind].
  rewrite (A 2 "C"%char 9 11), (A 3 "D"%char 9 11), (A 4 "E"%char 9 11) by (reflexivity || lia). cbn [bind]. rewrite F3. reflexivity.
Qed.

(** ** Thermal storage *)
Ltac lie W L HC :=
  match goal with
  | |- first_of _ _ = Ok (xl _ _ ?ch ?r2) =>
      let k := eval vm_compute in (r2 - 2) in
      eapply (lying_cell _ _ _ _ _ _ _ k r2 ch W L); [reflexivity|reflexivity|apply HC|reflexivity|un]
  end.
Lemma whole_side s : reset_index (transpose (frame_of s)) = side s 0 (length (s_cells s)).
Proof.
  unfold side. f_equal. f_equal. unfold iloc. cbn [frame_of f_rows f_cols f_at skipn]. rewrite Nat.sub_0_r.
  rewrite firstn_all2 by (rewrite map_length, seq_length; lia). reflexivity.
Qed.

Lemma tank_ok wb : plain wb -> reaches wb "Thermal storage" "N" 23 -> let N := "Thermal storage"%string in
  exists f, x_thermal_storage wb = Ok f /\
    first_of f "capacity" = Ok (xl wb N "D" 5) /\ first_of f "insulation" = Ok (xl wb N "D" 6) /\
    first_of f "location" = Ok (xl wb N "D" 7) /\ first_of f "number_nodes" = Ok (xl wb N "D" 8) /\
    first_of f "height" = Ok (xl wb N "D" 10) /\ first_of f "width" = Ok (xl wb N "D" 11) /\
    first_of f "insulation_thickness" = Ok (xl wb N "D" 12) /\ first_of f "tank_opening" = Ok (xl wb N "D" 14) /\
    first_of f "tank_opening_diameter" = Ok (xl wb N "D" 15) /\ first_of f "uninsulated_connections" = Ok (xl wb N "D" 16) /\
    first_of f "uninsulated_connections_diameter" = Ok (xl wb N "D" 17) /\ first_of f "insulated_connections" = Ok (xl wb N "D" 18) /\
    first_of f "insulated_connections_diameter" = Ok (xl wb N "D" 19) /\ first_of f "insulation_factor" = Ok (xl wb N "D" 22) /\
    first_of f "overall_factor" = Ok (xl wb N "D" 23).
Proof.
  intros P (s & W & Wc & Wr) N. subst N. pose proof (P _ _ W : plain_sheet s) as PS. change (letter "N") with 13 in Wc.
  unfold x_thermal_storage. rewrite (get_sheet_ok _ _ _ W). cbn [bind]. cbv zeta. rewrite whole_side. unfold side.
  destruct (side_ok s 0 (length (s_cells s)) (0 :: 1 :: 2 :: seq 4 10) 3 14 PS) as (f1 & E1 & L1 & C1).
  { lia. } { reflexivity. } { exists 13. split; [cbn; tauto|reflexivity]. } { intros g I. apply (in_list_lt _ 14) in I; [exact I|reflexivity]. }
  rewrite E1. cbn [bind].
  destruct (lying_drop s 3 [0; 1; 2; 7; 11; 18; 19] f1 L1) as (f2 & E2 & L2 & C2).
  { intros r I. rewrite C1. apply prows_In. split; [reflexivity|]. apply (in_list_lt _ 20) in I; [lia|reflexivity]. }
  rewrite E2. cbn [bind]. eexists. split; [reflexivity|].
  assert (HC : forall r, r < 22 -> ~ In r [0; 1; 2; 7; 11; 18; 19] -> In (Pos r, r) (f_cols f2)).
  { intros r Hr Hn. apply C2. split; [|exact Hn]. rewrite C1. apply prows_In. split; [reflexivity|lia]. }
  repeat match goal with |- _ /\ _ => split end; (lie W L2 HC; [lia|notin]).
Qed.

(** ** Heat pump *)
Lemma filter_keep_cols (ls : list nat) a m : (forall k, In k ls -> k < a) ->
  filter (fun e => negb (lmem (fst e) (Us ls))) (ucols a m) = ucols a m.
Proof.
  intro H. unfold ucols. revert a H. induction m as [|m IH]; intros a H; [reflexivity|]. cbn [seq map filter fst].
  replace (lmem (Unnamed a) (Us ls)) with false.
  - cbn [negb]. f_equal. apply IH. intros k I. specialize (H k I). lia.
  - symmetry. apply lmem_nIn. unfold Us. rewrite in_map_iff. intros (k & E & I). injection E as ->. specialize (H a I). lia.
Qed.
Lemma nth_map_none (f : nat -> value) l d k : (k < length l) -> nth k (map f l) None = f (nth k l d).
Proof. intro H. rewrite nth_indep with (d' := f d) by (rewrite map_length; exact H). apply map_nth. Qed.
Lemma map_nth_seq {B} (g : nat -> B) rows : map (fun k => g (nth k rows 0)) (seq 0 (length rows)) = map g rows.
Proof.
  induction rows as [|r rows IH]; [reflexivity|]. cbn [length seq map nth]. f_equal. rewrite <- seq_shift, map_map. exact IH.
Qed.
Lemma regression_table_ok wb t reg c1 c2 c3 c4 ch rt rows : length (f_cols reg) = 4 -> first_of t "flow_temp" = Ok (xl wb "Heat pump" ch rt) ->
  picks wb reg "ambient_temp" "Heat pump" c1 rows -> picks wb reg "COSP" "Heat pump" c2 rows ->
  picks wb reg "duty" "Heat pump" c3 rows -> picks wb reg "capacity_percentage" "Heat pump" c4 rows ->
  regression_table t reg = Ok (table_rows wb c1 c2 c3 c4 rows, number_of (xl wb "Heat pump" ch rt)).
Proof.
  unfold picks. intros L4 T P1 P2 P3 P4. unfold regression_table. rewrite L4. cbn [Nat.eqb negb]. rewrite T. cbn [bind]. rewrite P1. cbn [bind]. rewrite P2. cbn [bind].
  rewrite P3. cbn [bind]. rewrite P4. cbn [bind]. f_equal. f_equal. rewrite map_length. unfold table_rows.
  transitivity (map (fun k => (fun r => {| t_ambient := number_of (xl wb "Heat pump" c1 r); t_COSP := number_of (xl wb "Heat pump" c2 r);
                   t_duty := number_of (xl wb "Heat pump" c3 r); t_percent := number_of (xl wb "Heat pump" c4 r) |}) (nth k rows 0)) (seq 0 (length rows))).
  - apply map_ext_in. intros k I. apply in_seq in I. rewrite !(nth_map_none _ _ 0) by lia. reflexivity.
  - exact (map_nth_seq (fun r => {| t_ambient := number_of (xl wb "Heat pump" c1 r); t_COSP := number_of (xl wb "Heat pump" c2 r);
                   t_duty := number_of (xl wb "Heat pump" c3 r); t_percent := number_of (xl wb "Heat pump" c4 r) |}) rows).
Qed.

Lemma heat_pump_ok wb : plain wb -> reaches wb "Heat pump" "S" 47 -> let N := "Heat pump"%string in
  exists h, x_heat_pump wb = Ok h /\
    (first_of (hp_basics h) "heat_pump_type" = Ok (xl wb N "D" 3) /\ first_of (hp_basics h) "modelling_approach" = Ok (xl wb N "D" 4) /\
     first_of (hp_basics h) "capacity" = Ok (xl wb N "D" 5) /\ first_of (hp_basics h) "ambient_delta_t" = Ok (xl wb N "D" 6) /\
     first_of (hp_basics h) "minimum_runtime" = Ok (xl wb N "D" 7) /\ first_of (hp_basics h) "minimum_output" = Ok (xl wb N "D" 8) /\
     first_of (hp_basics h) "data_input" = Ok (xl wb N "D" 9)) /\
    (RHI_type h = xl wb N "N" 5 /\ RHI_tariff h = xl wb N "N" 6 /\ RHI_fixed h = xl wb N "N" 7 /\ RHI_tier1 h = xl wb N "N" 8 /\ RHI_tier2 h = xl wb N "N" 9) /\
    hp_simple h = xl wb N "D" 12 /\
    (first_of (hp_lorentz h) "COP" = Ok (xl wb N "D" 15) /\ first_of (hp_lorentz h) "flow_temp" = Ok (xl wb N "D" 16) /\
     first_of (hp_lorentz h) "return_temp" = Ok (xl wb N "D" 17) /\ first_of (hp_lorentz h) "ambient_temp_in" = Ok (xl wb N "D" 18) /\
     first_of (hp_lorentz h) "ambient_temp_out" = Ok (xl wb N "D" 19) /\ first_of (hp_lorentz h) "elec_capacity" = Ok (xl wb N "D" 20)) /\
    (19 < width wb N -> regression_table (hp_temp1 h) (hp_reg1 h) = Err ValueError) /\
    (width wb N = 19 ->
     regression_table (hp_temp1 h) (hp_reg1 h) = Ok (table_rows wb "C" "D" "E" "F" (seq 27 8), number_of (xl wb N "D" 23)) /\
     regression_table (hp_temp2 h) (hp_reg2 h) = Ok (table_rows wb "G" "H" "I" "J" (seq 27 8), number_of (xl wb N "H" 23)) /\
     regression_table (hp_temp3 h) (hp_reg3 h) = Ok (table_rows wb "C" "D" "E" "F" (seq 41 7), number_of (xl wb N "D" 36)) /\
     regression_table (hp_temp4 h) (hp_reg4 h) = Ok (table_rows wb "G" "H" "I" "J" (seq 41 7), number_of (xl wb N "H" 36))) /\
    (picks wb (hp_reg1 h) "duty" N "E" (seq 27 8) /\ picks wb (hp_reg2 h) "duty" N "I" (seq 27 8) /\
     picks wb (hp_reg3 h) "duty" N "E" (seq 41 7) /\ picks wb (hp_reg4 h) "duty" N "I" (seq 41 7)).
Proof.
  intros P (s & W & Wc & Wr) N. subst N. pose proof (P _ _ W : plain_sheet s) as PS. pose proof (view_frame s PS) as V.
  change (letter "S") with 18 in Wc. unfold x_heat_pump. rewrite (get_sheet_ok _ _ _ W). cbn [bind]. unfold sideways, sideways2.
  assert (A : forall c ch r r2, letter ch = c -> r2 = r + 2 -> c < 19 -> r < 46 -> at_ (frame_of s) c r = Ok (xl wb "Heat pump" ch r2)).
  { intros c ch r r2 L R Hc Hr. apply (at_frame wb _ s _ c ch r r2 W V L R); [apply frame_col; [exact PS|lia]|apply frame_row; lia]. }
  destruct (side_ok s 1 8 [0; 1; 2; 4; 5; 6; 7; 8; 9; 10] 3 11 PS) as (b1 & EB & LB & CB).
  { lia. } { reflexivity. } { exists 10. split; [cbn; tauto|reflexivity]. } { intros g I. apply (in_list_lt _ 11) in I; [exact I|reflexivity]. }
  rewrite EB. cbn [bind].
  rewrite (A 13 "N"%char 3 5), (A 13 "N"%char 4 6), (A 13 "N"%char 5 7), (A 13 "N"%char 6 8), (A 13 "N"%char 7 9) by (reflexivity || lia). cbn [bind].
  rewrite (at_frame wb "Heat pump" s (iloc 9 11 (frame_of s)) 3 "D" 10 12 W (view_iloc s 9 11 _ V)); [|reflexivity|reflexivity|apply frame_col; [exact PS|lia]|
    apply (has_row_iloc s 9 11 _ _ (frame_rows s) V); lia]. cbn [bind].
  assert (S3 : forall a b, exists f, drop_rows (Ps all_but_3) (reset_index (transpose (iloc a b (frame_of s)))) = Ok f /\ lying s 3 f /\
             f_cols f = prows a (Nat.min (b - a) (length (s_cells s) - a))).
  { intros a b. apply (side_ok s a b all_but_3 3 19 PS).
    - lia.
    - reflexivity.
    - exists 18. split; [cbn; tauto|reflexivity].
    - intros g I. apply (in_list_lt _ 19) in I; [exact I|reflexivity]. }
  assert (S7 : forall a b, exists f, drop_rows (Ps all_but_7) (reset_index (transpose (iloc a b (frame_of s)))) = Ok f /\ lying s 7 f /\
             f_cols f = prows a (Nat.min (b - a) (length (s_cells s) - a))).
  { intros a b. apply (side_ok s a b all_but_7 7 19 PS).
    - lia.
    - reflexivity.
    - exists 18. split; [cbn; tauto|reflexivity].
    - intros g I. apply (in_list_lt _ 19) in I; [exact I|reflexivity]. }
  destruct (S3 13 19) as (lo & EL & LL & CL). rewrite EL. cbn [bind].
  destruct (S3 21 25) as (t1 & E1 & L1 & C1). rewrite E1. cbn [bind].
  destruct (lying_drop s 3 [23; 24] t1 L1) as (t1' & E1' & L1' & C1').
  { intros r I. rewrite C1. apply prows_In. split; [reflexivity|]. cbn in I. lia. }
  rewrite E1'. cbn [bind].
  destruct (S7 21 25) as (t2 & E2 & L2 & C2). rewrite E2. cbn [bind].
  destruct (lying_drop s 7 [23; 24] t2 L2) as (t2' & E2' & L2' & C2').
  { intros r I. rewrite C2. apply prows_In. split; [reflexivity|]. cbn in I. lia. }
  rewrite E2'. cbn [bind].
  destruct (S3 34 36) as (t3 & E3 & L3 & C3). rewrite E3. cbn [bind].
  destruct (S7 34 36) as (t4 & E4 & L4 & C4). rewrite E4. cbn [bind].
  assert (D : forall a b ks, (forall k, In k ks -> k < 19) -> exists f', drop_cols (Us ks) (iloc a b (frame_of s)) = Ok f' /\ view s f' /\
            (forall c, c < 19 -> ~ In c ks -> has_col f' c) /\ f_rows f' = prows a (Nat.min (b - a) (length (s_cells s) - a)) /\
            f_cols f' = filter (fun e => negb (lmem (fst e) (Us ks))) (ucols 0 (length (s_header s)))).
  { intros a b ks K. destruct (drop_cols_ok s ks (iloc a b (frame_of s)) (view_iloc s a b _ V)) as (f' & E' & V' & R' & C').
    - intros k I. apply frame_col; [exact PS|]. specialize (K k I). lia.
    - pose proof (drop_cols_spec _ _ _ E') as (_ & F' & _). cbn [iloc f_cols] in F'. rewrite (frame_cols s PS) in F'.
      exists f'. split; [exact E'|]. split; [exact V'|]. split; [intros c Hc Hn; apply C'; split; [apply frame_col; [exact PS|lia]|exact Hn]|].
      split; [rewrite R'; cbn [iloc f_rows]; rewrite frame_rows; apply iloc_prows|exact F']. }
  assert (RD : forall m f, view s f -> f_rows f = prows 23 10 -> exists f', drop_rows (Ps [23; 24]) (rename m f) = Ok (rename m f') /\ view s f' /\
             f_cols f' = f_cols f /\ f_rows f' = prows 25 8).
  { intros m f Vf Rf. destruct (drop_rows_ok s [23; 24] f Vf) as (f' & E' & V' & C' & R' & _).
    { intros k I. unfold has_row. rewrite Rf. apply prows_In. split; [reflexivity|]. cbn in I. lia. }
    exists f'. split.
    - unfold drop_rows in E' |- *. cbn [rename f_rows]. destruct (drop (Ps [23; 24]) (f_rows f)) as [rows|]; cbn [bind] in E' |- *; [|discriminate].
      injection E' as <-. reflexivity.
    - split; [exact V'|]. split; [exact C'|]. rewrite R', Rf. reflexivity. }
  assert (K23 : Nat.min (33 - 23) (length (s_cells s) - 23) = 10) by lia.
  assert (K39 : Nat.min (46 - 39) (length (s_cells s) - 39) = 7) by lia.
  destruct (D 23 33 (0 :: 1 :: seq 6 13)) as (q1 & Q1 & VQ1 & HQ1 & RQ1 & FQ1).
  { intros k I. apply (in_list_lt _ 19) in I; [exact I|reflexivity]. }
  change (drop_cols left_gone) with (drop_cols (Us (0 :: 1 :: seq 6 13))). rewrite Q1. cbn [bind].
  rewrite K23 in RQ1. destruct (RD left_names q1 VQ1 RQ1) as (q1' & Q1' & VQ1' & CQ1' & RQ1'). rewrite Q1'. cbn [bind].
  destruct (D 23 33 (0 :: 1 :: 2 :: 3 :: 4 :: 5 :: seq 10 9)) as (q2 & Q2 & VQ2 & HQ2 & RQ2 & FQ2).
  { intros k I. apply (in_list_lt _ 19) in I; [exact I|reflexivity]. }
  change (drop_cols right_gone) with (drop_cols (Us (0 :: 1 :: 2 :: 3 :: 4 :: 5 :: seq 10 9))). rewrite Q2. cbn [bind].
  rewrite K23 in RQ2. destruct (RD right_names q2 VQ2 RQ2) as (q2' & Q2' & VQ2' & CQ2' & RQ2'). rewrite Q2'. cbn [bind].
  destruct (D 39 46 (0 :: 1 :: seq 6 13)) as (q3 & Q3 & VQ3 & HQ3 & RQ3 & FQ3).
  { intros k I. apply (in_list_lt _ 19) in I; [exact I|reflexivity]. }
  rewrite Q3. cbn [bind]. rewrite K39 in RQ3.
  destruct (D 39 46 (0 :: 1 :: 2 :: 3 :: 4 :: 5 :: seq 10 9)) as (q4 & Q4 & VQ4 & HQ4 & RQ4 & FQ4).
  { intros k I. apply (in_list_lt _ 19) in I; [exact I|reflexivity]. }
  rewrite Q4. cbn [bind]. rewrite K39 in RQ4.
  assert (HQ1' : forall c, c < 19 -> ~ In c (0 :: 1 :: seq 6 13) -> has_col q1' c) by (unfold has_col; rewrite CQ1'; exact HQ1).
  assert (HQ2' : forall c, c < 19 -> ~ In c (0 :: 1 :: 2 :: 3 :: 4 :: 5 :: seq 10 9) -> has_col q2' c) by (unfold has_col; rewrite CQ2'; exact HQ2).
  assert (S1 : map (fun r => r + 2) (map snd (f_rows q1')) = seq 27 8) by (rewrite RQ1'; reflexivity).
  assert (S2 : map (fun r => r + 2) (map snd (f_rows q2')) = seq 27 8) by (rewrite RQ2'; reflexivity).
  assert (S3' : map (fun r => r + 2) (map snd (f_rows q3)) = seq 41 7) by (rewrite RQ3; reflexivity).
  assert (S4' : map (fun r => r + 2) (map snd (f_rows q4)) = seq 41 7) by (rewrite RQ4; reflexivity).
  eexists. split; [reflexivity|]. cbn [hp_basics RHI_type RHI_tariff RHI_fixed RHI_tier1 RHI_tier2 hp_simple hp_lorentz hp_temp1 hp_temp2 hp_temp3 hp_temp4 hp_reg1 hp_reg2 hp_reg3 hp_reg4].
  assert (IB : forall r, 1 <= r < 8 -> In (Pos r, r) (f_cols b1)) by (intros r Hr; rewrite CB; apply prows_In; split; [reflexivity|lia]).
  assert (IL : forall r, 13 <= r < 19 -> In (Pos r, r) (f_cols lo)) by (intros r Hr; rewrite CL; apply prows_In; split; [reflexivity|lia]).
  assert (I1 : forall r, 21 <= r < 23 -> In (Pos r, r) (f_cols t1')).
  { intros r Hr. apply C1'. split; [rewrite C1; apply prows_In; split; [reflexivity|lia]|]. intro I. cbn in I. lia. }
  assert (I2 : forall r, 21 <= r < 23 -> In (Pos r, r) (f_cols t2')).
  { intros r Hr. apply C2'. split; [rewrite C2; apply prows_In; split; [reflexivity|lia]|]. intro I. cbn in I. lia. }
  assert (I3 : forall r, 34 <= r < 36 -> In (Pos r, r) (f_cols t3)) by (intros r Hr; rewrite C3; apply prows_In; split; [reflexivity|lia]).
  assert (I4 : forall r, 34 <= r < 36 -> In (Pos r, r) (f_cols t4)) by (intros r Hr; rewrite C4; apply prows_In; split; [reflexivity|lia]).
  split; [repeat match goal with |- _ /\ _ => split end; (lie W LB IB; lia)|].
  split; [repeat split|]. split; [reflexivity|].
  split; [repeat match goal with |- _ /\ _ => split end; (lie W LL IL; lia)|].
  split.
  { unfold width. rewrite W. intro L. unfold regression_table. cbn [reset_index rename f_cols]. rewrite map_length, CQ1', FQ1.
    replace (length (s_header s)) with (19 + (length (s_header s) - 19)) by lia. rewrite ucols_app, filter_app, app_length, (filter_keep_cols _ (0 + 19)).
    - rewrite ucols_length. destruct (length (s_header s) - 19) as [|d] eqn:D0; [lia|]. reflexivity.
    - intros k I. apply (in_list_lt (0 :: 1 :: seq 6 13) 19); [reflexivity|exact I]. }
  split.
  2: { split; [pick W VQ1' HQ1' S1|]. split; [pick W VQ2' HQ2' S2|]. split; [pick W VQ3 HQ3 S3'|pick W VQ4 HQ4 S4']. }
  unfold width. rewrite W. intro L. rewrite L in FQ1, FQ2, FQ3, FQ4.
  split.
  { apply regression_table_ok; [cbn [reset_index rename f_cols]; rewrite map_length, CQ1', FQ1; reflexivity|lie W L1' I1; lia|pick W VQ1' HQ1' S1..]. }
  split.
  { apply regression_table_ok; [cbn [reset_index rename f_cols]; rewrite map_length, CQ2', FQ2; reflexivity|lie W L2' I2; lia|pick W VQ2' HQ2' S2..]. }
  split.
  { apply regression_table_ok; [cbn [reset_index rename f_cols]; rewrite map_length, FQ3; reflexivity|lie W L3 I3; lia|pick W VQ3 HQ3 S3'..]. }
  { apply regression_table_ok; [cbn [reset_index rename f_cols]; rewrite map_length, FQ4; reflexivity|lie W L4 I4; lia|pick W VQ4 HQ4 S4'..]. }
Qed.

(** ** The whole workbook *)
Lemma read_inputs_parts wb k : read_inputs wb = Ok k ->
  x_parametric wb = Ok (c_parametric k) /\ x_controller wb = Ok (c_controller k) /\ x_resources wb = Ok (c_resources k) /\
  x_demands wb = Ok (c_hot_water k, c_heating k) /\ x_demand_input wb = Ok (c_temp_return k, c_source_delta_t k, c_demand k) /\
  x_PV wb = Ok (c_PV_location k, c_PV_spec k) /\ x_wind wb = Ok (c_wind_database k, c_wind_user k, c_power_curve k) /\
  x_wind_farm wb = Ok (c_wind_farm k) /\ x_electrical_storage wb = Ok (c_battery k) /\ x_grid wb = Ok (c_grid k) /\
  x_aux wb = Ok (c_aux k) /\ x_thermal_storage wb = Ok (c_tank k) /\ x_heat_pump wb = Ok (c_heat_pump k).
Proof.
  unfold read_inputs. intro H. inv_bind H. destruct v2 as [? ?], v3 as [[? ?] ?], v4 as [? ?], v5 as [[? ?] ?]. cbn [fst snd] in H. injection H as <-.
  repeat split; reflexivity.
Qed.
