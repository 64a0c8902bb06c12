(** Lemmas on the change of the stored tables for one combination and on the objects built. *)
From Coq Require Import String Ascii.
From Coq Require Qcanon.
From Verif Require Import Base BaseL M_Battery M_HeatPump M_Sweep M_Regression M_Excel S_Excel L_Excel L_ExcelSheets L_Sweep M_Init S_Init.
From Verif Require M_Tank M_Grid M_Renewables.
Local Open Scope nat_scope.
Local Open Scope list_scope.

(** ** Frames whose rows and columns are distinct *)
Definition distinct (f : frame) : Prop := NoDup (map snd (f_rows f)) /\ NoDup (map snd (f_cols f)).

Lemma NoDup_filter_snd {A} (p : A * nat -> bool) l : NoDup (map snd l) -> NoDup (map snd (filter p l)).
Proof.
  induction l as [|e l IH]; intro H; [exact H|]. cbn [map] in H. inversion H as [|? ? N D]; subst. cbn [filter]. destruct (p e); [|apply IH, D].
  cbn [map]. constructor; [|apply IH, D]. intro I. apply N. apply in_map_iff in I as (e' & E & I). apply filter_In in I as [I _].
  apply in_map_iff. exists e'. split; assumption.
Qed.
Lemma map_combine_snd {A B} (l : list A) (l' : list B) : length l = length l' -> map snd (combine l l') = l'.
Proof. revert l'. induction l as [|a l IH]; intros [|b l'] H; try discriminate; [reflexivity|]. cbn. rewrite IH; [reflexivity|]. now injection H. Qed.
Lemma distinct_frame s : distinct (frame_of s).
Proof.
  split; cbn [frame_of f_rows f_cols].
  - rewrite map_map. cbn [snd]. rewrite map_id. apply seq_NoDup.
  - unfold enumerate. rewrite map_combine_snd by (rewrite seq_length; reflexivity). apply seq_NoDup.
Qed.
Lemma get_sheet_distinct wb nm f : get_sheet wb nm = Ok f -> distinct f.
Proof. unfold get_sheet. destruct (wb nm); [|discriminate]. intro H. injection H as <-. apply distinct_frame. Qed.
Lemma distinct_drop_rows ls f f' : drop_rows ls f = Ok f' -> distinct f -> distinct f'.
Proof. intros E [A B]. apply drop_rows_spec in E as (_ & HR & HC & _). split; [rewrite HR; apply NoDup_filter_snd, A|rewrite HC; exact B]. Qed.
Lemma distinct_drop_cols ls f f' : drop_cols ls f = Ok f' -> distinct f -> distinct f'.
Proof. intros E [A B]. apply drop_cols_spec in E as (_ & HC & HR & _). split; [rewrite HR; exact A|rewrite HC; apply NoDup_filter_snd, B]. Qed.
Lemma distinct_rename m f : distinct f -> distinct (rename m f).
Proof. intros [A B]. split; [exact A|]. cbn [rename f_cols]. rewrite map_map. cbn [snd]. exact B. Qed.
Lemma distinct_reset f : distinct f -> distinct (reset_index f).
Proof. intros [A B]. split; [rewrite reset_rows_snd; exact A|exact B]. Qed.
Lemma distinct_transpose f : distinct f -> distinct (transpose f).
Proof. intros [A B]. split; [exact B|exact A]. Qed.
Lemma NoDup_app_split {A} (l l' : list A) : NoDup (l ++ l') -> NoDup l /\ NoDup l'.
Proof.
  induction l as [|a l IH]; intro H; [split; [constructor|exact H]|]. cbn in H. inversion H as [|? ? N D]; subst. destruct (IH D) as [A1 A2].
  split; [|exact A2]. constructor; [|exact A1]. intro I. apply N, in_or_app. left. exact I.
Qed.
Lemma distinct_iloc a b f : distinct f -> distinct (iloc a b f).
Proof.
  intros [A B]. split; [|exact B]. cbn [iloc f_rows]. rewrite <- (firstn_skipn a (f_rows f)), map_app in A.
  apply NoDup_app_split in A as [_ A]. rewrite <- (firstn_skipn (b - a) (skipn a (f_rows f))), map_app in A. apply NoDup_app_split in A as [A _]. exact A.
Qed.
Lemma distinct_sideways a b gone names df f : sideways a b gone names df = Ok f -> distinct df -> distinct f.
Proof. unfold sideways. intros H D. inv_bind H. injection H as <-. apply distinct_reset, distinct_rename. eapply distinct_drop_rows; [eassumption|]. apply distinct_reset, distinct_transpose, distinct_iloc, D. Qed.

Ltac show_distinct :=
  repeat first [ assumption | apply distinct_reset | apply distinct_rename | apply distinct_transpose | apply distinct_iloc
               | match goal with
                 | H : drop_rows _ _ = Ok ?f |- distinct ?f => apply (distinct_drop_rows _ _ _ H)
                 | H : drop_cols _ _ = Ok ?f |- distinct ?f => apply (distinct_drop_cols _ _ _ H)
                 | H : sideways _ _ _ _ _ = Ok ?f |- distinct ?f => apply (distinct_sideways _ _ _ _ _ _ H)
                 | H : get_sheet _ _ = Ok ?f |- distinct ?f => exact (get_sheet_distinct _ _ _ H)
                 end ].
Lemma tank_distinct wb k : read_inputs wb = Ok k -> distinct (c_tank k).
Proof.
  intro H. apply read_inputs_parts in H. decompose [and] H. clear H.
  match goal with E : x_thermal_storage wb = Ok _ |- _ => unfold x_thermal_storage in E; inv_bind E; injection E as <- end. show_distinct.
Qed.
Lemma heat_pump_distinct wb k : read_inputs wb = Ok k ->
  distinct (hp_basics (c_heat_pump k)) /\ distinct (hp_reg1 (c_heat_pump k)) /\ distinct (hp_reg2 (c_heat_pump k)) /\
  distinct (hp_reg3 (c_heat_pump k)) /\ distinct (hp_reg4 (c_heat_pump k)).
Proof.
  intro H. apply read_inputs_parts in H. decompose [and] H. clear H.
  match goal with E : x_heat_pump wb = Ok _ |- _ => unfold x_heat_pump in E; inv_bind E; injection E as E; rewrite <- E; cbn [hp_basics hp_reg1 hp_reg2 hp_reg3 hp_reg4] end.
  repeat match goal with |- _ /\ _ => split end; show_distinct.
Qed.

(** ** Changing a cell, scaling a column *)
Lemma find_label_snd l axis j : find_label l axis = Ok j -> In j (map snd axis).
Proof. intro H. apply find_label_In in H. apply in_map_iff. exists (l, j). split; [reflexivity|exact H]. Qed.
Lemma find_label_inj a b axis j : NoDup (map snd axis) -> find_label a axis = Ok j -> find_label b axis = Ok j -> a = b.
Proof.
  intros D A B. apply find_label_In in A, B. revert D A B. induction axis as [|[l i] axis IH]; intros D A B; [contradiction|].
  cbn [map snd] in D. inversion D as [|? ? N D']; subst.
  assert (X : forall c, In (c, i) axis -> False) by (intros c I; apply N, in_map_iff; exists (c, i); split; [reflexivity|exact I]).
  destruct A as [A|A], B as [B|B].
  - congruence.
  - injection A as -> ->. destruct (X _ B).
  - injection B as -> ->. destruct (X _ A).
  - exact (IH D' A B).
Qed.
Lemma set_first_same f h x v : first_of f h = Ok v -> first_of (set_first f h x) h = Ok (Some (Number x)).
Proof.
  intro H. assert (X : exists j i, find_label (Named h) (f_cols f) = Ok j /\ find_label (Pos 0) (f_rows f) = Ok i).
  { unfold first_of, at_label in H. inv_bind H. do 2 eexists. split; reflexivity. }
  destruct X as (j & i & E & E0). unfold set_first. rewrite E, E0. unfold first_of, at_label. cbn [f_rows f_cols f_at]. rewrite E. cbn [bind].
  rewrite E0. cbn [bind]. rewrite !Nat.eqb_refl. reflexivity.
Qed.
Lemma set_first_other f h h' x : distinct f -> h <> h' -> first_of (set_first f h x) h' = first_of f h'.
Proof.
  intros [DR DC] N. unfold set_first. destruct (find_label (Pos 0) (f_rows f)) as [i|] eqn:E0; [|reflexivity].
  destruct (find_label (Named h) (f_cols f)) as [j|] eqn:E; [|reflexivity]. unfold first_of, at_label. cbn [f_rows f_cols f_at].
  destruct (find_label (Named h') (f_cols f)) as [j'|] eqn:E'; [|reflexivity]. cbn [bind]. rewrite E0. cbn [bind].
  destruct (Nat.eqb_spec j' j) as [->|NE]; [|rewrite andb_false_r; reflexivity].
  exfalso. apply N. pose proof (find_label_inj _ _ _ _ DC E E') as Q. injection Q as Q. exact Q.
Qed.

Lemma scale_same f h r f' col : scale_column f h r = Ok f' -> named_column f h = Ok col -> named_column f' h = Ok (map (times r) col).
Proof.
  unfold scale_column. intros H C. rewrite C in H. cbn [bind] in H. inv_bind H. destruct (existsb is_text col); [discriminate|]. injection H as <-.
  unfold named_column, column in *. cbn [f_rows f_cols f_at]. rewrite E in *. cbn [bind] in *. rewrite Nat.eqb_refl. injection C as <-. rewrite map_map. reflexivity.
Qed.
Lemma scale_other f h r f' h' : distinct f -> scale_column f h r = Ok f' -> h <> h' -> named_column f' h' = named_column f h'.
Proof.
  intros [DR DC] H N. unfold scale_column in H. inv_bind H. destruct (existsb is_text v); [discriminate|]. injection H as <-.
  unfold named_column, column. cbn [f_rows f_cols f_at]. destruct (find_label (Named h') (f_cols f)) as [j'|] eqn:E'; [|reflexivity]. cbn [bind].
  destruct (Nat.eqb_spec j' v0) as [->|NE]; [|reflexivity].
  exfalso. apply N. pose proof (find_label_inj _ _ _ _ DC E0 E') as Q. injection Q as Q. exact Q.
Qed.
Lemma scale_cols f h r f' : scale_column f h r = Ok f' -> f_cols f' = f_cols f.
Proof. unfold scale_column. intro H. inv_bind H. destruct (existsb is_text v); [discriminate|]. injection H as <-. reflexivity. Qed.
Lemma number_times r v : number_of (times (Some r) v) = option_map (fun d => (d * r)%Q) (number_of v).
Proof. destruct v as [[?|?]|]; reflexivity. Qed.
Lemma number_times_none v : number_of (times None v) = None.
Proof. destruct v as [[?|?]|]; reflexivity. Qed.
Definition scaled_by (r : option Q) (rows : list test_row) : list test_row :=
  map (fun x => match r with Some q => scale_duty q x
                | None => {| t_ambient := t_ambient x; t_COSP := t_COSP x; t_duty := None; t_percent := t_percent x |} end) rows.
Lemma scaled_table t reg reg' r : distinct reg -> scale_column reg "duty" r = Ok reg' ->
  regression_table t reg' = (x <- regression_table t reg ;; Ok (scaled_by r (fst x), snd x)).
Proof.
  intros D H. unfold regression_table. rewrite (scale_cols _ _ _ _ H). destruct (negb _); [reflexivity|].
  destruct (first_of t "flow_temp") as [flow|]; [|reflexivity]. cbn [bind].
  rewrite (scale_other _ _ _ _ "ambient_temp" D H), (scale_other _ _ _ _ "COSP" D H), (scale_other _ _ _ _ "capacity_percentage" D H) by discriminate.
  destruct (named_column reg "ambient_temp") as [a|]; [|reflexivity]. cbn [bind].
  destruct (named_column reg "COSP") as [c|]; [|reflexivity]. cbn [bind].
  destruct (named_column reg "duty") as [d|] eqn:ED.
  2: { unfold scale_column in H. rewrite ED in H. discriminate. }
  rewrite (scale_same _ _ _ _ _ H ED). cbn [bind]. destruct (named_column reg "capacity_percentage") as [pc|]; [|reflexivity]. cbn [bind fst snd].
  f_equal. f_equal. unfold scaled_by. rewrite map_map. apply map_ext. intro k.
  change (@None cell) with (times r None) at 3. rewrite (map_nth (times r) d None). destruct r as [q|].
  - unfold scale_duty. cbn [t_ambient t_COSP t_duty t_percent]. rewrite number_times. reflexivity.
  - cbn [t_ambient t_COSP t_duty t_percent]. rewrite number_times_none. reflexivity.
Qed.

(** ** What a combination leaves as it is *)
Lemma combination_parts h t k k' : combination h t k = Ok k' ->
  (c_controller k' = c_controller k /\ c_resources k' = c_resources k /\ c_temp_return k' = c_temp_return k /\ c_demand k' = c_demand k /\
   c_PV_location k' = c_PV_location k /\ c_PV_spec k' = c_PV_spec k /\ c_wind_database k' = c_wind_database k /\ c_wind_user k' = c_wind_user k /\
   c_power_curve k' = c_power_curve k /\ c_wind_farm k' = c_wind_farm k /\ c_battery k' = c_battery k /\ c_grid k' = c_grid k /\ c_aux k' = c_aux k) /\
  c_tank k' = set_first (c_tank k) "capacity" (inject_Z t) /\
  hp_basics (c_heat_pump k') = set_first (hp_basics (c_heat_pump k)) "capacity" (inject_Z h) /\
  hp_simple (c_heat_pump k') = hp_simple (c_heat_pump k) /\ hp_lorentz (c_heat_pump k') = hp_lorentz (c_heat_pump k) /\
  (hp_temp1 (c_heat_pump k') = hp_temp1 (c_heat_pump k) /\ hp_temp2 (c_heat_pump k') = hp_temp2 (c_heat_pump k) /\
   hp_temp3 (c_heat_pump k') = hp_temp3 (c_heat_pump k) /\ hp_temp4 (c_heat_pump k') = hp_temp4 (c_heat_pump k)) /\
  exists capacity ratio, first_of (hp_basics (c_heat_pump k)) "capacity" = Ok capacity /\ duty_ratio h capacity = Ok ratio /\
    scale_column (hp_reg1 (c_heat_pump k)) "duty" ratio = Ok (hp_reg1 (c_heat_pump k')) /\
    scale_column (hp_reg2 (c_heat_pump k)) "duty" ratio = Ok (hp_reg2 (c_heat_pump k')) /\
    scale_column (hp_reg3 (c_heat_pump k)) "duty" ratio = Ok (hp_reg3 (c_heat_pump k')) /\
    scale_column (hp_reg4 (c_heat_pump k)) "duty" ratio = Ok (hp_reg4 (c_heat_pump k')).
Proof.
  unfold combination. intro H. destruct (first_of (hp_basics (c_heat_pump k)) "capacity") as [cap|] eqn:EC; cbn [bind] in H; [|discriminate].
  destruct (duty_ratio h cap) as [ra|] eqn:ER; cbn [bind] in H; [|discriminate].
  destruct (scale_column (hp_reg1 _) _ _) as [r1|] eqn:E1; cbn [bind] in H; [|discriminate].
  destruct (scale_column (hp_reg2 _) _ _) as [r2|] eqn:E2; cbn [bind] in H; [|discriminate].
  destruct (scale_column (hp_reg3 _) _ _) as [r3|] eqn:E3; cbn [bind] in H; [|discriminate].
  destruct (scale_column (hp_reg4 _) _ _) as [r4|] eqn:E4; cbn [bind] in H; [|discriminate].
  injection H as <-. cbn. repeat match goal with |- _ /\ _ => split end; try reflexivity.
  exists cap, ra. repeat match goal with |- _ /\ _ => split end; try reflexivity; assumption.
Qed.

(** ** The parts of the set-up *)
Section PARTS.
Variable L : libraries.
Definition makes (k : container) (o : system L) : Prop :=
  exists w air water i,
    weather_rows (c_resources k) true = Ok w /\ numbers (c_resources k) "air_temperature" = Ok air /\ numbers (c_resources k) "water_temperature" = Ok water /\
    user_turbine k w = Ok (o_user o) /\ database_turbine k w = Ok (o_database o) /\
    pv_of k w = Ok i /\ M_Renewables.new_pv (lib_cec L) (lib_sandia L) (lib_inverters L) i = Ok (o_PV o) /\
    tank_of (lib_width L) (lib_pi L) (lib_cp L) k air = Ok (o_tank o) /\ heat_pump_of (lib_fit L) k air water = Ok (o_heat_pump o) /\
    battery_of k = Ok (o_battery o) /\ aux_of k = Ok (o_aux o) /\ grid_of (lib_wind L) k = Ok (o_grid o).
Lemma set_up_inv wb h t o : set_up L wb h t = Ok o ->
  exists k k', read_inputs wb = Ok k /\ combination h t k = Ok k' /\ makes k' o.
Proof.
  unfold set_up. intro H. destruct (read_inputs wb) as [k|] eqn:E; cbn [bind] in H; [|discriminate].
  destruct (combination h t k) as [k'|] eqn:E'; cbn [bind] in H; [|discriminate]. exists k, k'. split; [reflexivity|]. split; [exact E'|].
  unfold init in H. inv_bind H. injection H as <-. unfold makes. cbn. do 4 eexists. repeat match goal with |- _ /\ _ => split end; try eassumption; reflexivity.
Qed.
Lemma set_up_ok wb h t k k' o : read_inputs wb = Ok k -> combination h t k = Ok k' -> makes k' o -> set_up L wb h t = Ok o.
Proof.
  intros E E' (w & air & water & i & A1 & A2 & A3 & A4 & A5 & A6 & A7 & A8 & A9 & A10 & A11 & A12).
  unfold set_up. rewrite E. cbn [bind]. rewrite E'. cbn [bind]. unfold init. rewrite A1. cbn [bind]. rewrite A2. cbn [bind]. rewrite A3. cbn [bind].
  rewrite A4. cbn [bind]. rewrite A5. cbn [bind]. rewrite A6. cbn [bind]. rewrite A7. cbn [bind]. rewrite A8. cbn [bind]. rewrite A9. cbn [bind].
  rewrite A10. cbn [bind]. rewrite A11. cbn [bind]. rewrite A12. cbn [bind]. destruct o; reflexivity.
Qed.
End PARTS.

(** ** Kinds of cells *)
Lemma number_ok v q : number v = Ok q <-> v = Some (Number q).
Proof. destruct v as [[s|x]|]; cbn; split; intro H; try discriminate; injection H as ->; reflexivity. Qed.
Lemma name_ok v s : name v = Ok s <-> exists t, v = Some (Text t) /\ s = string_of_list_ascii t.
Proof.
  destruct v as [[t|x]|]; cbn; split; try (intro H; discriminate); try (intros (? & H & _); discriminate).
  - intro H. injection H as <-. exists t. split; reflexivity.
  - intros (t' & E & ->). injection E as <-. reflexivity.
Qed.
Lemma number_holds wb N c r q : number (xl wb N c r) = Ok q -> holds wb N c r q.
Proof. intro H. apply number_ok in H. exact H. Qed.
Lemma name_says wb N c r s : name (xl wb N c r) = Ok s -> says wb N c r s.
Proof. intro H. apply name_ok in H. exact H. Qed.
Lemma mapM_nth {A B} (f : A -> res B) l l' t x : mapM f l = Ok l' -> nth_error l t = Some x -> exists y, nth_error l' t = Some y /\ f x = Ok y.
Proof.
  revert l' t. induction l as [|a l IH]; intros l' t H N; [destruct t; discriminate|]. cbn [mapM] in H. inv_bind H. injection H as <-.
  destruct t as [|t]; cbn [nth_error] in *; [injection N as ->; exists v; split; [reflexivity|assumption]|]. exact (IH v0 t eq_refl N).
Qed.
Lemma numbers_down wb f h N c from l : series wb f h N c from -> numbers f h = Ok l -> holds_down wb N c from l.
Proof.
  intros (col & C & Len & Cells) H. unfold numbers in H. rewrite C in H. cbn [bind] in H. pose proof (mapM_length _ _ _ H) as ML.
  split; [congruence|]. intros t Ht. rewrite ML in Ht. destruct (mapM_nth _ _ _ t _ H (Cells t Ht)) as (q & Nq & Q).
  exists q. split; [exact Nq|apply number_holds, Q].
Qed.
Lemma numbers_down_to wb f h N c from n l : series_to wb f h N c from n -> numbers f h = Ok l -> holds_down_to wb N c from n l.
Proof.
  intros (col & C & Len & Cells) H. unfold numbers in H. rewrite C in H. cbn [bind] in H. pose proof (mapM_length _ _ _ H) as ML.
  split; [congruence|]. intros t Ht. rewrite ML in Ht. destruct (mapM_nth _ _ _ t _ H (Cells t Ht)) as (q & Nq & Q).
  exists q. split; [exact Nq|apply number_holds, Q].
Qed.
Lemma gap_maybe wb N c r x : gap (xl wb N c r) = Ok x -> maybe wb N c r x.
Proof. unfold maybe, holds. destruct (xl wb N c r) as [[t|q]|]; cbn; intro H; try discriminate; injection H as <-; reflexivity. Qed.
Lemma gaps_down wb f h N c from l : series wb f h N c from -> gaps f h = Ok l ->
  length l = last_row wb N + 1 - from /\ forall t, t < length l -> maybe wb N c (from + t) (nth t l None).
Proof.
  intros (col & C & Len & Cells) H. unfold gaps in H. rewrite C in H. cbn [bind] in H. pose proof (mapM_length _ _ _ H) as ML.
  split; [congruence|]. intros t Ht. rewrite ML in Ht. destruct (mapM_nth _ _ _ t _ H (Cells t Ht)) as (q & Nq & Q).
  rewrite (nth_error_nth _ _ None Nq). apply gap_maybe, Q.
Qed.

(** ** The first row without a gap, if there is one *)
Definition completeb (s : sheet) (from : nat) (but : list nat) (r : nat) : bool :=
  (2 <=? r) && (r <=? length (s_cells s) + 1) &&
  forallb (fun c => (c <? from) || existsb (Nat.eqb c) but || filled (nth c (nth (r - 2) (s_cells s) []) None)) (seq 0 (length (s_header s))).
Lemma completeb_spec wb N s from but r : wb N = Some s -> completeb s from but r = true <-> complete wb N from but r.
Proof.
  intro W. unfold completeb, complete, last_row, width. rewrite W. rewrite !andb_true_iff, !Nat.leb_le, forallb_forall. split.
  - intros [[A B] C]. split; [lia|]. intros c Hc Nb E. specialize (C c). rewrite in_seq in C. specialize (C ltac:(lia)).
    apply orb_prop in C as [C|C]; [apply orb_prop in C as [C|C]|].
    + apply Nat.ltb_lt in C. lia.
    + apply existsb_exists in C as (x & I & X). apply Nat.eqb_eq in X. subst x. contradiction.
    + rewrite E in C. discriminate.
  - intros [A C]. split; [split; lia|]. intros c I. apply in_seq in I.
    destruct (c <? from) eqn:L; [reflexivity|]. destruct (existsb (Nat.eqb c) but) eqn:X; [reflexivity|]. cbn [orb].
    apply Nat.ltb_ge in L. specialize (C c). destruct (nth c (nth (r - 2) (s_cells s) []) None); [reflexivity|]. exfalso. apply C; [lia| |reflexivity].
    intro J. assert (existsb (Nat.eqb c) but = true) by (apply existsb_exists; exists c; split; [exact J|apply Nat.eqb_refl]). congruence.
Qed.
Lemma least (p : nat -> bool) n : (exists r, p r = true /\ forall r', r' < r -> p r' = false) \/ (forall r, r < n -> p r = false).
Proof.
  induction n as [|n IH]; [right; intros; lia|]. destruct IH as [IH|IH]; [left; exact IH|]. destruct (p n) eqn:E.
  - left. exists n. split; [exact E|exact IH].
  - right. intros r H. destruct (Nat.eq_dec r n) as [->|]; [exact E|apply IH; lia].
Qed.
Lemma first_complete_or wb N from but skip : (exists r, first_complete wb N from but skip r) \/ (forall r, ~ In r skip -> ~ complete wb N from but r).
Proof.
  destruct (wb N) as [s|] eqn:W.
  2: { right. intros r _ [A _]. unfold last_row in A. rewrite W in A. lia. }
  set (p := fun r => completeb s from but r && negb (existsb (Nat.eqb r) skip)).
  assert (SK : forall r, existsb (Nat.eqb r) skip = true <-> In r skip).
  { intro r. rewrite existsb_exists. split; [intros (x & I & X); apply Nat.eqb_eq in X; subst; exact I|intro I; exists r; split; [exact I|apply Nat.eqb_refl]]. }
  assert (PS : forall r, p r = true <-> complete wb N from but r /\ ~ In r skip).
  { intro r. unfold p. rewrite andb_true_iff, (completeb_spec wb N s from but r W), negb_true_iff, <- not_true_iff_false, SK. reflexivity. }
  destruct (least p (length (s_cells s) + 2)) as [(r & E & F)|F].
  - left. exists r. apply PS in E as [C S]. split; [exact C|]. split; [exact S|]. intros r' Hr Sr Cr.
    assert (p r' = true) by (apply PS; split; assumption). rewrite F in H by exact Hr. discriminate.
  - right. intros r S C. assert (H : p r = true) by (apply PS; split; assumption). rewrite F in H; [discriminate|].
    destruct C as [C _]. unfold last_row in C. rewrite W in C. lia.
Qed.

(** ** Choices and texts *)
Lemma chooses_ok {A} (ms : list A) v wb N c r x :
  (s <- text_of (xl wb N c r) ;; read_enum ms v s) = Ok x -> chooses ms v wb N c r x.
Proof.
  unfold text_of, chooses, says. destruct (xl wb N c r) as [[t|q]|]; cbn [bind]; try discriminate. unfold read_enum, from_value.
  destruct (existsb _ ms); [|discriminate]. destruct (find _ ms) as [m|] eqn:F; [|discriminate]. intro H. injection H as <-.
  apply find_some in F as [I E]. apply String.eqb_eq in E. split; [exact I|]. exists (string_of_list_ascii t). split; [exists t; split; reflexivity|]. symmetry. exact E.
Qed.
Lemma chooses_fuel wb N c r f : cell_fuel (xl wb N c r) = Ok f -> chooses fuels fuel_value wb N c r f.
Proof.
  unfold cell_fuel, text_of, chooses, says. destruct (xl wb N c r) as [[t|q]|]; cbn [bind]; try discriminate. unfold read_fuel, from_value.
  destruct (find _ fuels) as [m|] eqn:F; [|discriminate]. intro H. injection H as <-.
  apply find_some in F as [I E]. apply String.eqb_eq in E. split; [exact I|]. exists (string_of_list_ascii t). split; [exists t; split; reflexivity|]. symmetry. exact E.
Qed.
Lemma small_lower c : small c (lower_ascii c).
Proof.
  unfold small, lower_ascii. destruct ((65 <=? nat_of_ascii c) && (nat_of_ascii c <=? 90)) eqn:E; [|reflexivity].
  apply andb_prop in E as [A B]. apply Nat.leb_le in A, B. apply nat_ascii_embedding. lia.
Qed.
Lemma lstrip_split l : exists a, l = a ++ lstrip l /\ Forall blank a /\ forall c, hd_error (lstrip l) = Some c -> ~ blank c.
Proof.
  induction l as [|c l IH]; [exists []; repeat split; [constructor|discriminate]|]. cbn [lstrip]. destruct (is_space c) eqn:E.
  - destruct IH as (a & H & F & N). exists (c :: a). split; [cbn; f_equal; exact H|]. split; [constructor; [exact E|exact F]|exact N].
  - exists []. split; [reflexivity|]. split; [constructor|]. intros d H B. cbn in H. injection H as <-. unfold blank in B. congruence.
Qed.
Lemma hd_error_app {A} (a b : list A) c : hd_error a = Some c -> hd_error (a ++ b) = Some c.
Proof. destruct a; [discriminate|]. intro H. exact H. Qed.
Lemma strip_trimmed l : trimmed l (rev (lstrip (rev (lstrip l)))).
Proof.
  destruct (lstrip_split l) as (a & H & F & N). destruct (lstrip_split (rev (lstrip l))) as (b & H' & F' & N').
  exists a, (rev b). assert (K : lstrip l = rev (lstrip (rev (lstrip l))) ++ rev b).
  { apply (f_equal (@rev ascii)) in H'. rewrite rev_involutive, rev_app_distr in H'. exact H'. }
  split; [rewrite <- K; exact H|]. split; [exact F|]. split; [apply Forall_rev; exact F'|]. split.
  - intros c E. apply N. rewrite K. apply hd_error_app, E.
  - intros c E. rewrite rev_involutive in E. exact (N' c E).
Qed.
Lemma tidied_ok wb N c r s : name (xl wb N c r) = Ok s -> tidied wb N c r (tidy s).
Proof.
  intro H. exists s, (map lower_ascii (list_ascii_of_string s)). split; [apply name_says, H|]. split.
  - induction (list_ascii_of_string s); constructor; [apply small_lower|assumption].
  - unfold tidy. rewrite list_ascii_of_string_of_list_ascii. apply strip_trimmed.
Qed.
Lemma whole_counts wb N c r z : whole (xl wb N c r) = Ok z -> counts wb N c r z.
Proof.
  unfold whole. intro H. destruct (number (xl wb N c r)) as [q|] eqn:E; cbn [bind] in H; [|discriminate].
  destruct (Pos.eqb_spec (Qden (Qred q)) 1) as [D|]; [|discriminate]. injection H as <-. exists q. split; [apply number_holds, E|].
  rewrite <- (Qred_correct q) at 1. destruct (Qred q) as [n d]. cbn in *. subst d. reflexivity.
Qed.
Lemma first_number_holds wb f h N c r q : first_of f h = Ok (xl wb N c r) -> first_number f h = Ok q -> holds wb N c r q.
Proof. unfold first_number. intros -> H. cbn [bind] in H. apply number_holds, H. Qed.

(** ** Weather *)
Lemma gap_rows {A} (g : nat -> A) n t x : nth_error (map g (seq 0 n)) t = Some x -> t < n /\ x = g t.
Proof.
  intro H. rewrite nth_error_map in H. destruct (nth_error (seq 0 n) t) as [j|] eqn:E; [|discriminate]. injection H as <-.
  assert (L : t < n) by (rewrite <- (seq_length n 0); apply nth_error_Some; congruence).
  rewrite nth_error_nth' with (d := 0) in E by (rewrite seq_length; exact L). rewrite seq_nth in E by exact L. injection E as <-. split; [exact L|reflexivity].
Qed.
Lemma sunny_ok wb f l : 5 <= last_row wb "Weather resources" -> let N := "Weather resources"%string in
  series wb f "DHI" N "D" 6 -> series wb f "GHI" N "E" 6 -> series wb f "DNI" N "F" 6 ->
  series wb f "wind_speed_10" N "G" 6 -> series wb f "wind_speed_50" N "H" 6 -> series wb f "roughness_length" N "I" 6 ->
  series wb f "pressure" N "J" 6 -> series wb f "air_temperature" N "K" 6 -> weather_rows f true = Ok l -> sunny_rows wb l.
Proof.
  intros LR N S1 S2 S3 S4 S5 S6 S7 S8 H. subst N. unfold weather_rows in H. inv_bind H. injection H as <-.
  repeat match goal with S : series _ _ ?h _ _ _, E : gaps _ ?h = Ok _ |- _ => pose proof (gaps_down _ _ _ _ _ _ _ S E); clear S E end.
  split; [rewrite map_length, seq_length; lia|]. intros t w I. apply gap_rows in I as [Lt ->]. cbn.
  repeat match goal with X : length _ = _ /\ _ |- _ => destruct X end. repeat match goal with |- _ /\ _ => split end;
    match goal with X : forall t, t < length ?v -> maybe _ _ ?c _ _ |- maybe _ _ ?c _ (nth _ ?v None) => apply X; lia end.
Qed.
Lemma farm_ok wb f l : 19 <= last_row wb "Wind farm" -> let N := "Wind farm"%string in
  series wb f "wind_speed_10" N "C" 20 -> series wb f "wind_speed_50" N "D" 20 -> series wb f "roughness_length" N "E" 20 ->
  series wb f "pressure" N "F" 20 -> series wb f "air_temperature" N "G" 20 -> weather_rows f false = Ok l -> farm_rows wb l.
Proof.
  intros LR N S4 S5 S6 S7 S8 H. subst N. unfold weather_rows in H. cbn [bind] in H. inv_bind H. injection H as <-.
  repeat match goal with S : series _ _ ?h _ _ _, E : gaps _ ?h = Ok _ |- _ => pose proof (gaps_down _ _ _ _ _ _ _ S E); clear S E end.
  split; [rewrite map_length, seq_length; lia|]. intros t w I. apply gap_rows in I as [Lt ->]. cbn.
  repeat match goal with X : length _ = _ /\ _ |- _ => destruct X end. repeat match goal with |- _ /\ _ => split end;
    match goal with X : forall t, t < length ?v -> maybe _ _ ?c _ _ |- maybe _ _ ?c _ (nth _ ?v None) => apply X; lia end.
Qed.
Lemma reaches_rows wb N c r : reaches wb N c r -> r <= last_row wb N.
Proof. intros (s & W & _ & H). unfold last_row. rewrite W. exact H. Qed.

(** ** Filled cells are accepted *)
Lemma holds_number wb N c r q : holds wb N c r q -> number (xl wb N c r) = Ok q.
Proof. intro H. unfold holds in H. rewrite H. reflexivity. Qed.
Lemma numeric_number wb N c r : numeric wb N c r -> exists q, number (xl wb N c r) = Ok q.
Proof. intros [q H]. exists q. apply holds_number, H. Qed.
Lemma says_name wb N c r s : says wb N c r s -> name (xl wb N c r) = Ok s.
Proof. intros (t & E & ->). rewrite E. reflexivity. Qed.
Lemma worded_name wb N c r : worded wb N c r -> exists s, name (xl wb N c r) = Ok s.
Proof. intros [s H]. exists s. apply says_name, H. Qed.
Lemma counts_whole wb N c r z : counts wb N c r z -> exists z', whole (xl wb N c r) = Ok z'.
Proof.
  intros (q & H & E). unfold whole. rewrite (holds_number _ _ _ _ _ H). cbn [bind].
  assert (R : Qred q = inject_Z z) by (rewrite (Qred_complete _ _ E); apply Qcanon.Qred_identity; cbn [inject_Z Qnum Qden]; apply Z.gcd_1_r).
  rewrite R. cbn. eexists. reflexivity.
Qed.
Lemma chooses_read {A} (ms : list A) v wb N c r x : (forall a b, In a ms -> In b ms -> v a = v b -> a = b) -> chooses ms v wb N c r x ->
  (s <- text_of (xl wb N c r) ;; read_enum ms v s) = Ok x.
Proof.
  intros Inj (I & s & (t & E & ->) & U). rewrite E. cbn [text_of bind]. unfold read_enum, from_value. rewrite U.
  assert (X : existsb (fun m => String.eqb (v m) (v x)) ms = true) by (apply existsb_exists; exists x; split; [exact I|apply String.eqb_refl]).
  rewrite X. destruct (find _ ms) as [m|] eqn:F.
  - apply find_some in F as [Im Em]. apply String.eqb_eq in Em. rewrite (Inj _ _ Im I Em). reflexivity.
  - apply find_none with (x := x) in F; [|exact I]. rewrite String.eqb_refl in F. discriminate.
Qed.
Lemma chooses_cell wb N c r f : chooses fuels fuel_value wb N c r f -> cell_fuel (xl wb N c r) = Ok f.
Proof.
  intros (I & s & (t & E & ->) & U). unfold cell_fuel. rewrite E. cbn [text_of bind]. unfold read_fuel, from_value. rewrite U.
  destruct f; reflexivity.
Qed.
Lemma mapM_total {A B} (f : A -> res B) l : (forall x, In x l -> exists y, f x = Ok y) -> exists l', mapM f l = Ok l'.
Proof.
  induction l as [|a l IH]; intro H; [exists []; reflexivity|]. cbn [mapM]. destruct (H a (or_introl eq_refl)) as [y ->]. cbn [bind].
  destruct IH as [l' ->]; [intros x I; apply H; right; exact I|]. eexists. reflexivity.
Qed.
Lemma series_cells wb f h N c from col x : named_column f h = Ok col -> reads_down wb N c from col -> In x col -> exists r, rows_of wb N from r /\ x = xl wb N c r.
Proof.
  intros C [Len Cells] I. apply In_nth_error in I as [t E]. assert (L : t < length col) by (apply nth_error_Some; congruence).
  rewrite (Cells t L) in E. injection E as <-. exists (from + t). split; [unfold rows_of; lia|reflexivity].
Qed.
Lemma numbers_total wb f h N c from : series wb f h N c from -> (forall r, rows_of wb N from r -> numeric wb N c r) ->
  exists l, numbers f h = Ok l /\ length l = last_row wb N + 1 - from.
Proof.
  intros (col & C & D) H. unfold numbers. rewrite C. cbn [bind]. destruct (mapM_total number col) as [l E].
  - intros x I. destruct (series_cells wb f h N c from col x C D I) as (r & R & ->). apply numeric_number, H, R.
  - exists l. split; [exact E|]. rewrite (mapM_length _ _ _ E). apply D.
Qed.
Lemma numbers_to_total wb f h N c from n : series_to wb f h N c from n -> (forall r, rows_of wb N from r -> r < from + n -> numeric wb N c r) -> exists l, numbers f h = Ok l.
Proof.
  intros (col & C & Len & Cells) H. unfold numbers. rewrite C. cbn [bind]. apply mapM_total. intros x I. apply In_nth_error in I as [t E].
  assert (L : t < length col) by (apply nth_error_Some; congruence). rewrite (Cells t L) in E. injection E as <-. apply numeric_number, H; [unfold rows_of; lia|lia].
Qed.
Lemma wordless_gap wb N c r : wordless wb N c r -> exists x, gap (xl wb N c r) = Ok x.
Proof.
  intro H. destruct (xl wb N c r) as [[t|q]|] eqn:E; [|eexists; reflexivity|eexists; reflexivity].
  exfalso. apply H. exists (string_of_list_ascii t), t. split; [exact E|reflexivity].
Qed.
Lemma gaps_total wb f h N c from : series wb f h N c from -> (forall r, rows_of wb N from r -> wordless wb N c r) -> exists l, gaps f h = Ok l.
Proof.
  intros (col & C & D) H. unfold gaps. rewrite C. cbn [bind]. apply mapM_total.
  intros x I. destruct (series_cells wb f h N c from col x C D I) as (r & R & ->). apply wordless_gap, H, R.
Qed.
Lemma numeric_wordless wb N c r : numeric wb N c r -> wordless wb N c r.
Proof. intros [q H] (s & t & E & _). unfold holds in H. congruence. Qed.
Lemma scale_total wb f rows N c ra : picks wb f "duty" N c rows -> (forall r, In r rows -> wordless wb N c r) -> exists f', scale_column f "duty" ra = Ok f'.
Proof.
  intros K H. unfold picks in K. unfold scale_column. rewrite K. cbn [bind]. unfold named_column, column in K.
  destruct (find_label (Named "duty") (f_cols f)) as [j|]; [|discriminate]. cbn [bind].
  destruct (existsb is_text _) eqn:X; [|eexists; reflexivity]. apply existsb_exists in X as (v & I & T). apply in_map_iff in I as (r & <- & I).
  exfalso. apply (H r I). destruct (xl wb N c r) as [[t|q]|] eqn:E; try discriminate. exists (string_of_list_ascii t), t. split; [exact E|reflexivity].
Qed.
