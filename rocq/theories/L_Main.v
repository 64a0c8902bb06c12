From Coq Require Import String Ascii.
From Verif Require Import Base BaseL M_Main S_Main.
Local Open Scope list_scope.

Lemma path_eqb_spec p q : reflect (p = q) (path_eqb p q).
Proof. unfold path_eqb. destruct (list_eq_dec string_dec p q); constructor; assumption. Qed.
Lemma below_spec t p : reflect (inside t p) (below t p).
Proof.
  revert p. induction t as [|a t IH]; intros p; cbn; [constructor; exists p; reflexivity|].
  destruct p as [|b p]; [constructor; intros [s E]; discriminate|].
  destruct (String.eqb_spec a b) as [->|N]; cbn.
  - destruct (IH p) as [I|I]; constructor.
    + destruct I as [s ->]. exists s. reflexivity.
    + intros [s E]. injection E as E. apply I. exists s. exact E.
  - constructor. intros [s E]. injection E as E _. congruence.
Qed.
Lemma inside_refl t : inside t t.
Proof. exists []. symmetry. apply app_nil_r. Qed.
Lemma inside_trans a b c : inside a b -> inside b c -> inside a c.
Proof. intros [s ->] [s' ->]. exists (s ++ s'). rewrite app_assoc. reflexivity. Qed.
Lemma set_other f p n q : q <> p -> set f p n q = f q.
Proof. intro N. unfold set. destruct (path_eqb_spec q p); congruence. Qed.
Lemma set_same f p n : set f p n p = Some n.
Proof. unfold set. destruct (path_eqb_spec p p); congruence. Qed.
Lemma remove_other f t q : ~ inside t q -> remove_tree f t q = f q.
Proof. intro N. unfold remove_tree. destruct (below_spec t q); [contradiction|reflexivity]. Qed.
Lemma remove_inside f t q : inside t q -> remove_tree f t q = None.
Proof. intro N. unfold remove_tree. destruct (below_spec t q); [reflexivity|contradiction]. Qed.
Lemma mkdir_ok f p f' : mkdir f p = Ok f' -> f p = None /\ f' = set f p Folder.
Proof.
  unfold mkdir. destruct (f p); [discriminate|]. destruct (parent_ok f p); cbn; [|discriminate]. intro H. injection H as <-. auto.
Qed.

Definition acts_in (t : path) (a : action) : Prop :=
  match a with Write p | Recreate p => inside t p | _ => True end.
Section Run.
Variable content : path -> string.
Lemma act_frame t f a q : acts_in t a -> ~ inside t q -> fst (act content f a) q = f q.
Proof.
  intros A N. destruct a as [p|p|p|r]; cbn in *.
  - assert (q <> p) by (intros ->; contradiction).
    destruct (f p) as [[]|]; [reflexivity| |]; destruct (parent_ok f p); cbn; try reflexivity; apply set_other; assumption.
  - assert (Nq : q <> p) by (intros ->; contradiction). assert (Np : ~ inside p q) by (intro X; apply N; eapply inside_trans; eauto).
    set (f1 := match f p with Some Folder => remove_tree f p | _ => f end).
    assert (E : f1 q = f q) by (unfold f1; destruct (f p) as [[]|]; try reflexivity; apply remove_other; assumption).
    destruct (mkdir f1 p) as [f2|e] eqn:M; cbn; [|exact E]. apply mkdir_ok in M as [_ ->]. rewrite set_other; assumption.
  - destruct (f p) as [[]|]; reflexivity.
  - reflexivity.
Qed.
Lemma exec_frame t l : forall f q, Forall (acts_in t) l -> ~ inside t q -> fst (exec content f l) q = f q.
Proof.
  induction l as [|a l IH]; intros f q A N; cbn; [reflexivity|]. inversion A as [|? ? A1 A2]; subst.
  pose proof (act_frame t f a q A1 N) as E. destruct (act content f a) as [f' [u|e]]; cbn in *; [|exact E]. rewrite IH; assumption.
Qed.
Lemma act_files f a p d : fst (act content f a) p = Some (File d) -> f p = Some (File d) \/ (a = Write p /\ d = content p).
Proof.
  destruct a as [x|x|x|r]; cbn.
  - assert (G : fst (match parent_ok f x with Ok _ => (set f x (File (content x)), Ok tt) | Err e => (f, Err e) end) p = Some (File d) ->
      f p = Some (File d) \/ Write x = Write p /\ d = content p).
    { destruct (parent_ok f x); cbn; [|auto]. unfold set. destruct (path_eqb_spec p x) as [->|N]; [|auto]. intro H. injection H as <-. auto. }
    destruct (f x) as [[]|]; cbn; auto.
  - set (f1 := match f x with Some Folder => remove_tree f x | _ => f end).
    assert (E : f1 p = Some (File d) -> f p = Some (File d)).
    { unfold f1. destruct (f x) as [[]|]; auto. unfold remove_tree. destruct (below x p); [discriminate|auto]. }
    destruct (mkdir f1 x) as [f2|e] eqn:M; cbn; [|auto]. apply mkdir_ok in M as [_ ->]. unfold set. destruct (path_eqb p x); [discriminate|auto].
  - destruct (f x) as [[]|]; auto.
  - auto.
Qed.
Lemma exec_files l : forall f p d, fst (exec content f l) p = Some (File d) -> f p = Some (File d) \/ (In (Write p) l /\ d = content p).
Proof.
  induction l as [|a l IH]; intros f p d H; cbn in *; [auto|]. pose proof (act_files f a p d) as AF.
  destruct (act content f a) as [f' [u|e]]; cbn in *.
  - destruct (IH f' p d H) as [X|[X Y]]; [destruct (AF X) as [Z|[Z Y]]; auto|auto].
  - destruct (AF H) as [X|[X Y]]; auto.
Qed.

Lemma tree_ancestor f t p : tree f -> inside t p -> f p <> None -> f t <> None.
Proof.
  intros T [s ->]. induction s as [|a s IH] using rev_ind; [rewrite app_nil_r; auto|]. intro N. apply IH.
  rewrite app_assoc in N. destruct (f ((t ++ s) ++ [a])) as [n|] eqn:E; [|congruence]. apply T in E. rewrite E. discriminate.
Qed.

Section Main.
Variables (xlsx outdir : path) (acts : list action).
Notation t := (output_folder xlsx outdir).
Hypothesis Hin : Forall (acts_in t) acts.

Lemma main_frame ov f q : stem (last xlsx "") <> ".."%string -> ~ inside t q -> fst (main content xlsx outdir ov acts f) q = f q.
Proof.
  intros Hs N. assert (Nt : q <> t) by (intros ->; apply N, inside_refl). unfold main.
  destruct (f xlsx); [|reflexivity]. destruct (f outdir); [|reflexivity]. cbv zeta.
  assert (C : forall f1, f1 q = f q -> fst (match mkdir f1 t with Ok f2 => exec content f2 acts | Err e => (f1, Err e) end) q = f q).
  { intros f1 E. destruct (mkdir f1 t) as [f2|e] eqn:M; [|exact E]. apply mkdir_ok in M as [_ ->].
    rewrite (exec_frame t acts _ q Hin N). rewrite set_other; assumption. }
  destruct (f t) as [n1|] eqn:Et; [|apply C; reflexivity]. destruct ov; [|reflexivity].
  destruct (String.eqb_spec (stem (last xlsx "")) ".."); [contradiction|]. unfold rmtree. rewrite Et. destruct n1; [|reflexivity].
  apply C. apply remove_other. exact N.
Qed.
Lemma main_no_consent f : f xlsx <> None -> f outdir <> None -> f t <> None -> main content xlsx outdir false acts f = (f, Err FileExistsError).
Proof. intros A B C. unfold main. destruct (f xlsx); [|congruence]. destruct (f outdir); [|congruence]. cbv zeta. destruct (f t); [reflexivity|congruence]. Qed.
Lemma main_preserves f p n : tree f -> f p = Some n -> fst (main content xlsx outdir false acts f) p = Some n.
Proof.
  intros T E. destruct (f xlsx) as [nx|] eqn:Ex; [|unfold main; rewrite Ex; exact E].
  destruct (f outdir) as [no|] eqn:Eo; [|unfold main; rewrite Ex, Eo; exact E].
  destruct (f t) as [nt|] eqn:Et.
  - rewrite (main_no_consent f); [exact E|congruence|congruence|congruence].
  - assert (N : ~ inside t p). { intro I. apply (tree_ancestor f t p T I); congruence. }
    assert (Nt : p <> t) by congruence.
    unfold main. rewrite Ex, Eo. cbv zeta. rewrite Et. destruct (mkdir f t) as [f2|e] eqn:M; [|exact E]. apply mkdir_ok in M as [_ ->].
    rewrite (exec_frame t acts _ p Hin N), set_other; assumption.
Qed.
Lemma main_overwrite f p d : stem (last xlsx "") <> ".."%string -> f xlsx <> None -> f outdir <> None -> f t = Some Folder ->
  inside t p -> fst (main content xlsx outdir true acts f) p = Some (File d) -> In (Write p) acts /\ d = content p.
Proof.
  intros Hs A B C I H. unfold main in H. destruct (f xlsx); [|congruence]. destruct (f outdir); [|congruence]. cbv zeta in H. rewrite C in H.
  destruct (String.eqb_spec (stem (last xlsx "")) ".."); [contradiction|]. unfold rmtree in H. rewrite C in H.
  destruct (mkdir (remove_tree f t) t) as [f2|e] eqn:M.
  - apply mkdir_ok in M as [_ ->]. apply exec_files in H as [H|H]; [|exact H]. unfold set in H. destruct (path_eqb p t); [discriminate|].
    rewrite (remove_inside f t p I) in H. discriminate.
  - cbn in H. rewrite (remove_inside f t p I) in H. discriminate.
Qed.
End Main.

Variables (parse para : res unit) (solve plot : string -> res unit) (kpi : res unit).
Lemma script_inside xlsx t names periods : Forall (acts_in t) (script parse para solve plot kpi xlsx t names periods).
Proof.
  unfold script. assert (I : forall s, inside t (t ++ s)) by (intro s; exists s; reflexivity).
  repeat (apply Forall_app; split).
  - repeat constructor; apply I.
  - apply Forall_map, Forall_forall. intros n _. apply I.
  - apply Forall_map, Forall_forall. intros n _. apply I.
  - repeat constructor.
  - apply Forall_flat_map, Forall_forall. intros n _. apply Forall_app. split; [repeat constructor; apply I|].
    apply Forall_flat_map, Forall_forall. intros d _. constructor; [apply I|]. apply Forall_map, Forall_forall. intros x _. apply I.
  - constructor; [apply I|]. constructor; [exact Logic.I|]. apply Forall_map, Forall_forall. intros x _. apply I.
Qed.
Lemma incl_inside xlsx t names periods acts : incl acts (script parse para solve plot kpi xlsx t names periods) -> Forall (acts_in t) acts.
Proof. intro H. eapply incl_Forall; [exact H|apply script_inside]. Qed.
End Run.
