(** Lemmas about the surfaces over the two sizes. *)
From Coq Require Import String.
From Verif Require Import Base BaseL M_Sweep S_Sweep L_Sweep M_Kpi L_Kpi L_KpiCost M_Plots S_Plots L_Plots.
Open Scope string_scope.
Local Open Scope list_scope.

Lemma qeq_iff a b : qeq a b = true <-> a == b.
Proof. destruct (qeq_spec a b) as [E|E]; split; intro X; try reflexivity; try assumption; try discriminate X; contradiction. Qed.
Lemma on_line_refl p q : on_line p q p = true /\ on_line p q q = true.
Proof. unfold on_line. split; apply qeq_iff; ring. Qed.
Lemma same_point_spec p q : same_point p q = true <-> fst p == fst q /\ snd p == snd q.
Proof. unfold same_point. rewrite Bool.andb_true_iff, !qeq_iff. reflexivity. Qed.

(** Points on one line through two different points span no triangle. *)
Lemma line_flat p q a b c :
  same_point p q = false -> on_line p q a = true -> on_line p q b = true -> on_line p q c = true -> ~ triangle a b c.
Proof.
  intros N A B C. unfold on_line in A, B, C. rewrite qeq_iff in A, B, C. unfold triangle. intro T. apply T. clear T.
  assert (D : ~ fst q - fst p == 0 \/ ~ snd q - snd p == 0).
  { destruct (Qeq_dec (fst q - fst p) 0) as [E|E]; [|left; exact E].
    destruct (Qeq_dec (snd q - snd p) 0) as [F|F]; [|right; exact F].
    exfalso. assert (X : same_point p q = true) by (apply same_point_spec; split; lra). congruence. }
  set (d1 := fst q - fst p) in *. set (d2 := snd q - snd p) in *. clearbody d1 d2.
  destruct p as [p1 p2], a as [a1 a2], b as [b1 b2], c as [c1 c2]. cbn [fst snd] in *.
  assert (B' : d1 * (b2 - a2) == d2 * (b1 - a1)) by lra. assert (C' : d1 * (c2 - a2) == d2 * (c1 - a1)) by lra.
  assert (X : d1 * ((b1 - a1) * (c2 - a2) - (b2 - a2) * (c1 - a1)) == 0).
  { transitivity ((b1 - a1) * (d1 * (c2 - a2)) - (d1 * (b2 - a2)) * (c1 - a1)); [ring|]. rewrite B', C'. ring. }
  assert (Y : d2 * ((b1 - a1) * (c2 - a2) - (b2 - a2) * (c1 - a1)) == 0).
  { transitivity ((d2 * (b1 - a1)) * (c2 - a2) - (b2 - a2) * (d2 * (c1 - a1))); [ring|]. rewrite <- B', <- C'. ring. }
  clear A B C B' C'; destruct D as [D|D]; [apply Qmult_integral in X as [Z|Z]|apply Qmult_integral in Y as [Z|Z]]; (contradiction || lra).
Qed.

Lemma filter_nil {A} (f : A -> bool) l : filter f l = [] -> forall x, In x l -> f x = false.
Proof.
  intros H x Hx. destruct (f x) eqn:E; [|reflexivity]. exfalso.
  assert (I : In x (filter f l)) by (apply filter_In; auto). rewrite H in I. exact I.
Qed.
Lemma on_line_same p q x y : same_point x y = true -> on_line p q x = on_line p q y.
Proof.
  rewrite same_point_spec. intros [A B]. unfold on_line. apply Bool.eq_iff_eq_true. rewrite !qeq_iff, A, B. reflexivity.
Qed.

Lemma triangulation_spec ps :
  triangulation ps = Ok tt <-> exists a b c, In a ps /\ In b ps /\ In c ps /\ triangle a b c.
Proof.
  unfold triangulation. destruct ps as [|p ps]; [split; [discriminate|]; intros (a & _ & _ & [] & _)|].
  destruct (filter (fun s => negb (same_point p s)) ps) as [|q l] eqn:F1.
  - split; [discriminate|]. intros (a & b & c & Ha & Hb & Hc & T). exfalso. apply T.
    assert (S : forall x, In x (p :: ps) -> fst p == fst x /\ snd p == snd x).
    { intros x [<-|Hx]; [split; reflexivity|]. apply same_point_spec. apply Bool.negb_false_iff. apply (filter_nil _ _ F1 x Hx). }
    destruct (S a Ha) as [A1 A2], (S b Hb) as [B1 B2], (S c Hc) as [C1 C2]. rewrite <- A1, <- A2, <- B1, <- B2, <- C1, <- C2. ring.
  - assert (Iq : In q ps /\ same_point p q = false).
    { assert (I : In q (filter (fun s => negb (same_point p s)) ps)) by (rewrite F1; left; reflexivity).
      apply filter_In in I as [I N]. apply Bool.negb_true_iff in N. auto. }
    destruct Iq as [Iq Nq].
    set (rest := filter (fun s => negb (same_point q s)) l).
    assert (Il : forall s, In s rest -> In s ps).
    { intros s Hs. apply filter_In in Hs as [Hs _]. assert (I : In s (q :: l)) by (right; exact Hs). rewrite <- F1 in I.
      apply filter_In in I. apply I. }
    assert (All : forallb (on_line p q) rest = true -> forall x, In x (p :: ps) -> on_line p q x = true).
    { intros H x [<-|Hx]; [apply on_line_refl|]. rewrite forallb_forall in H.
      destruct (same_point p x) eqn:E; [rewrite <- (on_line_same p q _ _ E); apply on_line_refl|].
      destruct (same_point q x) eqn:E'; [rewrite <- (on_line_same p q _ _ E'); apply on_line_refl|].
      apply H. apply filter_In. rewrite E'. split; [|reflexivity].
      assert (I : In x (q :: l)) by (rewrite <- F1; apply filter_In; rewrite E; auto).
      destruct I as [<-|I]; [|exact I]. exfalso.
      assert (X : same_point q q = true) by (apply same_point_spec; split; reflexivity). congruence. }
    assert (Flat : forallb (on_line p q) rest = true -> ~ exists a b c, In a (p :: ps) /\ In b (p :: ps) /\ In c (p :: ps) /\ triangle a b c).
    { intros H (a & b & c & Ha & Hb & Hc & T). apply (line_flat p q a b c Nq); auto. }
    destruct rest as [|s rest'] eqn:R; [split; [discriminate|]; intro X; exfalso; exact (Flat eq_refl X)|].
    destruct (forallb (on_line p q) (s :: rest')) eqn:H; [split; [discriminate|]; intro X; exfalso; exact (Flat eq_refl X)|].
    split; [|reflexivity]. intros _.
    assert (E : exists x, In x (s :: rest') /\ on_line p q x = false).
    { clear - H. induction (s :: rest') as [|y l IH]; [discriminate H|]. cbn in H. destruct (on_line p q y) eqn:E.
      - destruct (IH H) as (x & I & N). exists x. split; [right; exact I|exact N].
      - exists y. split; [left; reflexivity|exact E]. }
    destruct E as (x & Ix & Nx). exists p, q, x. split; [left; reflexivity|]. split; [right; exact Iq|].
    split; [right; apply Il; exact Ix|].
    destruct (Qeq_dec ((fst q - fst p) * (snd x - snd p)) ((snd q - snd p) * (fst x - fst p))) as [T|T]; [|exact T].
    exfalso. unfold on_line in Nx. apply qeq_iff in T. congruence.
Qed.

Lemma combine_map {A B C} (f : A -> B) (g : A -> C) l : combine (map f l) (map g l) = map (fun c => (f c, g c)) l.
Proof. induction l as [|x l IH]; [reflexivity|]. cbn. rewrite IH. reflexivity. Qed.

(** ** The sizes of a sweep *)
Lemma combos_closed p cs h t h' t' : combos p = Ok cs -> In (h, t) cs -> In (h', t') cs -> In (h, t') cs.
Proof.
  unfold combos. destruct (hp_sizes p) as [hs|]; cbn [bind]; [|discriminate]. destruct (ts_sizes p) as [ts|]; cbn [bind]; [|discriminate].
  intros [= <-] H H'. apply in_flat_map in H as (x & Ix & I). apply in_map_iff in I as (y & [= -> ->] & Iy).
  apply in_flat_map in H' as (x' & Ix' & I'). apply in_map_iff in I' as (y' & [= -> ->] & Iy').
  apply in_flat_map. exists h. split; [exact Ix|]. apply in_map. exact Iy'.
Qed.

Lemma grid_triangle cs :
  (forall h t h' t', In (h, t) cs -> In (h', t') cs -> In (h, t') cs) ->
  (exists a b c, In a (map size_point cs) /\ In b (map size_point cs) /\ In c (map size_point cs) /\ triangle a b c) <->
  two_by_two cs.
Proof.
  intro Cl. split.
  - intros (a & b & c & Ha & Hb & Hc & T). apply in_map_iff in Ha as ((h1 & t1) & <- & I1).
    apply in_map_iff in Hb as ((h2 & t2) & <- & I2). apply in_map_iff in Hc as ((h3 & t3) & <- & I3).
    unfold triangle, size_point in T. cbn [fst snd] in T. split.
    + destruct (Z.eq_dec h1 h2) as [E|E]; [|exists (h1, t1), (h2, t2); auto].
      destruct (Z.eq_dec h1 h3) as [F|F]; [|exists (h1, t1), (h3, t3); auto].
      exfalso. apply T. rewrite <- E, <- F. ring.
    + destruct (Z.eq_dec t1 t2) as [E|E]; [|exists (h1, t1), (h2, t2); auto].
      destruct (Z.eq_dec t1 t3) as [F|F]; [|exists (h1, t1), (h3, t3); auto].
      exfalso. apply T. rewrite <- E, <- F. ring.
  - intros [((h & x) & (h' & x') & I1 & I2 & N) ((y & t) & (y' & t') & I3 & I4 & M)]. cbn [fst snd] in N, M.
    exists (size_point (h, t)), (size_point (h', t)), (size_point (h, t')).
    split; [apply in_map; eapply Cl; eassumption|]. split; [apply in_map; eapply Cl; eassumption|].
    split; [apply in_map; eapply Cl; eassumption|]. unfold triangle, size_point. cbn [fst snd]. intro E.
    assert (X : (inject_Z h' - inject_Z h) * (inject_Z t' - inject_Z t) == 0).
    { transitivity (((inject_Z h' - inject_Z h) * (inject_Z t' / 1000 - inject_Z t / 1000)) * 1000); [field|]. rewrite E. ring. }
    apply Qmult_integral in X as [X|X]; [apply N|apply M]; apply inject_Z_injective; lra.
Qed.

Definition flip (c : Q * Q) : Q * Q := (snd c, fst c).
Lemma triangle_flip a b c : triangle a b c <-> triangle (flip a) (flip b) (flip c).
Proof. unfold triangle, flip. cbn [fst snd]. split; intros H E; apply H; lra. Qed.
Lemma flip_triangle l :
  (exists a b c, In a (map flip l) /\ In b (map flip l) /\ In c (map flip l) /\ triangle a b c) <->
  (exists a b c, In a l /\ In b l /\ In c l /\ triangle a b c).
Proof.
  split.
  - intros (a & b & c & Ha & Hb & Hc & T). apply in_map_iff in Ha as (a' & <- & Ha).
    apply in_map_iff in Hb as (b' & <- & Hb). apply in_map_iff in Hc as (c' & <- & Hc).
    exists a', b', c'. rewrite triangle_flip. auto.
  - intros (a & b & c & Ha & Hb & Hc & T). exists (flip a), (flip b), (flip c). rewrite <- triangle_flip.
    auto using in_map.
Qed.

Lemma sizes_xy cs : combine (heat_pump_sizes_x cs) (thermal_store_sizes_y cs) = map size_point cs.
Proof. unfold heat_pump_sizes_x, thermal_store_sizes_y. rewrite combine_map. reflexivity. Qed.
Lemma sizes_yx cs : combine (thermal_store_sizes_y cs) (heat_pump_sizes_x cs) = map flip (map size_point cs).
Proof. unfold heat_pump_sizes_x, thermal_store_sizes_y. rewrite combine_map, map_map. reflexivity. Qed.

(** Which exception it is. *)
Definition few {A} (l : list A) : exn := match l with _ :: _ :: _ :: _ => RuntimeError | _ => ValueError end.
Lemma filter_all {A} (f : A -> bool) l : (forall x, In x l -> f x = true) -> filter f l = l.
Proof.
  induction l as [|x l IH]; intro H; [reflexivity|]. cbn. rewrite (H x) by (left; reflexivity). f_equal. apply IH. intros y Hy. apply H. right. exact Hy.
Qed.
Lemma triangulation_err ps :
  ForallOrdPairs (fun a b => same_point a b = false) ps -> triangulation ps <> Ok tt -> triangulation ps = Err (few ps).
Proof.
  unfold triangulation. intros N H. destruct ps as [|p ps]; [reflexivity|]. inversion N as [|? ? N1 N2]; subst.
  rewrite (filter_all _ ps) in H |- * by (intros x Hx; rewrite Forall_forall in N1; rewrite (N1 x Hx); reflexivity).
  destruct ps as [|q l]; [reflexivity|]. inversion N2 as [|? ? N3 N4]; subst.
  rewrite (filter_all _ l) in H |- * by (intros x Hx; rewrite Forall_forall in N3; rewrite (N3 x Hx); reflexivity).
  destruct l as [|s l]; [reflexivity|]. cbn [few]. destruct (forallb _ _); [reflexivity|]. contradiction.
Qed.
Lemma few_map {A B} (f : A -> B) l : few (map f l) = few l.
Proof. destruct l as [|? [|? [|? ?]]]; reflexivity. Qed.
Lemma sizes_differ cs : NoDup cs ->
  ForallOrdPairs (fun a b => same_point a b = false) (map size_point cs) /\
  ForallOrdPairs (fun a b => same_point a b = false) (map flip (map size_point cs)).
Proof.
  induction 1 as [|c cs N Nd [IH1 IH2]]; [split; constructor|]. cbn [map].
  assert (D : forall c', In c' cs -> ~ (inject_Z (fst c) == inject_Z (fst c') /\ inject_Z (snd c) / 1000 == inject_Z (snd c') / 1000)).
  { intros c' Hc [A B]. apply N. replace c with c'; [exact Hc|]. destruct c as [h t], c' as [h' t']. cbn [fst snd] in *. f_equal.
    - symmetry. apply inject_Z_injective. exact A.
    - symmetry. apply inject_Z_injective. transitivity (inject_Z t / 1000 * 1000); [field|]. rewrite B. field. }
  split; constructor; try assumption; apply Forall_forall; intros x Hx.
  - apply in_map_iff in Hx as (c' & <- & Hc). destruct (same_point _ _) eqn:E; [|reflexivity]. exfalso.
    apply same_point_spec in E. exact (D c' Hc E).
  - rewrite map_map in Hx. apply in_map_iff in Hx as (c' & <- & Hc). destruct (same_point _ _) eqn:E; [|reflexivity]. exfalso.
    apply same_point_spec in E. cbn [flip size_point fst snd] in E. apply (D c' Hc). split; apply E.
Qed.

(** ** One surface *)
Lemma mapM_combine {A B C} (f : A -> res B) (g : A -> C) cs : forall zs, mapM f cs = Ok zs ->
  forall x z, In (x, z) (combine (map g cs) zs) <-> exists c, In c cs /\ x = g c /\ f c = Ok z.
Proof.
  induction cs as [|c cs IH]; intros zs H x z.
  - injection H as <-. split; [intros []|]. intros (? & [] & _).
  - cbn [mapM] in H. destruct (f c) as [v|] eqn:E; cbn [bind] in H; [|discriminate H].
    destruct (mapM f cs) as [vs|] eqn:M; cbn [bind] in H; [|discriminate H]. injection H as <-.
    cbn [map combine In]. rewrite (IH vs eq_refl x z). split.
    + intros [X|(c' & I & X)]; [injection X as <- <-; exists c; auto|exists c'; auto].
    + intros (c' & [<-|I] & -> & F); [left; congruence|right; exists c'; auto].
Qed.

Section Jobs.
Variable sp : Z -> Q.
Variable load : chars -> res run.
Variable cs : list (Z * Z).

Definition surface_ok (s : surface) : Prop :=
  exists ind, surface_shows sp (sf_file s) (sf_zlabel s) ind /\
    forall h t z, plotted s h t z <->
      exists c K, In c cs /\ load (folder_name c) = Ok K /\ ind K = Ok z /\ h = inject_Z (fst c) /\ t = inject_Z (snd c) / 1000.

Lemma indicator_points ind zs (g : Z * Z -> Q * Q) x z : indicator load cs ind = Ok zs ->
  In (x, z) (combine (map g cs) zs) <-> exists c K, In c cs /\ x = g c /\ load (folder_name c) = Ok K /\ ind K = Ok z.
Proof.
  intro H. rewrite (mapM_combine _ g cs zs H x z). split.
  - intros (c & I & E & F). destruct (load (folder_name c)) as [K|] eqn:L; cbn [bind] in F; [|discriminate F]. exists c, K. auto.
  - intros (c & K & I & E & L & F). exists c. rewrite L. auto.
Qed.

Lemma surface_hp file zl ind s :
  surface_shows sp file zl ind ->
  (z <- indicator load cs ind ;; trisurf file hp_axis ts_axis zl (heat_pump_sizes_x cs) (thermal_store_sizes_y cs) z) = Ok s ->
  sf_file s = file /\ surface_ok s.
Proof.
  intros S H. take H. unfold trisurf in H. take H. injection H as <-. cbn [sf_file]. split; [reflexivity|]. exists ind. cbn [sf_zlabel sf_file].
  split; [exact S|]. intros h t z. split.
  - intros [_ _ I|X _ _]; [|discriminate X]. cbn [sf_points] in I. rewrite sizes_xy in I.
    apply (indicator_points ind _ size_point (h, t) z E) in I as (c & K & Ic & Ex & L & F). injection Ex as -> ->. exists c, K. auto.
  - intros (c & K & Ic & L & F & -> & ->). apply Pl_hp; [reflexivity|reflexivity|]. cbn [sf_points]. rewrite sizes_xy.
    apply (indicator_points ind _ size_point _ z E). exists c, K. auto.
Qed.
Lemma surface_ts file zl ind s :
  surface_shows sp file zl ind ->
  (z <- indicator load cs ind ;; trisurf file ts_axis hp_axis zl (thermal_store_sizes_y cs) (heat_pump_sizes_x cs) z) = Ok s ->
  sf_file s = file /\ surface_ok s.
Proof.
  intros S H. take H. unfold trisurf in H. take H. injection H as <-. cbn [sf_file]. split; [reflexivity|]. exists ind. cbn [sf_zlabel sf_file].
  split; [exact S|]. intros h t z. split.
  - intros [X _ _|_ _ I]; [discriminate X|]. cbn [sf_points] in I. rewrite sizes_yx, map_map in I.
    apply (indicator_points ind _ (fun c => flip (size_point c)) (t, h) z E) in I as (c & K & Ic & Ex & L & F). injection Ex as -> ->. exists c, K. auto.
  - intros (c & K & Ic & L & F & -> & ->). apply Pl_ts; [reflexivity|reflexivity|]. cbn [sf_points]. rewrite sizes_yx, map_map.
    apply (indicator_points ind _ (fun c => flip (size_point c)) _ z E). exists c, K. auto.
Qed.

Definition surface_jobs : list (res surface) :=
  [plot_opex load cs; plot_RES load cs; plot_heat_from_RES load cs; plot_HP_size_ratio load cs; plot_HP_utilisation load cs;
   plot_capital_cost sp load cs; plot_LCOH sp load cs; plot_COH load cs].
Lemma jobs_ok : Forall2 (fun file j => forall s, j = Ok s -> sf_file s = file /\ surface_ok s) surface_files surface_jobs.
Proof.
  unfold surface_files, surface_jobs. repeat apply Forall2_cons; try apply Forall2_nil; intros s H.
  - exact (surface_ts _ _ _ s (Ss_opex sp) H).
  - exact (surface_hp _ _ _ s (Ss_res sp) H).
  - exact (surface_hp _ _ _ s (Ss_heat sp) H).
  - exact (surface_ts _ _ _ s (Ss_ratio sp) H).
  - exact (surface_ts _ _ _ s (Ss_util sp) H).
  - exact (surface_ts _ _ _ s (Ss_capital sp) H).
  - exact (surface_ts _ _ _ s (Ss_lcoh sp) H).
  - exact (surface_ts _ _ _ s (Ss_coh sp) H).
Qed.
End Jobs.

(** ** The order of the jobs *)
Lemma run_jobs_in jobs : forall os r o, run_jobs jobs = (os, r) -> In o os -> In (Ok o) jobs.
Proof.
  induction jobs as [|[x|e] jobs IH]; intros os r o H I; cbn [run_jobs] in H.
  - injection H as <- _. destruct I.
  - destruct (run_jobs jobs) as [os' r'] eqn:E. injection H as <- _. destruct I as [<-|I]; [left; reflexivity|right; eauto].
  - injection H as <- _. destruct I.
Qed.
Lemma run_jobs_all jobs os : Forall2 (fun j o => j = Ok o) jobs os -> run_jobs jobs = (os, Ok tt).
Proof. induction 1 as [|j o jobs os -> F IH]; [reflexivity|]. cbn [run_jobs]. rewrite IH. reflexivity. Qed.
Lemma run_jobs_whole jobs os : run_jobs jobs = (os, Ok tt) -> Forall2 (fun j o => j = Ok o) jobs os.
Proof.
  revert os. induction jobs as [|[x|e] jobs IH]; intros os H; cbn [run_jobs] in H.
  - injection H as <-. constructor.
  - destruct (run_jobs jobs) as [os' r'] eqn:E. injection H as <- ->. constructor; [reflexivity|]. apply IH. reflexivity.
  - discriminate H.
Qed.

Definition as_job (x : res surface) : res kpi_output := s <- x ;; Ok (KpiSurface s).
Lemma run_KPIs_jobs sp load p cs : combos p = Ok cs ->
  run_KPIs sp load p = run_jobs ((t <- KPIs_to_csv sp load p ;; Ok (KpiTables t)) :: map as_job (surface_jobs sp load cs)).
Proof. intro H. unfold run_KPIs. rewrite H. reflexivity. Qed.

Lemma surfaces_right sp load p cs os r s :
  run_KPIs sp load p = (os, r) -> combos p = Ok cs -> In (KpiSurface s) os -> surface_ok sp load cs s.
Proof.
  intros H C I. rewrite (run_KPIs_jobs _ _ _ _ C) in H. apply (run_jobs_in _ _ _ _ H) in I as [I|I].
  - destruct (KPIs_to_csv sp load p); cbn [bind] in I; discriminate I.
  - apply in_map_iff in I as (j & E & I). unfold as_job in E. destruct j as [s'|]; cbn [bind] in E; [|discriminate E].
    injection E as ->. pose proof (jobs_ok sp load cs) as F.
    clear - F I. induction F as [|file j files jobs Hj F IH]; [destruct I|]. destruct I as [->|I]; [apply (Hj s eq_refl)|apply IH; exact I].
Qed.

Lemma mapM_all {A B} (f : A -> res B) l : (forall x, In x l -> exists y, f x = Ok y) -> exists ys, mapM f l = Ok ys.
Proof.
  induction l as [|x l IH]; intro H; [exists []; reflexivity|]. destruct (H x) as [y E]; [left; reflexivity|].
  destruct IH as [ys M]; [intros z Hz; apply H; right; exact Hz|]. exists (y :: ys). cbn [mapM]. rewrite E. cbn [bind]. rewrite M. reflexivity.
Qed.
Lemma mapM_each {A B} (f : A -> res B) l ys : mapM f l = Ok ys -> forall x, In x l -> exists y, f x = Ok y.
Proof.
  revert ys. induction l as [|z l IH]; intros ys H x I; [destruct I|]. cbn [mapM] in H.
  destruct (f z) as [y|] eqn:E; cbn [bind] in H; [|discriminate H]. destruct (mapM f l) as [ys'|]; cbn [bind] in H; [|discriminate H].
  destruct I as [->|I]; [exists y; exact E|eauto].
Qed.

Lemma tables_indicators sp load p cs t ind file zl :
  KPIs_to_csv sp load p = Ok t -> combos p = Ok cs -> surface_shows sp file zl ind -> exists zs, indicator load cs ind = Ok zs.
Proof.
  unfold KPIs_to_csv. intros H C S. rewrite C in H. cbn [bind] in H. destruct (mapM (table_row sp load) cs) as [rows|] eqn:M; cbn [bind] in H; [|discriminate H].
  apply mapM_all. intros c Ic. destruct (mapM_each _ _ _ M c Ic) as [row R]. unfold table_row in R.
  destruct (load (folder_name c)) as [K|]; cbn [bind] in R; [|discriminate R]. cbn [bind].
  destruct (mapM _ (indicators sp K)) as [vs|] eqn:V; cbn [bind] in R; [|discriminate R].
  assert (X : forall name v, In (name, v) (indicators sp K) -> exists z, v = Ok z).
  { intros name v I. destruct (mapM_each _ _ _ V (name, v) I) as [y E]. cbn [snd] in E. destruct v as [z|]; [exists z; reflexivity|discriminate E]. }
  destruct S; [apply (X "opex")|apply (X "local_RES_used")|apply (X "heat_met_RES")|apply (X "HP_size_ratio")
    |apply (X "HP_utilisation")|apply (X "capital_cost")|apply (X "levelised_cost_of_heat")|apply (X "cost_of_heat")]; cbn; tauto.
Qed.

Lemma trisurf_total file xl yl zl x y z : triangulation (combine x y) = Ok tt -> exists s, trisurf file xl yl zl x y z = Ok s.
Proof. intro H. unfold trisurf. rewrite H. eexists. reflexivity. Qed.

Lemma surfaces_complete sp load p cs t :
  combos p = Ok cs -> KPIs_to_csv sp load p = Ok t -> two_by_two cs ->
  exists ss, run_KPIs sp load p = (KpiTables t :: map KpiSurface ss, Ok tt) /\ map sf_file ss = surface_files.
Proof.
  intros C T W. rewrite (run_KPIs_jobs _ _ _ _ C), T. cbn [bind].
  assert (Cl : forall h t h' t', In (h, t) cs -> In (h', t') cs -> In (h, t') cs) by (intros; eapply combos_closed; eassumption).
  assert (T1 : triangulation (combine (heat_pump_sizes_x cs) (thermal_store_sizes_y cs)) = Ok tt)
    by (rewrite sizes_xy; apply triangulation_spec; apply grid_triangle; assumption).
  assert (T2 : triangulation (combine (thermal_store_sizes_y cs) (heat_pump_sizes_x cs)) = Ok tt)
    by (rewrite sizes_yx; apply triangulation_spec; apply flip_triangle; apply grid_triangle; assumption).
  assert (J : Forall (fun j => exists s, j = Ok s) (surface_jobs sp load cs)).
  { unfold surface_jobs. repeat apply Forall_cons; try apply Forall_nil;
      [destruct (tables_indicators _ _ _ _ _ _ _ _ T C (Ss_opex sp)) as [zs E]; unfold plot_opex
      |destruct (tables_indicators _ _ _ _ _ _ _ _ T C (Ss_res sp)) as [zs E]; unfold plot_RES
      |destruct (tables_indicators _ _ _ _ _ _ _ _ T C (Ss_heat sp)) as [zs E]; unfold plot_heat_from_RES
      |destruct (tables_indicators _ _ _ _ _ _ _ _ T C (Ss_ratio sp)) as [zs E]; unfold plot_HP_size_ratio
      |destruct (tables_indicators _ _ _ _ _ _ _ _ T C (Ss_util sp)) as [zs E]; unfold plot_HP_utilisation
      |destruct (tables_indicators _ _ _ _ _ _ _ _ T C (Ss_capital sp)) as [zs E]; unfold plot_capital_cost
      |destruct (tables_indicators _ _ _ _ _ _ _ _ T C (Ss_lcoh sp)) as [zs E]; unfold plot_LCOH
      |destruct (tables_indicators _ _ _ _ _ _ _ _ T C (Ss_coh sp)) as [zs E]; unfold plot_COH];
      rewrite E; cbn [bind]; apply trisurf_total; assumption. }
  assert (S : exists ss, Forall2 (fun j s => j = Ok s) (surface_jobs sp load cs) ss).
  { clear - J. induction J as [|j l [s ->] J [ss IH]]; [exists []; constructor|exists (s :: ss); constructor; [reflexivity|exact IH]]. }
  destruct S as [ss S]. exists ss. split.
  - apply run_jobs_all. constructor; [reflexivity|]. clear - S. induction S as [|j s js ss -> S IH]; [constructor|]. cbn [map]. constructor; [reflexivity|exact IH].
  - pose proof (jobs_ok sp load cs) as F. revert S F. generalize (surface_jobs sp load cs), surface_files. clear. intros js files S. revert files.
    induction S as [|j s js ss -> S IH]; intros files F; inversion F; subst; [reflexivity|]. cbn [map]. f_equal; [|apply IH; assumption].
    match goal with H : forall s', Ok s = Ok s' -> _ |- _ => apply (H s eq_refl) end.
Qed.

Lemma surfaces_fail sp load p cs t :
  combos p = Ok cs -> KPIs_to_csv sp load p = Ok t -> NoDup cs -> ~ two_by_two cs ->
  run_KPIs sp load p = ([KpiTables t], Err (few cs)).
Proof.
  intros C T N W. rewrite (run_KPIs_jobs _ _ _ _ C), T. cbn [bind].
  assert (Cl : forall h t h' t', In (h, t) cs -> In (h', t') cs -> In (h, t') cs) by (intros; eapply combos_closed; eassumption).
  assert (T2 : triangulation (combine (thermal_store_sizes_y cs) (heat_pump_sizes_x cs)) = Err (few cs)).
  { rewrite sizes_yx, triangulation_err; [rewrite !few_map; reflexivity|apply sizes_differ; exact N|].
    rewrite triangulation_spec, flip_triangle, grid_triangle by exact Cl. exact W. }
  destruct (tables_indicators _ _ _ _ _ _ _ _ T C (Ss_opex sp)) as [zs E].
  unfold surface_jobs, plot_opex. cbn [map run_jobs as_job]. rewrite E. cbn [bind]. unfold trisurf at 1. rewrite T2. reflexivity.
Qed.
