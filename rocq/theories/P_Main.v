(** Theorems about what a run does to the file system (C44, C57).  [acts] is any list of
    actions of the program after the output folder has been made, in any order, complete or
    cut short. *)
From Coq Require Import String Ascii.
From Verif Require Import Base BaseL M_Main S_Main L_Main.
Open Scope string_scope.
Local Open Scope list_scope.

Section Cases.
Definition text (p : path) : string := "data".
Definition all_ok (s : string) : res unit := Ok tt.
Definition full_script (xlsx t : path) := script (Ok tt) (Ok tt) all_ok all_ok (Ok tt) xlsx t ["hp_1_ts_2"] ["Year"].
(** /w/village.xlsx, output folder /r with an earlier run in /r/village and another project
    in /r/other. *)
Definition disk : fs := fun p =>
  if path_eqb p [] || path_eqb p ["w"] || path_eqb p ["r"] || path_eqb p ["r"; "village"] || path_eqb p ["r"; "other"] then Some Folder
  else if path_eqb p ["w"; "village.xlsx"] || path_eqb p ["r"; "village"; "village.xlsx"] || path_eqb p ["w"; "..xlsx"] || path_eqb p ["w"; "...xlsx"] then Some (File "workbook")
  else if path_eqb p ["r"; "village"; "old.csv"] || path_eqb p ["r"; "other"; "results.csv"] then Some (File "old")
  else None.
Example run_over : let out := main text ["w"; "village.xlsx"] ["r"] true (full_script ["w"; "village.xlsx"] ["r"; "village"]) disk in
  snd out = Ok tt /\ fst out ["r"; "village"; "old.csv"] = None /\ fst out ["r"; "other"; "results.csv"] = Some (File "old") /\
  fst out ["r"; "village"; "outputs"; "hp_1_ts_2"; "Year"; "grid.png"] = Some (File "data").
Proof. vm_compute. repeat split. Qed.
Example names : stem "village.xlsx" = "village" /\ stem "a.b.xlsx" = "a.b" /\ stem ".xlsx" = ".xlsx" /\ stem "plain" = "plain" /\
  stem "..xlsx" = "." /\ stem "...xlsx" = "..".
Proof. repeat split. Qed.
Lemma disk_tree : tree disk.
Proof.
  intros p name n. unfold disk.
  repeat match goal with |- context [path_eqb ?a ?b] => destruct (path_eqb_spec a b) as [?|?]; cbn [orb] end; intro H; try discriminate H; try reflexivity;
  exfalso; repeat match goal with E : p ++ [name] = ?l |- _ => apply (f_equal (@removelast string)) in E; rewrite removelast_last in E; cbn in E end; congruence.
Qed.
End Cases.

Section Theorems.
Variables (content : path -> string) (parse para : res unit) (solve plot : string -> res unit) (kpi : res unit).
Variables (xlsx outdir : path) (names periods : list string) (acts : list action).
Notation t := (output_folder xlsx outdir).
Hypothesis Hacts : incl acts (script parse para solve plot kpi xlsx t names periods).

(** C44: without consent an existing output folder stops the run before anything changes ... *)
Theorem C44_no_consent_untouched (f : fs) :
  f xlsx <> None -> f outdir <> None -> f t <> None ->
  main content xlsx outdir false acts f = (f, Err FileExistsError).
Proof. exact (main_no_consent content xlsx outdir acts f). Qed.
(** ... and whatever happens in a run without consent, nothing that existed before is
    changed or deleted. *)
Theorem C44_nothing_lost_without_consent (f : fs) (p : path) (n : node) :
  tree f -> f p = Some n -> fst (main content xlsx outdir false acts f) p = Some n.
Proof. exact (main_preserves content xlsx outdir acts (incl_inside parse para solve plot kpi xlsx t names periods acts Hacts) f p n). Qed.
(** C44: with consent, every file found in the output folder afterwards was written by this
    run. *)
Theorem C44_no_old_file_survives (f : fs) (p : path) (d : string) :
  ordinary (stem (last xlsx "")) -> f xlsx <> None -> f outdir <> None -> f t = Some Folder ->
  inside t p -> fst (main content xlsx outdir true acts f) p = Some (File d) ->
  In (Write p) acts /\ d = content p.
Proof. intros (_ & _ & Hs). exact (main_overwrite content xlsx outdir acts f p d Hs). Qed.
(** C57, missing: workbooks whose name is "." or ".." plus an extension, and workbooks
    inside the output folder.  Otherwise nothing outside the folder named after the
    workbook is created, changed or deleted, whether the run succeeds or fails. *)
Theorem C57_nothing_else_touched_partial (ov : bool) (f : fs) (q : path) :
  ordinary (stem (last xlsx "")) -> ~ inside (outdir ++ [stem (last xlsx "")]) q ->
  fst (main content xlsx outdir ov acts f) q = f q.
Proof.
  intros (H1 & H2 & H3) N. apply (main_frame content xlsx outdir acts (incl_inside parse para solve plot kpi xlsx t names periods acts Hacts) ov f q H3).
  unfold output_folder, join. destruct (String.eqb_spec (stem (last xlsx "")) ""); [contradiction|]. destruct (String.eqb_spec (stem (last xlsx "")) "."); [contradiction|].
  destruct (String.eqb_spec (stem (last xlsx "")) ".."); [contradiction|]. exact N.
Qed.
End Theorems.
Print Assumptions C44_no_consent_untouched.
Print Assumptions C44_nothing_lost_without_consent.
Print Assumptions C44_no_old_file_survives.
Print Assumptions C57_nothing_else_touched_partial.

(** C57 is false: a workbook kept in its own output folder is deleted before it is read ... *)
Theorem C57_workbook_survives_refuted : exists content (f : fs) xlsx outdir acts,
  tree f /\ incl acts (full_script xlsx (output_folder xlsx outdir)) /\ ordinary (stem (last xlsx "")) /\ f xlsx <> None /\
  fst (main content xlsx outdir true acts f) xlsx = None /\ snd (main content xlsx outdir true acts f) = Err FileNotFoundError.
Proof.
  exists text, disk, ["r"; "village"; "village.xlsx"], ["r"], (full_script ["r"; "village"; "village.xlsx"] ["r"; "village"]).
  split; [exact disk_tree|]. split; [apply incl_refl|]. split; [repeat split; discriminate|]. split; [discriminate|]. split; reflexivity.
Qed.
Print Assumptions C57_workbook_survives_refuted.
(** ... and a workbook called "..xlsx" or "...xlsx" makes the program delete the results of
    other projects, in the output directory or beside it. *)
Theorem C57_other_projects_survive_refuted : exists content (f : fs) outdir acts q,
  tree f /\ f q = Some (File "old") /\ f ["w"; "..xlsx"] <> None /\ f ["w"; "...xlsx"] <> None /\
  incl acts (full_script ["w"; "..xlsx"] (output_folder ["w"; "..xlsx"] outdir)) /\
  fst (main content ["w"; "..xlsx"] outdir true acts f) q = None /\ fst (main content ["w"; "...xlsx"] outdir true [] f) q = None.
Proof.
  exists text, disk, ["r"], (full_script ["w"; "..xlsx"] ["r"]), ["r"; "other"; "results.csv"].
  split; [exact disk_tree|]. split; [reflexivity|]. split; [discriminate|]. split; [discriminate|]. split; [apply incl_refl|]. split; reflexivity.
Qed.
Print Assumptions C57_other_projects_survive_refuted.
