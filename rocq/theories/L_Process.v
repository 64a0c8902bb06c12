From Verif Require Import Base BaseL M_Process S_Process.
Local Open Scope list_scope.

Section Process.
Variable J : Type.
Variable fails : J -> bool.
Notation config := (config J). Notation event := (event J). Notation worker := (worker J).
Notation step := (step J fails). Notation steps := (steps J fails). Notation work := (work J fails).
Notation background := (background J fails). Notation finishing := (finishing J). Notation call := (call J).
Notation fresh := (fresh J). Notation backgrounds := (backgrounds J fails). Notation tidy_steps := (tidy_steps J fails). Notation tidy_event := (tidy_event J). Notation smooth := (smooth J). Notation busy := (busy J). Notation load := (load J).
Arguments Job {J}. Arguments Sentinel {J}. Arguments Waiting {J}. Arguments Busy {J}. Arguments Exited {J}.
Arguments queue {J}. Arguments current {J}. Arguments others {J}. Arguments caller {J}.
Arguments EStart {J}. Arguments ESubmit {J}. Arguments EStop {J}. Arguments ECancel {J}. Arguments EStopIdle {J}.
Arguments ETimeout {J}. Arguments EStopped {J}. Arguments ERun {J}. Arguments EDone {J}. Arguments EFail {J}. Arguments EEnd {J}.

Lemma submitted_app (a b : list event) : submitted (a ++ b) = submitted a ++ submitted b.
Proof. induction a as [|[] a IH]; cbn; congruence. Qed.
Lemma started_app (a b : list event) : started (a ++ b) = started a ++ started b.
Proof. induction a as [|[] a IH]; cbn; congruence. Qed.
Lemma completed_app (a b : list event) : completed (a ++ b) = completed a ++ completed b.
Proof. induction a as [|[] a IH]; cbn; congruence. Qed.
Lemma failed_app (a b : list event) : failed (a ++ b) = failed a ++ failed b.
Proof. induction a as [|[] a IH]; cbn; congruence. Qed.

(** ** The queue is first in, first out *)
Definition put (e : event) : list (msg J) :=
  match e with ESubmit j => [Job j] | EStop _ | ECancel _ => [Sentinel] | _ => [] end.
Definition got (e : event) : list (msg J) :=
  match e with ERun j => [Job j] | EEnd => [Sentinel] | _ => [] end.
Lemma work_queue w q e w' q' : work w q e w' q' -> q = got e ++ q' /\ put e = [].
Proof. destruct 1; split; reflexivity. Qed.
Lemma step_queue c e c' : step c e c' -> queue c ++ put e = got e ++ queue c'.
Proof.
  destruct 1 as [c e c' B|c e c' F|c e c' C].
  - destruct B as [q w o p e w' q' W|q c o1 w o2 p e w' q' W]; cbn [queue]; apply work_queue in W as [-> ->]; rewrite app_nil_r; reflexivity.
  - destruct F; cbn [queue put got app]; rewrite app_nil_r; reflexivity.
  - destruct C as [| | |q w o b e [->| ->]|]; cbn [queue put got app]; try rewrite app_nil_r; reflexivity.
Qed.
Lemma steps_queue c tr c' : steps c tr c' -> queue c ++ flat_map put tr = flat_map got tr ++ queue c'.
Proof.
  induction 1 as [c|c e c' tr c'' S _ IH]; cbn [flat_map]; [rewrite app_nil_r; reflexivity|].
  apply step_queue in S. rewrite app_assoc, S, <- app_assoc, IH, app_assoc. reflexivity.
Qed.
Fixpoint jobs (q : list (msg J)) : list J :=
  match q with [] => [] | Job j :: q => j :: jobs q | Sentinel :: q => jobs q end.
Lemma jobs_app a b : jobs (a ++ b) = jobs a ++ jobs b.
Proof. induction a as [|[] a IH]; cbn; congruence. Qed.
Lemma jobs_put tr : jobs (flat_map put tr) = submitted tr.
Proof. induction tr as [|[] tr IH]; cbn; congruence. Qed.
Lemma jobs_got tr : jobs (flat_map got tr) = started tr.
Proof. induction tr as [|[] tr IH]; cbn; congruence. Qed.
Lemma fifo c tr c' : steps c tr c' -> jobs (queue c) ++ submitted tr = started tr ++ jobs (queue c').
Proof. intro H. apply steps_queue in H. rewrite <- jobs_put, <- jobs_got, <- !jobs_app, H. reflexivity. Qed.
Lemma started_prefix tr c : steps fresh tr c -> prefix_of (started tr) (submitted tr).
Proof. intro H. apply fifo in H. exists (jobs (queue c)). exact H. Qed.

Lemma steps_app c a c' b c'' : steps c a c' -> steps c' b c'' -> steps c (a ++ b) c''.
Proof. induction 1; cbn; [auto|]. intro. econstructor; eauto. Qed.
Lemma steps_split c a b c'' : steps c (a ++ b) c'' -> exists c', steps c a c' /\ steps c' b c''.
Proof.
  revert c. induction a as [|e a IH]; cbn; intros c H; [exists c; split; [constructor|exact H]|].
  inversion H as [|? ? c1 ? ? S R]; subst. destruct (IH _ R) as (c' & A & B). exists c'. split; [econstructor; eauto|exact B].
Qed.
Lemma steps_one c e c' : steps c [e] c' -> step c e c'.
Proof. inversion 1 as [|? ? c1 ? ? S R]; subst. inversion R; subst. exact S. Qed.

(** ** One session *)
Definition worker_inv (w : worker) (R D F : list J) : Prop :=
  Forall (fun j => fails j = false) D /\
  match w with
  | Waiting => R = D /\ F = []
  | Busy j => R = D ++ [j] /\ F = []
  | Exited c => (c = 0%Z /\ R = D /\ F = []) \/ (c = 1%Z /\ exists j, R = D ++ [j] /\ F = [j] /\ fails j = true)
  end.
Definition session_inv (S R D F : list J) (c : config) : Prop :=
  others c = [] /\ exists w, current c = Some w /\ worker_inv w R D F /\
  match caller c with
  | Ready => w <> Exited 0 /\ map Job S = map Job R ++ queue c
  | _ => (w = Exited 0 /\ S = R /\ queue c = []) \/ (w <> Exited 0 /\ map Job S ++ [Sentinel] = map Job R ++ queue c)
  end.
Lemma map_Job_inj (a b : list J) : map Job a = map Job b -> a = b.
Proof. revert b. induction a as [|x a IH]; intros [|y b] H; cbn in H; try discriminate; [reflexivity|]. injection H as -> H. f_equal. apply IH, H. Qed.
Lemma last_sentinel (a b : list J) q : map Job a ++ [Sentinel] = map Job b ++ Sentinel :: q -> a = b /\ q = [].
Proof.
  revert b. induction a as [|x a IH]; intros [|y b] H; cbn in H; try discriminate.
  - injection H as <-. auto.
  - injection H as -> H. destruct (IH _ H) as [-> ->]. auto.
Qed.
Lemma session_step S R D F c e c' : session_inv S R D F c -> step c e c' -> e <> EStart -> (forall r, e <> EStopped r) ->
  session_inv (S ++ submitted [e]) (R ++ started [e]) (D ++ completed [e]) (F ++ failed [e]) c'.
Proof.
  intros (Ho & w & Hw & WI & QI) St N1 N2. destruct St as [c e c' B|c e c' Fi|c e c' C].
  - destruct B as [q w0 o p e w' q' W|q c o1 w0 o2 p e w' q' W]; cbn [others current caller queue] in *; [|destruct o1; discriminate].
    injection Hw as ->. subst o. split; [reflexivity|]. exists w'. split; [reflexivity|].
    destruct W as [j q|q|j q Hf|j q Hf]; cbn [submitted started completed failed]; rewrite ?app_nil_r; cbn [worker_inv] in *.
    + destruct WI as [FD [-> ->]]. split; [split; [exact FD|split; reflexivity]|].
      destruct p; cbn [caller] in *.
      * destruct QI as [_ QI]. split; [discriminate|]. rewrite map_app, <- app_assoc. exact QI.
      * right. destruct QI as [[? _]|[_ QI]]; [discriminate|]. split; [discriminate|]. rewrite map_app, <- app_assoc. exact QI.
      * right. destruct QI as [[? _]|[_ QI]]; [discriminate|]. split; [discriminate|]. rewrite map_app, <- app_assoc. exact QI.
    + destruct WI as [FD [-> ->]]. split; [split; [exact FD|left; auto]|].
      assert (X : forall T, map Job T ++ [Sentinel] = map Job D ++ Sentinel :: q -> T = D /\ q = []) by (intros; apply last_sentinel; assumption).
      destruct p; cbn [caller] in *.
      * exfalso. destruct QI as [_ QI]. assert (I : In Sentinel (map (@Job J) S)) by (rewrite QI; apply in_or_app; right; left; reflexivity).
        apply in_map_iff in I as (? & ? & _). discriminate.
      * left. destruct QI as [[? _]|[_ QI]]; [discriminate|]. apply X in QI as [-> ->]. auto.
      * left. destruct QI as [[? _]|[_ QI]]; [discriminate|]. apply X in QI as [-> ->]. auto.
    + destruct WI as [FD [-> ->]]. split; [split; [apply Forall_app; split; [exact FD|repeat constructor; exact Hf]|split; reflexivity]|].
      destruct p; cbn [caller] in *; [destruct QI as [_ QI]; split; [discriminate|exact QI]| |];
        (right; destruct QI as [[? _]|[_ QI]]; [discriminate|]; split; [discriminate|exact QI]).
    + destruct WI as [FD [-> ->]]. split; [split; [exact FD|right; split; [reflexivity|]; exists j; auto]|].
      destruct p; cbn [caller] in *; [destruct QI as [_ QI]; split; [discriminate|exact QI]| |];
        (right; destruct QI as [[? _]|[_ QI]]; [discriminate|]; split; [discriminate|exact QI]).
  - destruct Fi; cbn [others current caller queue] in *; try (exfalso; eapply N2; reflexivity); try discriminate.
    cbn [submitted started completed failed]. rewrite !app_nil_r. injection Hw as ->. subst o.
    split; [reflexivity|]. exists w. split; [reflexivity|]. split; [exact WI|]. exact QI.
  - destruct C as [q o|q w0 o|q c o j|q w0 o b e E|q o b]; cbn [others current caller queue] in *; try congruence.
    + cbn [submitted started completed failed]. rewrite !app_nil_r. subst c o. split; [reflexivity|]. exists w. split; [reflexivity|]. split; [exact WI|].
      cbn [caller queue]. destruct QI as [Nw QI]. split; [exact Nw|]. rewrite map_app, QI, <- app_assoc. reflexivity.
    + assert (Z : submitted [e] = [] /\ started [e] = [] /\ completed [e] = [] /\ failed [e] = []) by (destruct E as [->| ->]; repeat split).
      destruct Z as (-> & -> & -> & ->). rewrite !app_nil_r. injection Hw as ->. subst o. split; [reflexivity|]. exists w. split; [reflexivity|].
      split; [exact WI|]. cbn [caller queue]. destruct QI as [Nw QI]. right. split; [exact Nw|]. rewrite QI, <- app_assoc. reflexivity.
Qed.
Lemma session_steps tr : forall S R D F c c', session_inv S R D F c -> steps c tr c' -> within_session tr ->
  session_inv (S ++ submitted tr) (R ++ started tr) (D ++ completed tr) (F ++ failed tr) c'.
Proof.
  induction tr as [|e tr IH]; intros S R D F c c' I H [W1 W2].
  - inversion H; subst. cbn. rewrite !app_nil_r. exact I.
  - inversion H as [|? ? c1 ? ? St Rs]; subst.
    pose proof (session_step S R D F c e c1 I St ltac:(intros ->; apply W1; left; reflexivity) ltac:(intros r ->; apply (W2 r); left; reflexivity)) as I1.
    change (e :: tr) with ([e] ++ tr). rewrite submitted_app, started_app, completed_app, failed_app, !app_assoc.
    eapply IH; [exact I1|exact Rs|]. split; [intro X; apply W1; right; exact X|intros r X; apply (W2 r); right; exact X].
Qed.
Definition ready_session : config := {| queue := []; current := Some Waiting; others := []; caller := Ready |}.
Lemma start_fresh c : step fresh EStart c -> c = ready_session.
Proof.
  unfold fresh. intro H. inversion H as [? ? ? B|? ? ? Fi|? ? ? C]; subst.
  - inversion B as [? ? ? ? ? ? ? W|? ? ? ? ? ? ? ? ? W]; subst. destruct o1; discriminate.
  - inversion Fi.
  - inversion C; subst; reflexivity || (match goal with H : _ \/ _ |- _ => destruct H; discriminate end).
Qed.
Lemma ready_inv : session_inv [] [] [] [] ready_session.
Proof. split; [reflexivity|]. exists Waiting. repeat split; [constructor|discriminate]. Qed.
Lemma session_from_fresh tr c : steps fresh (EStart :: tr) c -> within_session tr ->
  session_inv (submitted tr) (started tr) (completed tr) (failed tr) c.
Proof.
  intros H W. inversion H as [|? ? c1 ? ? St R]; subst. apply start_fresh in St. subst c1.
  exact (session_steps tr [] [] [] [] _ _ ready_inv R W).
Qed.
Lemma stopped_step S R D F c r c' : session_inv S R D F c -> step c (EStopped r) c' ->
  (caller c <> Ready) /\
  ((r = Ok tt /\ S = R /\ R = D /\ F = [] /\ c' = fresh) \/
   (r = Err SystemError /\ current c' = None /\ others c' = [] /\ (F <> [] \/ caller c = Closing)) \/
   (r = Err ValueError /\ caller c = Closing /\ F = [] /\ current c' = current c)).
Proof.
  intros (Ho & w & Hw & WI & QI) St. inversion St as [? ? ? B|? ? ? Fi|? ? ? C]; subst.
  - inversion B as [? ? ? ? ? ? ? W|? ? ? ? ? ? ? ? ? W]; subst; inversion W.
  - inversion Fi; subst; cbn [others current caller queue] in *; try discriminate; injection Hw as <-; subst; (split; [discriminate|]).
    + cbn [worker_inv] in WI. destruct WI as [_ [(-> & -> & ->)|(-> & j & -> & -> & _)]]; cbn [Z.eqb].
      * left. split; [reflexivity|]. destruct QI as [(_ & -> & ->)|[N _]]; [|congruence]. auto.
      * right. left. repeat split. left. discriminate.
    + right. right. repeat split. destruct WI as [_ WI]. destruct w0; cbn in *; try tauto. discriminate.
    + right. left. repeat split. right. reflexivity.
  - inversion C; subst. match goal with H : _ \/ _ |- _ => destruct H; discriminate end.
Qed.

(** C36 *)
Lemma session_success tr c : steps fresh (EStart :: tr ++ [EStopped (Ok tt)]) c -> within_session tr ->
  started tr = submitted tr /\ completed tr = submitted tr /\ failed tr = [] /\ c = fresh.
Proof.
  intros H W. change (EStart :: tr ++ [EStopped (Ok tt)]) with ((EStart :: tr) ++ [EStopped (Ok tt)]) in H.
  apply steps_split in H as (c1 & H1 & H2). apply steps_one in H2. pose proof (session_from_fresh tr c1 H1 W) as I.
  destruct (stopped_step _ _ _ _ _ _ _ I H2) as [_ [(_ & A & B & C & D)|[(X & _)|(X & _)]]]; try discriminate.
  repeat split; congruence.
Qed.
(** Without a process nothing runs until the next start. *)
Lemma idle_steps tr : forall c c', current c = None -> others c = [] -> ~ In EStart tr -> steps c tr c' ->
  started tr = [] /\ current c' = None /\ others c' = [].
Proof.
  induction tr as [|e tr IH]; intros c c' Hc Ho N H; inversion H as [|? ? c1 ? ? St R]; subst; [auto|].
  assert (X : started [e] = [] /\ current c1 = None /\ others c1 = []).
  { inversion St as [? ? ? B|? ? ? Fi|? ? ? C]; subst.
    - inversion B as [? ? ? ? ? ? ? W|? ? o1 ? ? ? ? ? ? W]; subst; cbn in *; [discriminate|destruct o1; discriminate].
    - inversion Fi; subst; cbn in *; try discriminate; auto.
    - inversion C; subst; cbn in *; try discriminate; auto. exfalso. apply N. left. reflexivity. }
  destruct X as (X1 & X2 & X3). change (e :: tr) with ([e] ++ tr). rewrite started_app, X1.
  apply (IH c1); auto. intro I. apply N. right. exact I.
Qed.

(** C37 *)
Lemma failed_In tr (j : J) : In (EFail j) tr <-> In j (failed tr).
Proof.
  induction tr as [|e tr IH]; [cbn; tauto|]. cbn [In]. split.
  - intros [->|H]; [left; reflexivity|]. apply IH in H. destruct e; cbn; auto.
  - destruct e; cbn [failed In]; intro H; try (right; apply IH; exact H). destruct H as [->|H]; [left; reflexivity|right; apply IH; exact H].
Qed.
Lemma failing_job tr j c : steps fresh (EStart :: tr) c -> within_session tr -> In (EFail j) tr ->
  started tr = completed tr ++ [j] /\ fails j = true /\ ~ In j (completed tr) /\
  forall r c', step c (EStopped r) c' -> r = Err SystemError /\ current c' = None /\ others c' = [].
Proof.
  intros H W I. pose proof (session_from_fresh tr c H W) as SI. apply failed_In in I.
  assert (X : started tr = completed tr ++ [j] /\ fails j = true /\ Forall (fun j => fails j = false) (completed tr)).
  { destruct SI as (_ & w & _ & [FD WI] & _). destruct w; [destruct WI as [_ E]; rewrite E in I; destruct I|destruct WI as [_ E]; rewrite E in I; destruct I|].
    destruct WI as [(_ & _ & E)|(_ & j' & A & E & Hf)]; rewrite E in I; [destruct I|]. destruct I as [<-|[]]. auto. }
  destruct X as (X1 & X2 & X3). split; [exact X1|]. split; [exact X2|]. split.
  - intro In1. rewrite Forall_forall in X3. rewrite (X3 _ In1) in X2. discriminate.
  - intros r c' St. destruct (stopped_step _ _ _ _ _ _ _ SI St) as [_ [(_ & _ & _ & E & _)|[(A & B & C & _)|(_ & _ & E & _)]]].
    + rewrite E in I. destruct I.
    + auto.
    + rewrite E in I. destruct I.
Qed.
(** Without a time-out the result of stop says exactly whether all jobs succeeded. *)
Lemma no_timeout_phase tr : forall c c', caller c <> Closing -> ~ In ETimeout tr -> steps c tr c' -> caller c' <> Closing.
Proof.
  induction tr as [|e tr IH]; intros c c' Hc N H; inversion H as [|? ? c1 ? ? St R]; subst; [exact Hc|].
  apply (IH c1); [|intro I; apply N; right; exact I|exact R].
  inversion St as [? ? ? B|? ? ? Fi|? ? ? C]; subst.
  - inversion B; subst; exact Hc.
  - inversion Fi; subst; cbn in *; try discriminate. exfalso. apply N. left. reflexivity.
  - inversion C; subst; cbn in *; discriminate.
Qed.
Lemma stop_result tr r c : steps fresh (EStart :: tr ++ [EStopped r]) c -> within_session tr -> ~ In ETimeout tr ->
  (r = Ok tt <-> Forall (fun j => fails j = false) (submitted tr)) /\ (r = Ok tt \/ r = Err SystemError).
Proof.
  intros H W N. change (EStart :: tr ++ [EStopped r]) with ((EStart :: tr) ++ [EStopped r]) in H.
  apply steps_split in H as (c1 & H1 & H2). apply steps_one in H2. pose proof (session_from_fresh tr c1 H1 W) as I.
  assert (P : caller c1 <> Closing).
  { inversion H1 as [|? ? c0 ? ? St R]; subst. apply start_fresh in St. subst c0. apply (no_timeout_phase tr ready_session c1); [discriminate|exact N|exact R]. }
  pose proof (fifo _ _ _ H1) as Q. cbn in Q.
  destruct (stopped_step _ _ _ _ _ _ _ I H2) as [_ [(A & B & C & _)|[(A & _ & _ & [B|B])|(_ & B & _)]]]; try contradiction.
  - subst r. split; [|auto]. split; [intros _|reflexivity]. rewrite B, C.
    destruct I as (_ & w & _ & [FD _] & _). exact FD.
  - subst r. split; [|auto]. split; [discriminate|]. intro FS. exfalso. apply B.
    destruct I as (_ & w & _ & [_ WI] & _). destruct w; [apply WI|apply WI|]. destruct WI as [(_ & _ & E)|(_ & j & A & E & Hf)]; [exact E|].
    exfalso. rewrite Forall_forall in FS. assert (Hj : fails j = false); [|congruence]. apply FS. rewrite Q, A. rewrite <- app_assoc.
    apply in_or_app. right. left. reflexivity.
Qed.
(** While stop waits, the worker always gets on and ends after boundedly many steps. *)
Lemma backgrounds_steps c tr c' : backgrounds c tr c' -> steps c tr c'.
Proof. induction 1; [constructor|]. econstructor; [apply step_background; eassumption|assumption]. Qed.
Lemma work_load w q e w' q' : work w q e w' q' -> (2 * length q' + busy w' < 2 * length q + busy w)%nat.
Proof. destruct 1; cbn; lia. Qed.
Lemma fold_busy o1 (w : worker) o2 : fold_right (fun w n => busy w + n)%nat 0%nat (o1 ++ w :: o2) =
  (busy w + fold_right (fun w n => busy w + n)%nat 0%nat (o1 ++ o2))%nat.
Proof. induction o1 as [|a o1 IH]; cbn; [reflexivity|]. rewrite IH. lia. Qed.
Lemma background_load c e c' : background c e c' -> (load c' < load c)%nat.
Proof.
  destruct 1 as [q w o p e w' q' W|q c o1 w o2 p e w' q' W]; unfold load; cbn [queue current others]; apply work_load in W; [lia|].
  rewrite !fold_busy. lia.
Qed.
Lemma backgrounds_bound c tr c' : backgrounds c tr c' -> (length tr + load c' <= load c)%nat.
Proof. induction 1 as [|c e c' tr c'' B _ IH]; cbn [length]; [lia|]. apply background_load in B. lia. Qed.
Lemma waiting_progress tr c b : steps fresh (EStart :: tr) c -> within_session tr -> caller c = Joining b ->
  (exists e c', background c e c') \/ (exists r c', step c (EStopped r) c').
Proof.
  intros H W P. destruct (session_from_fresh tr c H W) as (Ho & w & Hw & WI & QI). destruct c as [q cu o p]; cbn in *. subst.
  destruct w as [|j|code].
  - destruct QI as [[? _]|[_ QI]]; [discriminate|]. left. destruct q as [|[j|] q].
    + exfalso. rewrite app_nil_r in QI. assert (I : In Sentinel (map (@Job J) (started tr))) by (rewrite <- QI; apply in_or_app; right; left; reflexivity).
      apply in_map_iff in I as (? & ? & _). discriminate.
    + eexists _, _. apply bg_current. apply work_get.
    + eexists _, _. apply bg_current. apply work_sentinel.
  - left. destruct (fails j) eqn:E; eexists _, _; apply bg_current; [apply work_fail|apply work_done]; exact E.
  - right. eexists _, _. apply step_finishing. apply fin_exited.
Qed.

(** C38: after normal returns only, every start finds an empty queue *)
Definition clean_inv (c : config) : Prop :=
  others c = [] /\
  match current c with
  | None => queue c = []
  | Some w =>
      match caller c with
      | Ready => w <> Exited 0 /\ ~ In Sentinel (queue c)
      | _ => (w = Exited 0 /\ queue c = []) \/ (w <> Exited 0 /\ exists js, queue c = map Job js ++ [Sentinel])
      end
  end.
Lemma tidy_step c e c' : clean_inv c -> step c e c' -> tidy_event c e -> clean_inv c'.
Proof.
  intros (Ho & I) St T. destruct St as [c e c' B|c e c' Fi|c e c' C].
  - destruct B as [q w o p e w' q' W|q c o1 w o2 p e w' q' W]; cbn [others current caller queue] in *; [|destruct o1; discriminate].
    split; [exact Ho|]. cbn [current caller queue]. destruct W as [j q|q|j q Hf|j q Hf]; destruct p; cbn [others current caller queue] in *.
    all: try (destruct I as [I1 I2]; split; [discriminate|]; first [exact I2|intro X; apply I2; right; exact X]).
    all: try (right; split; [discriminate|]; destruct I as [[? _]|[_ (js & E)]]; [discriminate|];
              first [exists js; exact E|destruct js as [|j' js]; cbn in E; [discriminate|]; injection E as _ E; exists js; exact E]).
    + exfalso. destruct I as [_ I]. apply I. left. reflexivity.
    + left. split; [reflexivity|]. destruct I as [[? _]|[_ (js & E)]]; [discriminate|]. destruct js as [|j' js]; cbn in E; [|discriminate]. injection E as E. exact E.
    + left. split; [reflexivity|]. destruct I as [[? _]|[_ (js & E)]]; [discriminate|]. destruct js as [|j' js]; cbn in E; [|discriminate]. injection E as E. exact E.
  - destruct Fi as [q o b|q o b code|q o w Ha|q o w Ha|q o code]; cbn [others current caller queue tidy_event] in *; (split; [exact Ho|]); cbn [current caller queue].
    + exact I.
    + destruct (Z.eqb_spec code 0) as [->|N]; [|discriminate]. destruct I as [[_ I]|[X _]]; [exact I|congruence].
    + exact I.
    + discriminate.
    + discriminate.
  - destruct C as [q o|q w0 o|q c o j|q w0 o b e E|q o b]; cbn [others current caller queue tidy_event] in *.
    + subst. split; [reflexivity|]. cbn. split; [discriminate|intros []].
    + discriminate.
    + split; [exact Ho|]. cbn. destruct c as [w|]; [|congruence]. destruct I as [I1 I2]. split; [exact I1|].
      intro X. apply in_app_or in X as [X|[X|[]]]; [contradiction|discriminate].
    + split; [exact Ho|]. cbn. destruct I as [I1 I2]. right. split; [exact I1|].
      assert (X : exists js, q = map Job js).
      { clear - I2. induction q as [|[j|] q IH]; [exists []; reflexivity| |exfalso; apply I2; left; reflexivity].
        destruct IH as [js ->]; [intro X; apply I2; right; exact X|]. exists (j :: js). reflexivity. }
      destruct X as [js ->]. exists js. reflexivity.
    + split; [exact Ho|]. exact I.
Qed.
Lemma tidy_inv c tr c' : clean_inv c -> tidy_steps c tr c' -> clean_inv c'.
Proof. intros I H. induction H as [|c e c' tr c'' St T _ IH]; [exact I|]. apply IH. eapply tidy_step; eauto. Qed.
Lemma fresh_clean : clean_inv fresh.
Proof. split; reflexivity. Qed.
Lemma tidy_is_steps c tr c' : tidy_steps c tr c' -> steps c tr c'.
Proof. induction 1; [constructor|]. econstructor; eassumption. Qed.
Lemma restart_clean tr c tr2 c2 : tidy_steps fresh tr c -> current c = None -> steps c (EStart :: tr2) c2 ->
  queue c = [] /\ prefix_of (started tr2) (submitted tr2).
Proof.
  intros H Hc H2. pose proof (tidy_inv _ _ _ fresh_clean H) as [Ho I]. rewrite Hc in I. split; [exact I|].
  apply fifo in H2. cbn [submitted started] in H2. rewrite I in H2. cbn in H2. exists (jobs (queue c2)). exact H2.
Qed.

(** ** The two-process run *)
Variable solve : J -> res unit.
Variable kpis : res unit.
Notation mevent := (mevent J). Notation mstep := (mstep J fails solve kpis). Notation msteps := (msteps J fails solve kpis).
Notation program := (program J).
Arguments Proc {J}. Arguments Solved {J}. Arguments SolveFailed {J}. Arguments Kpis {J}. Arguments Tau {J}.
Arguments PStart {J}. Arguments PLoop {J}. Arguments PSubmit {J}. Arguments PCancel {J}. Arguments PCancelling {J}.
Arguments PFinal {J}. Arguments PStopping {J}. Arguments PKpi {J}. Arguments PEnd {J}.

Lemma proc_events_app (a b : list mevent) : proc_events (a ++ b) = proc_events a ++ proc_events b.
Proof. induction a as [|[] a IH]; cbn; congruence. Qed.
Lemma solved_app (a b : list mevent) : solved (a ++ b) = solved a ++ solved b.
Proof. induction a as [|[] a IH]; cbn; congruence. Qed.
Lemma mstep_step s e s' : mstep s e s' -> match e with Proc ev => step (snd s) ev (snd s') | _ => snd s' = snd s end.
Proof. destruct 1; cbn; try reflexivity; first [apply step_background; assumption|apply step_finishing; assumption|apply step_call; assumption]. Qed.
Lemma msteps_steps s tr s' : msteps s tr s' -> steps (snd s) (proc_events tr) (snd s').
Proof.
  induction 1 as [|s e s' tr s'' St _ IH]; [constructor|]. apply mstep_step in St.
  destruct e; cbn; [econstructor; eassumption| | | |]; rewrite <- St; exact IH.
Qed.
Lemma msteps_snoc_ind (P : list mevent -> program * config -> Prop) s0 : P [] s0 ->
  (forall tr s e s', msteps s0 tr s -> P tr s -> mstep s e s' -> P (tr ++ [e]) s') ->
  forall tr s, msteps s0 tr s -> P tr s.
Proof.
  intros P0 PS. assert (G : forall s tr s', msteps s tr s' -> forall pre, msteps s0 pre s -> P pre s -> P (pre ++ tr) s').
  { induction 1 as [|s e s' tr s'' St _ IH]; intros pre Hpre Pp; [rewrite app_nil_r; exact Pp|].
    change (e :: tr) with ([e] ++ tr). rewrite app_assoc. apply IH.
    - clear - Hpre St. induction Hpre as [|x e0 x' t x'' S0 _ IH0]; cbn; [econstructor; [exact St|constructor]|econstructor; [exact S0|apply IH0, St]].
    - eapply PS; eauto. }
  intros tr s H. apply (G _ _ _ H []); [constructor|exact P0].
Qed.

Definition in_session (tr : list mevent) (c : config) : Prop :=
  exists body, proc_events tr = EStart :: body /\ within_session body /\
    session_inv (submitted body) (started body) (completed body) (failed body) c.
Definition solver_error (cs : list J) (tr : list mevent) (e' : exn) : Prop :=
  exists x rest e, solve x = Err e /\ solved tr ++ x :: rest = cs /\ (forall y, In (SolveFailed y) tr <-> y = x) /\
    submitted (proc_events tr) = solved tr /\
    (e' = e \/ e' = SystemError \/ e' = ValueError) /\ (smooth tr -> e' = e).
Definition no_solver_error (tr : list mevent) : Prop := forall x, ~ In (SolveFailed x) tr.
Definition all_done (cs : list J) (tr : list mevent) (c : config) : Prop :=
  solved tr = cs /\ submitted (proc_events tr) = cs /\ started (proc_events tr) = cs /\ completed (proc_events tr) = cs /\ failed (proc_events tr) = [] /\ c = fresh.
Definition main_inv (cs : list J) (tr : list mevent) (s : program * config) : Prop :=
  let '(p, c) := s in let sub := submitted (proc_events tr) in
  (In Kpis tr -> exists o, p = PEnd o) /\
  match p with
  | PStart cs' => proc_events tr = [] /\ solved tr = [] /\ cs' = cs /\ c = fresh /\ no_solver_error tr
  | PLoop cs' => in_session tr c /\ caller c = Ready /\ solved tr = sub /\ solved tr ++ cs' = cs /\ no_solver_error tr
  | PSubmit x cs' => in_session tr c /\ caller c = Ready /\ solved tr = sub ++ [x] /\ solved tr ++ cs' = cs /\ no_solver_error tr
  | PCancel e => in_session tr c /\ caller c = Ready /\ solver_error cs tr e /\ exists x, In (SolveFailed x) tr /\ solve x = Err e
  | PCancelling e => in_session tr c /\ solver_error cs tr e
  | PFinal None => in_session tr c /\ caller c = Ready /\ sub = cs /\ solved tr = cs /\ no_solver_error tr
  | PStopping None => in_session tr c /\ sub = cs /\ solved tr = cs /\ no_solver_error tr
  | PFinal (Some e) | PStopping (Some e) => solver_error cs tr e /\ (smooth tr -> current c = None /\ others c = [])
  | PKpi => all_done cs tr c /\ no_solver_error tr
  | PEnd o =>
      (In Kpis tr /\ all_done cs tr c /\ no_solver_error tr /\ o = (match kpis with Ok _ => None | Err e => Some e end)) \/
      (~ In Kpis tr /\ no_solver_error tr /\ solved tr = cs /\ submitted (proc_events tr) = cs /\ ~ smooth tr /\ (o = Some SystemError \/ o = Some ValueError)) \/
      (~ In Kpis tr /\ exists e, o = Some e /\ solver_error cs tr e)
  end.

Lemma in_app_one {A} (x : A) l e : In x (l ++ [e]) -> In x l \/ e = x.
Proof. intro H. apply in_app_or in H as [H|[H|[]]]; auto. Qed.
Lemma in_session_proc tr c ev c' : in_session tr c -> step c ev c' -> ev <> EStart -> (forall r, ev <> EStopped r) -> in_session (tr ++ [Proc ev]) c'.
Proof.
  intros (b & E & [W1 W2] & I) St N1 N2. exists (b ++ [ev]). rewrite proc_events_app, E. cbn [proc_events app]. split; [reflexivity|]. split.
  - split; [intro X; apply in_app_one in X as [X|X]; congruence|intros r X; apply in_app_one in X as [X|X]; [exact (W2 r X)|exact (N2 r X)]].
  - rewrite submitted_app, started_app, completed_app, failed_app. eapply session_step; eauto.
Qed.
Lemma in_session_other tr c e : in_session tr c -> proc_events [e] = [] -> in_session (tr ++ [e]) c.
Proof. intros (b & E & I) Hn. exists b. rewrite proc_events_app, E, Hn, app_nil_r. auto. Qed.
Lemma smooth_before tr e : smooth (tr ++ [e]) -> smooth tr.
Proof.
  unfold smooth. rewrite proc_events_app, failed_app. intros [A B]. apply app_eq_nil in A as [A _]. split; [exact A|]. intro X. apply B. apply in_or_app; auto.
Qed.
Lemma solver_error_ext cs tr e e' : solver_error cs tr e' -> solved [e] = [] -> submitted (proc_events [e]) = [] -> (forall y, e <> SolveFailed y) -> solver_error cs (tr ++ [e]) e'.
Proof.
  intros (x & rest & e0 & H1 & H2 & H3 & H4 & H5 & H6) S1 S2 S3. exists x, rest, e0.
  rewrite solved_app, S1, proc_events_app, submitted_app, S2, !app_nil_r. split; [exact H1|]. split; [exact H2|]. split; [|split; [exact H4|split; [exact H5|]]].
  { intro y. rewrite <- H3. split; [intro X; apply in_app_one in X as [X|X]; [exact X|destruct (S3 y X)]|intro X; apply in_or_app; auto]. }
  intro Sm. apply H6. exact (smooth_before _ _ Sm).
Qed.
Lemma no_solver_error_ext tr e : no_solver_error tr -> (forall x, e <> SolveFailed x) -> no_solver_error (tr ++ [e]).
Proof. intros N E x X. apply in_app_one in X as [X|X]; [exact (N x X)|exact (E x X)]. Qed.
Lemma background_event c e c' : background c e c' -> e <> EStart /\ (forall r, e <> EStopped r) /\ submitted [e] = [] /\ caller c' = caller c /\
  ~ (current c = None /\ others c = []).
Proof.
  destruct 1 as [q w o p e w' q' W|q c o1 w o2 p e w' q' W]; destruct W; cbn; repeat split; try discriminate; try (intros r; discriminate); intros [A B]; try discriminate; destruct o1; discriminate.
Qed.
Lemma timeout_event c c' : finishing c ETimeout c' -> caller c = Joining true /\ current c <> None.
Proof. inversion 1; subst; cbn. split; [reflexivity|discriminate]. Qed.
Lemma finishing_phase c e c' : finishing c e c' -> caller c <> Ready.
Proof. destruct 1; cbn; discriminate. Qed.
Lemma finishing_err c e c' : finishing c (EStopped (Err e)) c' -> (e = SystemError \/ e = ValueError) /\ current c <> None.
Proof.
  intro H. remember (EStopped (Err e)) as ev eqn:Ev. destruct H as [q o b|q o b code|q o w Ha|q o w Ha|q o code]; cbn; try discriminate Ev.
  - destruct (code =? 0)%Z; [discriminate|]. injection Ev as <-. split; [auto|discriminate].
  - injection Ev as <-. split; [auto|discriminate].
  - injection Ev as <-. split; [auto|discriminate].
Qed.
Lemma call_stop_phase c e c' : call c e c' -> (exists b, e = EStop b \/ e = ECancel b) \/ e = EStopIdle ->
  submitted [e] = [] /\ started [e] = [] /\ failed [e] = [] /\ e <> EStart /\ (forall r, e <> EStopped r) /\ e <> ETimeout /\ current c' = current c /\ others c' = others c.
Proof.
  destruct 1 as [q o|q w0 o|q c o j|q w0 o b e E|q o b]; intros Hk.
  1-3: exfalso; destruct Hk as [(b' & [E|E])|E]; discriminate.
  - destruct E as [->| ->]; cbn; repeat split; try discriminate; intros r; discriminate.
  - cbn; repeat split; try discriminate; intros r; discriminate.
Qed.
Lemma session_projections (tr : list mevent) (b : list event) : proc_events tr = EStart :: b ->
  submitted (proc_events tr) = submitted b /\ started (proc_events tr) = started b /\ completed (proc_events tr) = completed b /\ failed (proc_events tr) = failed b.
Proof. intros ->. repeat split; reflexivity. Qed.
Lemma all_done_ext cs tr c e : all_done cs tr c -> solved [e] = [] -> proc_events [e] = [] \/ (exists r, e = Proc (EStopped r)) -> all_done cs (tr ++ [e]) c.
Proof.
  intros (A & B & C & D & E & F) S1 H. unfold all_done. rewrite solved_app, S1, proc_events_app, submitted_app, started_app, completed_app, failed_app.
  destruct H as [->|[r ->]]; cbn; rewrite !app_nil_r; repeat split; assumption.
Qed.

Lemma main_inv_holds cs tr s : msteps (PStart cs, fresh) tr s -> main_inv cs tr s.
Proof.
  intro H. revert tr s H. apply msteps_snoc_ind.
  { cbn. split; [intros []|]. repeat split. intros x []. }
  intros tr s e s' Hs (* *). pose proof (msteps_steps _ _ _ Hs) as Pst. cbn [snd] in Pst.
  assert (Tmo : caller (snd s) = Closing -> ~ smooth tr).
  { intros Cl [_ Nt]. apply (no_timeout_phase _ fresh (snd s)) in Pst; [contradiction|discriminate|exact Nt]. }
  clear Hs Pst. intros Iv St.
  assert (NK : forall e0, e = e0 -> e0 <> Kpis -> In Kpis (tr ++ [e]) -> In Kpis tr) by (intros e0 -> N X; apply in_app_one in X as [X|X]; [exact X|congruence]).
  destruct St as [p c ev c' B|p c c' Ti|cs' c c' C|x cs' c Sx|x cs' c e0 Sx|x cs' c c' C|c|e0 ev c c' Ev C|e0 c c' Fi|e0 e1 c c' Fi|pd ev c c' Ev C|pd c c' Fi|pd e1 c c' Fi|c];
    cbn [main_inv snd] in *; destruct Iv as [KI Iv].
  - (* the worker gets on *)
    assert (KI' : In Kpis (tr ++ [Proc ev]) -> exists o, p = PEnd o) by (intro X; apply KI, (NK (Proc ev)); [reflexivity|discriminate|exact X]).
    split; [exact KI'|]. clear KI'.
    pose proof (background_event _ _ _ B) as (N1 & N2 & S0 & Cl & Nid). pose proof (step_background J fails _ _ _ B) as St.
    assert (Hs : solved (tr ++ [Proc ev]) = solved tr) by (rewrite solved_app; apply app_nil_r).
    assert (Hsub : submitted (proc_events (tr ++ [Proc ev])) = submitted (proc_events tr)) by (rewrite proc_events_app, submitted_app; cbn [proc_events]; rewrite S0; apply app_nil_r).
    assert (Hn : no_solver_error tr -> no_solver_error (tr ++ [Proc ev])) by (intro X; apply no_solver_error_ext; [exact X|discriminate]).
    assert (He : forall x, solver_error cs tr x -> solver_error cs (tr ++ [Proc ev]) x) by (intros x X; apply solver_error_ext; [exact X|reflexivity|cbn [proc_events]; exact S0|discriminate]).
    assert (Hf : c <> fresh) by (intros ->; apply Nid; split; reflexivity).
    destruct p as [cs'|cs'|x cs'|e0|e0|[e0|]|[e0|]| |o]; rewrite ?Hs, ?Hsub, ?Cl.
    + exfalso. apply Hf. apply Iv.
    + destruct Iv as (I1 & I2 & I3 & I4 & I5). pose proof (in_session_proc _ _ _ _ I1 St N1 N2). apply Hn in I5. tauto.
    + destruct Iv as (I1 & I2 & I3 & I4 & I5). pose proof (in_session_proc _ _ _ _ I1 St N1 N2). apply Hn in I5. tauto.
    + destruct Iv as (I1 & I2 & I3 & x & I4 & I5). pose proof (in_session_proc _ _ _ _ I1 St N1 N2). split; [assumption|]. split; [exact I2|]. split; [auto|].
      exists x. split; [apply in_or_app; auto|exact I5].
    + destruct Iv as (I1 & I2). pose proof (in_session_proc _ _ _ _ I1 St N1 N2). auto.
    + destruct Iv as (I1 & I2). split; [auto|]. intro Sm. exfalso. apply Nid, I2. exact (smooth_before _ _ Sm).
    + destruct Iv as (I1 & I2 & I3 & I4 & I5). pose proof (in_session_proc _ _ _ _ I1 St N1 N2). apply Hn in I5. tauto.
    + destruct Iv as (I1 & I2). split; [auto|]. intro Sm. exfalso. apply Nid, I2. exact (smooth_before _ _ Sm).
    + destruct Iv as (I1 & I2 & I3 & I4). pose proof (in_session_proc _ _ _ _ I1 St N1 N2). apply Hn in I4. tauto.
    + exfalso. apply Hf. apply Iv.
    + destruct Iv as [(_ & D & _)|[(K1 & K2 & K3 & K4 & K5 & K6)|(K1 & e1 & K2 & K3)]].
      * exfalso. apply Hf. apply D.
      * right. left. split; [intro X; apply K1, (NK (Proc ev)); [reflexivity|discriminate|exact X]|]. split; [auto|]. split; [exact K3|]. split; [exact K4|].
        split; [intro Sm; apply K5; exact (smooth_before _ _ Sm)|exact K6].
      * right. right. split; [intro X; apply K1, (NK (Proc ev)); [reflexivity|discriminate|exact X]|]. exists e1. auto.
  - (* time-out *)
    assert (KI' : In Kpis (tr ++ [Proc ETimeout]) -> exists o, p = PEnd o) by (intro X; apply KI, (NK (Proc ETimeout)); [reflexivity|discriminate|exact X]).
    split; [exact KI'|]. clear KI'.
    pose proof (timeout_event _ _ Ti) as (Cl & Nid). pose proof (step_finishing J fails _ _ _ Ti) as St.
    assert (Hs : solved (tr ++ [Proc ETimeout]) = solved tr) by (rewrite solved_app; apply app_nil_r).
    assert (Hsub : submitted (proc_events (tr ++ [Proc ETimeout])) = submitted (proc_events tr)) by (rewrite proc_events_app, submitted_app; apply app_nil_r).
    assert (Hn : no_solver_error tr -> no_solver_error (tr ++ [Proc ETimeout])) by (intro X; apply no_solver_error_ext; [exact X|discriminate]).
    assert (He : forall x, solver_error cs tr x -> solver_error cs (tr ++ [Proc ETimeout]) x) by (intros x X; apply solver_error_ext; [exact X|reflexivity|reflexivity|discriminate]).
    assert (Hf : c <> fresh) by (intros ->; apply Nid; reflexivity).
    assert (Ns : ~ smooth (tr ++ [Proc ETimeout])) by (intros [_ X]; apply X; rewrite proc_events_app; apply in_or_app; right; left; reflexivity).
    destruct p as [cs'|cs'|x cs'|e0|e0|[e0|]|[e0|]| |o]; rewrite ?Hs, ?Hsub.
    + exfalso. apply Hf. apply Iv.
    + destruct Iv as (_ & I2 & _). congruence.
    + destruct Iv as (_ & I2 & _). congruence.
    + destruct Iv as (_ & I2 & _). congruence.
    + destruct Iv as (I1 & I2). pose proof (in_session_proc _ _ _ _ I1 St ltac:(discriminate) ltac:(discriminate)). auto.
    + destruct Iv as (I1 & I2). split; [auto|]. intro Sm. contradiction.
    + destruct Iv as (_ & I2 & _). congruence.
    + destruct Iv as (I1 & I2). split; [auto|]. intro Sm. contradiction.
    + destruct Iv as (I1 & I2 & I3 & I4). pose proof (in_session_proc _ _ _ _ I1 St ltac:(discriminate) ltac:(discriminate)). apply Hn in I4. tauto.
    + exfalso. apply Hf. apply Iv.
    + destruct Iv as [(_ & D & _)|[(K1 & K2 & K3 & K4 & K5 & K6)|(K1 & e1 & K2 & K3)]].
      * exfalso. apply Hf. apply D.
      * right. left. split; [intro X; apply K1, (NK (Proc ETimeout)); [reflexivity|discriminate|exact X]|]. split; [auto|]. split; [exact K3|]. split; [exact K4|].
        split; [exact Ns|exact K6].
      * right. right. split; [intro X; apply K1, (NK (Proc ETimeout)); [reflexivity|discriminate|exact X]|]. exists e1. auto.
  - (* start *)
    destruct Iv as (I1 & I2 & -> & -> & I5). split.
    { intro X. apply (NK (Proc EStart)) in X; [|reflexivity|discriminate]. destruct (KI X). discriminate. }
    assert (Ec : c' = ready_session) by (apply start_fresh, step_call, C). subst c'.
    rewrite solved_app, proc_events_app, I1, I2. cbn. split; [|repeat split; apply no_solver_error_ext; [exact I5|discriminate]].
    exists []. rewrite proc_events_app, I1. split; [reflexivity|]. split; [split; [intros []|intros r []]|exact ready_inv].
  - (* solved *)
    destruct Iv as (I1 & I2 & I3 & I4 & I5). split.
    { intro X. apply (NK (Solved x)) in X; [|reflexivity|discriminate]. destruct (KI X). discriminate. }
    rewrite solved_app, proc_events_app. cbn [proc_events solved]. rewrite app_nil_r. split; [apply in_session_other; [exact I1|reflexivity]|]. split; [exact I2|].
    split; [rewrite I3; reflexivity|]. split; [rewrite <- app_assoc; exact I4|]. apply no_solver_error_ext; [exact I5|discriminate].
  - (* solver error *)
    destruct Iv as (I1 & I2 & I3 & I4 & I5). split.
    { intro X. apply (NK (SolveFailed x)) in X; [|reflexivity|discriminate]. destruct (KI X). discriminate. }
    split; [apply in_session_other; [exact I1|reflexivity]|]. split; [exact I2|]. split.
    + exists x, cs', e0. rewrite solved_app, proc_events_app. cbn [solved proc_events]. rewrite !app_nil_r. split; [exact Sx|]. split; [exact I4|]. split; [|auto].
      intro y. split; [intro X; apply in_app_one in X as [X|X]; [destruct (I5 y X)|congruence]|intros ->; apply in_or_app; right; left; reflexivity].
    + exists x. split; [apply in_or_app; right; left; reflexivity|exact Sx].
  - (* submit *)
    destruct Iv as (I1 & I2 & I3 & I4 & I5). split.
    { intro X. apply (NK (Proc (ESubmit x))) in X; [|reflexivity|discriminate]. destruct (KI X). discriminate. }
    pose proof (step_call J fails _ _ _ C) as St. pose proof (in_session_proc _ _ _ _ I1 St ltac:(discriminate) ltac:(discriminate)) as I1'.
    split; [exact I1'|]. split; [inversion C; subst; try reflexivity; match goal with H : _ \/ _ |- _ => destruct H; discriminate end|].
    rewrite solved_app, proc_events_app, submitted_app. cbn [solved proc_events submitted]. rewrite app_nil_r. split; [exact I3|]. split; [exact I4|].
    apply no_solver_error_ext; [exact I5|discriminate].
  - (* all solved *)
    destruct Iv as (I1 & I2 & I3 & I4 & I5). split.
    { intro X. apply (NK Tau) in X; [|reflexivity|discriminate]. destruct (KI X). discriminate. }
    rewrite app_nil_r in I4. rewrite solved_app, proc_events_app, submitted_app. cbn [solved proc_events submitted]. rewrite !app_nil_r.
    split; [apply in_session_other; [exact I1|reflexivity]|]. split; [exact I2|]. split; [congruence|]. split; [exact I4|]. apply no_solver_error_ext; [exact I5|discriminate].
  - (* cancel *)
    destruct Iv as (I1 & I2 & I3 & _). split.
    { intro X. apply (NK (Proc ev)) in X; [|reflexivity|discriminate]. destruct (KI X). discriminate. }
    pose proof (call_stop_phase _ _ _ C ltac:(destruct Ev as [->| ->]; [left; exists true; auto|right; reflexivity])) as (S1 & _ & _ & N1 & N2 & _).
    split; [exact (in_session_proc _ _ _ _ I1 (step_call J fails _ _ _ C) N1 N2)|]. apply solver_error_ext; [exact I3|reflexivity|exact S1|discriminate].
  - (* cancelled *)
    destruct Iv as (I1 & I2). split.
    { intro X. apply (NK (Proc (EStopped (Ok tt)))) in X; [|reflexivity|discriminate]. destruct (KI X). discriminate. }
    split; [apply solver_error_ext; [exact I2|reflexivity|reflexivity|discriminate]|]. intros _. destruct I1 as (b & _ & _ & I1).
    destruct (stopped_step _ _ _ _ _ _ _ I1 (step_finishing J fails _ _ _ Fi)) as [_ [(_ & _ & _ & _ & ->)|[(X & _)|(X & _)]]]; try discriminate. split; reflexivity.
  - (* cancel raised *)
    destruct Iv as (I1 & I2). split.
    { intro X. apply (NK (Proc (EStopped (Err e1)))) in X; [|reflexivity|discriminate]. destruct (KI X). discriminate. }
    destruct (finishing_err _ _ _ Fi) as [E1 _].
    assert (Ns : ~ smooth (tr ++ [Proc (EStopped (Err e1))])).
    { intro Sm. apply smooth_before in Sm. pose proof Sm as [Sf _]. destruct I1 as (b & Eb & _ & I1). rewrite Eb in Sf. cbn [failed] in Sf.
      destruct (stopped_step _ _ _ _ _ _ _ I1 (step_finishing J fails _ _ _ Fi)) as [_ [(X & _)|[(_ & _ & _ & [X|X])|(_ & X & _)]]]; try discriminate; try contradiction; exact (Tmo X Sm). }
    split; [|intro Sm; contradiction]. destruct I2 as (x & rest & e2 & H1 & H2 & H3 & H4 & _ & _). exists x, rest, e2.
    rewrite solved_app, proc_events_app, submitted_app. cbn [solved proc_events submitted]. rewrite !app_nil_r. split; [exact H1|]. split; [exact H2|]. split; [|split; [exact H4|split; [tauto|contradiction]]].
    intro y; rewrite <- H3; split; [intro X; apply in_app_one in X as [X|X]; [exact X|discriminate]|intro X; apply in_or_app; auto].
  - (* finally stop *)
    pose proof (call_stop_phase _ _ _ C ltac:(destruct Ev as [->| ->]; [left; exists true; auto|right; reflexivity])) as (S1 & S2 & S3 & N1 & N2 & N3 & C1 & C2).
    assert (KI' : In Kpis (tr ++ [Proc ev]) -> exists o, @PStopping J pd = PEnd o).
    { intro X. apply (NK (Proc ev)) in X; [|reflexivity|discriminate]. destruct (KI X). discriminate. }
    split; [exact KI'|]. clear KI'. destruct pd as [e0|].
    + destruct Iv as (I1 & I2). split; [apply solver_error_ext; [exact I1|reflexivity|exact S1|discriminate]|]. intro Sm. rewrite C1, C2. apply I2. exact (smooth_before _ _ Sm).
    + destruct Iv as (I1 & I2 & I3 & I4 & I5). split; [exact (in_session_proc _ _ _ _ I1 (step_call J fails _ _ _ C) N1 N2)|].
      rewrite solved_app, proc_events_app, submitted_app. cbn [solved proc_events]. rewrite S1, !app_nil_r. split; [exact I3|]. split; [exact I4|]. apply no_solver_error_ext; [exact I5|discriminate].
  - (* stopped *)
    assert (NKt : ~ In Kpis tr) by (intro X; destruct (KI X); discriminate).
    assert (NK' : ~ In Kpis (tr ++ [Proc (EStopped (Ok tt))])) by (intro X; apply NKt, (NK (Proc (EStopped (Ok tt)))); [reflexivity|discriminate|exact X]).
    split; [intro X; contradiction|]. destruct pd as [e0|].
    + destruct Iv as (I1 & I2). right. right. split; [exact NK'|]. exists e0. split; [reflexivity|]. apply solver_error_ext; [exact I1|reflexivity|reflexivity|discriminate].
    + destruct Iv as (I1 & I2 & I3 & I4). split; [|apply no_solver_error_ext; [exact I4|discriminate]].
      apply all_done_ext; [|reflexivity|right; exists (Ok tt); reflexivity]. destruct I1 as (b & Eb & _ & I1). destruct (session_projections tr b Eb) as (P1 & P2 & P3 & P4).
      destruct (stopped_step _ _ _ _ _ _ _ I1 (step_finishing J fails _ _ _ Fi)) as [_ [(_ & A & B & C & ->)|[(X & _)|(X & _)]]]; try discriminate.
      unfold all_done. rewrite P2, P3, P4. repeat split; congruence.
  - (* stop raised *)
    assert (NKt : ~ In Kpis tr) by (intro X; destruct (KI X); discriminate).
    assert (NK' : ~ In Kpis (tr ++ [Proc (EStopped (Err e1))])) by (intro X; apply NKt, (NK (Proc (EStopped (Err e1)))); [reflexivity|discriminate|exact X]).
    split; [intro X; contradiction|]. destruct (finishing_err _ _ _ Fi) as [E1 Nc]. destruct pd as [e0|].
    + destruct Iv as (I1 & I2). right. right. split; [exact NK'|]. exists e1. split; [reflexivity|].
      destruct I1 as (x & rest & e2 & H1 & H2 & H3 & H4 & _ & _). exists x, rest, e2.
      rewrite solved_app, proc_events_app, submitted_app. cbn [solved proc_events submitted]. rewrite !app_nil_r. split; [exact H1|]. split; [exact H2|]. split; [intro y; rewrite <- H3; split; [intro X; apply in_app_one in X as [X|X]; [exact X|discriminate]|intro X; apply in_or_app; auto]|]. split; [exact H4|split; [tauto|]].
      intro Sm. exfalso. apply Nc. apply I2. exact (smooth_before _ _ Sm).
    + destruct Iv as (I1 & I2 & I3 & I4). right. left. split; [exact NK'|].
      rewrite solved_app, proc_events_app, submitted_app. cbn [solved proc_events submitted]. rewrite !app_nil_r. split; [apply no_solver_error_ext; [exact I4|discriminate]|].
      split; [exact I3|]. split; [exact I2|]. split; [|destruct E1 as [->| ->]; auto].
      intro Sm. apply smooth_before in Sm. pose proof Sm as [Sf _]. destruct I1 as (b & Eb & _ & I1). rewrite Eb in Sf. cbn [failed] in Sf.
      destruct (stopped_step _ _ _ _ _ _ _ I1 (step_finishing J fails _ _ _ Fi)) as [_ [(X & _)|[(_ & _ & _ & [X|X])|(_ & X & _)]]]; try discriminate; try contradiction; exact (Tmo X Sm).
  - (* KPIs *)
    destruct Iv as (I1 & I2). split; [intros _; eexists; reflexivity|]. left. split; [apply in_or_app; right; left; reflexivity|].
    split; [apply all_done_ext; [exact I1|reflexivity|left; reflexivity]|]. split; [apply no_solver_error_ext; [exact I2|discriminate]|reflexivity].
Qed.

(** C50 *)
Lemma plots_after_solution cs tr s : msteps (PStart cs, fresh) tr s ->
  prefix_of (started (proc_events tr)) (solved tr) /\ prefix_of (solved tr) cs.
Proof.
  intro H. pose proof (main_inv_holds _ _ _ H) as I. pose proof (msteps_steps _ _ _ H) as Q. cbn [snd] in Q. apply started_prefix in Q as [l Q].
  assert (X : prefix_of (submitted (proc_events tr)) (solved tr) /\ prefix_of (solved tr) cs).
  { assert (R : forall A (a : list A), prefix_of a a) by (intros; exists []; symmetry; apply app_nil_r).
    destruct s as [p c]. destruct I as [_ I].
    assert (SE : forall e, solver_error cs tr e -> prefix_of (submitted (proc_events tr)) (solved tr) /\ prefix_of (solved tr) cs).
    { intros e (x & rest & e0 & _ & <- & _ & -> & _). split; [apply R|eexists; reflexivity]. }
    destruct p as [cs'|cs'|x cs'|e0|e0|[e0|]|[e0|]| |o].
    - destruct I as (-> & -> & _). split; eexists; reflexivity.
    - destruct I as (_ & _ & <- & <- & _). split; [apply R|eexists; reflexivity].
    - destruct I as (_ & _ & -> & <- & _). split; eexists; reflexivity.
    - apply (SE e0), I.
    - apply (SE e0), I.
    - apply (SE e0), I.
    - destruct I as (_ & _ & -> & -> & _). split; apply R.
    - apply (SE e0), I.
    - destruct I as (_ & -> & -> & _). split; apply R.
    - destruct I as ((-> & -> & _) & _). split; apply R.
    - destruct I as [(_ & (-> & -> & _) & _)|[(_ & _ & -> & -> & _)|(_ & e & _ & I)]]; [split; apply R|split; apply R|apply (SE e), I]. }
  destruct X as [[l2 X] Y]. split; [|exact Y]. exists (l ++ l2). rewrite X, Q, app_assoc. reflexivity.
Qed.
Lemma kpis_last cs tr p c : msteps (PStart cs, fresh) tr (p, c) -> In Kpis tr \/ p = PKpi \/ p = PEnd None -> all_done cs tr c.
Proof.
  intros H K. pose proof (main_inv_holds _ _ _ H) as [KI I]. destruct K as [K|[->| ->]].
  - destruct (KI K) as [o ->]. destruct I as [(_ & D & _)|[(N & _)|(N & _)]]; [exact D|contradiction|contradiction].
  - apply I.
  - destruct I as [(_ & D & _)|[(_ & _ & _ & _ & _ & [X|X])|(_ & e & X & _)]]; [exact D|discriminate|discriminate|discriminate].
Qed.
Lemma solver_error_outcome cs tr x e o c : msteps (PStart cs, fresh) tr (PEnd o, c) -> In (SolveFailed x) tr -> solve x = Err e ->
  ~ In Kpis tr /\ exists e', o = Some e' /\ (e' = e \/ e' = SystemError \/ e' = ValueError) /\ (smooth tr -> e' = e).
Proof.
  intros H K Se. pose proof (main_inv_holds _ _ _ H) as [_ I]. destruct I as [(_ & _ & N & _)|[(_ & N & _)|(N & e' & -> & I)]]; [destruct (N x K)|destruct (N x K)|].
  split; [exact N|]. exists e'. split; [reflexivity|]. destruct I as (y & rest & e0 & H1 & _ & H3 & _ & H5 & H6). apply H3 in K. subst y.
  rewrite Se in H1. injection H1 as ->. auto.
Qed.

(** C56 *)
Lemma nonblocking_phase tr : forall c c', caller c = Joining false -> steps c tr c' -> (forall r, ~ In (EStopped r) tr) -> caller c' = Joining false.
Proof.
  induction tr as [|e tr IH]; intros c c' Hc H N; inversion H as [|? ? c1 ? ? St R]; subst; [exact Hc|].
  apply (IH c1); [|exact R|intros r X; apply (N r); right; exact X].
  inversion St as [? ? ? B|? ? ? Fi|? ? ? C]; subst.
  - inversion B; subst; exact Hc.
  - inversion Fi; subst; cbn in *; try discriminate; exfalso; eapply N; left; reflexivity.
  - inversion C; subst; cbn in *; discriminate.
Qed.
Lemma stop_call_phase c e b c' : step c e c' -> e = EStop b \/ e = ECancel b -> caller c' = Joining b.
Proof.
  intros St E. inversion St as [? ? ? B|? ? ? Fi|? ? ? C]; subst.
  - destruct (background_event _ _ _ B) as (_ & _ & _ & _ & _). inversion B as [? ? ? ? ? ? ? W|? ? ? ? ? ? ? ? ? W]; subst; inversion W; subst; destruct E; discriminate.
  - inversion Fi; subst; destruct E; discriminate.
  - inversion C as [| | |? ? ? b' ? E'|]; subst; try (destruct E; discriminate). cbn. destruct E as [->| ->], E' as [E'|E']; congruence.
Qed.
Lemma nonblocking tr c r c' e : steps fresh (EStart :: tr) c -> within_session tr -> e = EStop false \/ e = ECancel false -> In e tr -> step c (EStopped r) c' ->
  exists code, current c = Some (Exited code) /\ r = (if (code =? 0)%Z then Ok tt else Err SystemError) /\ (code = 0%Z -> completed tr = submitted tr).
Proof.
  intros H W E I St. pose proof (session_from_fresh tr c H W) as SI.
  apply in_split in I as (t1 & t2 & ->). change (EStart :: t1 ++ e :: t2) with ((EStart :: t1) ++ e :: t2) in H.
  apply steps_split in H as (c1 & _ & H2). inversion H2 as [|? ? c2 ? ? S2 R2]; subst.
  pose proof (stop_call_phase _ _ _ _ S2 E) as P2. apply (nonblocking_phase t2) in R2; [|exact P2|intros r' X; apply (proj2 W r'); apply in_or_app; right; right; exact X].
  destruct SI as (Ho & w & Hw & [_ WI] & QI). inversion St as [? ? ? B|? ? ? Fi|? ? ? C]; subst.
  - inversion B as [? ? ? ? ? ? ? X|? ? ? ? ? ? ? ? ? X]; subst; inversion X.
  - inversion Fi; subst; cbn [caller current others queue] in *; try discriminate. injection Hw as <-. exists code. repeat split.
    intros ->. destruct QI as [(_ & -> & _)|[N _]]; [|congruence]. cbn in WI. destruct WI as [(_ & -> & _)|(X & _)]; [reflexivity|discriminate].
  - inversion C; subst. match goal with H : _ \/ _ |- _ => destruct H; discriminate end.
Qed.
(** cancel is stop *)
Definition as_stop (e : event) : event := match e with ECancel b => EStop b | e => e end.
Lemma cancel_is_stop c tr c' : steps c tr c' -> steps c (map as_stop tr) c'.
Proof.
  induction 1 as [|c e c' tr c'' St _ IH]; [constructor|]. cbn. econstructor; [|exact IH].
  destruct St as [c e c' B|c e c' Fi|c e c' C].
  - apply step_background. destruct B as [? ? ? ? ? ? ? X|? ? ? ? ? ? ? ? ? X]; destruct X; cbn; constructor; constructor; assumption.
  - apply step_finishing. destruct Fi; cbn; constructor; assumption.
  - apply step_call. destruct C as [| | |? ? ? ? ? E|]; cbn; try constructor. destruct E as [->| ->]; constructor; auto.
Qed.

(** Single core *)
Variable plot_error : J -> exn.
Notation single_core := (single_core J fails solve plot_error). Notation single_core_run := (single_core_run J fails solve kpis plot_error).
Definition good (c : J) : Prop := solve c = Ok tt /\ fails c = false.
Fixpoint good_events (cs : list J) : list mevent := match cs with [] => [] | c :: cs => Solved c :: Proc (ERun c) :: Proc (EDone c) :: good_events cs end.
Lemma single_good cs rest : Forall good cs -> single_core (cs ++ rest) = (good_events cs ++ fst (single_core rest), snd (single_core rest)).
Proof.
  induction 1 as [|c cs [G1 G2] _ IH]; cbn; [destruct (single_core rest); reflexivity|]. rewrite G1, G2, IH. reflexivity.
Qed.
Lemma first_bad cs : Forall good cs \/ exists pre x post, cs = pre ++ x :: post /\ Forall good pre /\ ~ good x.
Proof.
  induction cs as [|c cs [IH|(pre & x & post & -> & IH & N)]]; [left; constructor| |].
  - destruct (solve c) as [[]|e] eqn:E1; [destruct (fails c) eqn:E2|].
    + right. exists [], c, cs. repeat split; [constructor|]. intros [_ X]. congruence.
    + left. constructor; [split; assumption|exact IH].
    + right. exists [], c, cs. repeat split; [constructor|]. intros [X _]. congruence.
  - destruct (solve c) as [[]|e] eqn:E1; [destruct (fails c) eqn:E2|].
    + right. exists [], c, (pre ++ x :: post). repeat split; [constructor|]. intros [_ X]. congruence.
    + right. exists (c :: pre), x, post. repeat split; [constructor; [split; assumption|exact IH]|exact N].
    + right. exists [], c, (pre ++ x :: post). repeat split; [constructor|]. intros [X _]. congruence.
Qed.
Lemma single_all_good cs : Forall good cs -> single_core_run cs = (good_events cs ++ [Kpis], kpis).
Proof. intro G. pose proof (single_good cs [] G) as X. rewrite app_nil_r in X. unfold single_core_run, M_Process.single_core_run. rewrite X. cbn. rewrite app_nil_r. reflexivity. Qed.
Lemma single_solver_error pre x post e : Forall good pre -> solve x = Err e ->
  single_core_run (pre ++ x :: post) = (good_events pre ++ [SolveFailed x], Err e).
Proof. intros G E. unfold single_core_run, M_Process.single_core_run. rewrite (single_good pre _ G). cbn. rewrite E. reflexivity. Qed.
Lemma single_plot_error pre x post : Forall good pre -> solve x = Ok tt -> fails x = true ->
  single_core_run (pre ++ x :: post) = (good_events pre ++ [Solved x; Proc (ERun x); Proc (EFail x)], Err (plot_error x)).
Proof. intros G E F. unfold single_core_run, M_Process.single_core_run. rewrite (single_good pre _ G). cbn. rewrite E, F. reflexivity. Qed.
Lemma good_no_kpis cs : ~ In Kpis (good_events cs).
Proof. induction cs as [|c cs IH]; cbn; [tauto|]. intros [X|[X|[X|X]]]; try discriminate. contradiction. Qed.
Lemma single_kpis cs : In Kpis (fst (single_core_run cs)) <-> Forall good cs.
Proof.
  split; [|intro G; rewrite (single_all_good cs G); apply in_or_app; right; left; reflexivity].
  destruct (first_bad cs) as [G|(pre & x & post & -> & G & N)]; [auto|]. intro X. exfalso.
  destruct (solve x) as [[]|e] eqn:E1; [destruct (fails x) eqn:E2; [|apply N; split; assumption]|].
  - rewrite (single_plot_error pre x post G E1 E2) in X. cbn in X. apply in_app_or in X as [X|[X|[X|[X|[]]]]]; try discriminate. exact (good_no_kpis _ X).
  - rewrite (single_solver_error pre x post e G E1) in X. cbn in X. apply in_app_or in X as [X|[X|[]]]; try discriminate. exact (good_no_kpis _ X).
Qed.
End Process.
