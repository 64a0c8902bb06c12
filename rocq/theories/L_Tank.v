From Coq Require Import Sorting.Sorted Permutation String Setoid Morphisms.
From Verif Require Import Base BaseL M_FixedOrder M_Tank S_Tank.

(** ** Sums over node indices *)
Definition sumn (f : nat -> Q) (n : nat) : Q := qsum (map f (seq 0 n)).
Lemma sumn_S f n : sumn f (S n) == sumn f n + f n.
Proof. unfold sumn. rewrite seq_S, map_app, qsum_app. cbn. lra. Qed.
Lemma sumn_ext f g n : (forall i, (i < n)%nat -> f i == g i) -> sumn f n == sumn g n.
Proof.
  induction n as [|n IH]; intro H; [reflexivity|]. rewrite !sumn_S, IH, (H n); [reflexivity|lia|].
  intros; apply H; lia.
Qed.
Lemma sumn_plus f g n : sumn (fun i => f i + g i) n == sumn f n + sumn g n.
Proof. induction n as [|n IH]; [reflexivity|]. rewrite !sumn_S, IH. lra. Qed.
Lemma sumn_scal a f n : sumn (fun i => a * f i) n == a * sumn f n.
Proof. induction n as [|n IH]; [cbn; ring|]. rewrite !sumn_S, IH. ring. Qed.
Lemma sumn_zero n : sumn (fun _ => 0) n == 0.
Proof. induction n as [|n IH]; [reflexivity|]. rewrite sumn_S, IH. lra. Qed.
Lemma list_as_map (T : list Q) : map (fun i => nth i T 0) (seq 0 (length T)) = T.
Proof.
  induction T as [|x T IH]; [reflexivity|]. cbn. f_equal. rewrite <- seq_shift, map_map. exact IH.
Qed.
Lemma content_sumn (T : list Q) : content T = sumn (fun i => nth i T 0) (length T).
Proof. unfold content, sumn. rewrite list_as_map. reflexivity. Qed.

(** ** Sorting *)
Lemma insert_desc_perm x l : Permutation (insert_desc x l) (x :: l).
Proof.
  induction l as [|y l IH]; [apply Permutation_refl|]. cbn. destruct (qlt y x); [apply Permutation_refl|].
  eapply Permutation_trans; [apply perm_skip, IH|apply perm_swap].
Qed.
Lemma sort_desc_perm l : Permutation (sort_desc l) l.
Proof.
  induction l as [|x l IH]; [apply Permutation_refl|]. cbn.
  eapply Permutation_trans; [apply insert_desc_perm|apply perm_skip, IH].
Qed.
Lemma insert_desc_sorted x l : stratified l -> stratified (insert_desc x l).
Proof.
  unfold stratified. induction 1 as [|y l Hl IH Hy]; [repeat constructor|].
  cbn. destruct (qlt_spec y x) as [H|H].
  - constructor; [constructor; assumption|]. constructor; [lra|].
    eapply Forall_impl; [|exact Hy]. cbn. intros; lra.
  - constructor; [exact IH|]. eapply Permutation_Forall; [apply Permutation_sym, insert_desc_perm|].
    constructor; assumption.
Qed.
Lemma sort_desc_sorted l : stratified (sort_desc l).
Proof. induction l as [|x l IH]; [constructor|]. apply insert_desc_sorted, IH. Qed.
Lemma sort_desc_length l : length (sort_desc l) = length l.
Proof. apply Permutation_length, sort_desc_perm. Qed.
Lemma qsum_perm l l' : Permutation l l' -> qsum l == qsum l'.
Proof.
  induction 1 as [|x l l' H IH|x y l|l l' l'' H1 IH1 H2 IH2]; [reflexivity| | |].
  - rewrite !qsum_cons, IH. reflexivity.
  - rewrite !qsum_cons. ring.
  - rewrite IH1. exact IH2.
Qed.
Lemma content_perm l l' : Permutation l l' -> content l == content l'.
Proof. exact (qsum_perm l l'). Qed.

Lemma stratified_nth T i j : stratified T -> (i <= j < length T)%nat -> nth j T 0 <= nth i T 0.
Proof.
  unfold stratified. intro S. revert i j. induction S as [|x T S IH Hx]; intros i j H; [cbn in H; lia|].
  destruct i, j; cbn [nth]; [lra| |lia|].
  - rewrite Forall_forall in Hx. apply Hx, nth_In. cbn in H. lia.
  - apply IH. cbn in H. lia.
Qed.

(** ** Shape of the results *)
Section Shape.
Variable K : tank.

Lemma Ok_inj {A} (a b : A) : Ok a = Ok b -> a = b.
Proof. intro H. inversion H. reflexivity. Qed.

Lemma euler_inv s T source flow ret m t T' :
  euler K s T source flow ret m t = Ok T' ->
  exists cps k Ta, (2 <= k_nodes K)%nat /\ length T = k_nodes K /\
    mapM (specific_heat K) T = Ok cps /\ k_value K = Ok k /\ amb_temp K t = Ok Ta /\
    node_mass K = Ok (k_capacity K / inject_Z (Z.of_nat (k_nodes K))) /\
    T' = map (fun i => Qred (nth i T 0 + dT K s T source flow ret m (k_capacity K / inject_Z (Z.of_nat (k_nodes K))) k Ta cps i))
             (seq 0 (k_nodes K)).
Proof.
  unfold euler, check_nodes.
  destruct (Nat.ltb (k_nodes K) 2) eqn:E1; cbn [orb]; [discriminate|].
  destruct (Nat.eqb (length T) (k_nodes K)) eqn:E2; cbn [negb bind]; [|discriminate].
  apply Nat.ltb_ge in E1. apply Nat.eqb_eq in E2.
  unfold node_mass. destruct (k_nodes K) as [|n] eqn:En; [lia|]. cbn [bind].
  destruct (mapM (specific_heat K) T) as [cps|] eqn:E3; cbn [bind]; [|discriminate].
  destruct (k_value K) as [k|] eqn:E4; cbn [bind]; [|discriminate].
  destruct (amb_temp K t) as [Ta|] eqn:E5; cbn [bind]; [|discriminate].
  intro H. apply Ok_inj in H. exists cps, k, Ta. do 6 (split; [first [assumption|reflexivity]|]). symmetry. exact H.
Qed.

Lemma euler_length s T source flow ret m t T' :
  euler K s T source flow ret m t = Ok T' -> length T' = k_nodes K.
Proof.
  intro H. apply euler_inv in H. destruct H as (? & ? & ? & _ & _ & _ & _ & _ & _ & ->).
  rewrite map_length, seq_length. reflexivity.
Qed.

Lemma inner_step_shape s source delta flow ret o d t T T' :
  inner_step K s source delta flow ret o d t T = Ok T' -> length T' = k_nodes K /\ stratified T'.
Proof.
  unfold inner_step.
  destruct (mass_flow_calc _ _ _ _ _ _ _ _ _ _) as [m1|]; cbn [bind]; [|discriminate].
  destruct (node_mass K) as [mass|]; cbn [bind]; [|discriminate].
  destruct (euler _ _ _ _ _ _ _ _) as [T1|] eqn:E; cbn [bind]; [|discriminate].
  intro H. injection H as <-. split; [|apply sort_desc_sorted].
  rewrite sort_desc_length. eapply euler_length, E.
Qed.

(** The loop as a chain of states. *)
Lemma inner_loop_chain f c T l :
  inner_loop f c T = Ok l ->
  length l = c /\ forall i x, nth_error l i = Some x ->
    f (match i with O => T | S j => nth j l [] end) = Ok x.
Proof.
  revert T l. induction c as [|c IH]; intros T l; cbn.
  - intro H. injection H as <-. split; [reflexivity|]. intros [|i] x; discriminate.
  - destruct (f T) as [T'|] eqn:E; cbn [bind]; [|discriminate].
    destruct (inner_loop f c T') as [r|] eqn:E2; cbn [bind]; [|discriminate].
    intro H. injection H as <-. destruct (IH _ _ E2) as [L C]. split; [cbn; lia|].
    intros [|i] x Hx; cbn in Hx; [injection Hx as <-; exact E|].
    specialize (C i x Hx). destruct i; exact C.
Qed.

Lemma inner_loop_Forall f c T l (Pr : list Q -> Prop) :
  (forall x y, f x = Ok y -> Pr y) -> inner_loop f c T = Ok l -> Forall Pr l.
Proof.
  intros Hf. revert T l. induction c as [|c IH]; intros T l; cbn.
  - intro H. injection H as <-. constructor.
  - destruct (f T) as [T'|] eqn:E; cbn [bind]; [|discriminate].
    destruct (inner_loop f c T') as [r|] eqn:E2; cbn [bind]; [|discriminate].
    intro H. injection H as <-. constructor; [eapply Hf, E|eapply IH, E2].
Qed.
Lemma inner_loop_inv f c T l (Pr : list Q -> Prop) :
  (forall x y, Pr x -> f x = Ok y -> Pr y) -> Pr T -> inner_loop f c T = Ok l -> Forall Pr l.
Proof.
  intros Hf. revert T l. induction c as [|c IH]; intros T l HT; cbn.
  - intro H. injection H as <-. constructor.
  - destruct (f T) as [T'|] eqn:E; cbn [bind]; [|discriminate].
    destruct (inner_loop f c T') as [r|] eqn:E2; cbn [bind]; [|discriminate].
    intro H. injection H as <-. constructor; [eapply Hf; eassumption|eapply IH; [|exact E2]; eapply Hf; eassumption].
Qed.

Lemma inner_count_pos s T source delta flow ret o d c :
  inner_count K s T source delta flow ret o d = Ok c -> (1 <= c)%nat /\ (c <= Nat.max (k_nodes K) 1)%nat.
Proof.
  unfold inner_count.
  destruct (mass_flow_calc _ _ _ _ _ _ _ _ _ _) as [m1|]; cbn [bind]; [|discriminate].
  destruct (node_mass K) as [mass|]; cbn [bind]; [|discriminate].
  destruct (fdiv _ _) as [q|]; cbn [bind]; [|discriminate].
  intro H. injection H as <-. lia.
Qed.

Lemma new_nodes_inv s T source delta flow ret o d t r :
  new_nodes_temp K s T source delta flow ret o d t = Ok r ->
  (exists l, r = Flat l /\ (k_capacity K == 0 \/ (s = Charging /\ content T == source * inject_Z (Z.of_nat (length T))))) \/
  (exists c l, r = States l /\ ~ k_capacity K == 0 /\ (2 <= k_nodes K)%nat /\ length T = k_nodes K /\
     inner_count K s T source delta flow ret o d = Ok c /\ (1 <= c)%nat /\ length l = c /\
     inner_loop (inner_step K s source delta flow ret (o * 3600 / inject_Z (Z.of_nat c))
                   (d * 3600 / inject_Z (Z.of_nat c)) t) c T = Ok l).
Proof.
  unfold new_nodes_temp.
  destruct (qeq_spec (k_capacity K) 0) as [Hc|Hc].
  { intro H. injection H as <-. left. eexists. split; [reflexivity|]. left; exact Hc. }
  destruct (qeq_spec (qsum T) (source * inject_Z (Z.of_nat (length T)))) as [Hs|Hs]; cbn [andb].
  - destruct s; [intro H; injection H as <-; left; eexists; split; [reflexivity|]; right; split; [reflexivity|exact Hs]| |];
      cbv iota; intro H; right;
      (unfold check_nodes in H; destruct (Nat.ltb (k_nodes K) 2) eqn:E1; cbn [orb bind] in H; [discriminate|];
       destruct (Nat.eqb (length T) (k_nodes K)) eqn:E2; cbn [negb bind] in H; [|discriminate];
       apply Nat.ltb_ge in E1; apply Nat.eqb_eq in E2;
       destruct (inner_count _ _ _ _ _ _ _ _ _) as [c|] eqn:E3; cbn [bind] in H; [|discriminate];
       destruct (inner_loop _ _ _) as [l|] eqn:E4; cbn [bind] in H; [|discriminate];
       injection H as <-; exists c, l; pose proof (inner_count_pos _ _ _ _ _ _ _ _ _ E3);
       pose proof (inner_loop_chain _ _ _ _ E4) as [L _]; repeat split; try assumption; try lia).
  - intro H. right.
    unfold check_nodes in H; destruct (Nat.ltb (k_nodes K) 2) eqn:E1; cbn [orb bind] in H; [discriminate|];
       destruct (Nat.eqb (length T) (k_nodes K)) eqn:E2; cbn [negb bind] in H; [|discriminate];
       apply Nat.ltb_ge in E1; apply Nat.eqb_eq in E2;
       destruct (inner_count _ _ _ _ _ _ _ _ _) as [c|] eqn:E3; cbn [bind] in H; [|discriminate];
       destruct (inner_loop _ _ _) as [l|] eqn:E4; cbn [bind] in H; [|discriminate];
       injection H as <-; exists c, l; pose proof (inner_count_pos _ _ _ _ _ _ _ _ _ E3);
       pose proof (inner_loop_chain _ _ _ _ E4) as [L _]; repeat split; try assumption; try lia.
Qed.

Lemma new_nodes_shape s T source delta flow ret o d t T' :
  (r <- new_nodes_temp K s T source delta flow ret o d t ;; last_state r) = Ok T' ->
  length T' = k_nodes K /\ stratified T'.
Proof.
  destruct (new_nodes_temp _ _ _ _ _ _ _ _ _ _) as [r|] eqn:E; cbn [bind]; [|discriminate].
  apply new_nodes_inv in E. destruct E as [(l & -> & _)|(c & l & -> & _ & _ & _ & _ & _ & _ & H)]; [discriminate|].
  cbn. destruct l as [|x l]; [discriminate|]. intro E. injection E as <-.
  assert (F : Forall (fun T => length T = k_nodes K /\ stratified T) (x :: l)).
  { eapply inner_loop_Forall; [|exact H]. intros. eapply inner_step_shape; eassumption. }
  rewrite Forall_forall in F. apply F. clear. destruct l as [|y l]; [left; reflexivity|].
  right. destruct (exists_last (l := y :: l)) as (l' & z & E); [discriminate|].
  rewrite E, last_last. apply in_or_app. right. left. reflexivity.
Qed.

Lemma init_temps_shape x : length (init_temps K x) = k_nodes K /\ stratified (init_temps K x).
Proof.
  unfold init_temps. split; [apply repeat_length|]. unfold stratified.
  induction (k_nodes K) as [|n IH]; [constructor|]. constructor; [exact IH|].
  apply Forall_forall. intros y Hy. apply repeat_spec in Hy. subst. lra.
Qed.
End Shape.
