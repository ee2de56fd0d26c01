(** Proofs about messages between two applications: the receiving side. *)
From Coq Require Import List ZArith NArith Bool String Lia Permutation.
From Verif Require Import Base PermTac PQueueModel PQueueSpec PQueueProofs PendingModel PendingSpec PendingProofs
  HandlerModel HandlerSpec HandlerProofs HandlerProofs2 HandlerProofs3 HandlerProofs5 HandlerProofs6.
Import ListNotations.
Local Open Scope Z_scope.

Section ReceiverSide.
Context {D M : Type}.
Variable no_meta : M.
Variables dto_ok truthy : D -> bool.
Variable max_retries : Z.
Notation hstate := (hstate D M). Notation hout := (hout D M). Notation hev := (hev D M). Notation item := (item D M).
Notation hstep := (hstep no_meta dto_ok truthy max_retries).
Notation hrun := (hrun no_meta dto_ok truthy max_retries).
Notation micro := (micro (D:=D) (M:=M) dto_ok max_retries).
Notation micros := (micros (D:=D) (M:=M) dto_ok max_retries).
Notation ast := (@ast D M).
Implicit Types (s : hstate) (o : list hout) (ev : hev) (a : ast).

(** ** A request that is dropped has a copy that is not *)
Lemma micro_cover a o a' x : wf a -> micro a o a' -> In x (dropped o) -> In (key_of x) (map key_of (a_items a')).
Proof.
  intros W H. destruct (micro_conserves _ _ _ _ _ W H) as [W' _]. destruct W as [W1 W2 W3 W4].
  assert (P : forall k ps lp i le, has k lp = true -> Forall (fun e => pe_key (snd e) = fst e) lp ->
    In k (map key_of (a_items (mkA (D:=D) (M:=M) ps lp i le)))).
  { intros k ps lp i le Hk F. unfold a_items. cbn [a_push a_pend a_in a_err]. rewrite !map_app, !in_app_iff, items_p_keys by auto.
    apply has_In in Hk. auto. }
  assert (Er : forall k ps lp i le, has k le = true -> Forall (fun e => ee_key (snd e) = fst e) le ->
    In k (map key_of (a_items (mkA (D:=D) (M:=M) ps lp i le)))).
  { intros k ps lp i le Hk F. unfold a_items. cbn [a_push a_pend a_in a_err]. rewrite !map_app, !in_app_iff, (items_e_keys le) by auto.
    apply has_In in Hk. auto 10. }
  destruct H; cbn [a_pend a_err] in *; try (intros []; fail); try (intros [<-|[]]; ((apply P; assumption) || (apply Er; assumption)); fail).
  - destruct o; try discriminate H; intros [].
  - rewrite dropped_back. intros Hx. unfold items_e in Hx. apply in_map_iff in Hx as [e [<- He]]. apply filter_In in He as [He1 He2].
    assert (K : ee_key (snd e) = fst e) by (rewrite Forall_forall in W2; auto).
    apply P; [|now apply (wf_p _ W')]. unfold key_of, item_e. cbn [fst]. rewrite K.
    apply has_In in He2. apply has_In. rewrite map_app, in_app_iff. auto.
  - unfold back_outs. cbn [fst snd]. destruct (has k lp) eqn:E; cbn [dropped flat_map app]; [|intros []]. intros [<-|[]].
    apply P; [|now apply (wf_p _ W')]. unfold add. unfold key_of, item_e. cbn [fst].
    assert (K : ee_key x0 = k). { rewrite Forall_forall in W2. apply (W2 (k, x0)). now apply lookup_In. }
    rewrite K, E. exact E.
  - intros Hx. exfalso. revert Hx. clear. induction le as [|e le IH]; [intros []|]. exact IH.
Qed.

Lemma gone_in x o : In x (gone o) <-> In x (finished o) \/ In x (removed o) \/ In x (dropped o) \/ In x (lost o).
Proof.
  split.
  - intros H. apply (Permutation_in _ (gone_parts o)) in H. rewrite !in_app_iff in H. tauto.
  - intros H. apply (Permutation_in _ (Permutation_sym (gone_parts o))). rewrite !in_app_iff. tauto.
Qed.

Definition settled o : list item := finished o ++ removed o ++ lost o.
Lemma settled_in x o : In x (settled o) <-> In x (finished o) \/ In x (removed o) \/ In x (lost o).
Proof. unfold settled. rewrite !in_app_iff. tauto. Qed.

Lemma micros_cover a o a' k : micros a o a' -> wf a -> In k (map key_of (accepted o ++ a_items a)) ->
  In k (map key_of (a_items a' ++ settled o)).
Proof.
  intros H. revert k. induction H as [a|a o a1 o1 a2 H H1 IH]; intros k W Hk; [rewrite app_nil_r; exact Hk|].
  destruct (micro_conserves _ _ _ _ _ W H) as [W1 P1]. rewrite accepted_app in Hk.
  assert (X : In k (map key_of (accepted o1 ++ a_items a1)) \/ In k (map key_of (settled o))).
  { apply in_map_iff in Hk as [x [<- Hx]]. rewrite !in_app_iff in Hx.
    assert (Y : In x (accepted o1) \/ In x (a_items a1 ++ gone o)).
    { destruct Hx as [[Hx|Hx]|Hx]; [right|now left|right]; apply (Permutation_in _ P1); rewrite in_app_iff; auto. }
    destruct Y as [Y|Y]; [left; apply in_map; rewrite in_app_iff; auto|]. rewrite in_app_iff, gone_in in Y.
    destruct Y as [Y|[Y|[Y|[Y|Y]]]].
    - left. apply in_map. rewrite in_app_iff; auto.
    - right. apply in_map. apply settled_in. auto.
    - right. apply in_map. apply settled_in. auto.
    - left. rewrite map_app, in_app_iff. right. exact (micro_cover a o a1 x W H Y).
    - right. apply in_map. apply settled_in. auto. }
  destruct X as [X|X].
  - apply (IH _ W1) in X. apply in_map_iff in X as [x [<- X]]. apply in_map. rewrite in_app_iff in *. destruct X as [X|X]; [auto|right].
    rewrite settled_in in *. rewrite finished_app, removed_app, lost_app, !in_app_iff. tauto.
  - apply in_map_iff in X as [x [<- X]]. apply in_map. rewrite in_app_iff. right.
    rewrite settled_in in *. rewrite finished_app, removed_app, lost_app, !in_app_iff. tauto.
Qed.

(** Whatever span keys requests use: as long as no user code raises and nothing is cancelled, of every accepted request
    one with its key is still there or was finished or removed, and everything there was accepted or found at the start. *)
Theorem receiver_keeps_a_copy q0 lp0 le0 evs s o : preachable no_meta q0 -> usable q0 -> holds q0 lp0 le0 ->
  hrun (setup q0) evs = (s, o) -> closed s = 0%nat ->
  forallb (fun e => negb (failure e)) evs = true ->
  Forall (fun x => dto_ok (data_of x) = true) (accepted o ++ items_p lp0 ++ items_e le0) ->
  exists lp le, holds (hq s) lp le /\
    let here := pushing s ++ items_p lp ++ in_process s ++ items_e le ++ finished o ++ removed o in
    (forall x, In x (accepted o ++ items_p lp0 ++ items_e le0) -> In (key_of x) (map key_of here)) /\
    (forall x, In x here -> In x (accepted o ++ items_p lp0 ++ items_e le0)) /\
    (exists dups, Permutation (accepted o ++ items_p lp0 ++ items_e le0) (here ++ dups)).
Proof.
  intros R U Hh E C F Ok.
  destruct (conservation no_meta dto_ok truthy max_retries q0 lp0 le0 evs s o R U Hh E C) as [lp [le [Hl P]]].
  exists lp, le. split; [auto|].
  assert (Lo : lost o = []).
  { destruct (setup_ok no_meta q0 R U) as [H0 [A0 C0]].
    assert (B : Forall (bad dto_ok) (lost o)) by (eapply hrun_lost; eauto; congruence).
    destruct (lost o) as [|x l] eqn:L; [reflexivity|]. inversion B; subst. exfalso.
    assert (X : In x (accepted o ++ items_p lp0 ++ items_e le0)).
    { eapply Permutation_in; [symmetry; exact P|]. rewrite !in_app_iff. cbn. tauto. }
    rewrite Forall_forall in Ok. specialize (Ok _ X). unfold bad in *. congruence. }
  destruct (holds_unique q0 lp0 le0 (preachable_inv no_meta q0 R) U Hh) as [-> ->].
  destruct (run_facts no_meta dto_ok truthy max_retries q0 evs s o R U E C) as [H [Ms [W I]]].
  destruct (run_contents no_meta s lp le H Hl) as [-> ->].
  cbv zeta. split; [|split].
  - intros x Hx. assert (K : In (key_of x) (map key_of (accepted o ++ a_items (mkA [] (pc q0) None (ec q0))))).
    { rewrite I. now apply in_map. }
    apply (micros_cover _ _ _ _ Ms W) in K. unfold settled in K. rewrite Lo, app_nil_r, (abs_items no_meta) in K by auto.
    rewrite !map_app, !in_app_iff in *. tauto.
  - intros x Hx. eapply Permutation_in; [symmetry; exact P|]. rewrite !in_app_iff in *. tauto.
  - exists (dropped o ++ lost o). rewrite P. perm.
Qed.

(** ** Calls of [run] waiting for their metadata *)
Theorem hstep_collecting s ev s' o : hstep s ev = (s', o) ->
  match ev with
  | ERequest k d => collecting s' = (if recv_paused s then collecting s else collecting s ++ [(k, d)]) /\ accepted o = []
  | ECollected i m => collecting s' = del_nth i (collecting s) /\
      accepted o = match nth_error (collecting s) i with Some (k, d) => [(k, d, m)] | None => [] end
  | ECollectFails i => collecting s' = del_nth i (collecting s) /\ accepted o = []
  | _ => collecting s' = collecting s /\ accepted o = []
  end.
Proof.
  assert (Nil : forall i, nth_error (collecting s) i = None -> del_nth i (collecting s) = collecting s).
  { clear. intros i. generalize (collecting s). intros l. revert i. induction l as [|x l IH]; intros [|i] H; cbn in *; try discriminate; auto.
    f_equal. auto. }
  assert (Fin : forall i x l s1 o1, finish_task s i = (s1, o1) -> (s1, x ++ o1) = (s', o) -> accepted x = l ->
    collecting s' = collecting s /\ accepted o = l).
  { intros i x l s1 o1 F X Hx. injection X as <- <-. apply accepted_finish in F as [A [_ [_ B]]].
    rewrite accepted_app, A, Hx, app_nil_r. auto. }
  intros E. destruct ev as [k d|i m|i|i|i|i r|i| | | | | |k|k|k| |]; cbn [HandlerModel.hstep] in E.
  - destruct (recv_paused s); injection E as <- <-; auto.
  - destruct (nth_error (collecting s) i) as [[k d]|] eqn:N; injection E as <- <-; [|rewrite Nil; auto].
    split; [|reflexivity]. now rewrite (proj2 (check_recv _)).
  - destruct (nth_error (collecting s) i) as [[k d]|] eqn:N; injection E as <- <-; [|rewrite Nil]; auto.
  - destruct (nth_error (pushing s) i) as [[[k d] m]|]; [|injection E as <- <-; auto].
    unfold h_push_pending in E. destruct (push_pending _ _ _ _ _ _); injection E as <- <-; [destruct (has _ _)|]; auto.
  - destruct (nth_error (pushing s) i) as [[[k d] m]|]; injection E as <- <-; auto.
  - unfold task_step in E. destruct (nth_error (tasks s) i) as [t|]; [|injection E as <- <-; auto]. destruct t as [|e|e|e b|].
    + apply accepted_loop in E as [A [_ [_ B]]]. auto.
    + destruct r; try (injection E as <- <-; auto; fail).
      destruct (finish_task s i) as [s1 o1] eqn:F. apply (Fin i [HLost (item_p e); HExn "user"] [] s1 o1); auto.
    + destruct r; try (injection E as <- <-; auto; fail).
      destruct (finish_task s i) as [s1 o1] eqn:F. apply (Fin i [HLost (item_p e); HExn "user"] [] s1 o1); auto.
    + assert (St : (let (s1, o1) := settle no_meta max_retries s e b in let (s2, o2) := loop dto_ok s1 i in (s2, o1 ++ o2)) = (s', o) ->
        collecting s' = collecting s /\ accepted o = []).
      { clear E. intros E. destruct (settle no_meta max_retries s e b) as [s1 o1] eqn:S. destruct (loop dto_ok s1 i) as [s2 o2] eqn:L.
        injection E as <- <-. apply accepted_settle in S as [A [_ [_ B]]]. apply accepted_loop in L as [A2 [_ [_ B2]]].
        rewrite accepted_app, A, A2. split; [congruence|reflexivity]. }
      destruct r; auto.
      destruct (finish_task s i) as [s1 o1] eqn:F. apply (Fin i [HLost (item_p e); HExn "user"] [] s1 o1); auto.
    + injection E as <- <-; auto.
  - unfold cancel_task in E. destruct (nth_error (tasks s) i) as [t|]; [|injection E as <- <-; auto]. destruct t as [|e|e|e b|].
    + injection E as <- <-; auto.
    + destruct (finish_task s i) as [s1 o1] eqn:F. apply (Fin i [HLost (item_p e)] [] s1 o1); auto.
    + destruct (finish_task s i) as [s1 o1] eqn:F. apply (Fin i [HLost (item_p e)] [] s1 o1); auto.
    + destruct (finish_task s i) as [s1 o1] eqn:F. apply (Fin i [HLost (item_p e)] [] s1 o1); auto.
    + injection E as <- <-; auto.
  - injection E as <- <-; auto.
  - injection E as <- <-. split; [|reflexivity]. now rewrite (proj2 (check_recv _)).
  - injection E as <- <-; auto.
  - injection E as <- <-. split; [|reflexivity]. now rewrite (proj2 (check_recv _)).
  - destruct (move_all no_meta (hq s)); injection E as <- <-; [|auto]. split; [now rewrite (proj2 (check_recv _))|].
    clear. induction (entries (errq (hq s))) as [|e l IH]; [reflexivity|]. cbn [flat_map]. rewrite accepted_app, IH. destruct (has _ _); reflexivity.
  - destruct (move_one no_meta (hq s) k) as [[q r]|x]; injection E as <- <-; [|auto]. split; [now rewrite (proj2 (check_recv _))|].
    rewrite accepted_app, (proj1 (reply_quiet dto_ok truthy r)). destruct (lookup _ _); [destruct (has _ _)|]; reflexivity.
  - destruct (pop_error_key (hq s) k) as [[q r]|x]; injection E as <- <-; [|auto]. split; [reflexivity|].
    rewrite accepted_app, (proj1 (reply_quiet dto_ok truthy r)). destruct (lookup _ _); reflexivity.
  - destruct (inspect_error_key (hq s) k) as [r|x]; injection E as <- <-; [|auto]. split; [reflexivity|].
    apply (reply_quiet dto_ok truthy r).
  - injection E as <- <-. split; [reflexivity|]. apply accepted_clear.
  - unfold shut_down_check in E.
    destruct (_ && _); [|injection E as <- <-; auto]. destruct (q_shut_down _); [|injection E as <- <-; auto].
    destruct (q_shut_down _); [|injection E as <- <-; auto]. destruct (fut_done _); injection E as <- <-; auto.
Qed.
End ReceiverSide.
