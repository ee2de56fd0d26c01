(** Proofs about messages between two applications: what a step of the sender does to its tasks. *)
From Coq Require Import List ZArith NArith Bool String Lia Permutation.
From Verif Require Import Base PermTac PQueueModel PQueueSpec PQueueProofs PendingModel PendingSpec PendingProofs
  SenderModel SenderSpec SenderProofs SenderProofs2 SenderProofs3
  DeliveryModel DeliverySpec.
Import ListNotations.
Local Open Scope Z_scope.

(** ** Lists *)
Lemma put_nth_other {A} i j (x : A) l : j <> i -> nth_error (put_nth i x l) j = nth_error l j.
Proof. revert i j. induction l as [|y l IH]; intros [|i] [|j] H; cbn; try reflexivity; [lia|apply IH; lia]. Qed.
Lemma put_nth_same {A} i (x y : A) l : nth_error l i = Some y -> nth_error (put_nth i x l) i = Some x.
Proof. revert i. induction l as [|z l IH]; intros [|i] H; cbn in *; try discriminate; auto. Qed.
Lemma put_nth_len {A} i (x : A) l : List.length (put_nth i x l) = List.length l.
Proof. revert i. induction l as [|z l IH]; intros [|i]; cbn; auto. Qed.

Section SenderSide.
Context {D M : Type}.
Variable no_meta : M.
Variables dto_ok truthy : D -> bool.
Variable wait : bool.
Variable max_retries : Z.
Notation sstate := (sstate D M). Notation sout := (sout D). Notation sev := (sev D).
Notation sstep := (sstep (M:=M) no_meta dto_ok truthy wait max_retries).
Implicit Types (s : sstate) (o : list sout) (ev : sev).

Lemma s_shut_tasks s : stasks (fst (s_shut_check s)) = stasks s /\ delivered (snd (s_shut_check s)) = [].
Proof.
  unfold s_shut_check. destruct (_ && _); [|auto]. destruct (q_shut_down _); [|auto]. destruct (q_shut_down _); [|auto].
  destruct (sfut _); auto.
Qed.
Lemma s_finish_tasks s i : stasks (fst (s_finish s i)) = put_nth i SDone (stasks s) /\ delivered (snd (s_finish s i)) = [].
Proof. unfold s_finish. apply s_shut_tasks. Qed.
Lemma s_check_tasks s : stasks (s_check s) = stasks s \/ stasks (s_check s) = stasks s ++ [SCreated].
Proof.
  unfold s_check. destruct (scur s) as [i|]; [|auto]. destruct (nth_error (stasks s) i) as [t|]; [|auto].
  destruct t; auto.
Qed.
Lemma s_check_nth s i t : nth_error (stasks s) i = Some t -> nth_error (stasks (s_check s)) i = Some t.
Proof. intros H. destruct (s_check_tasks s) as [->| ->]; [auto|]. rewrite nth_error_app1; [auto|]. apply nth_error_Some. congruence. Qed.
Lemma s_check_sending s i e : nth_error (stasks (s_check s)) i = Some (SSending e) -> nth_error (stasks s) i = Some (SSending e).
Proof.
  intros H. destruct (s_check_tasks s) as [E|E]; rewrite E in H; [auto|].
  destruct (Nat.lt_ge_cases i (List.length (stasks s))) as [L|L]; [now rewrite nth_error_app1 in H|].
  rewrite nth_error_app2 in H by auto. destruct (i - _)%nat as [|[|n]]; cbn in H; discriminate.
Qed.

(** What one loop head leaves: the tasks but [i] as they were, and the message it sends recorded. *)
Lemma s_loop_tasks s i s' o : s_loop dto_ok wait s i = (s', o) ->
  (exists t, stasks s' = put_nth i t (stasks s) /\ forall e, t = SSending e -> In (OSend (pe_key e) (pe_data e)) o) /\
  delivered o = [].
Proof.
  unfold s_loop. intros E.
  assert (F : forall s0 (s1 : sstate) o1 pre, stasks s0 = stasks s -> s_finish s0 i = (s1, o1) -> delivered pre = [] ->
    (exists t, stasks s1 = put_nth i t (stasks s) /\ forall e, t = SSending e -> In (OSend (pe_key e) (pe_data e)) (pre ++ o1)) /\
    delivered (pre ++ o1) = []).
  { intros s0 s1 o1 pre T F P. destruct (s_finish_tasks s0 i) as [A B]. rewrite F in A, B. cbn [fst snd] in *. rewrite T in A. split.
    - exists SDone. split; [auto|]. discriminate.
    - unfold delivered in *. now rewrite flat_map_app, P, B. }
  destruct (_ && _); [|now apply (F s s' o [])].
  destruct (pop_pending (sq s)) as [[q [e|]]|x].
  - destruct (dto_ok (pe_data e)).
    + destruct wait; injection E as <- <-; (split; [|reflexivity]).
      * exists (SWaiting e). split; [reflexivity|discriminate].
      * exists (SSending e). split; [reflexivity|]. intros e' X. injection X as <-. cbn. auto.
    + destruct (s_finish (set_sq s q) i) as [s1 o1] eqn:Fi. injection E as <- <-.
      apply (F (set_sq s q) s1 o1 [OLost (msg_p e); OExn "ValidationError"]); auto.
  - destruct (s_finish (set_sq s q) i) as [s1 o1] eqn:Fi. injection E as <- <-.
    apply (F (set_sq s q) s1 o1 [OExn "AttributeError"]); auto.
  - destruct (s_finish s i) as [s1 o1] eqn:Fi. injection E as <- <-. apply (F s s1 o1 [OExn x]); auto.
Qed.

Lemma s_settle_tasks s e r s' o : s_settle no_meta max_retries s e r = (s', o) ->
  stasks s' = stasks s /\ delivered o = match r with SenderModel.ROk => [msg_p e] | _ => [] end.
Proof.
  unfold s_settle, s_push_error, s_push_pending. destruct r.
  - intros E. injection E as <- <-. auto.
  - destruct (_ <=? _).
    + destruct (push_error _ _ _ _ _ _); intros E; injection E as <- <-; [destruct (has _ _)|]; auto.
    + destruct (push_pending _ _ _ _ _ _); intros E; injection E as <- <-; [destruct (has _ _)|]; auto.
  - destruct (push_error _ _ _ _ _ _); intros Eq; injection Eq as <- <-; [destruct (has _ _)|]; auto.
Qed.

Lemma s_reply_delivered r : delivered (s_reply dto_ok truthy r) = [].
Proof. unfold s_reply. destruct r as [d|]; [|auto]. destruct (truthy d), (dto_ok d); auto. Qed.

(** The task an event lets run. *)
Definition target ev : option nat := match ev with STask i _ | SCancel i => Some i | _ => None end.
Definition delivers s ev : list (msg D) :=
  match ev with
  | STask i SenderModel.ROk => match nth_error (stasks s) i with Some (SSending e) => [msg_p e] | _ => [] end
  | _ => []
  end.

Lemma delivered_cat o o' : delivered (o ++ o') = delivered o ++ delivered o'. Proof. apply flat_map_app. Qed.

Theorem sstep_tasks s ev s' o : sstep s ev = (s', o) ->
  (forall i t, target ev <> Some i -> nth_error (stasks s) i = Some t -> nth_error (stasks s') i = Some t) /\
  (forall i e, nth_error (stasks s') i = Some (SSending e) ->
     (target ev <> Some i /\ nth_error (stasks s) i = Some (SSending e)) \/ In (OSend (pe_key e) (pe_data e)) o) /\
  delivered o = delivers s ev.
Proof.
  assert (Tk : forall (s' : sstate) o i t, stasks s' = put_nth i t (stasks s) ->
    (forall e, t = SSending e -> In (OSend (pe_key e) (pe_data e)) o) ->
    (forall j u, Some i <> Some j -> nth_error (stasks s) j = Some u -> nth_error (stasks s') j = Some u) /\
    (forall j e, nth_error (stasks s') j = Some (SSending e) ->
       (Some i <> Some j /\ nth_error (stasks s) j = Some (SSending e)) \/ In (OSend (pe_key e) (pe_data e)) o)).
  { intros s1 o1 i t E T. rewrite E. split.
    - intros j u Hj Hn. rewrite put_nth_other; [auto|congruence].
    - intros j e Hj. destruct (Nat.eq_dec j i) as [->|Ne].
      + right. apply T. destruct (nth_error (stasks s) i) as [u|] eqn:U; [|].
        * rewrite (put_nth_same _ _ _ _ U) in Hj. congruence.
        * exfalso. apply nth_error_None in U. rewrite <- (put_nth_len i t) in U. apply nth_error_None in U. congruence.
      + left. split; [congruence|]. now rewrite put_nth_other in Hj. }
  assert (Same : forall (s' : sstate) o, stasks s' = stasks s ->
    (forall j u, @None nat <> Some j -> nth_error (stasks s) j = Some u -> nth_error (stasks (s_check s')) j = Some u) /\
    (forall j e, nth_error (stasks (s_check s')) j = Some (SSending e) ->
       (@None nat <> Some j /\ nth_error (stasks s) j = Some (SSending e)) \/ In (OSend (pe_key e) (pe_data e)) o) /\
    (forall j u, @None nat <> Some j -> nth_error (stasks s) j = Some u -> nth_error (stasks s') j = Some u) /\
    (forall j e, nth_error (stasks s') j = Some (SSending e) ->
       (@None nat <> Some j /\ nth_error (stasks s) j = Some (SSending e)) \/ In (OSend (pe_key e) (pe_data e)) o)).
  { intros s1 o1 E. split; [|split; [|split]]; rewrite <- ?E.
    - intros. now apply s_check_nth.
    - intros j e H. left. split; [discriminate|]. now apply s_check_sending.
    - auto.
    - intros j e H. left. split; [discriminate|auto]. }
  intros E. destruct ev as [k d|i r|i| | | |k|k|k| |]; cbn [SenderModel.sstep target delivers] in *.
  - destruct (s_push_pending no_meta s k d 0) as [s1 o1] eqn:P. injection E as <- <-.
    assert (X : stasks s1 = stasks s /\ delivered o1 = []).
    { unfold s_push_pending in P. destruct (push_pending _ _ _ _ _ _); injection P as <- <-; [destruct (has _ _)|]; auto. }
    destruct X as [X Y]. destruct (Same s1 (o1 ++ [OEnqueued (k, d)]) X) as [A [B _]]. split; [auto|split; [auto|]].
    rewrite delivered_cat, Y. reflexivity.
  - unfold s_task in E. destruct (nth_error (stasks s) i) as [t|] eqn:T.
    2:{ injection E as <- <-. split; [auto|]. split; [|destruct r; reflexivity]. intros j e H. left. split; [|auto]. intros X. congruence. }
    destruct t as [|e|e|].
    + destruct (s_loop_tasks _ _ _ _ E) as [[t [A B]] C]. cbn [set_srunning stasks] in A.
      destruct (Tk s' o i t A B) as [G1 G2]. split; [auto|split; [auto|]]. rewrite C. destruct r; reflexivity.
    + injection E as <- <-. destruct (Tk (set_stask s i (SSending e)) [OSend (pe_key e) (pe_data e)] i (SSending e) eq_refl) as [G1 G2].
      { intros e' X. injection X as <-. now left. }
      split; [auto|split; [auto|]]. destruct r; reflexivity.
    + destruct (s_settle no_meta max_retries s e r) as [s1 o1] eqn:S. destruct (s_loop dto_ok wait s1 i) as [s2 o2] eqn:L.
      injection E as <- <-. destruct (s_settle_tasks _ _ _ _ _ S) as [A B]. destruct (s_loop_tasks _ _ _ _ L) as [[t [C F]] G].
      rewrite A in C. destruct (Tk s2 (o1 ++ o2) i t C) as [G1 G2].
      { intros e' X. apply in_or_app. right. auto. }
      split; [auto|split; [auto|]]. rewrite delivered_cat, B, G, app_nil_r. reflexivity.
    + injection E as <- <-. split; [auto|]. split; [|destruct r; reflexivity]. intros j e H. left. split; [|auto]. intros X. congruence.
  - unfold s_cancel in E. destruct (nth_error (stasks s) i) as [t|] eqn:T.
    2:{ injection E as <- <-. split; [auto|]. split; [|reflexivity]. intros j e H. left. split; [|auto]. intros X. congruence. }
    assert (Fin : forall e : pentry D M, (let (s', o) := s_finish s i in (s', OLost (msg_p e) :: o)) = (s', o) ->
      (forall j u, Some i <> Some j -> nth_error (stasks s) j = Some u -> nth_error (stasks s') j = Some u) /\
      (forall j e, nth_error (stasks s') j = Some (SSending e) ->
       (Some i <> Some j /\ nth_error (stasks s) j = Some (SSending e)) \/ In (OSend (pe_key e) (pe_data e)) o) /\ delivered o = []).
    { intros e X. destruct (s_finish_tasks s i) as [A B]. destruct (s_finish s i) as [s1 o1]. injection X as <- <-. cbn [fst snd] in *.
      destruct (Tk s1 (OLost (msg_p e) :: o1) i SDone A) as [G1 G2]; [discriminate|]. split; [auto|split; [auto|exact B]]. }
    destruct t as [|e|e|]; [|now apply (Fin e)|now apply (Fin e)|].
    + injection E as <- <-. destruct (Tk (set_stask s i SDone) [] i SDone eq_refl) as [G1 G2]; [discriminate|]. auto.
    + injection E as <- <-. split; [auto|]. split; [|reflexivity]. intros j e H. left. split; [|auto]. intros X. congruence.
  - injection E as <- <-. destruct (Same (set_spaused s true) [] eq_refl) as [_ [_ [A B]]]. auto.
  - injection E as <- <-. destruct (Same (set_spaused s false) [] eq_refl) as [A [B _]]. auto.
  - destruct (move_all no_meta (sq s)) as [q|x]; injection E as <- <-.
    + destruct (Same (set_spaused (set_sq s q) false) (flat_map (fun e => OReprocessed (fst e) ::
                             [if has (fst e) (all_entries (pend (sq s))) then ODropped (msg_e (snd e))
                              else OQueued (fst e)]) (all_entries (errq (sq s)))) eq_refl) as [A [B _]]. split; [auto|split; [auto|]].
      unfold delivered. clear. induction (all_entries (errq (sq s))) as [|e l IH]; [reflexivity|]. cbn [flat_map].
      rewrite flat_map_app, IH. destruct (has _ _); reflexivity.
    + destruct (Same (set_spaused s true) [OExn x] eq_refl) as [_ [_ [A B]]]. auto.
  - destruct (move_one no_meta (sq s) k) as [[q r]|x]; injection E as <- <-.
    + match goal with |- _ /\ (forall i e, _ -> _ \/ In _ ?o) /\ _ =>
        destruct (Same (set_spaused (set_sq s q) false) o eq_refl) as [A [B _]] end.
      split; [auto|split; [auto|]]. rewrite delivered_cat, s_reply_delivered.
      destruct (lookup _ _); [destruct (has _ _)|]; reflexivity.
    + destruct (Same (set_spaused s true) [OExn x] eq_refl) as [_ [_ [A B]]]. auto.
  - destruct (pop_error_key (sq s) k) as [[q r]|x]; injection E as <- <-.
    + match goal with |- _ /\ (forall i e, _ -> _ \/ In _ ?o) /\ _ =>
        destruct (Same (set_sq s q) o eq_refl) as [_ [_ [A B]]] end.
      split; [auto|split; [auto|]]. rewrite delivered_cat, s_reply_delivered. destruct (lookup _ _); reflexivity.
    + destruct (Same s [OExn x] eq_refl) as [_ [_ [A B]]]. auto.
  - destruct (inspect_error_key (sq s) k) as [r|x]; injection E as <- <-.
    + destruct (Same s (s_reply dto_ok truthy r) eq_refl) as [_ [_ [A B]]]. rewrite s_reply_delivered. auto.
    + destruct (Same s [OExn x] eq_refl) as [_ [_ [A B]]]. auto.
  - injection E as <- <-.
    destruct (Same (set_sq s (clear_error (sq s))) (map (fun e => ORemoved (msg_e (snd e))) (all_entries (errq (sq s)))) eq_refl)
      as [_ [_ [A B]]]. split; [auto|split; [auto|]].
    unfold delivered. clear. induction (all_entries (errq (sq s))) as [|e l IH]; [reflexivity|]. exact IH.
  - destruct (s_shut_tasks (set_sshut (set_spaused s true) true)) as [A B]. rewrite E in A, B. cbn [fst snd] in *.
    destruct (Same s' o A) as [_ [_ [G H]]]. auto.
Qed.

(** Whatever a run gave the client was enqueued or there at the start. *)
Notation ast := (@ast D M).
Notation astep := (@astep D M no_meta dto_ok truthy wait max_retries).
Lemma a_loop_sends (a : ast) k d : In (OSend k d) (snd (a_loop dto_ok wait a)) -> In (k, d) (msgs_p (al a)).
Proof.
  unfold a_loop. destruct (ap a); [intros []|]. destruct (al a) as [|[k' e] l]; [intros []|].
  destruct (dto_ok (pe_data e)); [destruct wait|]; cbn; intuition; try discriminate.
  left. unfold msg_p. congruence.
Qed.

Lemma settle_msgs (a : ast) e r x : In x (msgs_p (al (fst (a_settle no_meta max_retries a e r)))) ->
  In x (msgs_p (al a)) \/ x = msg_p e.
Proof.
  unfold a_settle, a_err, a_pend. destruct r; cbn [fst with_e with_l al]; auto.
  destruct (_ <=? _); cbn [fst with_e with_l al]; auto. unfold add. destruct (has _ _); auto.
  unfold msgs_p. rewrite map_app, in_app_iff. cbn. unfold msg_p at 2. cbn. intros [H|[H|[]]]; auto.
Qed.
Lemma reply_sends r k d : ~ In (OSend k d) (s_reply dto_ok truthy r).
Proof. unfold s_reply. destruct r as [y|]; [|intros [H|[]]; discriminate]. destruct (truthy y), (dto_ok y); intros [H|[]]; discriminate. Qed.

Lemma astep_sends (a : ast) ev k d : In (OSend k d) (snd (astep a ev)) -> In (k, d) (a_msgs a).
Proof.
  unfold a_msgs. intros H. rewrite !in_app_iff.
  destruct ev as [k' d'|i r|i| | | |k'|k'|k'| |]; cbn [SenderProofs.astep snd] in H; try (now destruct H).
  - unfold a_pend in H. cbn [snd] in H. rewrite in_app_iff in H. destruct H as [[H|[]]|[H|[]]]; [|discriminate]. destruct (has _ _); discriminate.
  - destruct (Nat.eqb i (an a)); [|now destruct H]. destruct (at_ a) as [|e|e|] eqn:T; cbn [snd] in H.
    + left. now apply a_loop_sends in H.
    + destruct H as [H|[]]. injection H as <- <-. right. left. now left.
    + rewrite in_app_iff in H. destruct H as [H|H].
      * exfalso. revert H. unfold a_settle, a_err, a_pend.
        destruct r; [|destruct (_ <=? _)|]; cbn [snd In]; try destruct (has _ _); intuition discriminate.
      * apply a_loop_sends, settle_msgs in H. destruct H as [H|H]; [auto|]. right. left. left. now symmetry.
    + destruct H.
  - destruct (Nat.eqb i (an a)); [|now destruct H]. destruct (at_ a); cbn [snd] in H; try (now destruct H); destruct H as [H|[]]; discriminate.
  - unfold a_all_outs in H. apply in_flat_map in H as [e [_ [H|[H|[]]]]]; [discriminate|]. destruct (has _ _); discriminate.
  - destruct (lookup k' (ae a)) as [x|]; cbn [snd] in H.
    + cbn [app In] in H. destruct H as [H|[H|H]]; [discriminate|destruct (has _ _); discriminate|]. now apply reply_sends in H.
    + destruct H as [H|[]]; discriminate.
  - destruct (lookup k' (ae a)) as [x|]; cbn [snd] in H.
    + cbn [app In] in H. destruct H as [H|H]; [discriminate|]. now apply reply_sends in H.
    + destruct H as [H|[]]; discriminate.
  - now apply reply_sends in H.
  - apply in_map_iff in H as [e [H _]]. discriminate.
Qed.

Theorem sent_was_enqueued q0 lp0 le0 evs s o k d : preachable no_meta q0 -> usable q0 -> holds q0 lp0 le0 ->
  srun no_meta dto_ok truthy wait max_retries (s_setup q0) evs = (s, o) -> sclosed s = 0%nat ->
  In (OSend k d) o -> In (k, d) (enqueued o ++ msgs_p lp0 ++ msgs_e le0).
Proof.
  intros Hr U Hh E C. destruct (holds_unique q0 lp0 le0 (preachable_inv no_meta q0 Hr) U Hh) as [-> ->].
  destruct (run_inv2 no_meta dto_ok truthy wait max_retries
    (fun a o => forall k d, In (OSend k d) o -> In (k, d) (enqueued o ++ init_of q0)) q0 evs s o Hr U) as [a [_ [_ [_ G]]]].
  - intros a o1 ev _ W P I k' d' H. apply in_app_iff in H. rewrite enq_app, !in_app_iff. destruct H as [H|H].
    + apply I in H. rewrite in_app_iff in H. tauto.
    + apply astep_sends in H. unfold Cons in P.
      assert (X : In (k', d') (enqueued o1 ++ init_of q0)) by (eapply Permutation_in; [symmetry; exact P|]; apply in_or_app; auto).
      rewrite in_app_iff in X. tauto.
  - intros k' d' [].
  - exact E.
  - exact C.
  - apply G.
Qed.
End SenderSide.
