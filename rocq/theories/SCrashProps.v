(** Properties of buffered senders whose process dies at any moment, any number of times: C86, C87. *)
From Coq Require Import List ZArith NArith Bool String Lia Permutation.
From Verif Require Import Base PQueueModel PQueueSpec PQueueProofs PendingModel PendingSpec PendingProofs
  SenderModel SenderSpec SenderProps SCrashModel SCrashProofs SCrashProofs2.
From Verif Require CrashProofs2.
Import ListNotations.
Local Open Scope Z_scope.

(** ** Concrete lives for the examples: seven messages are enqueued, the first is delivered, the second meets a busy
    server; then the process dies. *)
Notation se_lives := (s_lives (M:=N) 0%N se_dto se_true false 2).
Definition sx_evs1 : list (sev N) :=
  [SEnqueue 1 10; SEnqueue 2 20; SEnqueue 3 30; SEnqueue 4 40; SEnqueue 5 50; SEnqueue 6 60; SEnqueue 7 70;
   STask 0 ROk; STask 0 ROk; STask 0 RRetryable]%N.
Definition sx_s1 := fst (se_run (s_setup se_q0) sx_evs1).
Definition sx_o1 := snd (se_run (s_setup se_q0) sx_evs1).
Definition sx_f1 := files_of (sq sx_s1).

Example sx_life1 : se_lives sx_o1 10 sx_f1.
Proof.
  replace sx_o1 with ([] ++ sx_o1 ++ []) by (now rewrite app_nil_r). change 10 with (0 + (4 * 2 + 2)).
  eapply (sl_life 0%N se_dto se_true false 2 [] 0 ([], []) 2 sx_evs1 sx_s1 sx_o1 SShutDown);
    [constructor|lia|apply surjective_pairing|vm_compute; reflexivity|apply sc_before].
Qed.

(** What the next start-up finds: messages 5 and 6; 3 was being sent, and 4, 7 and 2 were in the pages in memory. *)
Example sx_crash1 : map fst (enqueued sx_o1) = [1; 2; 3; 4; 5; 6; 7]%N /\ map fst (delivered sx_o1) = [1%N] /\
  map fst (contents (pend (pq_open 2 (fst sx_f1) (snd sx_f1)))) = [5; 6]%N /\ map pe_key (in_hand sx_s1) = [3%N].
Proof. vm_compute. repeat split. Qed.

(** In a second life 5 meets a busy server twice and 6 another exception; the operator puts both back and the process
    dies after the first of them has been moved. *)
Definition sx_evs2 : list (sev N) := [STask 0 ROk; STask 0 RRetryable; STask 0 (RFails "boom"); STask 0 RRetryable].
Definition sx_s2 := fst (se_run (s_setup (pq_open 2 (fst sx_f1) (snd sx_f1))) sx_evs2).
Definition sx_o2 := snd (se_run (s_setup (pq_open 2 (fst sx_f1) (snd sx_f1))) sx_evs2).
Example sx_crash2 : map (fun e => (fst e, ee_reason (snd e))) (contents (errq (sq sx_s2))) =
  [(6%N, "boom"%string); (5%N, "Max retries reached."%string)] /\ contents (pend (sq sx_s2)) = [].
Proof. vm_compute. repeat split. Qed.
Definition sx_point := nth 2 (move_all_points 0%N 2 (sq sx_s2)) (([], []), []).
Definition sx_f2 := fst sx_point.
Definition sx_o2' : list (sout N) := s_moved_outs (all_entries (pend (sq sx_s2))) (snd sx_point).
Example sx_point_moved : map fst (snd sx_point) = [6%N] /\ sx_o2' = [OReprocessed 6%N; OQueued 6%N].
Proof. vm_compute. split; reflexivity. Qed.
Example sx_life2 : se_lives (sx_o1 ++ sx_o2 ++ sx_o2') 20 sx_f2.
Proof.
  change 20 with (10 + (4 * 2 + 2)).
  eapply (sl_life 0%N se_dto se_true false 2 sx_o1 10 sx_f1 2 sx_evs2 sx_s2 sx_o2 SReprocessAll);
    [exact sx_life1|lia|apply surjective_pairing|vm_compute; reflexivity|].
  apply sc_moving_all. vm_compute. do 2 right. now left.
Qed.

(** ** C86: enqueued messages and crashes *)

(** The full claim: what was enqueued, and is neither delivered nor removed by an operator, is in one of the queues of
    the next life, whatever crashes happened. *)
Definition C86_enqueued_messages_survive_crashes : Prop :=
  forall (D M : Type) (no_meta : M) (dto_ok truthy : D -> bool) (wait : bool) (max_retries : Z) outs n f ps lp le,
  s_lives no_meta dto_ok truthy wait max_retries outs n f -> 1 <= ps -> holds (pq_open ps (fst f) (snd f)) lp le ->
  forall x, In x (enqueued outs) -> ~ In x (delivered outs) -> ~ In x (s_removed outs) ->
  ~ In x (s_dropped outs) -> ~ In x (s_lost outs) -> In x (msgs_p lp) \/ In x (msgs_e le).

(** False: a crash takes the pages in memory and the message being sent with it. *)
Theorem C86_enqueued_messages_survive_crashes_refuted : ~ C86_enqueued_messages_survive_crashes.
Proof.
  intros H.
  destruct (s_lives_ok 0%N se_dto se_true false 2 _ _ _ sx_life1) as [Pf _].
  assert (R : preachable 0%N (pq_open 2 (fst sx_f1) (snd sx_f1))).
  { destruct (CrashProofs2.start_facts 0%N 2 sx_f1 Pf ltac:(lia)) as [R _]. exact R. }
  assert (U : usable (pq_open 2 (fst sx_f1) (snd sx_f1))) by (split; vm_compute; discriminate).
  assert (G := H N N 0%N se_dto se_true false 2 _ _ _ 2 _ _ sx_life1 ltac:(lia)
    (holds_contents _ (preachable_inv 0%N _ R) U) (7, 70)%N).
  vm_compute in G.
  destruct G as [G|G]; try (intros X; repeat destruct X as [X|X]; try discriminate X; try contradiction).
  - do 6 right. now left.
  - repeat destruct G as [G|G]; try discriminate G; contradiction.
  - contradiction.
Qed.
Print Assumptions C86_enqueued_messages_survive_crashes_refuted.

(** True: for any number of lives with any events, each ended by a crash at any point (between the commits of a call,
    of the shut-down or of the start-up) or gracefully, every enqueued message is, exactly once, pending or in error in
    the next life, delivered, removed, dropped as a duplicate, lost to a failure, or among those lost by crashes, and these
    are never more than the bound of [s_lives]: per crash four pages and two messages; a graceful end loses none. *)
Theorem C86_enqueued_messages_survive_crashes_partial :
  forall (D M : Type) (no_meta : M) (dto_ok truthy : D -> bool) (wait : bool) (max_retries : Z) outs n f ps,
  s_lives no_meta dto_ok truthy wait max_retries outs n f -> 1 <= ps ->
  exists lp le crashed, holds (pq_open ps (fst f) (snd f)) lp le /\
    Permutation (enqueued outs)
      (msgs_p lp ++ msgs_e le ++ delivered outs ++ s_removed outs ++ s_dropped outs ++ s_lost outs ++ crashed) /\
    Z.of_nat (List.length crashed) <= n.
Proof. exact (@s_crash_accounting). Qed.
Print Assumptions C86_enqueued_messages_survive_crashes_partial.

(** The second crash took all that the first had left: it was in the pages in memory. A third life meets a busy server
    with a new message and is shut down gracefully, and this message is there afterwards. *)
Definition sx_q3 : pqueue N N := pq_open 3 (fst sx_f2) (snd sx_f2).
Definition sx_evs3 : list (sev N) := [SEnqueue 8 80; STask 0 ROk; SPause; STask 0 RRetryable]%N.
Definition sx_s3 := fst (se_run (s_setup sx_q3) sx_evs3).
Definition sx_o3 := snd (se_run (s_setup sx_q3) sx_evs3).
Definition sx_s4 := fst (se_step sx_s3 SShutDown).
Definition sx_o4 := snd (se_step sx_s3 SShutDown).
Definition sx_outs := (sx_o1 ++ sx_o2 ++ sx_o2') ++ sx_o3 ++ sx_o4.
Example sx_life3 : se_lives sx_outs 20 (files_of (sq sx_s4)).
Proof.
  eapply (sl_graceful 0%N se_dto se_true false 2 _ 20 sx_f2 3 sx_evs3 sx_s3 sx_o3 SShutDown);
    [exact sx_life2|lia|apply surjective_pairing|vm_compute; reflexivity|apply surjective_pairing|vm_compute; discriminate].
Qed.
Example C86_example :
  map fst (enqueued sx_outs) = [1; 2; 3; 4; 5; 6; 7; 8]%N /\ map fst (contents (pend sx_q3)) = [] /\
  map fst (delivered sx_outs) = [1%N] /\
  map (fun e => (fst e, pe_retries (snd e))) (contents (pend (pq_open 3 (fst (files_of (sq sx_s4))) (snd (files_of (sq sx_s4)))))) = [(8%N, 1)].
Proof. vm_compute. repeat split. Qed.

(** ** C87: attempts and crashes *)

(** For messages with distinct keys, over any number of crashed or graceful lives: each is in at most one place and none
    is dropped; none is given to the client more than max(1, max_retries) times between two operator commands that put it
    back; what the next life finds pending carries the exact number of its attempts so far, all of which met a busy server
    or exhausted communication, and the data it was enqueued with; what it finds in error has either had all its attempts
    or met another exception in its last one, whose text is the stored reason; a delivered message had one attempt more
    than those that met a busy server, so that it was never tried again after its delivery. *)
Theorem C87_attempts_and_crashes :
  forall (D M : Type) (no_meta : M) (dto_ok truthy : D -> bool) (wait : bool) (max_retries : Z) outs n f ps,
  s_lives no_meta dto_ok truthy wait max_retries outs n f -> 1 <= ps -> NoDup (map fst (enqueued outs)) ->
  exists lp le, holds (pq_open ps (fst f) (snd f)) lp le /\
    NoDup (map fst (msgs_p lp ++ msgs_e le ++ delivered outs ++ s_removed outs)) /\ s_dropped outs = [] /\
    (forall k, 0 <= attempts_of k 0 outs <= Z.max 1 max_retries) /\
    (forall k e, In (k, e) lp -> pe_retries e = attempts_of k 0 outs /\ retryable_of k 0 outs = attempts_of k 0 outs /\
       failure_of k None outs = None /\ attempts_of k 0 outs < Z.max 1 max_retries /\ In (k, pe_data e) (enqueued outs)) /\
    (forall k x, In (k, x) le -> In (k, ee_data x) (enqueued outs) /\
       ((ee_reason x = "Max retries reached."%string /\ failure_of k None outs = None /\
         attempts_of k 0 outs = Z.max 1 max_retries /\ retryable_of k 0 outs = Z.max 1 max_retries) \/
        (failure_of k None outs = Some (ee_reason x) /\ 1 <= attempts_of k 0 outs /\
         attempts_of k 0 outs = retryable_of k 0 outs + 1))) /\
    (forall x, In x (delivered outs) -> failure_of (fst x) None outs = None /\
       attempts_of (fst x) 0 outs = retryable_of (fst x) 0 outs + 1).
Proof. exact (@s_crash_attempts). Qed.
Print Assumptions C87_attempts_and_crashes.

Lemma sx_nodup (l : list N) : (fix nd l := match l with [] => true | x :: r => negb (existsb (N.eqb x) r) && nd r end) l = true -> NoDup l.
Proof.
  induction l as [|x r IH]; intros H; constructor; apply andb_prop in H as [A B]; [|apply IH; exact B].
  intros I. apply negb_true_iff in A. assert (X : existsb (N.eqb x) r = true) by (apply existsb_exists; exists x; split; [auto|apply N.eqb_refl]).
  congruence.
Qed.

Example C87_example : NoDup (map fst (enqueued sx_outs)) /\
  attempts_of 5 0 sx_outs = 2 /\ attempts_of 1 0 sx_outs = 1 /\ attempts_of 8 0 sx_outs = 1 /\ retryable_of 8 0 sx_outs = 1.
Proof. split; [apply sx_nodup; vm_compute; reflexivity|vm_compute; auto]. Qed.
