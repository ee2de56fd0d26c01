(** Properties of buffered senders: C22, C23, C50, C51, and the senders' part of C12 and C19. *)
From Coq Require Import List ZArith NArith Bool String Lia Permutation.
From Verif Require Import Base PQueueModel PQueueSpec PQueueProofs PendingModel PendingSpec PendingProofs
  SenderModel SenderSpec SenderProofs SenderProofs2 SenderProofs3.
Import ListNotations.
Local Open Scope Z_scope.

(** ** A concrete sender for the examples: numbers as data, data from 1000 on is rejected by the DTO type, 0 is falsy,
    no wait period, two attempts. *)
Definition se_dto (d : N) : bool := (d <? 1000)%N.
Definition se_true (d : N) : bool := negb (d =? 0)%N.
Notation se_run := (srun (M:=N) 0%N se_dto se_true false 2).
Notation se_step := (sstep (M:=N) 0%N se_dto se_true false 2).
Definition se_q0 : pqueue N N := pq_open 2 [] [].
Lemma se_reach : preachable 0%N se_q0. Proof. apply preach_fresh. Qed.
Lemma se_usable : usable se_q0. Proof. split; discriminate. Qed.
Lemma se_holds : holds se_q0 [] [].
Proof. apply (holds_contents se_q0 (preachable_inv 0%N _ se_reach) se_usable). Qed.

(** Four messages: the first is delivered, the second meets a busy server twice, the third fails with another
    exception, the fourth is being sent. *)
Definition se_evs : list (sev N) :=
  [SEnqueue 1 10; SEnqueue 2 20; SEnqueue 3 30; STask 0 ROk; STask 0 ROk; STask 0 RRetryable;
   STask 0 (RFails "boom"); SEnqueue 4 40; STask 0 RRetryable]%N.
Example se_evs_runs : let '(s, o) := se_run (s_setup se_q0) se_evs in sclosed s = 0%nat /\
  enqueued o = [(1, 10); (2, 20); (3, 30); (4, 40)]%N /\ delivered o = [(1, 10)]%N /\
  map (fun e => (pe_key e, pe_retries e)) (in_hand s) = [(4%N, 0)] /\ contents (pend (sq s)) = [] /\
  contents (errq (sq s)) = [(3, mkE 3 30 "boom" 0); (2, mkE 2 20 "Max retries reached." 0)]%N /\
  s_started o = [1; 2; 3; 2; 4]%N /\ sends o = [1; 2; 3; 2; 4]%N /\
  forallb (fun e => negb (cancels e)) se_evs = true.
Proof. vm_compute. repeat split. Qed.

(** ** C22: outcomes of sending are classified *)

(** What one outcome does: success removes the message; a busy server or exhausted communication attempts put it at the
    end of the pending queue with one more retry, or (when that reaches max_retries) into the error queue; any other
    exception puts it into the error queue at once with the exception's text.  Then the next pending message is taken
    unless sending is paused. *)
Theorem C22_outcome_classified :
  forall (D M : Type) (no_meta : M) (dto_ok truthy : D -> bool) (wait : bool) (max_retries : Z) q0 evs s o i e r s' o' lp le,
  preachable no_meta q0 -> usable q0 ->
  srun no_meta dto_ok truthy wait max_retries (s_setup q0) evs = (s, o) -> sclosed s = 0%nat -> sshut s = false ->
  holds (sq s) lp le -> nth_error (stasks s) i = Some (SSending e) ->
  ~ In (pe_key e) (map fst lp) -> ~ In (pe_key e) (map fst le) ->
  Forall (fun x => dto_ok (pe_data (snd x)) = true) lp -> dto_ok (pe_data e) = true ->
  sstep no_meta dto_ok truthy wait max_retries s (STask i r) = (s', o') ->
  delivered o' = accepted_by_client e r /\ s_dropped o' = [] /\ s_lost o' = [] /\
  exists lp', holds (sq s') lp' (le ++ failed no_meta max_retries e r) /\
    (if spaused s then [] else firstn 1 (map fst (lp ++ requeued no_meta max_retries e r))) = map pe_key (in_hand s') /\
    map (fun x => (pe_key x, x)) (in_hand s') ++ lp' = lp ++ requeued no_meta max_retries e r.
Proof. exact (@s_classify). Qed.
Print Assumptions C22_outcome_classified.

(** Over whole runs: the stored retry count is the number of attempts since the message was enqueued or last put back,
    no message is attempted more than max(1, max_retries) times, and a message is in the error queue either after that
    many retryable exceptions or after one other exception, whose text is the stored reason. *)
Theorem C22_attempts :
  forall (D M : Type) (no_meta : M) (dto_ok truthy : D -> bool) (wait : bool) (max_retries : Z) q0 lp0 le0 evs s o,
  preachable no_meta q0 -> usable q0 -> holds q0 lp0 le0 ->
  srun no_meta dto_ok truthy wait max_retries (s_setup q0) evs = (s, o) -> sclosed s = 0%nat ->
  NoDup (map fst (enqueued o ++ msgs_p lp0 ++ msgs_e le0)) ->
  (forall k e, In (k, e) lp0 -> 0 <= pe_retries e < Z.max 1 max_retries) ->
  exists lp le, holds (sq s) lp le /\
    (forall k e, In (k, e) lp -> attempts_of k (s_start lp0 k) o = pe_retries e /\
       retryable_of k (s_start lp0 k) o = pe_retries e /\ failure_of k None o = None /\
       0 <= pe_retries e < Z.max 1 max_retries) /\
    (forall e, In e (in_hand s) ->
       pe_retries e <= attempts_of (pe_key e) (s_start lp0 (pe_key e)) o <= pe_retries e + 1 /\
       retryable_of (pe_key e) (s_start lp0 (pe_key e)) o = pe_retries e /\ failure_of (pe_key e) None o = None /\
       0 <= pe_retries e < Z.max 1 max_retries) /\
    (forall k x, In (k, x) le -> (In k (map fst le0) -> In (OReprocessed k) o) ->
       (ee_reason x = "Max retries reached."%string /\ failure_of k None o = None /\
        attempts_of k (s_start lp0 k) o = Z.max 1 max_retries /\ retryable_of k (s_start lp0 k) o = Z.max 1 max_retries) \/
       (failure_of k None o = Some (ee_reason x) /\ 1 <= attempts_of k (s_start lp0 k) o <= Z.max 1 max_retries /\
        attempts_of k (s_start lp0 k) o = retryable_of k (s_start lp0 k) o + 1)) /\
    (forall x, In x (delivered o) -> failure_of (fst x) None o = None /\
       1 <= attempts_of (fst x) (s_start lp0 (fst x)) o <= Z.max 1 max_retries /\
       attempts_of (fst x) (s_start lp0 (fst x)) o = retryable_of (fst x) (s_start lp0 (fst x)) o + 1).
Proof. exact (@s_attempts). Qed.
Print Assumptions C22_attempts.

(** And it does get there: a message that met another exception, or max(1, max_retries) retryable ones, is in the error
    queue with that reason, or an operator has removed it. *)
Theorem C22_failures_are_in_error :
  forall (D M : Type) (no_meta : M) (dto_ok truthy : D -> bool) (wait : bool) (max_retries : Z) q0 lp0 le0 evs s o k,
  preachable no_meta q0 -> usable q0 -> holds q0 lp0 le0 ->
  srun no_meta dto_ok truthy wait max_retries (s_setup q0) evs = (s, o) -> sclosed s = 0%nat ->
  forallb (fun e => negb (cancels e)) evs = true ->
  Forall (fun x => dto_ok (snd x) = true) (enqueued o ++ msgs_p lp0 ++ msgs_e le0) ->
  NoDup (map fst (enqueued o ++ msgs_p lp0 ++ msgs_e le0)) ->
  (forall k e, In (k, e) lp0 -> 0 <= pe_retries e < Z.max 1 max_retries) ->
  In k (map fst (enqueued o ++ msgs_p lp0)) ->
  (forall m, failure_of k None o = Some m ->
     In k (map fst (s_removed o)) \/ exists lp le x, holds (sq s) lp le /\ In (k, x) le /\ ee_reason x = m) /\
  (retryable_of k (s_start lp0 k) o = Z.max 1 max_retries ->
     In k (map fst (s_removed o)) \/
     exists lp le x, holds (sq s) lp le /\ In (k, x) le /\ ee_reason x = "Max retries reached."%string).
Proof. exact (@s_failures_are_in_error). Qed.
Print Assumptions C22_failures_are_in_error.

Example C22_example : let '(s, o) := se_run (s_setup se_q0) se_evs in
  nth_error (stasks s) 0 = Some (SSending (mkP 4%N 0 40%N 0%N)) /\ sshut s = false /\
  (attempts_of 1 0 o, retryable_of 1 0 o, failure_of 1 None o) = (1, 0, None) /\
  (attempts_of 2 0 o, retryable_of 2 0 o, failure_of 2 None o) = (2, 2, None) /\
  (attempts_of 3 0 o, retryable_of 3 0 o, failure_of 3 None o) = (1, 0, Some "boom"%string) /\
  (attempts_of 4 0 o, retryable_of 4 0 o, failure_of 4 None o) = (1, 0, None).
Proof. vm_compute. repeat split. Qed.

(** ** C23: every message is in exactly one place *)

(** Nothing appears or disappears without a trace, whatever happens. *)
Theorem C23_accounting :
  forall (D M : Type) (no_meta : M) (dto_ok truthy : D -> bool) (wait : bool) (max_retries : Z) q0 lp0 le0 evs s o,
  preachable no_meta q0 -> usable q0 -> holds q0 lp0 le0 ->
  srun no_meta dto_ok truthy wait max_retries (s_setup q0) evs = (s, o) -> sclosed s = 0%nat ->
  exists lp le, holds (sq s) lp le /\
    Permutation (enqueued o ++ msgs_p lp0 ++ msgs_e le0)
      (msgs_p lp ++ msgs_h (in_hand s) ++ msgs_e le ++ delivered o ++ s_removed o ++ s_dropped o ++ s_lost o).
Proof. exact (@s_conservation). Qed.
Print Assumptions C23_accounting.

(** The full claim, first without assuming distinct span keys (a caller may pass one), then without excluding that the
    event loop cancels a sending task. *)
Definition C23_exactly_one_place_any_keys : Prop :=
  forall (D M : Type) (no_meta : M) (dto_ok truthy : D -> bool) (wait : bool) (max_retries : Z) q0 lp0 le0 evs s o,
  preachable no_meta q0 -> usable q0 -> holds q0 lp0 le0 ->
  srun no_meta dto_ok truthy wait max_retries (s_setup q0) evs = (s, o) -> sclosed s = 0%nat ->
  forallb (fun e => negb (cancels e)) evs = true ->
  Forall (fun x => dto_ok (snd x) = true) (enqueued o ++ msgs_p lp0 ++ msgs_e le0) ->
  exists lp le, holds (sq s) lp le /\
    Permutation (enqueued o ++ msgs_p lp0 ++ msgs_e le0)
      (msgs_p lp ++ msgs_h (in_hand s) ++ msgs_e le ++ delivered o ++ s_removed o).
Definition C23_exactly_one_place_any_schedule : Prop :=
  forall (D M : Type) (no_meta : M) (dto_ok truthy : D -> bool) (wait : bool) (max_retries : Z) q0 lp0 le0 evs s o,
  preachable no_meta q0 -> usable q0 -> holds q0 lp0 le0 ->
  srun no_meta dto_ok truthy wait max_retries (s_setup q0) evs = (s, o) -> sclosed s = 0%nat ->
  Forall (fun x => dto_ok (snd x) = true) (enqueued o ++ msgs_p lp0 ++ msgs_e le0) ->
  NoDup (map fst (enqueued o ++ msgs_p lp0 ++ msgs_e le0)) ->
  exists lp le, holds (sq s) lp le /\
    Permutation (enqueued o ++ msgs_p lp0 ++ msgs_e le0)
      (msgs_p lp ++ msgs_h (in_hand s) ++ msgs_e le ++ delivered o ++ s_removed o).

(** False: a second message enqueued under a span key that is still pending vanishes. *)
Theorem C23_exactly_one_place_any_keys_refuted : ~ C23_exactly_one_place_any_keys.
Proof.
  intros H. destruct (se_run (s_setup se_q0) [SEnqueue 1 10; SEnqueue 1 20]%N) as [s o] eqn:E.
  assert (C : sclosed s = 0%nat) by (vm_compute in E; injection E as <- <-; reflexivity).
  destruct (reach_R 0%N se_dto se_true false 2 _ _ _ _ se_reach se_usable E C) as [a A].
  pose proof (R_holds 0%N s a A) as Ha.
  assert (Ea : al a = contents (pend (sq s)) /\ ae a = contents (errq (sq s))).
  { destruct A as [A _]. split; [now rewrite <- (r_l _ _ _ A)|now rewrite <- (r_e _ _ _ A)]. }
  assert (V : Forall (fun x => se_dto (snd x) = true) (enqueued o ++ [] ++ [])).
  { vm_compute in E. injection E as <- <-. vm_compute. repeat constructor. }
  destruct (H N N 0%N se_dto se_true false 2 _ _ _ _ _ _ se_reach se_usable se_holds E C eq_refl V) as [lp [le [Hh P]]].
  destruct (R_unique 0%N s a lp le A Hh) as [-> ->]. destruct Ea as [Ea1 Ea2]. rewrite Ea1, Ea2 in P.
  vm_compute in E. injection E as <- <-. apply Permutation_length in P. vm_compute in P. discriminate.
Qed.
Print Assumptions C23_exactly_one_place_any_keys_refuted.

(** False: the message being sent when its task is cancelled is nowhere any more. *)
Theorem C23_exactly_one_place_any_schedule_refuted : ~ C23_exactly_one_place_any_schedule.
Proof.
  intros H. destruct (se_run (s_setup se_q0) [SEnqueue 1 10; STask 0 ROk; SCancel 0]%N) as [s o] eqn:E.
  assert (C : sclosed s = 0%nat) by (vm_compute in E; injection E as <- <-; reflexivity).
  destruct (reach_R 0%N se_dto se_true false 2 _ _ _ _ se_reach se_usable E C) as [a A].
  assert (Ea : al a = contents (pend (sq s)) /\ ae a = contents (errq (sq s))).
  { destruct A as [A _]. split; [now rewrite <- (r_l _ _ _ A)|now rewrite <- (r_e _ _ _ A)]. }
  assert (V : Forall (fun x => se_dto (snd x) = true) (enqueued o ++ [] ++ []) /\ NoDup (map fst (enqueued o ++ [] ++ []))).
  { vm_compute in E. injection E as <- <-. vm_compute. split; repeat constructor. intros []. }
  destruct V as [V Nd].
  destruct (H N N 0%N se_dto se_true false 2 _ _ _ _ _ _ se_reach se_usable se_holds E C V Nd) as [lp [le [Hh P]]].
  destruct (R_unique 0%N s a lp le A Hh) as [-> ->]. destruct Ea as [Ea1 Ea2]. rewrite Ea1, Ea2 in P.
  vm_compute in E. injection E as <- <-. apply Permutation_length in P. vm_compute in P. discriminate.
Qed.
Print Assumptions C23_exactly_one_place_any_schedule_refuted.

(** With distinct keys, valid data and no cancellation, whatever exceptions sending raises, every message is in exactly
    one of the five places. *)
Theorem C23_exactly_one_place_partial :
  forall (D M : Type) (no_meta : M) (dto_ok truthy : D -> bool) (wait : bool) (max_retries : Z) q0 lp0 le0 evs s o,
  preachable no_meta q0 -> usable q0 -> holds q0 lp0 le0 ->
  srun no_meta dto_ok truthy wait max_retries (s_setup q0) evs = (s, o) -> sclosed s = 0%nat ->
  forallb (fun e => negb (cancels e)) evs = true ->
  Forall (fun x => dto_ok (snd x) = true) (enqueued o ++ msgs_p lp0 ++ msgs_e le0) ->
  NoDup (map fst (enqueued o ++ msgs_p lp0 ++ msgs_e le0)) ->
  exists lp le, holds (sq s) lp le /\
    Permutation (enqueued o ++ msgs_p lp0 ++ msgs_e le0)
      (msgs_p lp ++ msgs_h (in_hand s) ++ msgs_e le ++ delivered o ++ s_removed o) /\
    NoDup (map fst (msgs_p lp ++ msgs_h (in_hand s) ++ msgs_e le ++ delivered o ++ s_removed o)).
Proof. exact (@s_one_place). Qed.
Print Assumptions C23_exactly_one_place_partial.

Example C23_example : let '(s, o) := se_run (s_setup se_q0) (se_evs ++ [SPopError 2; SEnqueue 5 50])%N in
  sclosed s = 0%nat /\ enqueued o = [(1, 10); (2, 20); (3, 30); (4, 40); (5, 50)]%N /\
  map fst (contents (pend (sq s))) = [5]%N /\ msgs_h (in_hand s) = [(4, 40)]%N /\ map fst (contents (errq (sq s))) = [3]%N /\
  delivered o = [(1, 10)]%N /\ s_removed o = [(2, 20)]%N.
Proof. vm_compute. repeat split. Qed.

(** ** C50: messages are sent one at a time, in order, and none is stranded *)

Theorem C50_one_at_a_time :
  forall (D M : Type) (no_meta : M) (dto_ok truthy : D -> bool) (wait : bool) (max_retries : Z) q0 evs s o,
  preachable no_meta q0 -> usable q0 ->
  srun no_meta dto_ok truthy wait max_retries (s_setup q0) evs = (s, o) -> sclosed s = 0%nat ->
  (List.length (in_hand s) <= 1)%nat /\
  forall i j t u, nth_error (stasks s) i = Some t -> nth_error (stasks s) j = Some u -> s_live t -> s_live u -> i = j.
Proof. exact (@s_one_at_a_time). Qed.
Print Assumptions C50_one_at_a_time.

(** The client gets the messages in the order in which they were put into the pending queue. *)
Theorem C50_queue_order :
  forall (D M : Type) (no_meta : M) (dto_ok truthy : D -> bool) (wait : bool) (max_retries : Z) q0 lp0 le0 evs s o lp le,
  preachable no_meta q0 -> usable q0 -> holds q0 lp0 le0 ->
  srun no_meta dto_ok truthy wait max_retries (s_setup q0) evs = (s, o) -> sclosed s = 0%nat ->
  forallb (fun e => negb (cancels e)) evs = true ->
  Forall (fun x => dto_ok (snd x) = true) (enqueued o ++ msgs_p lp0 ++ msgs_e le0) ->
  holds (sq s) lp le ->
  map fst lp0 ++ s_queued o = s_started o ++ map fst lp /\
  (s_started o = sends o \/ exists e, in_hand s = [e] /\ s_started o = sends o ++ [pe_key e]).
Proof. exact (@s_fifo). Qed.
Print Assumptions C50_queue_order.

(** Whenever a message is pending and sending is not paused, a sending task is alive. *)
Theorem C50_no_stranded_message :
  forall (D M : Type) (no_meta : M) (dto_ok truthy : D -> bool) (wait : bool) (max_retries : Z) q0 lp0 le0 evs s o lp le,
  preachable no_meta q0 -> usable q0 -> holds q0 lp0 le0 ->
  srun no_meta dto_ok truthy wait max_retries (s_setup q0) evs = (s, o) -> sclosed s = 0%nat ->
  forallb (fun e => negb (cancels e)) evs = true ->
  Forall (fun x => dto_ok (snd x) = true) (enqueued o ++ msgs_p lp0 ++ msgs_e le0) ->
  holds (sq s) lp le -> lp <> [] -> spaused s = false -> s_awake s.
Proof. exact (@s_awake_run). Qed.
Print Assumptions C50_no_stranded_message.

(** And when sending then succeeds, all messages in hand and pending are delivered in order. *)
Theorem C50_everything_gets_delivered :
  forall (D M : Type) (no_meta : M) (dto_ok truthy : D -> bool) (wait : bool) (max_retries : Z) q0 lp0 le0 evs s o lp le,
  preachable no_meta q0 -> usable q0 -> holds q0 lp0 le0 ->
  srun no_meta dto_ok truthy wait max_retries (s_setup q0) evs = (s, o) -> sclosed s = 0%nat ->
  forallb (fun e => negb (cancels e)) evs = true ->
  Forall (fun x => dto_ok (snd x) = true) (enqueued o ++ msgs_p lp0 ++ msgs_e le0) ->
  holds (sq s) lp le -> spaused s = false -> sshut s = false ->
  exists i m s' o', srun no_meta dto_ok truthy wait max_retries s (repeat (STask i ROk) m) = (s', o') /\
    delivered o' = msgs_h (in_hand s) ++ msgs_p lp /\ holds (sq s') [] le /\ in_hand s' = [].
Proof. exact (@s_drains). Qed.
Print Assumptions C50_everything_gets_delivered.

Example C50_example : let '(s, o) := se_run (s_setup se_q0) (se_evs ++ [SEnqueue 5 50; SReprocessAll])%N in
  sclosed s = 0%nat /\ spaused s = false /\ sshut s = false /\ map fst (contents (pend (sq s))) = [5; 3; 2]%N /\
  let '(s', o') := se_run s (repeat (STask 0 ROk) 4) in delivered o' = [(4, 40); (5, 50); (3, 30); (2, 20)]%N.
Proof. vm_compute. repeat split. Qed.

(** ** C51: pausing and shutting down *)

(** Once sending is paused no further message is taken, whatever happens except unpausing and reprocessing; the message
    in hand, if it was only waiting, may still be sent. *)
Theorem C51_pause_effective :
  forall (D M : Type) (no_meta : M) (dto_ok truthy : D -> bool) (wait : bool) (max_retries : Z) q0 evs s o evs' s' o',
  preachable no_meta q0 -> usable q0 ->
  srun no_meta dto_ok truthy wait max_retries (s_setup q0) evs = (s, o) -> spaused s = true ->
  srun no_meta dto_ok truthy wait max_retries s evs' = (s', o') -> sclosed s' = 0%nat ->
  forallb (fun e => negb (s_unpauses e)) evs' = true ->
  s_started o' = [] /\ incl (sends o') (map pe_key (in_hand s)) /\ (List.length (sends o') <= 1)%nat.
Proof. exact (@s_pause_effective). Qed.
Print Assumptions C51_pause_effective.

(** Whatever step closes the queues, no message is in hand any more and a restart finds everything not delivered,
    removed, dropped or lost before. *)
Theorem C51_close_is_safe :
  forall (D M : Type) (no_meta : M) (dto_ok truthy : D -> bool) (wait : bool) (max_retries : Z) q0 lp0 le0 evs s o ev s' o' ps,
  preachable no_meta q0 -> usable q0 -> holds q0 lp0 le0 ->
  srun no_meta dto_ok truthy wait max_retries (s_setup q0) evs = (s, o) -> sclosed s = 0%nat ->
  sstep no_meta dto_ok truthy wait max_retries s ev = (s', o') -> sclosed s' <> 0%nat -> ps <> 0 ->
  sclosed s' = 1%nat /\ in_hand s' = [] /\
  exists lp le, preachable no_meta (s_restarted ps s') /\ holds (s_restarted ps s') lp le /\
    Permutation (enqueued (o ++ o') ++ msgs_p lp0 ++ msgs_e le0)
      (msgs_p lp ++ msgs_e le ++ delivered (o ++ o') ++ s_removed (o ++ o') ++ s_dropped (o ++ o') ++ s_lost (o ++ o')).
Proof. exact (@s_close_safe). Qed.
Print Assumptions C51_close_is_safe.

(** After a shut-down request the queues are closed at once, or when the message in hand is done. *)
Theorem C51_shut_down_completes :
  forall (D M : Type) (no_meta : M) (dto_ok truthy : D -> bool) (wait : bool) (max_retries : Z) q0 evs s o s1 o1,
  preachable no_meta q0 -> usable q0 ->
  srun no_meta dto_ok truthy wait max_retries (s_setup q0) evs = (s, o) -> sclosed s = 0%nat ->
  sstep no_meta dto_ok truthy wait max_retries s SShutDown = (s1, o1) ->
  sclosed s1 = 1%nat \/
  exists i, forall r, sclosed (fst (srun no_meta dto_ok truthy wait max_retries s1 [STask i r; STask i r])) = 1%nat.
Proof. exact (@s_shut_down_completes). Qed.
Print Assumptions C51_shut_down_completes.

(** The application's own way of ending loses exactly the message being sent and keeps both queues. *)
Theorem C51_teardown :
  forall (D M : Type) (no_meta : M) (dto_ok truthy : D -> bool) (wait : bool) (max_retries : Z) q0 evs s o s' o' lp le ps,
  preachable no_meta q0 -> usable q0 ->
  srun no_meta dto_ok truthy wait max_retries (s_setup q0) evs = (s, o) -> sclosed s = 0%nat -> sshut s = false ->
  holds (sq s) lp le -> srun no_meta dto_ok truthy wait max_retries s (s_teardown s) = (s', o') -> ps <> 0 ->
  sclosed s' = 1%nat /\ (forall j t, nth_error (stasks s') j = Some t -> ~ s_live t) /\
  s_lost o' = msgs_h (in_hand s) /\
  exists lp' le', preachable no_meta (s_restarted ps s') /\ holds (s_restarted ps s') lp' le' /\
    Permutation lp lp' /\ Permutation le le'.
Proof. exact (@s_teardown_closes). Qed.
Print Assumptions C51_teardown.

(** The full claim: the queues are closed at most once, so that a shut-down never fails. *)
Definition C51_closes_at_most_once : Prop :=
  forall (D M : Type) (no_meta : M) (dto_ok truthy : D -> bool) (wait : bool) (max_retries : Z) q0 evs s o,
  preachable no_meta q0 -> usable q0 ->
  srun no_meta dto_ok truthy wait max_retries (s_setup q0) evs = (s, o) ->
  (sclosed s <= 1)%nat /\ forall e, ~ In (OExn e) o.

(** False: a message enqueued after the shut-down creates a new sending task, which closes the queues again; writing the
    entries a second time breaks the uniqueness of the stored keys. *)
Theorem C51_closes_at_most_once_refuted : ~ C51_closes_at_most_once.
Proof.
  intros H.
  destruct (se_run (s_setup se_q0) ([SEnqueue 1 10; SShutDown; SEnqueue 2 20; STask 0 ROk; STask 1 ROk])%N) as [s o] eqn:E.
  destruct (H N N 0%N se_dto se_true false 2 _ _ _ _ se_reach se_usable E) as [_ A].
  vm_compute in E. injection E as <- <-. eapply A. cbn. eauto 12.
Qed.
Print Assumptions C51_closes_at_most_once_refuted.

Example C51_example : let '(s, o) := se_run (s_setup se_q0) (se_evs ++ [SEnqueue 5 50; SPause])%N in
  spaused s = true /\ let '(s', o') := se_run s [SEnqueue 6 60; STask 0 RRetryable; STask 1 ROk]%N in
  s_started o' = [] /\ sclosed s' = 0%nat /\ map fst (contents (pend (sq s'))) = [5; 6; 4]%N.
Proof. vm_compute. repeat split. Qed.
Example C51_example_shut_down : let '(s, o) := se_run (s_setup se_q0) (se_evs ++ [SEnqueue 5 50; SShutDown])%N in
  sclosed s = 0%nat /\ let '(s', o') := se_step s (STask 0 RRetryable) in sclosed s' = 1%nat /\
  map fst (contents (pend (s_restarted 2 s'))) = [5; 4]%N /\ map fst (contents (errq (s_restarted 2 s'))) = [3; 2]%N.
Proof. vm_compute. repeat split. Qed.
Example C51_example_teardown : let '(s, o) := se_run (s_setup se_q0) (se_evs ++ [SEnqueue 5 50])%N in
  sclosed s = 0%nat /\ sshut s = false /\ let '(s', o') := se_run s (s_teardown s) in s_lost o' = [(4, 40)]%N /\
  map fst (contents (pend (s_restarted 2 s'))) = [5]%N /\ map fst (contents (errq (s_restarted 2 s'))) = [3; 2]%N.
Proof. vm_compute. repeat split. Qed.

(** ** C12 and C19 for senders: what operators can do with the error queue *)

(** Inspect, pop and reprocess find exactly the entry with the key, change exactly that entry, and answer with its data
    (data that counts as false is answered like a missing entry); reprocessing unpauses sending. *)
Theorem C12_sender_error_queue_partial :
  forall (D M : Type) (no_meta : M) (dto_ok truthy : D -> bool) (wait : bool) (max_retries : Z) q0 evs s o lp le k,
  preachable no_meta q0 -> usable q0 ->
  srun no_meta dto_ok truthy wait max_retries (s_setup q0) evs = (s, o) -> sclosed s = 0%nat -> holds (sq s) lp le ->
  (forall x, lookup k le = Some x -> dto_ok (ee_data x) = true) ->
  let step := sstep no_meta dto_ok truthy wait max_retries s in
  (let (s', o') := step (SInspectError k) in s' = s /\ s_replies o' = [s_answer truthy (lookup k le)]) /\
  (let (s', o') := step (SPopError k) in holds (sq s') lp (without k le) /\ spaused s' = spaused s /\
     in_hand s' = in_hand s /\ s_replies o' = [s_answer truthy (lookup k le)]) /\
  (let (s', o') := step (SReprocessOne k) in
     holds (sq s') (match lookup k le with
                    | Some x => if has k lp then lp else lp ++ [retried (k, x)]
                    | None => lp end) (without k le) /\
     spaused s' = false /\ in_hand s' = in_hand s /\ s_replies o' = [s_answer truthy (lookup k le)]) /\
  (let (s', o') := step SReprocessAll in
     holds (sq s') (lp ++ map retried (filter (fun e => negb (has (fst e) lp)) le)) [] /\
     spaused s' = false /\ in_hand s' = in_hand s) /\
  (let (s', o') := step SClearError in holds (sq s') lp [] /\ spaused s' = spaused s /\ in_hand s' = in_hand s).
Proof. exact (@s_error_ops). Qed.
Print Assumptions C12_sender_error_queue_partial.

Example C12_sender_example : let '(s, o) := se_run (s_setup se_q0) se_evs in
  let '(s', o') := se_step s (SReprocessOne 3%N) in
  s_replies o' = [Some 30%N] /\ map fst (contents (pend (sq s'))) = [3]%N /\ map fst (contents (errq (sq s'))) = [2]%N.
Proof. vm_compute. repeat split. Qed.

(** C19 for senders: the full claim, that an operator's pause survives reprocessing. *)
Definition C19_sender_pause_survives_reprocessing : Prop :=
  forall (D M : Type) (no_meta : M) (dto_ok truthy : D -> bool) (wait : bool) (max_retries : Z) q0 evs s o ev s' o',
  preachable no_meta q0 -> usable q0 ->
  srun no_meta dto_ok truthy wait max_retries (s_setup q0) evs = (s, o) -> sclosed s = 0%nat -> spaused s = true ->
  ev = SReprocessAll \/ (exists k, ev = SReprocessOne k) ->
  sstep no_meta dto_ok truthy wait max_retries s ev = (s', o') -> spaused s' = true.
Theorem C19_sender_pause_survives_reprocessing_refuted : ~ C19_sender_pause_survives_reprocessing.
Proof.
  intros H. destruct (se_run (s_setup se_q0) (se_evs ++ [SPause])%N) as [s o] eqn:E.
  assert (C : sclosed s = 0%nat) by (vm_compute in E; injection E as <- <-; reflexivity).
  assert (P : spaused s = true) by (vm_compute in E; injection E as <- <-; reflexivity).
  destruct (se_step s SReprocessAll) as [s' o'] eqn:E1.
  assert (A := H N N 0%N se_dto se_true false 2 _ _ _ _ _ _ _ se_reach se_usable E C P (or_introl eq_refl) E1).
  vm_compute in E. injection E as <- <-. vm_compute in E1. injection E1 as <- <-. discriminate.
Qed.
Print Assumptions C19_sender_pause_survives_reprocessing_refuted.

(** Reprocessing that fails (here with page_size 0, see C10) stops a sender that was sending: it stays paused. *)
Theorem C19_sender_failed_reprocessing_pauses : exists (q0 : pqueue N N) s' o',
  preachable 0%N q0 /\ spaused (s_setup q0) = false /\
  se_step (s_setup q0) SReprocessAll = (s', o') /\ o' = [OExn "AttributeError"] /\ spaused s' = true /\
  error_size (sq s') = 2.
Proof.
  destruct (psteps 0%N (pq_open 0 [] []) [PushError 1%N 10%N "x" None; PushError 2%N 20%N "x" None]) as [q|] eqn:E;
    [|discriminate].
  exists q. do 2 eexists. split; [eapply psteps_reachable; [apply preach_fresh|exact E]|].
  vm_compute in E. injection E as <-. split; [reflexivity|]. split; [vm_compute; reflexivity|]. repeat split.
Qed.
Print Assumptions C19_sender_failed_reprocessing_pauses.
