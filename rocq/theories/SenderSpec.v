(** Vocabulary for the properties of buffered senders: reading a run's outputs. *)
From Coq Require Import List ZArith NArith Bool String.
From Verif Require Import Base PQueueModel PQueueSpec PendingModel PendingSpec SenderModel.
Import ListNotations.
Local Open Scope Z_scope.

Section Spec.
Context {D M : Type}.
Notation msg := (msg D). Notation sout := (sout D). Notation sev := (sev D). Notation sstate := (sstate D M).

(** What became of messages. *)
Definition enqueued   (o : list sout) : list msg := flat_map (fun x => match x with OEnqueued y => [y] | _ => [] end) o.
Definition delivered  (o : list sout) : list msg := flat_map (fun x => match x with OSent y => [y] | _ => [] end) o.
Definition s_removed  (o : list sout) : list msg := flat_map (fun x => match x with ORemoved y => [y] | _ => [] end) o.
Definition s_dropped  (o : list sout) : list msg := flat_map (fun x => match x with ODropped y => [y] | _ => [] end) o.
Definition s_lost     (o : list sout) : list msg := flat_map (fun x => match x with OLost y => [y] | _ => [] end) o.

(** The messages taken from the queue that are being sent (or about to be, after the wait period). *)
Definition in_hand (s : sstate) : list (pentry D M) :=
  flat_map (fun t => match t with SWaiting e | SSending e => [e] | SCreated | SDone => [] end) (stasks s).
Definition msgs_h (l : list (pentry D M)) : list msg := map msg_p l.
Definition msgs_p (l : list (N * pentry D M)) : list msg := map (fun e => msg_p (snd e)) l.
Definition msgs_e (l : list (N * eentry D M)) : list msg := map (fun e => msg_e (snd e)) l.

(** Keys in the order in which they were put into the pending queue, taken from it, and given to the client. *)
Definition s_queued  (o : list sout) : list N := flat_map (fun x => match x with OQueued k => [k] | _ => [] end) o.
Definition s_started (o : list sout) : list N := flat_map (fun x => match x with OStarted k => [k] | _ => [] end) o.
Definition sends     (o : list sout) : list N := flat_map (fun x => match x with OSend k _ => [k] | _ => [] end) o.
Definition s_replies (o : list sout) : list (option D) := flat_map (fun x => match x with OReply r => [r] | _ => [] end) o.

(** Calls of send_data for [k] since it was enqueued or last put back from the error queue, and how many of them ended
    in a retryable exception; [n] counts those before the run. *)
Definition attempts_of (k : N) (n : Z) (o : list sout) : Z :=
  fold_left (fun n x => match x with
                        | OSend k' _ => if N.eqb k' k then n + 1 else n
                        | OReprocessed k' => if N.eqb k' k then 0 else n
                        | _ => n end) o n.
Definition retryable_of (k : N) (n : Z) (o : list sout) : Z :=
  fold_left (fun n x => match x with
                        | ORetryable k' => if N.eqb k' k then n + 1 else n
                        | OReprocessed k' => if N.eqb k' k then 0 else n
                        | _ => n end) o n.
(** The text of the last other exception since then. *)
Definition failure_of (k : N) (f : option string) (o : list sout) : option string :=
  fold_left (fun f x => match x with
                        | OFailed k' e => if N.eqb k' k then Some e else f
                        | OReprocessed k' => if N.eqb k' k then None else f
                        | _ => f end) o f.

(** Attempts already made for [k] when the process started, as stored with the pending entries. *)
Definition s_start (lp0 : list (N * pentry D M)) (k : N) : Z :=
  match lookup k lp0 with Some e => pe_retries e | None => 0 end.

(** What an outcome [r] of sending [e] puts at the end of the pending queue, of the error queue, and what it delivers. *)
Definition requeued (no_meta : M) (max_retries : Z) (e : pentry D M) (r : sres) : list (N * pentry D M) :=
  match r with
  | RRetryable => if pe_retries e + 1 <? max_retries
                  then [(pe_key e, mkP (pe_key e) (pe_retries e + 1) (pe_data e) no_meta)] else []
  | _ => []
  end.
Definition failed (no_meta : M) (max_retries : Z) (e : pentry D M) (r : sres) : list (N * eentry D M) :=
  match r with
  | ROk => []
  | RRetryable => if pe_retries e + 1 <? max_retries then []
                  else [(pe_key e, mkE (pe_key e) (pe_data e) "Max retries reached."%string no_meta)]
  | RFails m => [(pe_key e, mkE (pe_key e) (pe_data e) m no_meta)]
  end.
Definition accepted_by_client (e : pentry D M) (r : sres) : list msg :=
  match r with ROk => [(pe_key e, pe_data e)] | _ => [] end.

(** The answer an operator gets about the error entry found (or not) under a span key: its data.  Data that Python
    counts as false (an empty dictionary) is answered like a missing entry. *)
Definition s_answer (truthy : D -> bool) (x : option (eentry D M)) : option D :=
  match x with Some y => if truthy (ee_data y) then Some (ee_data y) else None | None => None end.

(** Events that cancel a task, and that let sending continue after a pause. *)
Definition cancels (ev : sev) : bool := match ev with SCancel _ => true | _ => false end.
Definition s_unpauses (ev : sev) : bool :=
  match ev with SUnpause | SReprocessAll | SReprocessOne _ => true | _ => false end.
(** Events after which sending is paused. *)
Definition pauses (ev : sev) : bool := match ev with SPause | SShutDown => true | _ => false end.

(** A sending task that has not ended. *)
Definition s_live (t : ststate D M) : Prop := t <> SDone.
Definition s_awake (s : sstate) : Prop := exists j t, nth_error (stasks s) j = Some t /\ s_live t.

(** The sender's queues found after a restart on the files as they are, with page size [ps]. *)
Definition s_restarted (ps : Z) (s : sstate) : pqueue D M := pq_open ps (db (pend (sq s))) (db (errq (sq s))).

(** Everything asyncio.run and Application.__do_shutdown do at the end: cancel all tasks, then shut the sender down. *)
Definition s_teardown (s : sstate) : list sev := map SCancel (seq 0 (List.length (stasks s))) ++ [SShutDown].

End Spec.
