(** Vocabulary for the properties of buffered endpoints: reading a run's outputs. *)
From Coq Require Import List ZArith NArith Bool String.
From Verif Require Import Base PQueueModel PQueueSpec PendingModel PendingSpec HandlerModel.
Import ListNotations.
Local Open Scope Z_scope.

Section Spec.
Context {D M : Type}.
Notation item := (item D M). Notation hout := (hout D M). Notation hev := (hev D M). Notation hstate := (hstate D M).

Definition key_of (x : item) : N := fst (fst x).
Definition data_of (x : item) : D := snd (fst x).

(** Requests whose caller got a response, and what became of requests. *)
Definition accepted (o : list hout) : list item := flat_map (fun x => match x with HAccepted y => [y] | _ => [] end) o.
Definition finished (o : list hout) : list item := flat_map (fun x => match x with HFinished y => [y] | _ => [] end) o.
Definition removed  (o : list hout) : list item := flat_map (fun x => match x with HRemoved y => [y] | _ => [] end) o.
Definition dropped  (o : list hout) : list item := flat_map (fun x => match x with HDropped y => [y] | _ => [] end) o.
Definition lost     (o : list hout) : list item := flat_map (fun x => match x with HLost y => [y] | _ => [] end) o.

(** The requests held by processing tasks. *)
Definition held (t : tstate D M) : list item :=
  match t with TBefore e | TCall e | TAfter e _ => [item_p e] | TCreated | TDone => [] end.
Definition in_process (s : hstate) : list item := flat_map held (tasks s).

(** The requests in the two queues. *)
Definition items_p (l : list (N * pentry D M)) : list item := map (fun e => item_p (snd e)) l.
Definition items_e (l : list (N * eentry D M)) : list item := map (fun e => item_e (snd e)) l.

(** A processing task that has not ended. *)
Definition live (t : tstate D M) : Prop := t <> TDone.

(** Keys in the order in which they were put into the pending queue, and in which processing started. *)
Definition queued (o : list hout) : list N := flat_map (fun x => match x with HQueued k => [k] | _ => [] end) o.
Definition started (o : list hout) : list N := flat_map (fun x => match x with HStarted k _ _ _ => [k] | _ => [] end) o.

(** Calls of the endpoint's function for [k] since it was last put back from the error queue, and how many of them
    returned [b]; [n] counts those before the run. *)
Definition calls (k : N) (n : Z) (o : list hout) : Z :=
  fold_left (fun n x => match x with
                        | HCalled k' _ => if N.eqb k' k then n + 1 else n
                        | HReprocessed k' => if N.eqb k' k then 0 else n
                        | _ => n end) o n.
Definition returns (k : N) (b : bool) (n : Z) (o : list hout) : Z :=
  fold_left (fun n x => match x with
                        | HReturned k' b' => if N.eqb k' k && Bool.eqb b' b then n + 1 else n
                        | HReprocessed k' => if N.eqb k' k then 0 else n
                        | _ => n end) o n.

(** Events in which user code raises or a task is cancelled. *)
Definition failure (ev : hev) : bool :=
  match ev with ETask _ RExn | ECancel _ | ECancelPush _ => true | _ => false end.

(** Some processing task has not ended. *)
Definition awake (s : hstate) : Prop := exists j t, nth_error (tasks s) j = Some t /\ live t.

(** In a run, the tasks that put accepted requests into the queue ([EPush]) all run while a processing task
    is live. *)
Fixpoint pushes_awake (no_meta : M) (dto_ok truthy : D -> bool) (max_retries : Z) (s : hstate) (evs : list hev) : Prop :=
  match evs with
  | [] => True
  | ev :: r => match ev with EPush _ => awake s | _ => True end /\
               pushes_awake no_meta dto_ok truthy max_retries (fst (hstep no_meta dto_ok truthy max_retries s ev)) r
  end.

(** Events that let processing continue after a pause. *)
Definition unpauses (ev : hev) : bool :=
  match ev with EUnpauseProcessing | EReprocessAll | EReprocessOne _ => true | _ => false end.

(** The calls of the endpoint's function made in a run. *)
Definition called (o : list hout) : list N := flat_map (fun x => match x with HCalled k _ => [k] | _ => [] end) o.
Definition refused (o : list hout) : list N := flat_map (fun x => match x with HRefused k => [k] | _ => [] end) o.
Definition replies (o : list hout) : list (option D) := flat_map (fun x => match x with HReply r => [r] | _ => [] end) o.

(** The endpoint found after a restart on the files as they are, with page size [ps]. *)
Definition restarted (ps : Z) (s : hstate) : pqueue D M := pq_open ps (db (pend (hq s))) (db (errq (hq s))).

(** The requests that arrive by an event. *)
Definition request (ev : hev) : list N := match ev with ERequest k _ => [k] | _ => [] end.

(** Everything asyncio.run and Application.__do_shutdown do at the end: cancel all tasks (processing tasks, push
    tasks, calls of [run]), then shut the endpoint down. *)
Definition teardown (s : hstate) : list hev :=
  map ECancel (seq 0 (List.length (tasks s))) ++ repeat (ECancelPush 0) (List.length (pushing s)) ++
  repeat (ECollectFails 0) (List.length (collecting s)) ++ [EShutDown].

End Spec.
