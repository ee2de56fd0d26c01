(** Model of ekosis/requests/buffered_handler_base.py (with buffered_handler.py) as a transition system over
    asyncio's event loop.

    - Everything between two suspension points is one atomic step. Suspension points are: the start of a new
      task, the middleware hooks ([collect_push_metadata], [run_before_process], [run_after_process]) and the
      endpoint's function. The queue operations contain none.
    - The order of steps of different tasks is arbitrary (an over-approximation of asyncio's FIFO order).
    - What user code does (return, raise) is part of the events.
    - [D] is request data, [M] metadata. [dto_ok d]: the endpoint's DTO type accepts [d]. [truthy d]: Python's
      [bool(d)] of the stored JSON object. The DTO built from [d] is identified with [d].
    - Outputs ([hout]) record what happens; the ones marked "record" are for the specification only. *)
From Coq Require Import List ZArith NArith Bool String.
From Verif Require Import Base PQueueModel PQueueSpec PendingModel.
Import ListNotations.
Local Open Scope Z_scope.

Section Model.
Context {D M : Type}.
Variable no_meta : M.
Variables dto_ok truthy : D -> bool.
Variable max_retries : Z.

(** A request: span key, data, metadata. *)
Definition item : Type := N * D * M.
Definition item_p (e : pentry D M) : item := (pe_key e, pe_data e, pe_meta e).
Definition item_e (e : eentry D M) : item := (ee_key e, ee_data e, ee_meta e).

(** The entries of a queue, wherever they are kept (used for records only). *)
Definition entries {V} (q : queue V) : list (N * V) :=
  plist (front q) ++ map (fun r => (rkey r, rval r)) (db q) ++
  match back q with Some b => plist b | None => [] end.

(** Where a processing task ([_process_queue], 201-207) is suspended. *)
Inductive tstate :=
| TCreated                                     (* created, not started *)
| TBefore (e : pentry D M)                     (* in run_before_process (line 188) *)
| TCall (e : pentry D M)                       (* in process_buffered_request (line 189) *)
| TAfter (e : pentry D M) (success : bool)     (* in run_after_process (line 190) *)
| TDone.

(** buffered_handler_base.py:41-53; [tasks] are all processing tasks ever created, [cur] is
    [self.__process_queue_task]; [collecting] are the calls of [run] suspended in collect_push_metadata,
    [pushing] the fire-and-forget push tasks not yet run; [closed] counts completed [queue.shut_down()]s. *)
Record hstate := mkH {
  hq : pqueue D M;
  recv_paused : bool; proc_paused : bool; running : bool; shut : bool; fut_done : bool; closed : nat;
  tasks : list tstate; cur : option nat;
  collecting : list (N * D); pushing : list item }.

Inductive hout :=
| HAccepted (x : item)             (* the caller gets BufferedEndpointResponseDTO *)
| HRefused (k : N)                 (* run raises BufferedRequestHandlerReceivingPausedException *)
| HRunFailed (k : N)               (* run raises because a middleware did *)
| HQueued (k : N)                  (* record: an entry was appended to the pending queue *)
| HDropped (x : item)              (* record: a push found the key already in the queue *)
| HStarted (k : N) (d : D) (m : M) (retries : Z)   (* run_before_process is called with these *)
| HCalled (k : N) (d : D)          (* the endpoint's function is called *)
| HReturned (k : N) (b : bool)     (* it returned *)
| HFinished (x : item)             (* record: processed successfully *)
| HErrored (x : item)              (* record: moved to the error queue *)
| HLost (x : item)                 (* record: a popped or accepted request is dropped by an exception *)
| HReprocessed (k : N)             (* record: an error entry was moved back *)
| HRemoved (x : item)              (* record: removed from the error queue by the operator *)
| HReply (o : option D)            (* answer to pop / inspect / reprocess-one: None means not found *)
| HClosed                          (* the queues were written to disk *)
| HExn (e : string).               (* an exception left the step *)

Definition set_hq s x := mkH x (recv_paused s) (proc_paused s) (running s) (shut s) (fut_done s) (closed s)
  (tasks s) (cur s) (collecting s) (pushing s).
Definition set_recv s b := mkH (hq s) b (proc_paused s) (running s) (shut s) (fut_done s) (closed s)
  (tasks s) (cur s) (collecting s) (pushing s).
Definition set_proc s b := mkH (hq s) (recv_paused s) b (running s) (shut s) (fut_done s) (closed s)
  (tasks s) (cur s) (collecting s) (pushing s).
Definition set_running s b := mkH (hq s) (recv_paused s) (proc_paused s) b (shut s) (fut_done s) (closed s)
  (tasks s) (cur s) (collecting s) (pushing s).
Definition set_shut s b := mkH (hq s) (recv_paused s) (proc_paused s) (running s) b (fut_done s) (closed s)
  (tasks s) (cur s) (collecting s) (pushing s).
Definition set_fut s b := mkH (hq s) (recv_paused s) (proc_paused s) (running s) (shut s) b (closed s)
  (tasks s) (cur s) (collecting s) (pushing s).
Definition set_closed s n := mkH (hq s) (recv_paused s) (proc_paused s) (running s) (shut s) (fut_done s) n
  (tasks s) (cur s) (collecting s) (pushing s).
Definition set_tasks s t c := mkH (hq s) (recv_paused s) (proc_paused s) (running s) (shut s) (fut_done s) (closed s)
  t c (collecting s) (pushing s).
Definition set_collecting s l := mkH (hq s) (recv_paused s) (proc_paused s) (running s) (shut s) (fut_done s) (closed s)
  (tasks s) (cur s) l (pushing s).
Definition set_pushing s l := mkH (hq s) (recv_paused s) (proc_paused s) (running s) (shut s) (fut_done s) (closed s)
  (tasks s) (cur s) (collecting s) l.

Fixpoint set_nth {A} (i : nat) (x : A) (l : list A) : list A :=
  match l, i with
  | [], _ => []
  | _ :: r, O => x :: r
  | y :: r, S j => y :: set_nth j x r
  end.
Fixpoint del_nth {A} (i : nat) (l : list A) : list A :=
  match l, i with
  | [], _ => []
  | _ :: r, O => r
  | y :: r, S j => y :: del_nth j r
  end.
Definition set_task (s : hstate) (i : nat) (t : tstate) : hstate := set_tasks s (set_nth i t (tasks s)) (cur s).

(** buffered_handler_base.py:215-217 ([__check_process_queue]) *)
Definition check_process (s : hstate) : hstate :=
  let create := set_tasks s (tasks s ++ [TCreated]) (Some (List.length (tasks s))) in
  match cur s with
  | None => create
  | Some i => match nth_error (tasks s) i with
              | Some TDone | None => create
              | Some _ => s
              end
  end.

(** buffered_handler_base.py:165-171 ([__shut_down_check]); [queue.shut_down()] is PendingQueue.shut_down,
    [set_result] of a done future raises InvalidStateError. *)
Definition shut_down_check (s : hstate) : hstate * list hout :=
  if negb (running s) && shut s then
    match q_shut_down (pend (hq s)) with
    | Raise e => (s, [HExn e])
    | Ok p =>
        let s1 := set_hq s (mkPQ p (errq (hq s))) in
        match q_shut_down (errq (hq s)) with
        | Raise e => (s1, [HExn e])
        | Ok e =>
            let s2 := set_closed (set_hq s (mkPQ p e)) (S (closed s)) in
            if fut_done s2 then (s2, [HClosed; HExn "InvalidStateError"])
            else (set_fut s2 true, [HClosed])
        end
    end
  else (s, []).

(** buffered_handler_base.py:205-207: the [finally] of _process_queue; the task is then done *)
Definition finish_task (s : hstate) (i : nat) : hstate * list hout :=
  shut_down_check (set_task (set_running s false) i TDone).

(** pending_queue.push_pending, recording whether the entry was added *)
Definition h_push_pending (s : hstate) (x : item) (retries : Z) : hstate * list hout :=
  let '(k, d, m) := x in
  match push_pending no_meta (hq s) k d retries (Some m) with
  | Ok q => (set_hq s q, [if has k (entries (pend (hq s))) then HDropped x else HQueued k])
  | Raise e => (s, [HLost x; HExn e])
  end.

Definition h_push_error (s : hstate) (x : item) : hstate * list hout :=
  let '(k, d, m) := x in
  match push_error no_meta (hq s) k d "Max retries reached." (Some m) with
  | Ok q => (set_hq s q, [if has k (entries (errq (hq s))) then HDropped x else HErrored x])
  | Raise e => (s, [HLost x; HExn e])
  end.

(** buffered_handler_base.py:179-187: from the loop head to the next suspension or the end of the task *)
Definition loop (s : hstate) (i : nat) : hstate * list hout :=
  if negb (proc_paused s) && has_pending (hq s) then
    match pop_pending (hq s) with
    | Raise e => let (s', o) := finish_task s i in (s', HExn e :: o)
    | Ok (q, None) => let (s', o) := finish_task (set_hq s q) i in (s', HExn "AttributeError" :: o)
    | Ok (q, Some e) =>
        if dto_ok (pe_data e) then
          (set_task (set_hq s q) i (TBefore e), [HStarted (pe_key e) (pe_data e) (pe_meta e) (pe_retries e)])
        else let (s', o) := finish_task (set_hq s q) i in
             (s', HLost (item_p e) :: HExn "ValidationError" :: o)
    end
  else finish_task s i.

(** buffered_handler_base.py:191-196: after run_after_process returned *)
Definition settle (s : hstate) (e : pentry D M) (success : bool) : hstate * list hout :=
  if success then (s, [HFinished (item_p e)])
  else if max_retries <=? pe_retries e + 1 then h_push_error s (item_p e)
  else h_push_pending s (item_p e) (pe_retries e + 1).

(** What the awaited user code does when it ends. *)
Inductive tres := ROk | RRet (b : bool) | RExn.

(** One step of processing task [i]. *)
Definition task_step (s : hstate) (i : nat) (r : tres) : hstate * list hout :=
  match nth_error (tasks s) i with
  | Some TCreated => loop (set_running s true) i                                          (* 202-204 *)
  | Some (TBefore e) =>
      match r with
      | RExn => let (s', o) := finish_task s i in (s', HLost (item_p e) :: HExn "user" :: o)
      | _ => (set_task s i (TCall e), [HCalled (pe_key e) (pe_data e)])
      end
  | Some (TCall e) =>
      match r with
      | RRet b => (set_task s i (TAfter e b), [HReturned (pe_key e) b])
      | RExn => let (s', o) := finish_task s i in (s', HLost (item_p e) :: HExn "user" :: o)
      | ROk => (s, [])
      end
  | Some (TAfter e b) =>
      match r with
      | RExn => let (s', o) := finish_task s i in (s', HLost (item_p e) :: HExn "user" :: o)
      | _ => let (s1, o1) := settle s e b in let (s2, o2) := loop s1 i in (s2, o1 ++ o2)
      end
  | _ => (s, [])
  end.

(** asyncio cancels task [i]: a task that has not started just ends, otherwise CancelledError is raised at the
    suspension point and runs the [finally] clauses. *)
Definition cancel_task (s : hstate) (i : nat) : hstate * list hout :=
  match nth_error (tasks s) i with
  | Some TCreated => (set_task s i TDone, [])
  | Some (TBefore e) | Some (TCall e) | Some (TAfter e _) =>
      let (s', o) := finish_task s i in (s', HLost (item_p e) :: o)
  | _ => (s, [])
  end.

Inductive hev :=
| ERequest (k : N) (d : D)           (* run is called *)
| ECollected (i : nat) (m : M)       (* collect_push_metadata of the i-th waiting run returns m *)
| ECollectFails (i : nat)            (* ... or raises (or is cancelled) *)
| EPush (i : nat)                    (* the i-th push task runs *)
| ECancelPush (i : nat)              (* ... or is cancelled before it runs *)
| ETask (i : nat) (r : tres)         (* processing task i makes a step *)
| ECancel (i : nat)
| EPauseReceiving | EUnpauseReceiving | EPauseProcessing | EUnpauseProcessing
| EReprocessAll | EReprocessOne (k : N) | EPopError (k : N) | EInspectError (k : N) | EClearError
| EShutDown.

(** [if not buffered_request: return None; return request_dto_type(...)] (92-103, 118-120) *)
Definition reply (o : option D) : list hout :=
  match o with
  | None => [HReply None]
  | Some d => if truthy d then (if dto_ok d then [HReply (Some d)] else [HExn "ValidationError"])
              else [HReply None]
  end.

Definition hstep (s : hstate) (ev : hev) : hstate * list hout :=
  match ev with
  | ERequest k d =>                                                                       (* 220-225 *)
      if recv_paused s then (s, [HRefused k]) else (set_collecting s (collecting s ++ [(k, d)]), [])
  | ECollected i m =>                                                                     (* 226-230 *)
      match nth_error (collecting s) i with
      | None => (s, [])
      | Some (k, d) =>
          let s1 := set_collecting s (del_nth i (collecting s)) in
          let s2 := set_pushing s1 (pushing s1 ++ [(k, d, m)]) in
          (check_process s2, [HAccepted (k, d, m)])
      end
  | ECollectFails i =>
      match nth_error (collecting s) i with
      | None => (s, [])
      | Some (k, _) => (set_collecting s (del_nth i (collecting s)), [HRunFailed k])
      end
  | EPush i =>                                                                            (* 227 *)
      match nth_error (pushing s) i with
      | None => (s, [])
      | Some x => h_push_pending (set_pushing s (del_nth i (pushing s))) x 0
      end
  | ECancelPush i =>
      match nth_error (pushing s) i with
      | None => (s, [])
      | Some x => (set_pushing s (del_nth i (pushing s)), [HLost x])
      end
  | ETask i r => task_step s i r
  | ECancel i => cancel_task s i
  | EPauseReceiving => (set_recv s true, [])                                              (* 55-56 *)
  | EUnpauseReceiving => (check_process (set_recv s false), [])                           (* 58-60 *)
  | EPauseProcessing => (set_proc s true, [])                                             (* 62-63 *)
  | EUnpauseProcessing => (check_process (set_proc s false), [])                          (* 65-67 *)
  | EReprocessAll =>                                                                      (* 106-110 *)
      match move_all no_meta (hq s) with
      | Ok q => (check_process (set_proc (set_hq s q) false),
                 flat_map (fun e => HReprocessed (fst e) ::
                             [if has (fst e) (entries (pend (hq s))) then HDropped (item_e (snd e))
                              else HQueued (fst e)]) (entries (errq (hq s))))
      | Raise e => (set_proc s true, [HExn e])
      end
  | EReprocessOne k =>                                                                    (* 113-120 *)
      match move_one no_meta (hq s) k with
      | Ok (q, o) => (check_process (set_proc (set_hq s q) false),
                      match lookup k (entries (errq (hq s))) with
                      | Some e => HReprocessed k ::
                          [if has k (entries (pend (hq s))) then HDropped (item_e e) else HQueued k]
                      | None => []
                      end ++ reply o)
      | Raise e => (set_proc s true, [HExn e])
      end
  | EPopError k =>                                                                        (* 92-96 *)
      match pop_error_key (hq s) k with
      | Ok (q, o) => (set_hq s q,
                      match lookup k (entries (errq (hq s))) with
                      | Some e => [HRemoved (item_e e)]
                      | None => []
                      end ++ reply o)
      | Raise e => (s, [HExn e])
      end
  | EInspectError k =>                                                                    (* 99-103 *)
      match inspect_error_key (hq s) k with
      | Ok o => (s, reply o)
      | Raise e => (s, [HExn e])
      end
  | EClearError =>                                                                        (* 84-85 *)
      (set_hq s (clear_error (hq s)), map (fun e => HRemoved (item_e (snd e))) (entries (errq (hq s))))
  | EShutDown =>                                                                          (* 158-162 *)
      shut_down_check (set_shut (set_proc (set_recv s true) true) true)
  end.

Fixpoint hrun (s : hstate) (evs : list hev) : hstate * list hout :=
  match evs with
  | [] => (s, [])
  | ev :: r => let (s1, o1) := hstep s ev in let (s2, o2) := hrun s1 r in (s2, o1 ++ o2)
  end.

(** buffered_handler_base.py:123-155 ([setup]) on queues with the given content of the two files:
    receiving and processing are unpaused and the first processing task is created. *)
Definition setup (q : pqueue D M) : hstate :=
  check_process (set_proc (check_process (set_recv
    (mkH q true true false false false 0 [] None [] []) false)) false).

End Model.

Arguments item : clear implicits.
Arguments tstate : clear implicits.
Arguments hstate : clear implicits.
Arguments hout : clear implicits.
Arguments hev : clear implicits.
