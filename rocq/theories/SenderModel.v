(** Model of ekosis/sending/buffered_sender_base.py as a transition system over asyncio's event loop.

    - Everything between two suspension points is one atomic step. Suspension points are: the start of a new task,
      [asyncio.sleep(wait_period)] and [send_data]. The queue operations contain none, so [enqueue] is one step.
    - The order of steps of different tasks is arbitrary.
    - What [send_data] does is part of the events ([sres]).
    - [D] is request data, [M] metadata (never given by the sender: [no_meta]). [dto_ok d]: the sender's request DTO type
      accepts [d]; [truthy d]: Python's [bool(d)]; [wait]: [wait_period > 0]. The DTO built from [d] is identified with [d]. *)
From Coq Require Import List ZArith NArith Bool String.
From Verif Require Import Base PQueueModel PQueueSpec PendingModel.
Import ListNotations.
Local Open Scope Z_scope.

Section Model.
Context {D M : Type}.
Variable no_meta : M.
Variables dto_ok truthy : D -> bool.
Variable wait : bool.
Variable max_retries : Z.

(** A message: span key and data. *)
Definition msg : Type := N * D.
Definition msg_p (e : pentry D M) : msg := (pe_key e, pe_data e).
Definition msg_e (e : eentry D M) : msg := (ee_key e, ee_data e).

(** The entries of a queue, wherever they are kept (used for records only). *)
Definition all_entries {V} (q : queue V) : list (N * V) :=
  plist (front q) ++ map (fun r => (rkey r, rval r)) (db q) ++
  match back q with Some b => plist b | None => [] end.

(** Where a sending task ([__process_send_queue], 107-113) is suspended. *)
Inductive ststate :=
| SCreated                       (* created, not started *)
| SWaiting (e : pentry D M)      (* in asyncio.sleep (line 95) *)
| SSending (e : pentry D M)      (* in send_data (line 96) *)
| SDone.

(** buffered_sender_base.py:38-48; [stasks] are all sending tasks ever created, [scur] is
    [self.__send_process_task], [sclosed] counts completed [queue.shut_down()]s. *)
Record sstate := mkS {
  sq : pqueue D M; spaused : bool; srunning : bool; sshut : bool; sfut : bool; sclosed : nat;
  stasks : list ststate; scur : option nat }.

Inductive sout :=
| OEnqueued (x : msg)             (* enqueue returns *)
| OQueued (k : N)                 (* record: an entry was appended to the pending queue *)
| ODropped (x : msg)              (* record: a push found the key already in the queue *)
| OStarted (k : N)                (* record: taken from the pending queue *)
| OSend (k : N) (d : D)           (* send_data is called *)
| OSent (x : msg)                 (* record: send_data returned *)
| ORetryable (k : N)              (* record: send_data raised ServerBusy or CommunicationsMaxRetriesReached *)
| OFailed (k : N) (e : string)    (* record: send_data raised another exception *)
| OErrored (x : msg)              (* record: moved to the error queue *)
| OLost (x : msg)                 (* record: a popped message is dropped by an exception *)
| OReprocessed (k : N)            (* record: an error entry was moved back *)
| ORemoved (x : msg)              (* record: removed from the error queue by the operator *)
| OReply (o : option D)           (* answer to pop / inspect / reprocess-one: None means not found *)
| OClosed                         (* the queues were written to disk *)
| OExn (e : string).              (* an exception left the step *)

Definition set_sq s x := mkS x (spaused s) (srunning s) (sshut s) (sfut s) (sclosed s) (stasks s) (scur s).
Definition set_spaused s b := mkS (sq s) b (srunning s) (sshut s) (sfut s) (sclosed s) (stasks s) (scur s).
Definition set_srunning s b := mkS (sq s) (spaused s) b (sshut s) (sfut s) (sclosed s) (stasks s) (scur s).
Definition set_sshut s b := mkS (sq s) (spaused s) (srunning s) b (sfut s) (sclosed s) (stasks s) (scur s).
Definition set_sfut s b := mkS (sq s) (spaused s) (srunning s) (sshut s) b (sclosed s) (stasks s) (scur s).
Definition set_sclosed s n := mkS (sq s) (spaused s) (srunning s) (sshut s) (sfut s) n (stasks s) (scur s).
Definition set_stasks s t c := mkS (sq s) (spaused s) (srunning s) (sshut s) (sfut s) (sclosed s) t c.

Fixpoint put_nth {A} (i : nat) (x : A) (l : list A) : list A :=
  match l, i with
  | [], _ => []
  | _ :: r, O => x :: r
  | y :: r, S j => y :: put_nth j x r
  end.
Definition set_stask (s : sstate) (i : nat) (t : ststate) : sstate := set_stasks s (put_nth i t (stasks s)) (scur s).

(** buffered_sender_base.py:62-64 ([__check_process_send_queue]) *)
Definition s_check (s : sstate) : sstate :=
  let create := set_stasks s (stasks s ++ [SCreated]) (Some (List.length (stasks s))) in
  match scur s with
  | None => create
  | Some i => match nth_error (stasks s) i with
              | Some SDone | None => create
              | Some _ => s
              end
  end.

(** buffered_sender_base.py:73-79 ([__shut_down_check]) *)
Definition s_shut_check (s : sstate) : sstate * list sout :=
  if negb (srunning s) && sshut s then
    match q_shut_down (pend (sq s)) with
    | Raise e => (s, [OExn e])
    | Ok p =>
        let s1 := set_sq s (mkPQ p (errq (sq s))) in
        match q_shut_down (errq (sq s)) with
        | Raise e => (s1, [OExn e])
        | Ok e =>
            let s2 := set_sclosed (set_sq s (mkPQ p e)) (S (sclosed s)) in
            if sfut s2 then (s2, [OClosed; OExn "InvalidStateError"])
            else (set_sfut s2 true, [OClosed])
        end
    end
  else (s, []).

(** buffered_sender_base.py:111-113: the [finally] of __process_send_queue; the task is then done *)
Definition s_finish (s : sstate) (i : nat) : sstate * list sout :=
  s_shut_check (set_stask (set_srunning s false) i SDone).

(** push_pending without metadata (58, 102), recording whether the entry was added *)
Definition s_push_pending (s : sstate) (k : N) (d : D) (retries : Z) : sstate * list sout :=
  match push_pending no_meta (sq s) k d retries None with
  | Ok q => (set_sq s q, [if has k (all_entries (pend (sq s))) then ODropped (k, d) else OQueued k])
  | Raise e => (s, [OLost (k, d); OExn e])
  end.
(** push_error without metadata (100, 104) *)
Definition s_push_error (s : sstate) (k : N) (d : D) (reason : string) : sstate * list sout :=
  match push_error no_meta (sq s) k d reason None with
  | Ok q => (set_sq s q, [if has k (all_entries (errq (sq s))) then ODropped (k, d) else OErrored (k, d)])
  | Raise e => (s, [OLost (k, d); OExn e])
  end.

(** buffered_sender_base.py:88-96: from the loop head to the next suspension or the end of the task *)
Definition s_loop (s : sstate) (i : nat) : sstate * list sout :=
  if negb (spaused s) && negb (pending_size (sq s) =? 0) then
    match pop_pending (sq s) with
    | Raise e => let (s', o) := s_finish s i in (s', OExn e :: o)
    | Ok (q, None) => let (s', o) := s_finish (set_sq s q) i in (s', OExn "AttributeError" :: o)
    | Ok (q, Some e) =>
        if dto_ok (pe_data e) then
          if wait then (set_stask (set_sq s q) i (SWaiting e), [OStarted (pe_key e)])
          else (set_stask (set_sq s q) i (SSending e), [OStarted (pe_key e); OSend (pe_key e) (pe_data e)])
        else let (s', o) := s_finish (set_sq s q) i in
             (s', OLost (msg_p e) :: OExn "ValidationError" :: o)
    end
  else s_finish s i.

(** What send_data does. *)
Inductive sres :=
| ROk                            (* returns *)
| RRetryable                     (* raises ServerBusyException or CommunicationsMaxRetriesReached *)
| RFails (e : string).           (* raises another Exception with text [e] *)

(** buffered_sender_base.py:97-104 *)
Definition s_settle (s : sstate) (e : pentry D M) (r : sres) : sstate * list sout :=
  match r with
  | ROk => (s, [OSent (msg_p e)])
  | RRetryable =>
      let (s', o) := if max_retries <=? pe_retries e + 1
                     then s_push_error s (pe_key e) (pe_data e) "Max retries reached."
                     else s_push_pending s (pe_key e) (pe_data e) (pe_retries e + 1) in
      (s', ORetryable (pe_key e) :: o)
  | RFails x => let (s', o) := s_push_error s (pe_key e) (pe_data e) x in (s', OFailed (pe_key e) x :: o)
  end.

(** One step of sending task [i]; [r] matters when send_data ends. *)
Definition s_task (s : sstate) (i : nat) (r : sres) : sstate * list sout :=
  match nth_error (stasks s) i with
  | Some SCreated => s_loop (set_srunning s true) i                                       (* 108-110 *)
  | Some (SWaiting e) => (set_stask s i (SSending e), [OSend (pe_key e) (pe_data e)])
  | Some (SSending e) =>
      let (s1, o1) := s_settle s e r in let (s2, o2) := s_loop s1 i in (s2, o1 ++ o2)
  | _ => (s, [])
  end.

(** asyncio cancels task [i]: CancelledError is not an Exception, so only the [finally] runs. *)
Definition s_cancel (s : sstate) (i : nat) : sstate * list sout :=
  match nth_error (stasks s) i with
  | Some SCreated => (set_stask s i SDone, [])
  | Some (SWaiting e) | Some (SSending e) => let (s', o) := s_finish s i in (s', OLost (msg_p e) :: o)
  | _ => (s, [])
  end.

Inductive sev :=
| SEnqueue (k : N) (d : D) | STask (i : nat) (r : sres) | SCancel (i : nat) | SPause | SUnpause
| SReprocessAll | SReprocessOne (k : N) | SPopError (k : N) | SInspectError (k : N) | SClearError | SShutDown.

(** [if not buffered_request: return None; return request_dto_type(...)] (143-154, 169-171) *)
Definition s_reply (o : option D) : list sout :=
  match o with
  | None => [OReply None]
  | Some d => if truthy d then (if dto_ok d then [OReply (Some d)] else [OExn "ValidationError"])
              else [OReply None]
  end.

Definition sstep (s : sstate) (ev : sev) : sstate * list sout :=
  match ev with
  | SEnqueue k d =>                                                                       (* 55-59 *)
      let (s1, o1) := s_push_pending s k d 0 in (s_check s1, o1 ++ [OEnqueued (k, d)])
  | STask i r => s_task s i r
  | SCancel i => s_cancel s i
  | SPause => (set_spaused s true, [])                                                    (* 116-117 *)
  | SUnpause => (s_check (set_spaused s false), [])                                       (* 119-121 *)
  | SReprocessAll =>                                                                      (* 157-161 *)
      match move_all no_meta (sq s) with
      | Ok q => (s_check (set_spaused (set_sq s q) false),
                 flat_map (fun e => OReprocessed (fst e) ::
                             [if has (fst e) (all_entries (pend (sq s))) then ODropped (msg_e (snd e))
                              else OQueued (fst e)]) (all_entries (errq (sq s))))
      | Raise e => (set_spaused s true, [OExn e])
      end
  | SReprocessOne k =>                                                                    (* 164-171 *)
      match move_one no_meta (sq s) k with
      | Ok (q, o) => (s_check (set_spaused (set_sq s q) false),
                      match lookup k (all_entries (errq (sq s))) with
                      | Some e => OReprocessed k ::
                          [if has k (all_entries (pend (sq s))) then ODropped (msg_e e) else OQueued k]
                      | None => []
                      end ++ s_reply o)
      | Raise e => (set_spaused s true, [OExn e])
      end
  | SPopError k =>                                                                        (* 143-147 *)
      match pop_error_key (sq s) k with
      | Ok (q, o) => (set_sq s q,
                      match lookup k (all_entries (errq (sq s))) with
                      | Some e => [ORemoved (msg_e e)]
                      | None => []
                      end ++ s_reply o)
      | Raise e => (s, [OExn e])
      end
  | SInspectError k =>                                                                    (* 150-154 *)
      match inspect_error_key (sq s) k with
      | Ok o => (s, s_reply o)
      | Raise e => (s, [OExn e])
      end
  | SClearError =>                                                                        (* 135-136 *)
      (set_sq s (clear_error (sq s)), map (fun e => ORemoved (msg_e (snd e))) (all_entries (errq (sq s))))
  | SShutDown => s_shut_check (set_sshut (set_spaused s true) true)                       (* 67-70 *)
  end.

Fixpoint srun (s : sstate) (evs : list sev) : sstate * list sout :=
  match evs with
  | [] => (s, [])
  | ev :: r => let (s1, o1) := sstep s ev in let (s2, o2) := srun s1 r in (s2, o1 ++ o2)
  end.

(** buffered_sender_base.py:190-205 ([setup]): sending is unpaused and the first sending task is created *)
Definition s_setup (q : pqueue D M) : sstate :=
  s_check (s_check (set_spaused (mkS q true false false false 0 [] None) false)).

End Model.

Arguments ststate : clear implicits.
Arguments sstate : clear implicits.
Arguments sout : clear implicits.
Arguments sev : clear implicits.
Arguments msg : clear implicits.
