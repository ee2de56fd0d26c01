(** Model of the life of an application: application_base.py 86-128 and 206-302, servers/json/tcp.py, udp.py and uds.py (start, stop and
    serving), the set-up and shut-down of buffered endpoints and senders (buffered_handler_base.py 139-171,
    buffered_sender_base.py 67-79 and 190-205), and what a termination signal does to the code that is running.

    - The main program is the one of the examples: [with Application() as app: app.start()].
    - A queue is the PaginatedQueue of PQueueModel; the entries of pending and error queues have one type [V] here.
    - asyncio.run cancels all tasks and waits for them when the main task ends, whatever ended it; user code does not resist
      cancellation. So no processing task is running when the application shuts its queues down (C21 and C51 are about that).
    - A signal handler runs between two bytecodes of the main thread and raises there. [place] says where; inside an action of the
      shut-down the signal counts as before or after the action (C07 is about the commits of one queue).
    - Unix sockets are supported by the platform. *)
From Coq Require Import List ZArith NArith Bool String.
From Verif Require Import Base PQueueModel.
Import ListNotations.
Local Open Scope string_scope.

Section Model.
Context {V : Type}.

(** ** Buffered endpoints and senders *)

(** A queue's file, alone or with the object that has it open. *)
Inductive qstate := Closed (t : table V) | Open (q : queue V).
(** buffered_handler_base.py 45-52, buffered_sender_base.py 38-48: [self.queue] is None unless both are open. *)
Record comp := mkComp { c_ps : Z; c_pend : qstate; c_err : qstate; has_future : bool }.

(** How far [setup] gets before something raises: sqlite cannot open or read the first file, the second one, or a signal arrives after
    [__configure_queue]. *)
Inductive point := BeforeFiles | BetweenFiles | BeforeFuture.
Inductive outcome := Completes | RaisesAt (p : point) (e : string).

Definition opened (ps : Z) (x : qstate) : qstate :=
  match x with Closed t => Open (open_queue ps t) | Open q => Open q end.
(** pending_queue.py 29-36: the first queue's object is dropped when the second raises; its pages are gone from the file. *)
Definition dropped (ps : Z) (x : qstate) : qstate :=
  match x with Closed t => Closed (db (open_queue ps t)) | Open q => Closed (db q) end.
(** buffered_handler_base.py 139-155, buffered_sender_base.py 190-205 *)
Definition setup (c : comp) (o : outcome) : comp * option string :=
  match o with
  | RaisesAt BeforeFiles e => (c, Some e)
  | RaisesAt BetweenFiles e => (mkComp (c_ps c) (dropped (c_ps c) (c_pend c)) (c_err c) false, Some e)
  | RaisesAt BeforeFuture e => (mkComp (c_ps c) (opened (c_ps c) (c_pend c)) (opened (c_ps c) (c_err c)) false, Some e)
  | Completes => (mkComp (c_ps c) (opened (c_ps c) (c_pend c)) (opened (c_ps c) (c_err c)) true, None)
  end.

(** ** Servers *)
Inductive transport := TCP | UDP | UDS.
Definition is_stream (t : transport) : bool := match t with UDP => false | _ => true end.
(** The task of [__start_tcp_server] etc.: not created, not started, in the [await] of the set-up, serving, ended. *)
Inductive stask := TNone | TCreated | TStarting | TServing | TDone.
(** [_running]; [_server] (or the transport) is not None; its socket is open. *)
Record server := mkServer { kind : transport; running : bool; handle : bool; listening : bool; task : stask }.

(** tcp.py 16-20, uds.py 17-22, udp.py 53-55 and 73-76: up to the first suspension *)
Definition sv_start (s : server) : server := mkServer (kind s) true (handle s) (listening s) TStarting.
(** tcp.py 38-48, uds.py 43-53, udp.py 76-83: the socket is bound *)
Definition sv_bound (s : server) : server := mkServer (kind s) (running s) true true TServing.
(** The set-up raises [e]. tcp.py 21-24, uds.py 23-26: [self._server.close()] of None raises in its place; udp.py 58-65. *)
Definition sv_fails (s : server) (e : string) : server * string :=
  if is_stream (kind s) then
    (mkServer (kind s) false (handle s) false TDone, if handle s then e else "AttributeError")
  else (mkServer (kind s) false (handle s) (listening s) TDone, e).
(** CancelledError in the task. tcp.py 21, uds.py 23: it is no Exception, so [_running] stays True, and [__aexit__] is not called because
    [__aenter__] has not returned. udp.py 58-65: [__aexit__] is. tcp.py 44-50, uds.py 49-55, udp.py 81-87: serving ends by closing the socket. *)
Definition sv_cancel (s : server) : server :=
  match task s with
  | TNone | TCreated => mkServer (kind s) (running s) (handle s) (listening s) TDone
  | TStarting => mkServer (kind s) (if is_stream (kind s) then running s else false) (handle s) (listening s) TDone
  | TServing => mkServer (kind s) false (handle s) false TDone
  | TDone => s
  end.
(** tcp.py 31-35, uds.py 36-40, udp.py 62-65 ([stop]) *)
Definition sv_stop (s : server) : server * option string :=
  if running s then
    if is_stream (kind s) then
      if handle s then (mkServer (kind s) false true false (task s), None)
      else (mkServer (kind s) false false (listening s) (task s), Some "AttributeError")
    else (mkServer (kind s) false (handle s) (listening s) (task s), None)
  else (s, None).

(** ** The application *)

(** In the with statement; setting up the k-th buffered endpoint or sender; in [setup_tasks]; in [gather]; [start] has returned or
    raised; [__exit__] has returned or raised. *)
Inductive phase := Entered | Setting (k : nat) | Hook | Serving | Ended (e : option string) | Exited (e : option string).
(** [servers] are the configured ones, [failed] the first exception of a gathered task. *)
Record app := mkApp { comps : list comp; servers : list server; now : phase; failed : option string; flushed : bool }.
Definition set_comps a x := mkApp x (servers a) (now a) (failed a) (flushed a).
Definition set_servers a x := mkApp (comps a) x (now a) (failed a) (flushed a).
Definition set_now a x := mkApp (comps a) (servers a) x (failed a) (flushed a).
Definition set_failed a x := mkApp (comps a) (servers a) (now a) x (flushed a).
Definition set_flushed a := mkApp (comps a) (servers a) (now a) (failed a) true.

Fixpoint set_nth {A} (i : nat) (x : A) (l : list A) : list A :=
  match l, i with
  | [], _ => []
  | _ :: r, O => x :: r
  | y :: r, S j => y :: set_nth j x r
  end.

Definition signal_exn : string := "TerminationSignalException".

(** Where the code is when a signal arrives. *)
Inductive place :=
| WaitingForEvents               (* in the event loop itself, e.g. in select *)
| InMainTask                     (* in __start or setup_tasks *)
| InGatheredTask                 (* statistics keeper, wait_for_shutdown, serving, tasks of setup_tasks *)
| InServerStart (i : nat)        (* in the set-up of server i *)
| InCallback                     (* in a callback of the event loop, e.g. data_received *)
| InRequest                      (* in _route_request: routing, middleware, endpoint *)
| InOtherTask                    (* in any other task: rest of a connection, processing task, push task *)
| InSending (i : nat) (k : N) (v : V).  (* in a buffered sender's send_data for entry (k, v) *)

Inductive which := Pending | Errors.
Inductive ev :=
| EStart                                         (* app.start() *)
| EBodyEnds | EBodyRaises (e : string)           (* the with statement ends without it *)
| ESetup (o : outcome)
| EHookDone | EHookRaises (e : string)           (* setup_tasks returns or raises *)
| EServerStarts (i : nat) | EServerBound (i : nat) | EServerFails (i : nat) (e : string)
| ETaskFails (e : string)                        (* another gathered task raises *)
| EWork (i : nat) (w : which) (o : op V)         (* a call of a queue's method *)
| ESignal (w : place)
| EExit (signal : option nat).                   (* __exit__, with a signal before the n-th action *)

Inductive out :=
| OWork (i : nat) (w : which) (o : op V) (r : PQueueModel.out V)   (* answer of the queue *)
| OUnhandled                                     (* a request is answered with status UNHANDLED *)
| OErrored (i : nat) (k : N) (v : V)             (* a message is put into the sender's error queue *)
| OTrace (e : string)                            (* a traceback of this exception is printed *)
| OExit (status : Z).

(** asyncio.run: all tasks are cancelled *)
Definition end_run (a : app) (e : option string) : app :=
  set_now (set_servers a (map sv_cancel (servers a))) (Ended e).
(** A gathered task raises: [gather] raises at once, or when it is reached (application_base.py 299-302). *)
Definition task_failed (a : app) (e : string) : app :=
  match now a with
  | Serving => end_run a (Some e)
  | _ => match failed a with None => set_failed a (Some e) | Some _ => a end
  end.
(** application_base.py 285-299: after the set-ups the tasks are created *)
Definition after_setup (a : app) (k : nat) : app :=
  if Nat.ltb k (List.length (comps a)) then set_now a (Setting k)
  else set_now (set_servers a (map (fun s => mkServer (kind s) (running s) (handle s) (listening s) TCreated) (servers a))) Hook.

Definition with_comp (a : app) (i : nat) (f : comp -> app * list out) : app * list out :=
  match nth_error (comps a) i with Some c => f c | None => (a, []) end.
Definition queue_of (c : comp) (w : which) : qstate := match w with Pending => c_pend c | Errors => c_err c end.
Definition set_queue (c : comp) (w : which) (x : qstate) : comp :=
  match w with
  | Pending => mkComp (c_ps c) x (c_err c) (has_future c)
  | Errors => mkComp (c_ps c) (c_pend c) x (has_future c)
  end.
(** A call of a method of a queue, by whatever task. *)
Definition work (a : app) (i : nat) (w : which) (o : op V) : app * list out :=
  with_comp a i (fun c =>
    match queue_of c w with
    | Closed _ => (a, [])
    | Open q => match step q o with
                | Ok (q', r) => (set_comps a (set_nth i (set_queue c w (Open q')) (comps a)), [OWork i w o r])
                | Raise e => (a, [])
                end
    end).
Definition server_event (a : app) (i : nat) (before : stask) (f : server -> app) : app * list out :=
  match nth_error (servers a) i with
  | Some s => match task s, before with
              | TCreated, TCreated | TStarting, TStarting => (f s, [])
              | _, _ => (a, [])
              end
  | None => (a, [])
  end.

(** What a signal does: the exception is raised in the running code and is an Exception like others.
    - asyncio/base_events.py: it leaves run_forever if the loop's own code is running, but Handle._run and Task.__step catch it;
    - server_base.py 72-77: answered as any exception of an endpoint;
    - buffered_sender_base.py 103-104: the message goes to the error queue, the sending task goes on. *)
Definition on_signal (a : app) (w : place) : app * list out :=
  match w with
  | WaitingForEvents | InMainTask => (end_run a (Some signal_exn), [])
  | InGatheredTask => (task_failed a signal_exn, [])
  | InServerStart i =>
      server_event a i TStarting (fun s => let (s', e) := sv_fails s signal_exn in task_failed (set_servers a (set_nth i s' (servers a))) e)
  | InCallback | InOtherTask => (a, [])
  | InRequest => (a, [OUnhandled])
  | InSending i k v => let (a', o) := work a i Errors (Push k v) in (a', (o ++ match o with [] => [] | _ => [OErrored i k v] end)%list)
  end.

(** ** The shut-down (application_base.py 122-128, 206-216, 269-272) *)
Inductive action := StopServer (i : nat) | ClosePending (i : nat) | CloseErrors (i : nat) | SetFuture (i : nat) | FlushLog.
Definition plan (a : app) : list action :=
  (map StopServer (seq 0 (List.length (servers a))) ++
   flat_map (fun i => [ClosePending i; CloseErrors i; SetFuture i]) (seq 0 (List.length (comps a))) ++ [FlushLog])%list.
(** One queue's shut_down, or the attribute of None. *)
Definition close (a : app) (i : nat) (w : which) (c : comp) : app * option string :=
  match queue_of c w with
  | Closed _ => (a, Some "AttributeError")
  | Open q => match q_shut_down q with
              | Ok q' => (set_comps a (set_nth i (set_queue c w (Closed (db q'))) (comps a)), None)
              | Raise e => (a, Some e)
              end
  end.
Definition act (a : app) (x : action) : app * option string :=
  match x with
  | StopServer i =>
      match nth_error (servers a) i with
      | Some s => let (s', e) := sv_stop s in (set_servers a (set_nth i s' (servers a)), e)
      | None => (a, None)
      end
  | ClosePending i => match nth_error (comps a) i with Some c => close a i Pending c | None => (a, None) end
  | CloseErrors i => match nth_error (comps a) i with Some c => close a i Errors c | None => (a, None) end
  | SetFuture i =>
      match nth_error (comps a) i with
      | Some c => (a, if has_future c then None else Some "AttributeError")
      | None => (a, None)
      end
  | FlushLog => (set_flushed a, None)
  end.
Fixpoint perform (a : app) (signal : option nat) (xs : list action) : app * option string :=
  match xs with
  | [] => (a, None)
  | x :: r => match signal with
              | Some O => (a, Some signal_exn)
              | _ => let (a', e) := act a x in
                     match e with Some e => (a', Some e) | None => perform a' (option_map pred signal) r end
              end
  end.
(** application_base.py 106-119: every exception of the body is swallowed ([return True]); one of the shut-down is not. *)
Definition exit (a : app) (cause : option string) (signal : option nat) : app * list out :=
  let report := match cause with
                | Some e => if String.eqb e signal_exn || String.eqb e "CancelledError" then [] else [OTrace e]
                | None => []
                end in
  let (a', e) := perform a signal (plan a) in
  (set_now a' (Exited e),
   (report ++ match e with Some e => [OTrace e; OExit 1] | None => [OExit 0] end)%list).

Definition lstep (a : app) (x : ev) : app * list out :=
  match now a with
  | Entered =>
      match x with
      | EStart => (after_setup a 0, [])                                                     (* 219-224, 279-283 *)
      | EBodyEnds => (set_now a (Ended None), [])
      | EBodyRaises e => (set_now a (Ended (Some e)), [])
      | _ => (a, [])
      end
  | Setting k =>
      match x with
      | ESetup o =>                                                                         (* 186-204 *)
          with_comp a k (fun c =>
            let (c', e) := setup c o in
            let a' := set_comps a (set_nth k c' (comps a)) in
            match e with Some e => (end_run a' (Some e), []) | None => (after_setup a' (S k), []) end)
      | _ => (a, [])
      end
  | Hook | Serving =>
      match x with
      | EHookDone =>                                                                        (* 299-302 *)
          match now a with
          | Hook => (match failed a with None => set_now a Serving | Some e => end_run a (Some e) end, [])
          | _ => (a, [])
          end
      | EHookRaises e => match now a with Hook => (end_run a (Some e), []) | _ => (a, []) end
      | EServerStarts i => server_event a i TCreated (fun s => set_servers a (set_nth i (sv_start s) (servers a)))
      | EServerBound i => server_event a i TStarting (fun s => set_servers a (set_nth i (sv_bound s) (servers a)))
      | EServerFails i e =>
          server_event a i TStarting (fun s =>
            let (s', e') := sv_fails s e in task_failed (set_servers a (set_nth i s' (servers a))) e')
      | ETaskFails e => (task_failed a e, [])
      | EWork i w o => work a i w o
      | ESignal w => on_signal a w
      | _ => (a, [])
      end
  | Ended cause => match x with EExit signal => exit a cause signal | _ => (a, []) end
  | Exited _ => (a, [])
  end.

Fixpoint lrun (a : app) (xs : list ev) : app * list out :=
  match xs with
  | [] => (a, [])
  | x :: r => let (a1, o1) := lstep a x in let (a2, o2) := lrun a1 r in (a2, (o1 ++ o2)%list)
  end.

(** application_base.py 86-104, 172-183: constructed and entered. [files]: page size and the two files of each buffered endpoint and
    sender, in the order of set-up. *)
Definition new_app (files : list (Z * table V * table V)) (ts : list transport) : app :=
  mkApp (map (fun '(ps, tp, te) => mkComp ps (Closed tp) (Closed te) false) files)
        (map (fun t => mkServer t false false false TNone) ts) Entered None false.

End Model.

Arguments qstate : clear implicits.
Arguments comp : clear implicits.
Arguments app : clear implicits.
Arguments place : clear implicits.
Arguments ev : clear implicits.
Arguments out : clear implicits.
