(** Model of the span key that code and log lines see: ekosis/requests/request_context.py, a ContextVar, and the places that
    set it: servers/server_base.py 36-53 (a request), requests/buffered_handler_base.py 179-198 (buffered processing).

    - asyncio: each task has a context of its own, a copy, taken when the task is created, of the context of the code that
      creates it.  [ContextVar.set] changes the running task's context and returns a token; [reset] puts the value of before
      back.
    - Tasks: connection tasks (servers/stream_server_base.py 22-46) and datagram tasks (servers/json/udp.py 28-40), created by the event loop in the context of the main task, where no span key is set; the processing task of
      a buffered endpoint (buffered_handler_base.py 215-217), created by code of a request or of the operator's requests; the
      sending task of a buffered sender (sending/buffered_sender_base.py 62-64), created by whoever sends a message; tasks
      that user code or the framework starts from such code ([fire_and_forget_task], util/fire_and_forget_tasks.py 6-22).
    - The order of steps of different tasks is arbitrary.  Which request or message a task takes from its queue is part of
      the event (the queues are in [HandlerModel] and [SenderModel]).
    - A log line is formatted in the task that logs it (logs/otlp_formatter.py 9-36); that the buffering handler formats some
      lines later is C61. *)
From Coq Require Import List NArith Bool.
Import ListNotations.

(** What the task runs: a connection or a datagram; the processing of endpoint [j]; the sending of sender [j]; the heartbeat
    of a persistent client; other code (the main task, and tasks that user code starts). *)
Inductive kind := KServe | KProcess (j : nat) | KSend (j : nat) | KBeat | KOther.

(** Where the task is: between requests, messages, or in other code; in a request, with the token of [set] (server_base.py
    38-53); in the processing of a buffered request (buffered_handler_base.py 186-198); in the sending of a message
    (buffered_sender_base.py 87-104), where nothing is set; ended. *)
Inductive phase := PIdle | PRequest (k : N) (tok : option N) | PItem (k : N) (tok : option N) | PMessage (k : N) | PEnded.

(** A task: [var] is the value of the ContextVar in its context. *)
Record task := mkT { tkind : kind; tphase : phase; var : option N }.

(** [curp j], [curs j]: the processing task of endpoint [j], the sending task of sender [j], if there was one. *)
Record cstate := mkC { ctasks : list task; curp : nat -> option nat; curs : nat -> option nat }.

(** What is seen from outside.  [ORequest], [OItem], [OMessage]: the task begins to work on a request, on a buffered
    request, on a message to be sent, with that span key; [ODone]: it has finished; [OStarted t t0 kd]: code in task [t0]
    created task [t], of kind [kd]; [OLine t x]: code in task [t] wrote a log line with span key [x] (otlp_formatter.py 12,
    36-37; [None]: the line has no span key). *)
Inductive cout :=
| ORequest (t : nat) (k : N)
| OItem (t : nat) (k : N)
| OMessage (t : nat) (k : N)
| ODone (t : nat)
| OStarted (t t0 : nat) (kd : kind)
| OLine (t : nat) (x : option N).

Inductive cev :=
| CArrive                       (* a client connects, or a datagram arrives *)
| CRequest (t : nat) (k : N)    (* a request is parsed; server_base.py 36-38 *)
| CTake (t : nat) (k : N)       (* a processing task takes a request, a sending task a message *)
| CDone (t : nat)               (* the end of the request, item or message, whatever its outcome; server_base.py 52-53 *)
| CEnd (t : nat)                (* the task ends *)
| CWakeProcess (t j : nat)      (* code in task t calls __check_process_queue of endpoint j; buffered_handler_base.py 215-217 *)
| CWakeSend (t j : nat)         (* code in task t sends through sender j; buffered_sender_base.py 62-64 *)
| CBeat (t : nat)               (* code in task t uses a persistent client without a heartbeat; persistent_stream_client_base.py 98-101 *)
| CStart (t : nat)              (* user code in task t starts a task *)
| CLog (t : nat).               (* code in task t logs something *)

Fixpoint put {A} (i : nat) (x : A) (l : list A) : list A :=
  match l, i with
  | [], _ => []
  | _ :: r, O => x :: r
  | y :: r, S j => y :: put j x r
  end.
Definition set_t (s : cstate) (i : nat) (t : task) : cstate := mkC (put i t (ctasks s)) (curp s) (curs s).
Definition upd (f : nat -> option nat) (j i : nat) : nat -> option nat := fun x => if Nat.eqb x j then Some i else f x.
(** asyncio.create_task: the context is copied *)
Definition create (s : cstate) (k : kind) (parent : task) : list task := ctasks s ++ [mkT k PIdle (var parent)].
Definition next (s : cstate) : nat := List.length (ctasks s).
(** [task is None or task.done()] *)
Definition over (s : cstate) (c : option nat) : bool :=
  match c with
  | None => true
  | Some i => match nth_error (ctasks s) i with Some t => match tphase t with PEnded => true | _ => false end | None => true end
  end.
(** ContextVar.set and reset; request_context.py 20-25 *)
Definition set_key (t : task) (k : N) (p : phase) : task := mkT (tkind t) p (Some k).
Definition reset_key (t : task) (tok : option N) : task := mkT (tkind t) PIdle tok.
(** Code can run in a task that has not ended; user code does in requests, in the processing of buffered requests, in the
    main task and in tasks started by user code. *)
Definition live (t : task) : bool := match tphase t with PEnded => false | _ => true end.
Definition user_code (t : task) : bool :=
  match tphase t, tkind t with
  | PRequest _ _, _ | PItem _ _, _ | PIdle, KOther => true
  | _, _ => false
  end.

Definition cstep_at (s : cstate) (i : nat) (t : task) (ev : cev) : cstate * list cout :=
  match ev with
  | CArrive => (s, [])
  | CRequest _ k =>
      match tkind t, tphase t with
      | KServe, PIdle => (set_t s i (set_key t k (PRequest k (var t))), [ORequest i k])
      | _, _ => (s, [])
      end
  | CTake _ k =>
      match tkind t, tphase t with
      | KProcess _, PIdle => (set_t s i (set_key t k (PItem k (var t))), [OItem i k])     (* buffered_handler_base.py 181-186 *)
      | KSend _, PIdle => (set_t s i (mkT (tkind t) (PMessage k) (var t)), [OMessage i k])   (* buffered_sender_base.py 89-92 *)
      | _, _ => (s, [])
      end
  | CDone _ =>
      match tphase t with
      | PRequest _ tok | PItem _ tok => (set_t s i (reset_key t tok), [ODone i])          (* buffered_handler_base.py 197-198 *)
      | PMessage _ => (set_t s i (mkT (tkind t) PIdle (var t)), [ODone i])
      | _ => (s, [])
      end
  | CEnd _ =>
      match tphase t with
      | PIdle => (set_t s i (mkT (tkind t) PEnded (var t)), [])
      | _ => (s, [])
      end
  | CWakeProcess _ j =>
      if live t && over s (curp s j)
      then (mkC (create s (KProcess j) t) (upd (curp s) j (next s)) (curs s), [OStarted (next s) i (KProcess j)])
      else (s, [])
  | CWakeSend _ j =>
      if live t && over s (curs s j)
      then (mkC (create s (KSend j) t) (curp s) (upd (curs s) j (next s)), [OStarted (next s) i (KSend j)])
      else (s, [])
  | CBeat _ => if live t then (mkC (create s KBeat t) (curp s) (curs s), [OStarted (next s) i KBeat]) else (s, [])
  | CStart _ => if user_code t then (mkC (create s KOther t) (curp s) (curs s), [OStarted (next s) i KOther]) else (s, [])
  | CLog _ => if live t then (s, [OLine i (var t)]) else (s, [])
  end.
Definition where_at (ev : cev) : nat :=
  match ev with
  | CArrive => 0
  | CRequest i _ | CTake i _ | CDone i | CEnd i | CWakeProcess i _ | CWakeSend i _ | CBeat i | CStart i | CLog i => i
  end.
Definition cstep (s : cstate) (ev : cev) : cstate * list cout :=
  match ev with
  | CArrive => (mkC (ctasks s ++ [mkT KServe PIdle None]) (curp s) (curs s), [])
  | _ => match nth_error (ctasks s) (where_at ev) with
         | Some t => cstep_at s (where_at ev) t ev
         | None => (s, [])
         end
  end.

Fixpoint crun (s : cstate) (evs : list cev) : cstate * list cout :=
  match evs with
  | [] => (s, [])
  | ev :: r => let (s1, o1) := cstep s ev in let (s2, o2) := crun s1 r in (s2, o1 ++ o2)
  end.

(** The application has started: there is the main task; the set-up of the endpoints and senders creates their tasks from it
    ([CWakeProcess 0 j], buffered_handler_base.py 139-155; [CWakeSend 0 j], buffered_sender_base.py 121). *)
Definition cstart : cstate := mkC [mkT KOther PIdle None] (fun _ => None) (fun _ => None).
