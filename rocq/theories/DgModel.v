(** Model of one request on its way over UDP: from the caller of clients/json/udp.py through
    clients/datagram_client_base.py and the network to servers/json/udp.py, and back.  The texts are those of WireModel.v, the
    server is that of StreamModel.v with the application's code of RouterModel.v (as in AskModel.v).

    Several calls may be in progress on one client object.  A history is a list of events; each lets one task run from one
    suspension point to the next or is an action of the network, which may lose, copy and reorder datagrams.  Datagrams that
    are too long for the socket are lost (asyncio reports them to error_received, which does nothing).  Events that do not
    apply in a state are ignored.  Nobody forges addresses, and the transports are not closed or lost. *)
From Coq Require Import String Ascii ZArith NArith Bool List Arith.
From Verif Require Import Base SpanKeyModel RouterModel JsonModel JsonSpec StreamModel ClientModel WireModel AskModel.
Import ListNotations.
Local Open Scope Z_scope.

(** An address: a socket of the client object, or another one.  In [Mine e i], [i] is a ghost: the call whose attempt sent the
    datagram; no step reads it. *)
Inductive addr := Mine (e i : nat) | Other (a : nat).
Notation parcel := (list N * addr)%type.

Section Dg.
Context {D V : Type}.
Context (utf8 : list N -> bool) (dump : V -> json) (max : Z) (accepted_resp : span_key -> V).
(** The application behind the server, while it handles the [k]-th request: arbitrary for each. *)
Context (app : nat -> code D V).

(** Where a call is: in create_datagram_endpoint, waiting for send_lock, waiting for the response to what was sent from socket
    [e], in sleep, or at the end of the retry loop; [n] is retry_count. *)
Inductive gstate := GOpen (n : Z) | GWait (n : Z) | GSent (n : Z) (e : nat) | GSleep (n : Z) | GDone (o : outcome string).
(** The client object (datagram_client_base.py 40-57): initialised, the socket of self.protocol, the sockets created so far;
    for each socket DatagramProtocolClient.response, if any: whether that future was cancelled; who holds send_lock and who
    waits for it; the calls and what they ask. *)
Record dcl := mkCl {
  ready : bool; proto : nat; nends : nat; resp : nat -> option bool;
  lock : option nat; queue : list nat; gn : nat; tasks : nat -> gstate; gasked : nat -> request span_key }.
(** [up], [down]: datagrams on their way.  [ran] is a ghost: the requests handled to the end, and who sent them. *)
Record dg := mkDg { srv : udp string addr; up : list parcel; down : list parcel; me : dcl; ran : list (string * addr) }.

Inductive gevent :=
| GStart (r : request span_key)             (* send_message(route_key, data, ..., span_key) *)
| GOpened (i : nat) (x : option texn)       (* create_datagram_endpoint returns, or raises [x] *)
| GGrant                                    (* the first waiter gets the lock *)
| GUp (k : nat) | GUpLose (k : nat) | GUpCopy (k : nat)         (* the k-th datagram on its way to the server *)
| GElse (d : list N) (a : nat)              (* a datagram of another program arrives at the server *)
| GServed                                   (* build_response_function returns or raises *)
| GDown (k : nat) | GDownLose (k : nat) | GDownCopy (k : nat)   (* the k-th datagram on its way from the server *)
| GTimeout (i : nat) | GWake (i : nat) | GCancel (i : nat).

Definition set_task (c : dcl) (i : nat) (t : gstate) : dcl :=
  mkCl (ready c) (proto c) (nends c) (resp c) (lock c) (queue c) (gn c) (fupd (tasks c) i t) (gasked c).
(** The request's text, and its bytes: client_base.py 75-77 *)
Definition gasks (c : dcl) (i : nat) : string := let r := gasked c i in request_text (rroute r) (rspan r) (rdata r).
Definition gsent (c : dcl) (i : nat) : list N := bytes (gasks c i).
(** datagram_client_base.py 31-35, with the lock held: a new future, then the datagram. *)
Definition transmit (c : dcl) (i : nat) (n : Z) : dcl * list parcel :=
  (mkCl (ready c) (proto c) (nends c) (fupd (resp c) (proto c) (Some false)) (Some i) (queue c) (gn c)
        (fupd (tasks c) i (GSent n (proto c))) (gasked c),
   [(gsent c i, Mine (proto c) i)]).
(** Lines 69-70: the lock is free, or the call queues for it. *)
Definition acquire (c : dcl) (i : nat) (n : Z) : dcl * list parcel :=
  match lock c, queue c with
  | None, [] => transmit c i n
  | _, _ => (set_task (mkCl (ready c) (proto c) (nends c) (resp c) (lock c) (queue c ++ [i]) (gn c) (tasks c) (gasked c)) i (GWait n), [])
  end.
(** Lines 60-67: without a socket, one is created first. *)
Definition attempt (c : dcl) (i : nat) (n : Z) : dcl * list parcel :=
  if ready c then acquire c i n else (set_task c i (GOpen n), []).
Definition remove (i : nat) (l : list nat) : list nat := filter (fun j => negb (Nat.eqb j i)) l.
Definition unlock (c : dcl) (e : nat) (f : option bool) : dcl :=
  mkCl (ready c) (proto c) (nends c) (fupd (resp c) e f) None (queue c) (gn c) (tasks c) (gasked c).
(** The client's own events; the result also tells which datagrams it sends. *)
Definition cl_step (c : dcl) (ev : gevent) : dcl * list parcel :=
  match ev with
  | GStart r =>
      let i := gn c in
      let c := mkCl (ready c) (proto c) (nends c) (resp c) (lock c) (queue c) (S i) (tasks c) (fupd (gasked c) i r) in
      if 0 <? max then attempt c i 0 else (set_task c i (GDone ONone), [])
  | GOpened i x =>
      match tasks c i with
      | GOpen n =>
          match x with
          | None => acquire (mkCl true (nends c) (S (nends c)) (fupd (resp c) (nends c) None) (lock c) (queue c) (gn c) (tasks c) (gasked c)) i n
          | Some XCancel => (set_task c i (GDone (ORaw XCancel)), [])
          | Some XTimeout =>   (* TimeoutError is retried, lines 79-84 *)
              (set_task c i (if max <=? n + 1 then GDone OMax else GSleep (n + 1)), [])
          | Some x => (set_task c i (GDone (ONonRetry x)), [])
          end
      | _ => (c, [])
      end
  | GGrant =>
      match lock c, queue c with
      | None, i :: r => match tasks c i with
                        | GWait n => transmit (mkCl (ready c) (proto c) (nends c) (resp c) None r (gn c) (tasks c) (gasked c)) i n
                        | _ => (c, [])
                        end
      | _, _ => (c, [])
      end
  | GTimeout i =>   (* lines 35 and 79-84; wait_for cancels the future *)
      match tasks c i with
      | GSent n e => (set_task (unlock c e (Some true)) i (if max <=? n + 1 then GDone OMax else GSleep (n + 1)), [])
      | _ => (c, [])
      end
  | GWake i =>
      match tasks c i with
      | GSleep n => if n <? max then attempt c i n else (set_task c i (GDone ONone), [])
      | _ => (c, [])
      end
  | GCancel i =>   (* CancelledError is not an Exception: it leaves the loop *)
      match tasks c i with
      | GOpen _ | GSleep _ => (set_task c i (GDone (ORaw XCancel)), [])
      | GWait _ => (set_task (mkCl (ready c) (proto c) (nends c) (resp c) (lock c) (remove i (queue c)) (gn c) (tasks c) (gasked c)) i (GDone (ORaw XCancel)), [])
      | GSent _ e => (set_task (unlock c e (Some true)) i (GDone (ORaw XCancel)), [])
      | GDone _ => (c, [])
      end
  | _ => (c, [])
  end.
(** Lines 25-28: a datagram for socket [e].  The text is decoded first only if there is a future; set_result on a cancelled
    future raises InvalidStateError in the callback, as bytes that cannot be decoded raise UnicodeDecodeError. *)
Definition received (c : dcl) (e : nat) (b : list N) : dcl :=
  match resp c e, lock c with
  | Some false, Some i =>
      match tasks c i, decode utf8 b with
      | GSent _ e', Some t => if Nat.eqb e e' then set_task (unlock c e None) i (GDone (OText t)) else c
      | _, _ => c
      end
  | _, _ => c
  end.

(** udp.py 26-30: the [k]-th request is handled by [app k]; the response has no line feed (line 75). *)
Definition ganswer (before : list string) (t : string) : option (list N) := AskModel.answer dump accepted_resp app (List.length before) [] t.
(** An event at the server; what it sends is on its way. *)
Definition serve_ev (s : dg) (e : uev addr) : dg :=
  let v := ustep (decode utf8) ganswer (srv s) e in
  mkDg v (up s) (down s ++ skipn (List.length (usent (srv s))) (usent v)) (me s)
       (ran s ++ match e, uheld (srv s) with UDone, Some w => [w] | _, _ => [] end).
Definition drop_nth {A} (k : nat) (l : list A) : list A := firstn k l ++ skipn (S k) l.
Definition set_up (s : dg) (l : list parcel) : dg := mkDg (srv s) l (down s) (me s) (ran s).
Definition set_down (s : dg) (l : list parcel) : dg := mkDg (srv s) (up s) l (me s) (ran s).
Definition gstep (s : dg) (ev : gevent) : dg :=
  match ev with
  | GUp k => match nth_error (up s) k with
             | Some (d, a) => serve_ev (set_up s (drop_nth k (up s))) (UDatagram d a)
             | None => s end
  | GUpLose k => set_up s (drop_nth k (up s))
  | GUpCopy k => match nth_error (up s) k with Some p => set_up s (up s ++ [p]) | None => s end
  | GElse d a => serve_ev s (UDatagram d (Other a))
  | GServed => serve_ev s UDone
  | GDown k => match nth_error (down s) k with
               | Some (b, Mine e _) => mkDg (srv s) (up s) (drop_nth k (down s)) (received (me s) e b) (ran s)
               | _ => s end
  | GDownLose k => set_down s (drop_nth k (down s))
  | GDownCopy k => match nth_error (down s) k with Some p => set_down s (down s ++ [p]) | None => s end
  | _ => let (c, ps) := cl_step (me s) ev in mkDg (srv s) (up s ++ ps) (down s) c (ran s)
  end.
Definition gfresh : dg := mkDg (mkUdp [] None [] [] 0) [] []
  (mkCl false 0 0 (fun _ => None) None [] 0 (fun _ => GDone ONone) (fun _ => mkReq EmptyString (mkKey 0 0) JNull)) [].
Definition grun (es : list gevent) : dg := fold_left gstep es gfresh.

(** client_base.py 77-85: how the call ends, once the retry loop has. *)
Definition goutcome {R} (str_of : json -> string) (build : list (string * json) -> option R) (s : dg) (i : nat) : option (result R) :=
  match tasks (me s) i with
  | GDone o => Some (receive parse client_int client_span_ok str_of build o)
  | _ => None
  end.
End Dg.
