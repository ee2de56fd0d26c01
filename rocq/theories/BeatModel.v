(** When a persistent client sends heartbeats: ekosis/clients/persistent_stream_client_base.py 36, 70-101, 117 and 131-132.
    What a heartbeat does on the connection is ClientModel.v; here it starts at a time and ends with an outcome.  Times are
    exact numbers (time.time() is taken to go forward at the rate of the event loop's clock). *)
From Coq Require Import List ZArith Bool.
Import ListNotations.
Local Open Scope Z_scope.

Section Beat.
Context (period : Z).                  (* heartbeat_period *)

(** The heartbeat task (90-95, 98-101): created and not yet run, in [asyncio.sleep], in [__do_heartbeat] (each since some time), or ended by an
    exception. *)
Inductive place := Ready (since : Z) | Sleeping (since : Z) | Probing (since : Z) | Dead.
(** [last] is [__last_send]; [probes] the times at which heartbeats began and [activity] those and the times of the calls and
    answers, the latest first (for specifications). *)
Record client := mkClient { last : Z; task : place; probes : list Z; activity : list Z }.

(** 98-101 at the first call, at time [t]: a client that sent nothing has [last = 0] (line 36).  Simplified: the activity of a
    call is its beginning and its answer; its attempts in between are left out. *)
Definition first_call (t : Z) : client := mkClient 0 (Ready t) [] [t].

Inductive ev :=
| Call (t : Z)           (* send_message is called: 131-132 and 98-101 *)
| Answer (t : Z)         (* a call gets its answer: 117 *)
| Woke (t : Z)           (* the task runs: for the first time, or its sleep is over *)
| Acked (t : Z)          (* the heartbeat is acknowledged: 86-87 *)
| Missed (t : Z)         (* the connection is refused, or the answer is no acknowledgement: 71-74, 80-85 *)
| Raised (t : Z).        (* the heartbeat raises: a timeout, a broken connection, another failure to connect *)

(** 91-95: one round of the loop, from its head *)
Definition check (c : client) (t : Z) : client :=
  if last c <? t - period then mkClient (last c) (Probing t) (t :: probes c) (t :: activity c)
  else mkClient (last c) (Sleeping t) (probes c) (activity c).

(** 70-101, 117, 132: an event that cannot happen in a state changes nothing *)
Definition step (c : client) (x : ev) : client :=
  match x with
  | Call t => mkClient (last c) (match task c with Dead => Ready t | p => p end) (probes c) (t :: activity c)
  | Answer t => mkClient t (task c) (probes c) (t :: activity c)
  | Woke t => match task c with Ready _ | Sleeping _ => check c t | _ => c end
  | Acked t => match task c with Probing _ => mkClient t (Sleeping t) (probes c) (t :: activity c) | _ => c end
  | Missed t => match task c with Probing _ => mkClient (last c) (Sleeping t) (probes c) (activity c) | _ => c end
  | Raised t => match task c with Probing _ => mkClient (last c) Dead (probes c) (activity c) | _ => c end
  end.
(** A history, from its first event on *)
Definition run (c : client) (xs : list ev) : client := fold_left step xs c.
End Beat.
