(** Vocabulary for the statements about the end of calls. *)
From Coq Require Import List ZArith String.
From Verif Require Import SpanKeyModel RouterModel ClientModel AskModel.
Import ListNotations.

(** In [es], starting from [s], what [pos] says changes [k] times. *)
Inductive moves {S E P : Type} (step : S -> E -> S) (pos : S -> P) : S -> list E -> nat -> Prop :=
| moves_nil s : moves step pos s [] 0
| moves_same s e es k : pos (step s e) = pos s -> moves step pos (step s e) es k -> moves step pos s (e :: es) k
| moves_more s e es k : pos (step s e) <> pos s -> moves step pos (step s e) es k -> moves step pos s (e :: es) (Datatypes.S k).
(** What holds of each event in the state it happens in. *)
Fixpoint along {S E : Type} (step : S -> E -> S) (P : S -> E -> Prop) (s : S) (es : list E) : Prop :=
  match es with [] => True | e :: r => P s e /\ along step P (step s e) r end.

(** A call or heartbeat of a persistent client has not ended. *)
Definition unfinished (s : pclient) (i : nat) : Prop := (i < ntasks s)%nat /\ forall o, tasks s i <> PDone o.
(** Events of a persistent stream client that need no answer: the connection attempt ends, the lock is given on, time passes. *)
Definition alone (e : pev) : Prop := match e with POpened _ | POpenFail _ _ | PGrant | PTimeout _ | PWake _ => True | _ => False end.

(** Where a call of a transient stream client is: in the loop of attempts, and in the attempt. *)
Definition place {D V} (i : nat) (s : net D V) : tstate string * phase := (tst (calls (cl s) i), phases s i).
Definition pending {D V} (s : net D V) (i : nat) : Prop := (i < ncalls (cl s))%nat /\ forall o, tst (calls (cl s) i) <> TDone o.
(** Events of call [i] that need no answer. *)
Definition alone_t (i : nat) (e : event) : Prop :=
  match e with NOpened j _ | NOpenFail j _ | NTimeout j | NClosed j _ | NWake j => i = j | _ => False end.
