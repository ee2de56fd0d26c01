(** Vocabulary for progress of buffered endpoints and senders. *)
From Coq Require Import List ZArith NArith Bool String.
From Verif Require Import Base PQueueModel PQueueSpec PendingModel PendingSpec HandlerModel HandlerSpec.
Import ListNotations.
Local Open Scope Z_scope.

Section Spec.
Context {D M : Type}.

(** Events that do not stop processing: no user code raises, nothing is cancelled, processing is not paused and the endpoint
    is not shut down.  New requests, pushes, receiving pauses, and all the operator's commands may be among them. *)
Definition undisturbed (ev : hev D M) : bool :=
  negb (failure ev) && match ev with EPauseProcessing | EShutDown => false | _ => true end.

(** The number of steps that processing task [i] makes: its start, or the return of one of the three calls it awaits for a
    request (the hooks before and after, and the endpoint's function, which returns a boolean). *)
Definition steps_of (i : nat) (evs : list (hev D M)) : nat :=
  List.length (filter (fun ev => match ev with ETask j (RRet _) => Nat.eqb j i | _ => false end) evs).

(** The attempts that an entry with this number of failed attempts has left. *)
Definition attempts_left (max_retries retries : Z) : nat := Z.to_nat (Z.max 1 (max_retries - retries)).

(** The entries held by processing tasks. *)
Definition held_entries (s : hstate D M) : list (pentry D M) :=
  flat_map (fun t => match t with TBefore e | TCall e | TAfter e _ => [e] | _ => [] end) (tasks s).
(** Three steps for each attempt that is left of the pending entries [lp] and the held ones, and one to start. *)
Definition steps_needed (max_retries : Z) (s : hstate D M) (lp : list (N * pentry D M)) : nat :=
  (1 + 3 * list_sum (map (fun e => attempts_left max_retries (pe_retries e)) (held_entries s ++ map snd lp)))%nat.

End Spec.
