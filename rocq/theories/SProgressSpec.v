(** Vocabulary for progress of buffered senders. *)
From Coq Require Import List ZArith NArith Bool String.
From Verif Require Import Base PQueueModel PQueueSpec PendingModel PendingSpec SenderModel SenderSpec.
Import ListNotations.
Local Open Scope Z_scope.

Section Spec.
Context {D M : Type}.

(** Events that do not stop sending: nothing is cancelled, sending is not paused and the sender is not shut down.  New messages,
    all the operator's other commands, and sends that fail in any way may be among them. *)
Definition s_undisturbed (ev : sev D) : bool := match ev with SCancel _ | SPause | SShutDown => false | _ => true end.

(** The number of steps that sending task [i] makes: its start, the end of a wait, or the end (of any kind) of a send. *)
Definition s_steps_of (i : nat) (evs : list (sev D)) : nat :=
  List.length (filter (fun ev => match ev with STask j _ => Nat.eqb j i | _ => false end) evs).

(** The attempts that an entry with this number of failed attempts has left. *)
Definition s_attempts_left (max_retries retries : Z) : nat := Z.to_nat (Z.max 1 (max_retries - retries)).

(** Two steps (wait and send) for each attempt that is left of the pending entries [lp] and the one in hand, and one to start. *)
Definition s_steps_needed (max_retries : Z) (s : sstate D M) (lp : list (N * pentry D M)) : nat :=
  (1 + 2 * list_sum (map (fun e => s_attempts_left max_retries (pe_retries e)) (in_hand s ++ map snd lp)))%nat.

End Spec.
