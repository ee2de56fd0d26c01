(** Vocabulary for the recovery of two applications after an outage of the network between them. *)
From Coq Require Import List ZArith NArith Bool String.
From Verif Require Import Base PQueueModel PQueueSpec PendingModel PendingSpec SenderModel SenderSpec HandlerModel HandlerSpec
  DeliveryModel DeliverySpec.
Import ListNotations.
Local Open Scope Z_scope.

Section Spec.
Context {D MB : Type}.
Notation wev := (wev D MB).

(** Events of a network that loses nothing between two applications that nobody disturbs: sending tasks and clients make
    their steps, requests arrive, the endpoint accepts, queues and processes them, and its user code succeeds. *)
Definition healthy (ev : wev) : bool :=
  match ev with
  | WSender (STask _ _) | WAttempt _ | WRead _ | WArrive _ => true
  | WHandler (ECollected _ _) | WHandler (EPush _) => true
  | WHandler (ETask _ (RRet b)) => b
  | _ => false
  end.

(** The client of a sending task gives up the attempt it is waiting for (its time-out): at most one such event. *)
Definition gives_up (evs : list wev) : Prop := evs = [] \/ exists i, evs = [WFail i None].
End Spec.
