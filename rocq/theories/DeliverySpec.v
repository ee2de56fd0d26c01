(** Vocabulary for the properties of messages between two applications. *)
From Coq Require Import List ZArith NArith Bool String.
From Verif Require Import Base PQueueModel PQueueSpec PendingModel PendingSpec SenderModel SenderSpec HandlerModel HandlerSpec
  DeliveryModel.
Import ListNotations.
Local Open Scope Z_scope.

Section Spec.
Context {D MA MB : Type}.
Notation msg := (msg D). Notation item := (item D MB). Notation world := (world D MA MB).
Notation wev := (wev D MB). Notation wout := (wout D).

(** The message a request of the endpoint came from. *)
Definition msg_of (x : item) : msg := (key_of x, data_of x).

(** Where a message can be in the sending application ([lp], [le]: its pending and its error queue); the last is what an
    operator took out of the error queue. *)
Definition with_sender (w : world) (lp : list (N * pentry D MA)) (le : list (N * eentry D MA)) : list msg :=
  msgs_p lp ++ msgs_h (in_hand (wa w)) ++ msgs_e le ++ s_removed (ao w).

(** Where it can be in the receiving application: about to be queued, pending, being processed, in the error queue,
    processed successfully, taken out of the error queue by an operator. *)
Definition with_receiver (w : world) (lp : list (N * pentry D MB)) (le : list (N * eentry D MB)) : list msg :=
  map msg_of (pushing (wb w) ++ items_p lp ++ in_process (wb w) ++ items_e le ++ finished (bo w) ++ removed (bo w)).

(** The requests other clients made. *)
Definition others (evs : list wev) : list msg := flat_map (fun ev => match ev with WOther k d => [(k, d)] | _ => [] end) evs.

(** Events in which no task is cancelled and no user code of the endpoint raises. *)
Definition calm (ev : wev) : bool :=
  match ev with WSender e => negb (cancels e) | WHandler e => negb (failure e) | _ => true end.

(** How often a span key occurs among messages; the attempts made for it, and those that raised. *)
Definition times (k : N) (l : list msg) : nat := count_occ N.eq_dec (map fst l) k.
Definition attempts_made (k : N) (l : list wout) : nat :=
  List.length (filter (fun x => match x with LAttempt k' _ => N.eqb k' k | _ => false end) l).
Definition attempts_failed (k : N) (l : list wout) : nat :=
  List.length (filter (fun x => match x with LFailed k' => N.eqb k' k | _ => false end) l).

End Spec.
