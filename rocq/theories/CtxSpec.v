(** Specification: the span key that code and log lines should have, read off what is seen from outside. *)
From Coq Require Import List NArith.
Import ListNotations.
From Verif Require Import CtxModel.

(** The messages, requests and buffered requests being worked on: the last of the marks of task [t]. *)
Inductive work := WRequest (k : N) | WItem (k : N) | WMessage (k : N).
Definition mark (t : nat) (w : option work) (o : cout) : option work :=
  match o with
  | ORequest t' k => if Nat.eqb t' t then Some (WRequest k) else w
  | OItem t' k => if Nat.eqb t' t then Some (WItem k) else w
  | OMessage t' k => if Nat.eqb t' t then Some (WMessage k) else w
  | ODone t' => if Nat.eqb t' t then None else w
  | _ => w
  end.
Definition doing (tr : list cout) (t : nat) : option work := fold_left (mark t) tr None.

(** Task [t] is in the handling of the request with span key [k], or in the processing of a buffered request with that key. *)
Definition handles (tr : list cout) (t : nat) (k : N) : Prop :=
  doing tr t = Some (WRequest k) \/ doing tr t = Some (WItem k).

(** The code in task [t] runs for the request [k]: the task handles it, or it is a task that user code started which itself
    ran for [k] then. *)
Inductive runs_for : list cout -> nat -> N -> Prop :=
| rf_handles : forall tr t k, handles tr t k -> runs_for tr t k
| rf_started : forall a t t0 b k, runs_for a t0 k -> runs_for (a ++ OStarted t t0 KOther :: b) t k.

(** C118: a line written by code that runs for a request carries that request's span key. *)
Definition handlers_lines (tr : list cout) : Prop :=
  forall a t x b k, tr = a ++ OLine t x :: b -> runs_for a t k -> x = Some k.

(** C119: a line written while a message is being sent carries the message's span key; a line that is written by
    the framework while nothing is being worked on carries none. *)
Definition senders_lines (tr : list cout) : Prop :=
  forall a t x b k, tr = a ++ OLine t x :: b -> doing a t = Some (WMessage k) -> x = Some k.
Definition started_as (tr : list cout) (t : nat) (kd : kind) : Prop := exists t0, In (OStarted t t0 kd) tr.
Definition idle_lines (tr : list cout) : Prop :=
  forall a t x b, tr = a ++ OLine t x :: b -> doing a t = None -> ~ started_as a t KOther -> x = None.

(** What is true of all lines: the key is that of the request the task handles; if it handles none, the key that the code
    which created the task saw when it created it; none if no code created it (connections, datagrams, the main task). *)
Inductive sees : list cout -> nat -> option N -> Prop :=
| sees_handles : forall tr t k, handles tr t k -> sees tr t (Some k)
| sees_started : forall a t t0 kd b x, (forall k, ~ handles (a ++ OStarted t t0 kd :: b) t k) ->
    sees a t0 x -> sees (a ++ OStarted t t0 kd :: b) t x
| sees_none : forall tr t, (forall k, ~ handles tr t k) -> (forall t0 kd, ~ In (OStarted t t0 kd) tr) -> sees tr t None.
Definition lines_exactly (tr : list cout) : Prop :=
  forall a t x b y, tr = a ++ OLine t x :: b -> sees a t y -> x = y.
