(** What the heartbeats of a client are for. *)
From Coq Require Import List ZArith Bool.
From Verif Require Import BeatModel.
Import ListNotations.
Local Open Scope Z_scope.

Definition at_time (x : ev) : Z := match x with Call t | Answer t | Woke t | Acked t | Missed t | Raised t => t end.
Definition raised (x : ev) : bool := match x with Raised _ => true | _ => false end.
Definition a_call (x : ev) : bool := match x with Call _ => true | _ => false end.
Definition heard (x : ev) : bool := match x with Answer _ | Acked _ => true | _ => false end.

(** Times go forward. *)
Fixpoint forward (t : Z) (xs : list ev) : Prop :=
  match xs with [] => True | x :: r => t <= at_time x /\ forward (at_time x) r end.
(** Nothing happens after a moment by which the heartbeat task should have gone on: at most [late] after it could, and at most
    [long] after its heartbeat began. *)
Fixpoint prompt (period late long : Z) (c : client) (xs : list ev) : Prop :=
  match xs with
  | [] => True
  | x :: r =>
      match task c with
      | Ready s => at_time x <= s + late
      | Sleeping s => at_time x <= s + period + late
      | Probing s => at_time x <= s + long
      | Dead => True
      end /\ prompt period late long (step period c x) r
  end.
(** Times, the latest first, none more than [b] after the one before it *)
Fixpoint within (b : Z) (l : list Z) : Prop :=
  match l with
  | x :: ((y :: _) as r) => x - y <= b /\ within b r
  | _ => True
  end.
(** Sleeps are not cut short. *)
Fixpoint patient (period : Z) (c : client) (xs : list ev) : Prop :=
  match xs with
  | [] => True
  | x :: r => (forall s t, task c = Sleeping s -> x = Woke t -> s + period <= t) /\ patient period (step period c x) r
  end.
(** Times, the latest first, each at least [b] after the one before it *)
Fixpoint spaced (b : Z) (l : list Z) : Prop :=
  match l with
  | x :: ((y :: _) as r) => b <= x - y /\ spaced b r
  | _ => True
  end.
