(** Vocabulary for the statements about the connections of a persistent client. *)
From Coq Require Import List ZArith Bool Arith.
From Verif Require Import RouterModel ClientModel.
Import ListNotations.

(** Connection [c] was opened (connections are numbered from 1) and was not lost.  The client closes none itself. *)
Definition open_now (s : pclient) (c : nat) : Prop := (0 < c < nchan s)%nat /\ dead (chans s c) = false.
(** How many connections the client has opened. *)
Definition opened (s : pclient) : nat := Nat.pred (nchan s).
(** How many of them call or heartbeat [i] opened in the events [evs]. *)
Fixpoint opened_by (max : Z) (i : nat) (s : pclient) (evs : list pev) : nat :=
  match evs with
  | [] => 0
  | e :: r =>
      (match e with POpened j => if Nat.eqb i j then opened (pstep max s e) - opened s else 0 | _ => 0 end)
      + opened_by max i (pstep max s e) r
  end%nat.
(** Every call and heartbeat begins after the ones before it have ended. *)
Definition one_at_a_time (max : Z) (evs : list pev) : Prop :=
  forall before hb after, evs = before ++ PStart hb :: after -> forall j, exists o, tasks (prun max before) j = PDone o.
(** At most one connection attempt is under way at a time. *)
Definition no_racing_opens (max : Z) (evs : list pev) : Prop :=
  forall before after i j n f m g, evs = before ++ after ->
  tasks (prun max before) i = POpen n f -> tasks (prun max before) j = POpen m g -> i = j.
