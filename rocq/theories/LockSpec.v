(** Specification of the lock file. *)
From Coq Require Import Bool Lia List Arith.
From Verif Require Import LockModel.
Import ListNotations.

(** The application runs in process [i]. *)
Definition running (s : os) (i : nat) : Prop := i < nprocs s /\ st (procs s i) = PRunning.
(** Process [i] is starting: in the check of the lock file. *)
Definition starting (s : os) (i : nat) : Prop :=
  i < nprocs s /\ match st (procs s i) with PExists | PRead | PKill _ | PRemove | PCreate | PWrite _ => True | _ => False end.
(** Starts one after another: none begins while another process is starting. *)
Fixpoint one_by_one (may : nat -> nat -> bool) (s : os) (es : list event) : Prop :=
  match es with
  | [] => True
  | e :: r => match e with Start _ _ => forall i, ~ starting s i | _ => True end /\ one_by_one may (step may s e) r
  end.
(** Some process with this id exists. *)
Definition pid_used (s : os) (p : nat) : Prop := exists i, i < nprocs s /\ pid (procs s i) = p /\ st (procs s i) <> PDead.
(** No process of the application is there. *)
Definition nobody (s : os) : Prop := forall i, i < nprocs s -> st (procs s i) = PDead \/ st (procs s i) = PForeign.
(** A start by user [u] with process id [p], not disturbed until its check is over. *)
Definition start_alone (may : nat -> nat -> bool) (s : os) (u p : nat) : os :=
  run may s (Start u p :: repeat (Step (nprocs s)) 6).
