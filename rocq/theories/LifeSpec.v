(** What the properties of an application's life talk about: files, entries and the ways a run can end. *)
From Coq Require Import List ZArith NArith Bool String Permutation.
From Verif Require Import Base PQueueModel PQueueSpec LifeModel.
Import ListNotations.
Local Open Scope Z_scope.

Section Spec.
Context {V : Type}.
Notation app := (app V). Notation ev := (ev V). Notation out := (LifeModel.out V).

(** The table in a queue's file. *)
Definition file (x : qstate V) : table V := match x with Closed t => t | Open q => db q end.
(** A later start, with any page size, finds exactly these entries (the order is the subject of C05). *)
Definition survives (x : qstate V) (l : list (N * V)) : Prop :=
  forall ps, ps <> 0 -> exists l', behaves_as (open_queue ps (file x)) l' /\ Permutation l l'.

(** The calls of a queue that were made in a run, and a plain list after them. *)
Definition which_eqb (a b : which) : bool := match a, b with Pending, Pending | Errors, Errors => true | _, _ => false end.
Definition calls (i : nat) (w : which) (o : list out) : list (op V) :=
  flat_map (fun x => match x with OWork j w' c _ => if Nat.eqb i j && which_eqb w w' then [c] else [] | _ => [] end) o.
Definition after (l : list (N * V)) (cs : list (op V)) : list (N * V) := fold_left (fun l c => fst (spec_step l c)) cs l.

(** Files that earlier runs (with crashes) can have left, opened with a usable page size. *)
Definition usable_files (files : list (Z * table V * table V)) : Prop :=
  Forall (fun '(ps, tp, te) => ps <> 0 /\ on_disk tp /\ on_disk te) files.

(** Every queue's file holds what its calls leave: [o] is what happened in the run. *)
Definition all_kept (files : list (Z * table V * table V)) (a : app) (o : list out) : Prop :=
  forall i ps tp te lp le, nth_error files i = Some (ps, tp, te) ->
    behaves_as (open_queue ps tp) lp -> behaves_as (open_queue ps te) le ->
    exists c, nth_error (comps a) i = Some c /\
      survives (c_pend c) (after lp (calls i Pending o)) /\ survives (c_err c) (after le (calls i Errors o)).

(** A run is over, and its exit status. *)
Definition over (a : app) : Prop := exists e, now a = Exited e.
Definition ended (a : app) : bool := match now a with Ended _ | Exited _ => true | _ => false end.
Definition exits_with (z : Z) (o : list out) : Prop := In (OExit z) o.

(** The run is ended by [x] while a TCP or UDS server other than one that fails by [x] is still being started. *)
Definition starting (s : server) : Prop := is_stream (kind s) = true /\ task s = TStarting.
Definition about (x : ev) (j : nat) : Prop := (exists e, x = EServerFails j e) \/ x = ESignal (InServerStart j).
Definition interrupts (a : app) (x : ev) : Prop :=
  ended a = false /\ ended (fst (lstep a x)) = true /\
  exists j s, nth_error (servers a) j = Some s /\ starting s /\ ~ about x j.
Definition never_interrupted (a : app) (xs : list ev) : Prop :=
  forall pre x post, xs = (pre ++ x :: post)%list -> ~ interrupts (fst (lrun a pre)) x.
(** No signal arrives during the shut-down. *)
Definition second_signal (x : ev) : bool := match x with EExit (Some _) => true | _ => false end.
(** The set-up of no queue fails between its two files. *)
Definition half_set_up (x : ev) : bool := match x with ESetup (RaisesAt BetweenFiles _) => true | _ => false end.
(** Every set-up completes. *)
Definition bad_setup (x : ev) : bool := match x with ESetup (RaisesAt _ _) => true | _ => false end.

End Spec.
