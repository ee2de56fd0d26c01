(** Common vocabulary of the models: exceptions as values and Python dictionaries as association lists. *)
From Coq Require Import List ZArith NArith Bool String Lia.
Import ListNotations.

(** Result of a Python call: a value or a raised exception (its class name). *)
Inductive res (A : Type) : Type :=
| Ok (a : A)
| Raise (e : string).
Arguments Ok {A} a.
Arguments Raise {A} e.

Definition bind {A B} (r : res A) (f : A -> res B) : res B :=
  match r with Ok a => f a | Raise e => Raise e end.

(** A Python [dict] with keys of type [N] (span keys), in insertion order.
    Language semantics, not a file of /repo: [d[k]], [d[k] = v], [k in d], [d.pop(k)]. *)
Section Dict.
  Context {V : Type}.

  Fixpoint dget (k : N) (d : list (N * V)) : option V :=
    match d with
    | [] => None
    | (k', v) :: r => if N.eqb k k' then Some v else dget k r
    end.

  Definition dmem (k : N) (d : list (N * V)) : bool :=
    match dget k d with Some _ => true | None => false end.

  Fixpoint dset (k : N) (v : V) (d : list (N * V)) : list (N * V) :=
    match d with
    | [] => [(k, v)]
    | (k', v') :: r => if N.eqb k k' then (k', v) :: r else (k', v') :: dset k v r
    end.

  Fixpoint ddel (k : N) (d : list (N * V)) : list (N * V) :=
    match d with
    | [] => []
    | (k', v') :: r => if N.eqb k k' then r else (k', v') :: ddel k r
    end.
End Dict.
