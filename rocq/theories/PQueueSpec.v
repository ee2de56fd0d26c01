(** Specification of a queue: a plain list of (span key, value) pairs, no paging, no database. *)
From Coq Require Import List ZArith NArith Bool.
From Verif Require Import Base PQueueModel.
Import ListNotations.

Section Spec.
Context {V : Type}.

Definition has (k : N) (l : list (N * V)) : bool := existsb (fun e => N.eqb (fst e) k) l.
Definition lookup (k : N) (l : list (N * V)) : option V :=
  option_map snd (find (fun e => N.eqb (fst e) k) l).
Definition without (k : N) (l : list (N * V)) : list (N * V) :=
  filter (fun e => negb (N.eqb (fst e) k)) l.

(** The answer to each call, and the list afterwards. *)
Definition spec_step (l : list (N * V)) (o : op V) : list (N * V) * out V :=
  match o with
  | Push k v => (if has k l then l else l ++ [(k, v)], OKey k)
  | Pop      => match l with [] => ([], OEntry None) | e :: r => (r, OEntry (Some e)) end
  | Inspect k => (l, OVal (lookup k l))
  | PopKey k => (without k l, OVal (lookup k l))
  | Size     => (l, ONum (Z.of_nat (length l)))
  | IsEmpty  => (l, OBool (match l with [] => true | _ => false end))
  | Clear    => ([], OUnit)
  end.

Fixpoint spec_run (l : list (N * V)) (ops : list (op V)) : list (out V) :=
  match ops with
  | [] => []
  | o :: r => let '(l', x) := spec_step l o in x :: spec_run l' r
  end.

(** Queue [q] behaves, for every future sequence of calls, exactly as the list [l]. *)
Definition behaves_as (q : queue V) (l : list (N * V)) : Prop :=
  forall ops, run q ops = spec_run l ops.

(** What the program makes of the order of [l] when it is restarted with page size [n]:
    the first [n] entries are in order, then the middle, then the last (at most [n]) REVERSED. *)
Definition restart_order (n : nat) (l : list (N * V)) : list (N * V) :=
  let rest := skipn n l in
  let m := length rest - n in
  firstn n l ++ firstn m rest ++ rev (skipn m rest).

End Spec.
