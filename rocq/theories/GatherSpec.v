(** What gathering at regular times means. *)
From Coq Require Import List ZArith Bool String.
From Verif Require Import GatherModel.
Import ListNotations.
Local Open Scope Z_scope.

(** asyncio.sleep(1) never ends early, and here never more than [late] milliseconds late. *)
Fixpoint punctual (late : Z) (k : keeper) (xs : list ev) : Prop :=
  match xs with
  | [] => True
  | x :: r =>
      match x, loop k with Woken t _, Asleep _ since => since + 1000 <= t <= since + 1000 + late | _, _ => True end /\
      punctual late (fst (step k x)) r
  end.
(** Times, the latest first, each at least [lo] and at most [hi] after the one before it *)
Fixpoint spaced (lo hi : Z) (l : list Z) : Prop :=
  match l with
  | x :: ((y :: _) as r) => lo <= x - y <= hi /\ spaced lo hi r
  | _ => True
  end.
Definition sets_period (x : ev) : Prop := exists p, x = SetPeriod p.
Definition is_wake (x : ev) : bool := match x with Woken _ _ => true | _ => false end.
Definition wakes (xs : list ev) : Z := Z.of_nat (List.length (filter is_wake xs)).
(** The loop is still going on. *)
Definition going (k : keeper) : Prop := exists c s, loop k = Asleep c s.
