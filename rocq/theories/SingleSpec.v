(** What it means that there is one object of a class. *)
From Coq Require Import List Arith String.
From Verif Require Import Base SingleModel.
Import ListNotations.

(** An __init__ that calls only classes of which [P] holds *)
Inductive only {A} (P : nat -> Prop) : script A -> Prop :=
| only_done : only P Done
| only_fail e : only P (Fail e)
| only_make c a k : P c -> (forall r, only P (k r)) -> only P (Make c a k).
(** No class is needed, directly or through others, to make its own object: the classes can be given heights so that
    every __init__ calls lower ones only. *)
Definition layered {A} (init : nat -> nat -> A -> script A) (height : nat -> nat) : Prop :=
  forall o c a, only (fun c' => height c' < height c) (init o c a).
(** An __init__ that does not raise as long as it gets the objects it asks for *)
Inductive fine {A} : script A -> Prop :=
| fine_done : fine Done
| fine_make c a k : (forall o, fine (k (Ok o))) -> fine (Make c a k).

(** An __init__ that raises in the end, whatever it gets *)
Inductive raises {A} : script A -> Prop :=
| raises_fail e : raises (Fail e)
| raises_make c a k : (forall r, raises (k r)) -> raises (Make c a k).

(** All that was ever returned for a class is one object, *)
Definition one_object (w : world) : Prop := forall c o1 o2, In (c, o1) (returned w) -> In (c, o2) (returned w) -> o1 = o2.
(** of that class only, *)
Definition own_object (w : world) : Prop := forall c1 c2 o, In (c1, o) (returned w) -> In (c2, o) (returned w) -> c1 = c2.
(** whose __init__ has run to its end once. *)
Definition made_once (w : world) : Prop :=
  NoDup (map fst (initialised w)) /\ forall c o, In (c, o) (returned w) -> In (c, o) (initialised w).
