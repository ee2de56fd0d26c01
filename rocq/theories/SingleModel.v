(** One object per class: ekosis/util/singleton.py 2-9 (SingletonType), the metaclass of the application, its configuration,
    the router, the middleware managers, the logger and the keepers of statistics, errors, handlers and senders.
    Classes are numbers, and so are objects, in the order in which they are created.  What an [__init__] does is arbitrary;
    of it only the calls of such classes matter, which it may make to depend on everything that happened before. *)
From Coq Require Import List Arith String.
From Verif Require Import Base.
Import ListNotations.

Section Single.
Context {A : Type}.                                       (* arguments of a call *)

(** An __init__: it returns, raises, or calls such a class and goes on with the object or the exception it gets. *)
Inductive script :=
| Done
| Fail (e : string)
| Make (c : nat) (a : A) (k : res nat -> script).

(** The __init__ run for the object with this number, of this class, with these arguments *)
Context (init : nat -> nat -> A -> script).

(** [instances] is the dictionary of singleton.py 3; [created] counts the objects created so far; [returned] lists what the
    calls returned, [initialised] the objects whose __init__ returned, the latest first (for specifications only). *)
Record world := mkWorld { instances : list (nat * nat); created : nat; returned : list (nat * nat); initialised : list (nat * nat) }.
Definition empty : world := mkWorld [] 0 [] [].

Fixpoint lookup (c : nat) (l : list (nat * nat)) : option nat :=
  match l with [] => None | (c', o) :: r => if Nat.eqb c c' then Some o else lookup c r end.
Definition create (w : world) : world := mkWorld (instances w) (S (created w)) (returned w) (initialised w).
(** singleton.py:8; an entry of the same class is hidden by the new one *)
Definition record (c o : nat) (w : world) : world := mkWorld ((c, o) :: instances w) (created w) (returned w) ((c, o) :: initialised w).
Definition give (c o : nat) (w : world) : res nat * world :=
  (Ok o, mkWorld (instances w) (created w) ((c, o) :: returned w) (initialised w)).

(** The calls an __init__ makes, one after the other *)
Fixpoint exec (call : nat -> A -> world -> res nat * world) (s : script) (w : world) : option string * world :=
  match s with
  | Done => (None, w)
  | Fail e => (Some e, w)
  | Make c a k => let (r, w1) := call c a w in exec call (k r) w1
  end.

(** singleton.py:5-9 ([__call__]).  [depth] is how much deeper calls may be nested before Python's RecursionError. *)
Fixpoint call (depth : nat) (c : nat) (a : A) (w : world) : res nat * world :=
  match lookup c (instances w) with
  | Some o => give c o w
  | None =>
      match depth with
      | O => (Raise "RecursionError", w)
      | S d =>
          match exec (call d) (init (created w) c a) (create w) with
          | (Some e, w1) => (Raise e, w1)
          | (None, w1) =>
              let w2 := record c (created w) w1 in
              match lookup c (instances w2) with Some o => give c o w2 | None => (Raise "KeyError", w2) end
          end
      end
  end.

(** A program: calls from outside of any __init__; exceptions are caught or not, what was created stays. *)
Fixpoint calls (depth : nat) (l : list (nat * A)) (w : world) : list (res nat) * world :=
  match l with
  | [] => ([], w)
  | (c, a) :: r => let (x, w1) := call depth c a w in let (xs, w2) := calls depth r w1 in (x :: xs, w2)
  end.
End Single.
Arguments script : clear implicits.
