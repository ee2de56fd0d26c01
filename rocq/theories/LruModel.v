(** Model of ekosis/cacheing/lru_cache.py and cached_item.py.

    Nodes live in a heap and refer to each other by address, as the Python objects do; [None] is Python's None.  A failed
    attribute access (on None) is AttributeError, a missing dictionary key is KeyError; what was changed before the
    exception stays changed. *)
From Coq Require Import List ZArith NArith Bool String Lia Arith.
From Verif Require Import Base.
Import ListNotations.
Local Open Scope Z_scope.

Section Lru.
Context {V : Type} (vnone : V).   (* vnone: None as a value *)

(** Keys: [None] is None, which an empty node holds as its key. *)
Definition key := option N.
Definition keqb (a b : key) : bool :=
  match a, b with None, None => true | Some x, Some y => N.eqb x y | _, _ => false end.

(** cached_item.py 4-12 *)
Record node := mkNode { nempty : bool; nprev : option nat; nnext : option nat; nkey : key; nvalue : V }.
(** lru_cache.py 7-11; [fresh] is the next unused address. *)
Record lru := mkLru {
  max_size : Z; items : list (key * nat); head : option nat; tail : option nat; heap : nat -> node; fresh : nat }.
Definition create (max : Z) : lru := mkLru max [] None None (fun _ => mkNode true None None None vnone) 0.

(** Python's dict: membership, lookup, assignment, removal (a missing key raises KeyError at the caller). *)
Fixpoint iget (k : key) (d : list (key * nat)) : option nat :=
  match d with [] => None | (k', n) :: r => if keqb k k' then Some n else iget k r end.
Fixpoint idel (k : key) (d : list (key * nat)) : list (key * nat) :=
  match d with [] => [] | (k', n) :: r => if keqb k k' then r else (k', n) :: idel k r end.
Fixpoint iset (k : key) (n : nat) (d : list (key * nat)) : list (key * nat) :=
  match d with [] => [(k, n)] | (k', m) :: r => if keqb k k' then (k', n) :: r else (k', m) :: iset k n r end.
Definition length_of (s : lru) : Z := Z.of_nat (List.length (items s)).

(** Computations on the object. *)
Definition M (A : Type) := lru -> res A * lru.
Definition ret {A} (a : A) : M A := fun s => (Ok a, s).
Definition raise {A} (e : string) : M A := fun s => (Raise e, s).
Definition mbind {A B} (m : M A) (f : A -> M B) : M B :=
  fun s => match m s with (Ok a, s') => f a s' | (Raise e, s') => (Raise e, s') end.
Notation "x <- m ; f" := (mbind m (fun x => f)) (at level 61, m at next level, right associativity).
Notation "m ;; f" := (mbind m (fun _ => f)) (at level 61, right associativity).
Definition get_head : M (option nat) := fun s => (Ok (head s), s).
Definition get_tail : M (option nat) := fun s => (Ok (tail s), s).
Definition put_head (h : option nat) : M unit := fun s => (Ok tt, mkLru (max_size s) (items s) h (tail s) (heap s) (fresh s)).
Definition put_tail (t : option nat) : M unit := fun s => (Ok tt, mkLru (max_size s) (items s) (head s) t (heap s) (fresh s)).
Definition put_items (d : list (key * nat)) : M unit := fun s => (Ok tt, mkLru (max_size s) d (head s) (tail s) (heap s) (fresh s)).
(** x.attribute: x may be None. *)
Definition the (o : option nat) : M nat := match o with Some a => ret a | None => raise "AttributeError" end.
Definition read (a : nat) : M node := fun s => (Ok (heap s a), s).
Definition write (a : nat) (f : node -> node) : M unit :=
  fun s => (Ok tt, mkLru (max_size s) (items s) (head s) (tail s) (fun b => if Nat.eqb b a then f (heap s a) else heap s b) (fresh s)).
Definition with_prev (o : option nat) (n : node) : node := mkNode (nempty n) o (nnext n) (nkey n) (nvalue n).
Definition with_next (o : option nat) (n : node) : node := mkNode (nempty n) (nprev n) o (nkey n) (nvalue n).
Definition with_data (e : bool) (k : key) (v : V) (n : node) : node := mkNode e (nprev n) (nnext n) k v.
Definition with_value (v : V) (n : node) : node := mkNode (nempty n) (nprev n) (nnext n) (nkey n) v.
Definition prev_of (a : nat) : M (option nat) := n <- read a; ret (nprev n).
Definition next_of (a : nat) : M (option nat) := n <- read a; ret (nnext n).
Definition is_same (a b : option nat) : bool :=
  match a, b with Some x, Some y => Nat.eqb x y | None, None => true | _, _ => false end.

(** lru_cache.py 14-32 *)
Definition insert (k : key) (v : V) : M nat :=
  fun s =>
    let a := fresh s in
    (n <- ret a;
     write a (fun _ => mkNode false None None k v);;
     h <- get_head;
     match h with
     | None => put_head (Some a);; put_tail (Some a)
     | Some hd =>
         t <- get_tail;
         write a (with_prev t);;
         write a (with_next h);;
         if is_same t h then
           write hd (with_prev (Some a));; write hd (with_next (Some a))
         else
           tl <- the t;
           write tl (with_next (Some a));; write hd (with_prev (Some a))
     end;;
     (fun s => put_items (iset k a (items s)) s);;
     ret a) (mkLru (max_size s) (items s) (head s) (tail s) (heap s) (S a)).

(** lru_cache.py 35-45 *)
Definition replace_least_recently_used (k : key) (v : V) : M unit :=
  h <- get_head;
  hd <- the h;
  e <- prev_of hd;
  ex <- the e;
  n <- read ex;
  (if nempty n then ret tt
   else fun s => match iget (nkey n) (items s) with
                 | None => (Raise "KeyError", s)
                 | Some _ => put_items (idel (nkey n) (items s)) s
                 end);;
  write ex (with_data false k v);;
  (fun s => put_items (iset k ex (items s)) s);;
  put_head (Some ex).

(** lru_cache.py 48-62 *)
Definition move_to_end (a : nat) (empty : bool) : M unit :=
  h <- get_head;
  (if is_same h (Some a) then nx <- next_of a; put_head nx
   else
     nx <- next_of a;
     p <- prev_of a; p' <- the p; write p' (with_next nx);;
     p <- prev_of a;
     nx <- next_of a; nx' <- the nx; write nx' (with_prev p);;
     hd <- the h;
     hp <- prev_of hd; write a (with_prev hp);;
     write a (with_next h);;
     hp <- prev_of hd; hp' <- the hp; write hp' (with_next (Some a));;
     write hd (with_prev (Some a)));;
  if empty then write a (with_data true None vnone) else ret tt.
(** lru_cache.py 65-68 *)
Definition move_to_front (a : nat) : M unit :=
  h <- get_head;
  if is_same h (Some a) then ret tt else move_to_end a false;; put_head (Some a).

(** lru_cache.py 71-75: the nodes visited; [cached_item.next] is evaluated after each of them. *)
Fixpoint iterate (count : nat) (c : option nat) : M (list nat) :=
  match count with
  | O => ret []
  | S m => a <- the c; nx <- next_of a; r <- iterate m nx; ret (a :: r)
  end.
Definition iterator : M (list nat) := fun s => (h <- get_head; iterate (List.length (items s)) h) s.
Definition map_nodes {A} (f : node -> A) (l : list nat) : M (list A) := fun s => (Ok (map (fun a => f (heap s a)) l), s).

(** lru_cache.py 78-83.  Emptying a node does not touch its links, so the walk can be done first. *)
Definition clear : M unit :=
  l <- iterator;
  (fun s => (Ok tt, mkLru (max_size s) (items s) (head s) (tail s)
     (fun b => if existsb (Nat.eqb b) l then with_data true None vnone (heap s b) else heap s b) (fresh s)));;
  put_items [].
(** lru_cache.py 87-90 *)
Definition peek (k : key) (default : V) : M V :=
  fun s => match iget k (items s) with Some a => (n <- read a; ret (nvalue n)) s | None => ret default s end.
(** lru_cache.py 149-152 *)
Definition getitem (k : key) : M V :=
  fun s => match iget k (items s) with
           | None => raise "KeyError" s
           | Some a => (move_to_front a;; n <- read a; ret (nvalue n)) s
           end.
(** lru_cache.py 94-97 *)
Definition get (k : key) (default : V) : M V :=
  fun s => match iget k (items s) with Some _ => getitem k s | None => ret default s end.
(** lru_cache.py 101-107 *)
Definition pop_item (k : key) (default : V) : M V :=
  fun s => match iget k (items s) with
           | None => ret default s
           | Some a => (put_items (idel k (items s));; n <- read a; move_to_end a true;; ret (nvalue n)) s
           end.
(** lru_cache.py 111-123 *)
Definition pop : M (option (key * V)) :=
  fun s => match items s with
           | [] => ret None s
           | _ => (h <- get_head; a <- the h; nx <- next_of a; put_head nx;;
                   n <- read a;
                   write a (with_data true None vnone);;
                   (fun s => match iget (nkey n) (items s) with
                             | None => (Raise "KeyError", s)
                             | Some _ => put_items (idel (nkey n) (items s)) s
                             end);;
                   ret (Some (nkey n, nvalue n))) s
           end.
(** lru_cache.py 126-138, 175-177: the whole iteration at once. *)
Definition items_list : M (list (key * V)) := l <- iterator; map_nodes (fun n => (nkey n, nvalue n)) l.
(** lru_cache.py 141-146 *)
Definition len : M Z := fun s => (Ok (length_of s), s).
Definition contains (k : key) : M bool := fun s => (Ok (match iget k (items s) with Some _ => true | None => false end), s).
(** lru_cache.py 155-166 *)
Definition setitem (k : key) (v : V) : M unit :=
  fun s => match iget k (items s) with
           | Some a => (write a (with_value v);; move_to_front a) s
           | None => if Z.ltb (length_of s) (max_size s) then (a <- insert k v; put_head (Some a)) s
                     else replace_least_recently_used k v s
           end.
(** lru_cache.py 169-172 *)
Definition delitem (k : key) : M unit :=
  fun s => match iget k (items s) with
           | None => ret tt s
           | Some a => (put_items (idel k (items s));; move_to_end a true) s
           end.

(** The methods as a user calls them, and what they return. *)
Inductive op := Set_ (k : key) (v : V) | Get (k : key) (d : V) | Item (k : key) | Peek (k : key) (d : V) | PopItem (k : key) (d : V)
  | Pop | Clear | Del (k : key) | Items | Len | Contains (k : key).
Inductive out := OUnit | OVal (v : V) | OPair (p : option (key * V)) | OList (l : list (key * V)) | OInt (z : Z) | OBool (b : bool) | OExc (e : string).
Definition wrap {A} (f : A -> out) (m : M A) (s : lru) : lru * out :=
  match m s with (Ok a, s') => (s', f a) | (Raise e, s') => (s', OExc e) end.
Definition step (s : lru) (o : op) : lru * out :=
  match o with
  | Set_ k v => wrap (fun _ => OUnit) (setitem k v) s
  | Get k d => wrap OVal (get k d) s
  | Item k => wrap OVal (getitem k) s
  | Peek k d => wrap OVal (peek k d) s
  | PopItem k d => wrap OVal (pop_item k d) s
  | Pop => wrap OPair pop s
  | Clear => wrap (fun _ => OUnit) clear s
  | Del k => wrap (fun _ => OUnit) (delitem k) s
  | Items => wrap OList items_list s
  | Len => wrap OInt len s
  | Contains k => wrap OBool (contains k) s
  end.
(** A history: the operations with their results, and the final state. *)
Fixpoint run (s : lru) (ops : list op) : lru * list out :=
  match ops with
  | [] => (s, [])
  | o :: r => let '(s1, x) := step s o in let '(s2, xs) := run s1 r in (s2, x :: xs)
  end.
End Lru.
Arguments lru : clear implicits.
Arguments node : clear implicits.
Arguments op : clear implicits.
Arguments out : clear implicits.
