(** Specification of the LRU cache, in terms of its methods and their results. *)
From Coq Require Import List ZArith NArith Bool String Lia Arith.
From Verif Require Import Base LruModel.
Import ListNotations.
Local Open Scope Z_scope.

Section Spec.
Context {V : Type} (vnone : V).

(** What the user sees of a cache object. *)
Definition holds (s : lru V) (k : key) : Prop := snd (step vnone s (Contains k)) = OBool true.
Definition size (s : lru V) : Z := match snd (step vnone s Len) with OInt z => z | _ => -1 end.

(** The value of the last assignment to [k]. *)
Fixpoint last_stored_acc (k : key) (acc : option V) (ops : list (op V)) : option V :=
  match ops with
  | [] => acc
  | Set_ k' v :: r => last_stored_acc k (if keqb k k' then Some v else acc) r
  | _ :: r => last_stored_acc k acc r
  end.
Definition last_stored (k : key) (ops : list (op V)) : option V := last_stored_acc k None ops.

(** The operation, with the result it had, takes the key out of the cache on the user's request. *)
Definition takes_out (o : op V) (x : out V) (k : key) : Prop :=
  match o with
  | Del k' | PopItem k' _ => k' = k
  | Clear => True
  | Pop => exists v, x = OPair (Some (k, v))
  | _ => False
  end.

(** The number of keys the user asked to take out in a history. *)
Definition removals1 (s : lru V) (o : op V) : Z :=
  match o with Del _ | PopItem _ _ | Pop => 1 | Clear => size s | _ => 0 end.
Fixpoint removals (s : lru V) (ops : list (op V)) : Z :=
  match ops with [] => 0 | o :: r => removals1 s o + removals (fst (step vnone s o)) r end.

(** *** The abstract cache: its entries, most recently used first. *)
Definition cache := list (key * V).
Fixpoint lookup (k : key) (l : cache) : option V :=
  match l with [] => None | (k', v) :: r => if keqb k k' then Some v else lookup k r end.
Definition without (k : key) (l : cache) : cache := filter (fun p => negb (keqb k (fst p))) l.
Definition full (max : Z) (l : cache) : bool := Z.leb max (Z.of_nat (List.length l)).
Definition spec_step (max : Z) (l : cache) (o : op V) : cache * out V :=
  match o with
  | Set_ k v =>
      match lookup k l with
      | Some _ => ((k, v) :: without k l, OUnit)
      | None => ((k, v) :: (if full max l then removelast l else l), OUnit)
      end
  | Get k d => match lookup k l with Some v => ((k, v) :: without k l, OVal v) | None => (l, OVal d) end
  | Item k => match lookup k l with Some v => ((k, v) :: without k l, OVal v) | None => (l, OExc "KeyError") end
  | Peek k d => (l, OVal match lookup k l with Some v => v | None => d end)
  | PopItem k d => match lookup k l with Some v => (without k l, OVal v) | None => (l, OVal d) end
  | Pop => match l with [] => (l, OPair None) | p :: r => (r, OPair (Some p)) end
  | Clear => ([], OUnit)
  | Del k => (without k l, OUnit)
  | Items => (l, OList l)
  | Len => (l, OInt (Z.of_nat (List.length l)))
  | Contains k => (l, OBool match lookup k l with Some _ => true | None => false end)
  end.
Fixpoint spec_run (max : Z) (l : cache) (ops : list (op V)) : cache * list (out V) :=
  match ops with
  | [] => (l, [])
  | o :: r => let '(l1, x) := spec_step max l o in let '(l2, xs) := spec_run max l1 r in (l2, x :: xs)
  end.

(** The histories in which no new key is stored after one has been taken out, and in which, as long as the cache is not
    full, a new key is stored only while the first key stored is the least recently used one.  [first]: that key. *)
Fixpoint careful (max : Z) (l : cache) (first : option key) (removed : bool) (ops : list (op V)) : Prop :=
  match ops with
  | [] => True
  | o :: r =>
      let l' := fst (spec_step max l o) in
      let continue := careful max l' (match first with None => match o with Set_ k _ => Some k | _ => None end | _ => first end)
        (removed || Nat.ltb (List.length l') (List.length l)) r in
      match o with
      | Set_ k _ =>
          match lookup k l with
          | Some _ => continue
          | None => removed = false /\ (full max l = true \/ l = [] \/ Some (fst (last l (None, vnone))) = first) /\ continue
          end
      | _ => continue
      end
  end.
End Spec.
