(** Properties of the LRU cache: C34, C35, C36. *)
From Coq Require Import List ZArith NArith Bool String Lia Arith.
From Verif Require Import Base LruModel LruSpec LruProofs LruProofs2 LruProofs3 LruProofs4.
Import ListNotations.
Local Open Scope Z_scope.

(** Shorthand for the examples: the keys and values are numbers, 0 stands for None as a value. *)
Definition st (k : N) : op N := Set_ (Some k) k.
Definition rd (k : N) : op N := Get (Some k) 0%N.
Definition dl (k : N) : op N := Del (Some k).
Definition history (max : Z) (ops : list (op N)) : list (out N) := snd (run 0%N (create 0%N max) ops).

(** ** C34 *)
(** Full claim: never more than max_size keys, and no operation fails (but [] on a missing key). *)
Definition C34_bounded : Prop :=
  forall (V : Type) (vnone : V) max before o, 1 <= max -> let s := fst (run vnone (create vnone max) before) in
  size vnone s <= max /\ forall e, snd (step vnone s o) = OExc e -> exists k, o = Item k /\ ~ holds vnone s k.
(** False of the code.  A cache of one: the second key fails. *)
Theorem C34_bounded_refuted : ~ C34_bounded.
Proof.
  intros H. destruct (H N 0%N 1 [st 1] (st 2) ltac:(lia)) as [_ A]. destruct (A "AttributeError"%string eq_refl) as (k & X & _). discriminate.
Qed.
Print Assumptions C34_bounded_refuted.
(** A cache of two exceeds its size after a deletion, without any failure; and without any deletion a cache that is not
    full yet loses track of its nodes, so that pop fails on a cache that still holds keys. *)
Theorem C34_size_refuted : ~ (forall (V : Type) (vnone : V) max ops, 2 <= max -> size vnone (fst (run vnone (create vnone max) ops)) <= max).
Proof. intros H. specialize (H N 0%N 2 [st 1; st 2; dl 1; st 3; st 4] ltac:(lia)). vm_compute in H. congruence. Qed.
Print Assumptions C34_size_refuted.
Example C34_pop_fails : history 4 [st 1; st 2; st 3; rd 1; st 4; Pop; Pop; Len; Pop]
  = [OUnit; OUnit; OUnit; OVal 1%N; OUnit; OPair (Some (Some 4, 4)); OPair (Some (Some 1, 1)); OInt 2; OExc "KeyError"]%N.
Proof. vm_compute. reflexivity. Qed.

(** It holds for every history in which nothing is deleted, popped or cleared, if max_size is at least two. *)
Theorem C34_bounded_partial :
  forall (V : Type) (vnone : V) max before o, 2 <= max -> forallb keeping (before ++ [o]) = true ->
  let s := fst (run vnone (create vnone max) before) in
  size vnone s <= max /\ forall e, snd (step vnone s o) = OExc e -> exists k, o = Item k /\ ~ holds vnone s k.
Proof. exact (@no_failure). Qed.
Print Assumptions C34_bounded_partial.
(** For every history, removals included: the excess is at most the number of keys the user took out ... *)
Theorem C34_excess_partial :
  forall (V : Type) (vnone : V) max ops,
  size vnone (fst (run vnone (create vnone max) ops)) <= Z.max max 0 + removals vnone (create vnone max) ops.
Proof. exact (@size_bound). Qed.
Print Assumptions C34_excess_partial.
(** ... and a cache of two or more never fails with anything but KeyError. *)
Theorem C34_key_error_partial :
  forall (V : Type) (vnone : V) max ops o e, 2 <= max ->
  snd (step vnone (fst (run vnone (create vnone max) ops)) o) = OExc e -> e = "KeyError"%string.
Proof. intros V vnone max ops o e Hm. eapply raises_key_error; [apply inv_run|now rewrite max_run]. Qed.
Print Assumptions C34_key_error_partial.
Example C34_ex :
  forallb keeping [st 1; st 2; st 3; rd 1; st 4; rd 9; Items; st 2] = true /\
  history 3 [st 1; st 2; st 3; rd 1; st 4; Len] = [OUnit; OUnit; OUnit; OVal 1%N; OUnit; OInt 3] /\
  removals 0%N (create 0%N 2) [st 1; st 2; dl 1; st 3; st 4] = 1 /\ size 0%N (fst (run 0%N (create 0%N 2) [st 1; st 2; dl 1; st 3; st 4])) = 3.
Proof. vm_compute. repeat split. Qed.

(** ** C35 *)
(** For every max_size and every history, failures included: a key in the cache is read, by all methods, as the value of
    the last assignment to it. *)
Theorem C35_last_value :
  forall (V : Type) (vnone : V) max ops k, let s := fst (run vnone (create vnone max) ops) in holds vnone s k ->
  exists v, last_stored k ops = Some v /\ snd (step vnone s (Item k)) = OVal v /\
    forall d, snd (step vnone s (Peek k d)) = OVal v /\ snd (step vnone s (Get k d)) = OVal v /\ snd (step vnone s (PopItem k d)) = OVal v.
Proof. exact (@returns_last). Qed.
Print Assumptions C35_last_value.
(** A key in the cache was stored, and since then was never taken out and was in the cache all the time. *)
Theorem C35_member_history :
  forall (V : Type) (vnone : V) max ops k, holds vnone (fst (run vnone (create vnone max) ops)) k ->
  exists before v after, ops = before ++ Set_ k v :: after /\
    forall mid o rest, after = mid ++ o :: rest ->
      let s := fst (run vnone (create vnone max) (before ++ Set_ k v :: mid)) in
      holds vnone s k /\ ~ takes_out o (snd (step vnone s o)) k /\ holds vnone (fst (step vnone s o)) k.
Proof. exact (@membership_history). Qed.
Print Assumptions C35_member_history.
(** One operation: only a store adds a key, a store that succeeds does, and apart from the keys taken out at most one key
    is lost, and only by storing a new key in a full cache. *)
Theorem C35_member_step :
  forall (V : Type) (vnone : V) max ops o, let s := fst (run vnone (create vnone max) ops) in
  let s' := fst (step vnone s o) in let x := snd (step vnone s o) in
  (forall k, holds vnone s' k -> (exists v, o = Set_ k v) \/ (holds vnone s k /\ ~ takes_out o x k)) /\
  (forall k v, o = Set_ k v -> x = OUnit -> holds vnone s' k) /\
  exists gone : list key, (List.length gone <= 1)%nat /\
    (gone <> [] -> max <= size vnone s /\ exists k v, o = Set_ k v /\ ~ holds vnone s k) /\
    forall k, holds vnone s k -> ~ takes_out o x k -> ~ In k gone -> holds vnone s' k.
Proof. exact (@membership_step). Qed.
Print Assumptions C35_member_step.
Example C35_ex :
  let ops := [Set_ (Some 1) 10; st 2; st 3; Set_ (Some 1) 11; st 4; dl 3; rd 2]%N in
  holds 0%N (fst (run 0%N (create 0%N 3) ops)) (Some 1%N) /\ last_stored (Some 1%N) ops = Some 11%N /\
  ~ holds 0%N (fst (run 0%N (create 0%N 3) ops)) (Some 2%N) /\ ~ holds 0%N (fst (run 0%N (create 0%N 3) ops)) (Some 3%N).
Proof. vm_compute. repeat split; discriminate. Qed.
(** Also when the list of nodes is out of order. *)
Example C35_ex_lost :
  let s := fst (run 0%N (create 0%N 4) [st 1; st 2; st 3; rd 1; st 4; Pop; Pop; Pop]) in holds 0%N s (Some 2%N) /\ snd (step 0%N s (rd 2)) = OVal 2%N.
Proof. vm_compute. repeat split. Qed.

(** ** C36 *)
(** Full claim: every history gives the results of the abstract cache, which keeps its entries in the order of their last
    use and evicts the last of them. *)
Definition C36_lru_order : Prop :=
  forall (V : Type) (vnone : V) max ops, 2 <= max -> snd (run vnone (create vnone max) ops) = snd (spec_run max [] ops).
(** False of the code: reading the first key before the cache is full makes the next new key cut the list; iteration then
    repeats two keys and misses the others. *)
Theorem C36_lru_order_refuted : ~ C36_lru_order.
Proof. intros H. specialize (H N 0%N 4 [st 1; st 2; st 3; rd 1; st 4; Items] ltac:(lia)). vm_compute in H. discriminate. Qed.
Print Assumptions C36_lru_order_refuted.
Example C36_iteration : history 4 [st 1; st 2; st 3; rd 1; st 4; Items]
  = [OUnit; OUnit; OUnit; OVal 1; OUnit; OList [(Some 4, 4); (Some 1, 1); (Some 4, 4); (Some 1, 1)]]%N.
Proof. vm_compute. reflexivity. Qed.
(** And the wrong key is evicted: 1, which has just been read, although 2 is the least recently used. *)
Example C36_eviction :
  let ops := [st 1; st 2; st 3; rd 1; st 4; st 5]%N in
  let s := fst (run 0%N (create 0%N 4) ops) in let l := fst (spec_run 4 [] ops) in
  ~ holds 0%N s (Some 1%N) /\ holds 0%N s (Some 2%N) /\ lookup (Some 1%N) l = Some 1%N /\ lookup (Some 2%N) l = None.
Proof. vm_compute. repeat split; discriminate. Qed.
(** It holds for every careful history: no new key is stored after a removal, and as long as the cache is not full new
    keys are stored only while the first key stored is the least recently used one. *)
Theorem C36_lru_order_partial :
  forall (V : Type) (vnone : V) max ops, 2 <= max -> careful vnone max [] None false ops ->
  snd (run vnone (create vnone max) ops) = snd (spec_run max [] ops).
Proof. exact (@refines). Qed.
Print Assumptions C36_lru_order_partial.
Example C36_ex :
  let ops := [st 1; st 2; rd 2; st 3; rd 1; rd 2; st 4; st 5; Items; rd 2; st 6; Items; Pop; dl 5; Items; st 2; Clear; Len]%N in
  careful 0%N 3 [] None false ops /\
  history 3 ops = [OUnit; OUnit; OVal 2; OUnit; OVal 1; OVal 2; OUnit; OUnit; OList [(Some 5, 5); (Some 4, 4); (Some 2, 2)]; OVal 2; OUnit;
    OList [(Some 6, 6); (Some 2, 2); (Some 5, 5)]; OPair (Some (Some 6, 6)); OUnit; OList [(Some 2, 2)]; OUnit; OUnit; OInt 0]%N.
Proof. vm_compute. repeat split; auto. Qed.
