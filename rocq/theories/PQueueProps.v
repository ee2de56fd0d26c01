(** Properties C01-C09 and C49 of the paged queue (ekosis/queues/paginated_queue.py). *)
From Coq Require Import List ZArith NArith Bool String Lia Permutation.
From Verif Require Import Base PQueueModel PQueueSpec PQueueProofs PQueueProofs2.
Import ListNotations.
Local Open Scope Z_scope.

(** A non-trivial history used by the examples: page size 2, five pushes (the pages overflow into the
    database), one pop, a graceful restart with page size 3 and a push; [ex_hist] is a reachable queue. *)
Definition ex_ops : list (op N) := [Push 1 10; Push 2 20; Push 3 30; Push 4 40; Push 5 50; Pop]%N.
Fixpoint after (q : queue N) (ops : list (op N)) : queue N :=
  match ops with
  | [] => q
  | o :: r => match step q o with Ok (q', _) => after q' r | Raise _ => q end
  end.
Lemma after_reachable ops : forall q, reachable q -> reachable (after q ops).
Proof.
  induction ops as [|o r IH]; intros q H; cbn; [auto|].
  destruct (step q o) as [[q' x]|e] eqn:E; [|auto]. apply IH. eapply reach_step; eauto.
Qed.
Definition ex_queue : queue N := after (open_queue 2 []) ex_ops.
Example ex_queue_reachable : reachable ex_queue.
Proof. apply after_reachable, reach_fresh. Qed.
Example ex_queue_spread : List.length (plist (front ex_queue)) = 1%nat /\ List.length (db ex_queue) = 2%nat /\
  List.length (back_list ex_queue) = 1%nat /\ psz ex_queue = 2.
Proof. repeat split. Qed.
Example ex_queue_restarted : exists q', reopen 3 ex_queue = Ok q' /\ reachable q' /\ psz q' = 3.
Proof. eexists. split; [vm_compute; reflexivity|]. split; [|reflexivity].
  apply (reach_reopen ex_queue 3); [apply ex_queue_reachable|vm_compute; reflexivity]. Qed.

(** ** C01: the queue is a duplicate-rejecting FIFO list *)
Theorem C01_queue_is_fifo : forall (V : Type) (ps : Z) (ops : list (op V)),
  ps <> 0 -> run (open_queue ps []) ops = spec_run [] ops.
Proof. exact (@fifo). Qed.
Print Assumptions C01_queue_is_fifo.

(** The same from any state that restarts and crashes can lead to. *)
Theorem C01_queue_is_fifo_any_history : forall (V : Type) (q : queue V),
  reachable q -> psz q <> 0 -> exists l, NoDup (map fst l) /\ behaves_as q l.
Proof. exact (@list_view). Qed.
Print Assumptions C01_queue_is_fifo_any_history.

(** The list is unique, so "the entries of a queue" below is well defined. *)
Theorem C01_list_unique : forall (V : Type) (q : queue V) l l',
  behaves_as q l -> behaves_as q l' -> l = l'.
Proof. exact (@behaves_unique). Qed.
Print Assumptions C01_list_unique.

Example C01_example : run (open_queue 2 []) (ex_ops ++ [Push 3 99%N; Inspect 3; PopKey 4; Size; Pop; Pop; Pop; Pop]%N)
  = [OKey 1; OKey 2; OKey 3; OKey 4; OKey 5; OEntry (Some (1, 10%N)); OKey 3; OVal (Some 30%N);
     OVal (Some 40%N); ONum 3; OEntry (Some (2, 20%N)); OEntry (Some (3, 30%N));
     OEntry (Some (5, 50%N)); OEntry None]%N.
Proof. reflexivity. Qed.

(** ** C02: a span key is held at most once; the first copy wins *)
Theorem C02_key_held_once : forall (V : Type) (q : queue V),
  reachable q -> NoDup (map fst (plist (front q) ++ map (fun r => (rkey r, rval r)) (db q) ++
                                 match back q with Some b => plist b | None => [] end)).
Proof. exact (@NoDup_contents). Qed.
Print Assumptions C02_key_held_once.

Theorem C02_first_copy_wins : forall (V : Type) (q : queue V) k v w,
  reachable q -> run q [Inspect k] = [OVal (Some w)] -> step q (Push k v) = Ok (q, OKey k).
Proof. exact (@push_again). Qed.
Print Assumptions C02_first_copy_wins.

Example C02_example : run ex_queue [Inspect 3%N] = [OVal (Some 30%N)].
Proof. reflexivity. Qed.

(** ** C03: at most 2 * page_size entries are lost by a crash between calls *)
Theorem C03_crash_loss_bounded : forall (V : Type) (q : queue V) l ps',
  reachable q -> 1 <= psz q -> behaves_as q l -> ps' <> 0 ->
  exists lost l', behaves_as (open_queue ps' (db q)) l' /\ Permutation l (lost ++ l') /\
    Z.of_nat (List.length lost) <= 2 * psz q.
Proof. exact (@crash_between). Qed.
Print Assumptions C03_crash_loss_bounded.

Example C03_example : run (open_queue 2 (db ex_queue)) [Size] = [ONum 2] /\ run ex_queue [Size] = [ONum 4].
Proof. split; reflexivity. Qed.

(** ** C04: a graceful restart keeps exactly the same entries *)
Theorem C04_restart_keeps_entries : forall (V : Type) (q : queue V) l ps',
  reachable q -> psz q <> 0 -> behaves_as q l -> ps' <> 0 ->
  exists q' l', reopen ps' q = Ok q' /\ behaves_as q' l' /\ Permutation l l'.
Proof. exact (@restart_same). Qed.
Print Assumptions C04_restart_keeps_entries.

(** ** C05: order over a graceful restart *)
Definition C05_restart_keeps_order : Prop := forall (q : queue N) l ps',
  reachable q -> 1 <= psz q -> behaves_as q l -> 1 <= ps' ->
  exists q', reopen ps' q = Ok q' /\ behaves_as q' l.

Theorem C05_restart_keeps_order_refuted : ~ C05_restart_keeps_order.
Proof.
  intros H. destruct (H ex_queue [(2, 20); (3, 30); (4, 40); (5, 50)]%N 2) as [q' [A B]].
  - apply ex_queue_reachable.
  - vm_compute. discriminate.
  - exact (behaves ex_queue (proj1 (reachable_inv _ ex_queue_reachable)) ltac:(discriminate)).
  - lia.
  - vm_compute in A. injection A as <-. specialize (B [Pop; Pop; Pop; Pop]). vm_compute in B. discriminate.
Qed.
Print Assumptions C05_restart_keeps_order_refuted.

(** Exactly when it does hold. *)
Theorem C05_restart_keeps_order_partial : forall (V : Type) (q : queue V) l ps',
  reachable q -> psz q <> 0 -> behaves_as q l -> 1 <= ps' ->
  ((exists q', reopen ps' q = Ok q' /\ behaves_as q' l) <->
   ps' = 1 \/ Z.of_nat (List.length l) <= ps' + 1).
Proof. exact (@order_kept_iff). Qed.
Print Assumptions C05_restart_keeps_order_partial.

(** And what the order is in general. *)
Theorem C05_order_after_restart : forall (V : Type) (q : queue V) l ps',
  reachable q -> psz q <> 0 -> behaves_as q l -> 1 <= ps' ->
  exists q', reopen ps' q = Ok q' /\ behaves_as q' (restart_order (Z.to_nat ps') l).
Proof. exact (@restart_order_exact). Qed.
Print Assumptions C05_order_after_restart.

Example C05_example : exists q', reopen 2 ex_queue = Ok q' /\
  run q' [Pop; Pop; Pop; Pop] =
   map (fun e => OEntry (Some e)) [(2, 20); (3, 30); (5, 50); (4, 40)]%N.
Proof. eexists; split; reflexivity. Qed.

(** ** C06: no call raises, in particular no integrity error *)
Theorem C06_no_exception : forall (V : Type) (q : queue V), reachable q ->
  (forall o, exists q' x, step q o = Ok (q', x)) /\ (exists q', q_shut_down q = Ok q') /\
  (forall ps, exists q', reopen ps q = Ok q').
Proof. exact (@never_raises). Qed.
Print Assumptions C06_no_exception.

(** Outside that contract: a second [shut_down] of the same object does raise. *)
Theorem C06_second_shut_down_raises : exists (q q1 : queue N), reachable q /\
  q_shut_down q = Ok q1 /\ q_shut_down q1 = Raise "IntegrityError".
Proof.
  exists (after (open_queue 2 []) [Push 1%N 10%N]). eexists.
  split; [apply after_reachable, reach_fresh|]. split; vm_compute; reflexivity.
Qed.
Print Assumptions C06_second_shut_down_raises.

(** ** C07: a crash at any commit point of any call *)
Definition recovers_part_of {V} (t : table V) (l : list (N * V)) : Prop :=
  forall ps, ps <> 0 -> exists l', behaves_as (open_queue ps t) l' /\ NoDup (map fst l') /\ incl l' l.

Theorem C07_crash_anywhere : forall (V : Type) (q : queue V) l,
  reachable q -> psz q <> 0 -> behaves_as q l ->
  (forall o t, In t (crash_tables_op q o) -> recovers_part_of t l) /\
  (forall t, In t (crash_tables_shut_down q) -> recovers_part_of t l).
Proof. exact (@crash_anywhere). Qed.
Print Assumptions C07_crash_anywhere.

(** A crash while a queue is being opened on a file that any history (with crashes) left behind; [l] is
    what an undisturbed start would have found. *)
Theorem C07_crash_in_start_up : forall (V : Type) (t : table V) l ps ps' t',
  on_disk t -> ps <> 0 -> behaves_as (open_queue ps t) l ->
  In t' (crash_tables_open ps' t) -> recovers_part_of t' l.
Proof. exact (@crash_in_start_up). Qed.
Print Assumptions C07_crash_in_start_up.

Example C07_start_up_example : on_disk (db ex_queue) /\
  map (@List.length _) (crash_tables_open 1 (db ex_queue)) = [2; 1; 0]%nat.
Proof. split; [|reflexivity]. eapply disk_crash_op with (o := Size); [apply ex_queue_reachable|left; reflexivity]. Qed.

Example C07_example : List.length (crash_tables_shut_down ex_queue) = 3%nat /\
  map (@List.length _) (crash_tables_shut_down ex_queue) = [2; 3; 4]%nat.
Proof. split; reflexivity. Qed.

(** ** C08: listing the first keys *)
Definition C08_first_keys_complete : Prop := forall (q : queue N) l x,
  reachable q -> 1 <= psz q -> behaves_as q l -> 0 <= x ->
  q_first_x q x = map fst (firstn (Z.to_nat x) l).

Theorem C08_first_keys_complete_refuted : ~ C08_first_keys_complete.
Proof.
  intros H.
  assert (R : reachable (after ex_queue [Pop])) by (apply after_reachable, ex_queue_reachable).
  specialize (H (after ex_queue [Pop]) [(3, 30); (4, 40); (5, 50)]%N 10 R).
  vm_compute in H. discriminate H; try discriminate.
  exact (behaves (after ex_queue [Pop]) (proj1 (reachable_inv _ R)) ltac:(discriminate)).
Qed.
Print Assumptions C08_first_keys_complete_refuted.

(** What holds: the answer is always a prefix of the queue, in order. Missing: that it is long enough. *)
Theorem C08_first_keys_prefix_partial : forall (V : Type) (q : queue V) l x,
  reachable q -> psz q <> 0 -> behaves_as q l ->
  exists m, (m <= Z.to_nat x)%nat /\ q_first_x q x = map fst (firstn m l).
Proof. exact (@first_x_prefix). Qed.
Print Assumptions C08_first_keys_prefix_partial.

(** Directly after a restart the first page_size entries are listed. *)
Theorem C08_first_keys_after_restart_partial : forall (V : Type) (q : queue V) l ps' x,
  reachable q -> psz q <> 0 -> behaves_as q l -> 1 <= ps' -> 0 <= x ->
  exists q', reopen ps' q = Ok q' /\
    q_first_x q' x = map fst (firstn (Z.to_nat (Z.min x ps')) (restart_order (Z.to_nat ps') l)).
Proof. exact (@first_x_after_restart). Qed.
Print Assumptions C08_first_keys_after_restart_partial.

Example C08_example : q_first_x ex_queue 10 = [2%N].
Proof. reflexivity. Qed.

(** ** C09: a non-empty queue yields an entry *)
Definition C09_nonempty_yields : Prop := forall (q : queue N),
  reachable q -> 0 < q_size q -> exists q' e, q_pop q = Ok (q', Some e).

Theorem C09_nonempty_yields_refuted : ~ C09_nonempty_yields.
Proof.
  intros H.
  assert (R : reachable (after (open_queue 0 []) [Push 1%N 10%N; Push 2%N 20%N]))
    by (apply after_reachable, reach_fresh).
  destruct (H _ R) as [q' [e E]].
  - vm_compute. reflexivity.
  - vm_compute in E. discriminate.
Qed.
Print Assumptions C09_nonempty_yields_refuted.

(** Only page_size = 0 is affected. *)
Theorem C09_nonempty_yields_partial : forall (V : Type) (q : queue V),
  reachable q -> psz q <> 0 -> 0 < q_size q ->
  exists q' e, q_pop q = Ok (q', Some e) /\ q_size q' = q_size q - 1.
Proof. exact (@pop_yields). Qed.
Print Assumptions C09_nonempty_yields_partial.

Example C09_example : 0 < q_size ex_queue.
Proof. vm_compute. reflexivity. Qed.

(** ** C49: an entry that has reached the disk survives a crash until it is removed *)
Definition C49_on_disk_stays_recoverable : Prop := forall (q q' : queue N) o x l l' d k v,
  reachable q -> 1 <= psz q -> step q o = Ok (q', x) ->
  behaves_as q l -> behaves_as q' l' -> In (k, v) l -> In (k, v) l' ->
  behaves_as (open_queue (psz q) (db q)) d -> In (k, v) d ->
  exists d', behaves_as (open_queue (psz q) (db q')) d' /\ In (k, v) d'.

Theorem C49_on_disk_stays_recoverable_refuted : ~ C49_on_disk_stays_recoverable.
Proof.
  intros H.
  set (q := after ex_queue [Pop]).
  assert (R : reachable q) by (apply after_reachable, ex_queue_reachable).
  set (q' := after q [Pop]).
  assert (R' : reachable q') by (apply after_reachable, R).
  assert (Rd : reachable (open_queue 2 (db q))).
  { eapply reach_crash_op with (o := Size); [exact R|left; reflexivity]. }
  assert (Rd' : reachable (open_queue 2 (db q'))).
  { eapply reach_crash_op with (o := Size); [exact R'|left; reflexivity]. }
  destruct (H q q' Pop (OEntry (Some (3%N, 30%N))) [(3, 30); (4, 40); (5, 50)]%N
              [(4, 40); (5, 50)]%N [(3, 30); (4, 40)]%N 4%N 40%N R) as [d' [A B]].
  - vm_compute. discriminate.
  - vm_compute. reflexivity.
  - exact (behaves q (proj1 (reachable_inv _ R)) ltac:(discriminate)).
  - exact (behaves q' (proj1 (reachable_inv _ R')) ltac:(discriminate)).
  - cbn; auto.
  - cbn; auto.
  - exact (behaves (open_queue 2 (db q)) (proj1 (reachable_inv _ Rd)) ltac:(discriminate)).
  - cbn; auto.
  - pose proof (behaves_unique _ _ _ A
      (behaves (open_queue 2 (db q')) (proj1 (reachable_inv _ Rd')) ltac:(discriminate))) as E.
    vm_compute in E. rewrite E in B. destruct B.
Qed.
Print Assumptions C49_on_disk_stays_recoverable_refuted.

(** What holds: no call other than its own removal, [clear] and a [pop] that has to load a page (nothing to
    list first) takes an entry off the disk. *)
Theorem C49_on_disk_stays_recoverable_partial : forall (V : Type) (q : queue V) o q' x d k v ps,
  reachable q -> step q o = Ok (q', x) -> ps <> 0 ->
  behaves_as (open_queue ps (db q)) d -> In (k, v) d ->
  o <> Clear -> o <> PopKey k -> (o = Pop -> q_first_x q 1 <> []) ->
  exists d', behaves_as (open_queue ps (db q')) d' /\ In (k, v) d'.
Proof. exact (@disk_stays). Qed.
Print Assumptions C49_on_disk_stays_recoverable_partial.

Example C49_example : q_first_x ex_queue 1 <> [] /\
  run (open_queue 2 (db ex_queue)) [Inspect 3%N] = [OVal (Some 30%N)].
Proof. split; [discriminate|reflexivity]. Qed.
