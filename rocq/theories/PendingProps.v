(** Properties C10 and C11 of the pending/error queue pair (ekosis/queues/pending_queue.py). *)
From Coq Require Import List ZArith NArith Bool String Lia Permutation.
From Verif Require Import Base PQueueModel PQueueSpec PQueueProofs PQueueProofs2 PendingModel PendingSpec PendingProofs.
Import ListNotations.
Local Open Scope Z_scope.

(** Examples use numbers as data and metadata. *)
Definition ex_calls : list (pcall N N) :=
  [PushPending 1%N 10%N 0 (Some 100%N); PushPending 2%N 20%N 1 None; PushPending 3%N 30%N 0 None; PopPending;
   PushError 4%N 40%N "Max retries reached." (Some 400%N); PushError 5%N 50%N "x" None;
   PushError 6%N 60%N "y" (Some 600%N)].
Definition ex_pq : pqueue N N :=
  match psteps 0%N (pq_open 2 [] []) ex_calls with Ok q => q | Raise _ => pq_open 2 [] [] end.
Example ex_pq_reachable : preachable 0%N ex_pq.
Proof. apply (psteps_reachable 0%N ex_calls (pq_open 2 [] [])); [apply preach_fresh|vm_compute; reflexivity]. Qed.
Example ex_pq_usable : usable ex_pq.
Proof. split; vm_compute; discriminate. Qed.
Example ex_pq_holds : holds ex_pq
  [(2, mkP 2 1%Z 20 0); (3, mkP 3 0%Z 30 0)]%N
  [(4, mkE 4 40 "Max retries reached." 400); (5, mkE 5 50 "x" 0); (6, mkE 6 60 "y" 600)]%N.
Proof. exact (holds_contents ex_pq (preachable_inv 0%N _ ex_pq_reachable) ex_pq_usable). Qed.

(** ** C10: reprocessing everything in the error queue *)

(** The full claim: every error entry ends up pending. *)
Definition C10_reprocess_all_conserves : Prop :=
  forall (no_meta : N) (q : pqueue N N) lp le,
  preachable no_meta q -> usable q -> holds q lp le ->
  exists q', move_all no_meta q = Ok q' /\ holds q' (lp ++ map retried le) [].

(** It is false: an error entry is dropped when a request with the same span key is pending
    (the client sent it again in the meantime). *)
Theorem C10_reprocess_all_conserves_refuted : ~ C10_reprocess_all_conserves.
Proof.
  intros H.
  set (cs := [PushError 7%N 70%N "Max retries reached." None; PushPending 7%N 77%N 0 None] : list (pcall N N)).
  destruct (psteps 0%N (pq_open 2 [] []) cs) as [q|] eqn:E; [|discriminate].
  assert (R : preachable 0%N q) by (eapply psteps_reachable; [apply preach_fresh|exact E]).
  vm_compute in E. injection E as <-.
  pose proof (holds_contents _ (preachable_inv 0%N _ R) ltac:(split; discriminate)) as Hh.
  destruct (H 0%N _ _ _ R ltac:(split; discriminate) Hh) as [q' [A B]].
  vm_compute in A. injection A as <-. destruct B as [B _].
  specialize (B [Size]). vm_compute in B. discriminate.
Qed.
Print Assumptions C10_reprocess_all_conserves_refuted.

(** What holds: the call always terminates without an exception and empties the error queue, and exactly the
    entries whose key was not pending are appended, in order, with their data and metadata, retries 0. *)
Theorem C10_reprocess_all_exact : forall (D M : Type) (no_meta : M) (q : pqueue D M) lp le,
  preachable no_meta q -> usable q -> holds q lp le ->
  exists q', move_all no_meta q = Ok q' /\
    holds q' (lp ++ map retried (filter (fun e => negb (has (fst e) lp)) le)) [].
Proof. exact (@move_all_thm). Qed.
Print Assumptions C10_reprocess_all_exact.

(** Hence nothing is lost if no key is in both queues. *)
Theorem C10_reprocess_all_conserves_partial : forall (D M : Type) (no_meta : M) (q : pqueue D M) lp le,
  preachable no_meta q -> usable q -> holds q lp le ->
  (forall k, In k (map fst le) -> ~ In k (map fst lp)) ->
  exists q', move_all no_meta q = Ok q' /\ holds q' (lp ++ map retried le) [].
Proof. exact (@move_all_disjoint). Qed.
Print Assumptions C10_reprocess_all_conserves_partial.

Example C10_example : exists q', move_all 0%N ex_pq = Ok q' /\
  run (pend q') [Pop; Pop; Pop; Pop; Pop; Pop] =
  [OEntry (Some (2, mkP 2 1%Z 20 0)); OEntry (Some (3, mkP 3 0%Z 30 0)); OEntry (Some (4, mkP 4 0%Z 40 400));
   OEntry (Some (5, mkP 5 0%Z 50 0)); OEntry (Some (6, mkP 6 0%Z 60 600)); OEntry None]%N.
Proof. eexists; split; vm_compute; reflexivity. Qed.
Example C10_example_disjoint : forall k, In k (map fst (contents (errq ex_pq))) -> ~ In k (map fst (contents (pend ex_pq))).
Proof. vm_compute. intuition (subst; discriminate). Qed.

(** With page_size 0 the call raises AttributeError as soon as the error queue holds two entries (compare C09). *)
Theorem C10_page_size_zero_raises : exists q : pqueue N N,
  preachable 0%N q /\ error_size q = 2 /\ move_all 0%N q = Raise "AttributeError".
Proof.
  destruct (psteps 0%N (pq_open 0 [] []) [PushError 1%N 10%N "x" None; PushError 2%N 20%N "x" None]) as [q|] eqn:E;
    [|discriminate].
  exists q. split; [eapply psteps_reachable; [apply preach_fresh|exact E]|].
  vm_compute in E. injection E as <-. split; vm_compute; reflexivity.
Qed.
Print Assumptions C10_page_size_zero_raises.

(** ** C11: reprocessing one entry *)

(** The full claim: the entry moves to the end of the pending queue. *)
Definition C11_reprocess_one_moves : Prop :=
  forall (no_meta : N) (q : pqueue N N) lp le k x,
  preachable no_meta q -> usable q -> holds q lp le -> lookup k le = Some x ->
  exists q', move_one no_meta q k = Ok (q', Some (ee_data x)) /\
    holds q' (lp ++ [retried (k, x)]) (without k le).

(** False for the same reason as C10. *)
Theorem C11_reprocess_one_moves_refuted : ~ C11_reprocess_one_moves.
Proof.
  intros H.
  set (cs := [PushError 7%N 70%N "Max retries reached." None; PushPending 7%N 77%N 0 None] : list (pcall N N)).
  destruct (psteps 0%N (pq_open 2 [] []) cs) as [q|] eqn:E; [|discriminate].
  assert (R : preachable 0%N q) by (eapply psteps_reachable; [apply preach_fresh|exact E]).
  vm_compute in E. injection E as <-.
  pose proof (holds_contents _ (preachable_inv 0%N _ R) ltac:(split; discriminate)) as Hh.
  destruct (H 0%N _ _ _ 7%N (mkE 7%N 70%N "Max retries reached." 0%N) R ltac:(split; discriminate) Hh eq_refl)
    as [q' [A B]].
  vm_compute in A. injection A as <-. destruct B as [B _].
  specialize (B [Size]). vm_compute in B. discriminate.
Qed.
Print Assumptions C11_reprocess_one_moves_refuted.

(** What the call does in every case; in particular nothing when the key is not in the error queue. *)
Theorem C11_reprocess_one_exact : forall (D M : Type) (no_meta : M) (q : pqueue D M) lp le k,
  preachable no_meta q -> usable q -> holds q lp le ->
  exists q', move_one no_meta q k = Ok (q', option_map ee_data (lookup k le)) /\
    holds q' (match lookup k le with
              | Some x => if has k lp then lp else lp ++ [retried (k, x)]
              | None => lp end) (without k le).
Proof. exact (@move_one_thm). Qed.
Print Assumptions C11_reprocess_one_exact.

Theorem C11_reprocess_one_partial : forall (D M : Type) (no_meta : M) (q : pqueue D M) lp le k x,
  preachable no_meta q -> usable q -> holds q lp le -> lookup k le = Some x -> ~ In k (map fst lp) ->
  exists q', move_one no_meta q k = Ok (q', Some (ee_data x)) /\
    holds q' (lp ++ [retried (k, x)]) (without k le).
Proof.
  intros D M no_meta q lp le k x R U H L Hn. destruct (move_one_thm no_meta q lp le k R U H) as [q' [A B]].
  exists q'. rewrite L in *. split; [exact A|]. apply has_false in Hn. now rewrite Hn in B.
Qed.
Print Assumptions C11_reprocess_one_partial.

Example C11_example : exists q', move_one 0%N ex_pq 5%N = Ok (q', Some 50%N) /\
  run (pend q') [Pop; Pop; Pop; Pop] =
  [OEntry (Some (2, mkP 2 1%Z 20 0)); OEntry (Some (3, mkP 3 0%Z 30 0)); OEntry (Some (5, mkP 5 0%Z 50 0)); OEntry None]%N /\
  run (errq q') [Size; Inspect 5%N] = [ONum 2; OVal None].
Proof. eexists; repeat split; vm_compute; reflexivity. Qed.
Example C11_example_missing : exists q', move_one 0%N ex_pq 9%N = Ok (q', None) /\
  run (pend q') [Size] = [ONum 2] /\ run (errq q') [Size] = [ONum 3].
Proof. eexists; repeat split; vm_compute; reflexivity. Qed.

(** ** C04 for the pair: a graceful restart keeps both queues *)
Theorem C04_restart_keeps_both_queues : forall (D M : Type) (no_meta : M) (q : pqueue D M) lp le ps,
  preachable no_meta q -> usable q -> holds q lp le -> ps <> 0 ->
  exists q' lp' le', pq_reopen ps q = Ok q' /\ preachable no_meta q' /\ holds q' lp' le' /\
    Permutation lp lp' /\ Permutation le le'.
Proof. exact (@restart_thm). Qed.
Print Assumptions C04_restart_keeps_both_queues.
