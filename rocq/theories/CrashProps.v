(** Properties of buffered endpoints whose process dies at any moment, any number of times: C84, C85. *)
From Coq Require Import List ZArith NArith Bool String Lia Permutation.
From Verif Require Import Base PQueueModel PQueueSpec PQueueProofs PendingModel PendingSpec PendingProofs
  HandlerModel HandlerSpec HandlerProofs HandlerProps CrashModel CrashProofs CrashProofs2 CrashProofs3.
Import ListNotations.
Local Open Scope Z_scope.

(** ** Concrete lives for the examples: seven requests are accepted, the first is finished, the second fails once; then the
    process dies. *)
Notation ex_lives := (lives 0%N ex_dto ex_true 2).
Definition ex_evs1 : list (hev N N) :=
  arrive 1 10 5 ++ arrive 2 20 6 ++ arrive 3 30 7 ++ arrive 4 40 8 ++ arrive 5 50 9 ++ arrive 6 60 4 ++ arrive 7 70 3 ++
  [ETask 0 ROk] ++ attempt 0 true ++ attempt 0 false.
Definition ex_s1 := fst (ex_run (setup ex_q0) ex_evs1).
Definition ex_o1 := snd (ex_run (setup ex_q0) ex_evs1).
Definition ex_f1 := files_of (hq ex_s1).

Example ex_life1 : ex_lives ex_o1 10 ex_f1.
Proof.
  replace ex_o1 with (([] ++ ex_o1) ++ []) by (now rewrite app_nil_r).
  replace 10 with (0 + (4 * 2 + 2 + Z.of_nat (List.length (pushing ex_s1)))) by (vm_compute; reflexivity).
  rewrite <- app_assoc.
  eapply (lv_life 0%N ex_dto ex_true 2 [] 0 ([], []) 2 ex_evs1 ex_s1 ex_o1 EShutDown);
    [constructor|lia|apply surjective_pairing|vm_compute; reflexivity|apply ca_before].
Qed.

(** What is on disk then, and what the next start-up finds: requests 5 and 6; 3 was being processed, and 4, 7 and
    2 (which failed) were in the pages in memory. *)
Example ex_crash1 : map key_of (accepted ex_o1) = [1; 2; 3; 4; 5; 6; 7]%N /\ map key_of (finished ex_o1) = [1%N] /\
  map fst (contents (pend (pq_open 2 (fst ex_f1) (snd ex_f1)))) = [5; 6]%N /\ map key_of (in_process ex_s1) = [3%N].
Proof. vm_compute. repeat split. Qed.

(** A second life processes both of them, fails each twice, and is shut down. *)
Definition ex_evs2 : list (hev N N) := [ETask 0 ROk] ++ attempt 0 false ++ attempt 0 false ++ attempt 0 false ++ attempt 0 false.
Definition ex_s2 := fst (ex_run (setup (pq_open 2 (fst ex_f1) (snd ex_f1))) ex_evs2).
Definition ex_o2 := snd (ex_run (setup (pq_open 2 (fst ex_f1) (snd ex_f1))) ex_evs2).
Definition ex_s3 := fst (ex_step ex_s2 EShutDown).
Definition ex_o3 := snd (ex_step ex_s2 EShutDown).

Example ex_life2 : ex_lives (ex_o1 ++ ex_o2 ++ ex_o3) 10 (files_of (hq ex_s3)).
Proof.
  replace 10 with (10 + Z.of_nat (List.length (pushing ex_s3))) by (vm_compute; reflexivity).
  eapply (lv_graceful 0%N ex_dto ex_true 2 ex_o1 10 ex_f1 2 ex_evs2 ex_s2 ex_o2 EShutDown);
    [exact ex_life1|lia|apply surjective_pairing|vm_compute; reflexivity|apply surjective_pairing|vm_compute; discriminate].
Qed.

(** ** C84: accepted requests and crashes *)

(** The full claim: what was accepted, and is neither finished nor removed by an operator, is in one of the queues of
    the next life, whatever crashes happened. *)
Definition C84_accepted_requests_survive_crashes : Prop :=
  forall (D M : Type) (no_meta : M) (dto_ok truthy : D -> bool) (max_retries : Z) outs n f ps lp le,
  lives no_meta dto_ok truthy max_retries outs n f -> 1 <= ps -> holds (pq_open ps (fst f) (snd f)) lp le ->
  forall x, In x (accepted outs) -> ~ In x (finished outs) -> ~ In x (removed outs) ->
  ~ In x (dropped outs) -> ~ In x (lost outs) -> In x (items_p lp) \/ In x (items_e le).

(** False: a crash takes the pages in memory and the request in process with it. *)
Theorem C84_accepted_requests_survive_crashes_refuted : ~ C84_accepted_requests_survive_crashes.
Proof.
  intros H.
  destruct (lives_ok 0%N ex_dto ex_true 2 _ _ _ ex_life1) as [Pf _].
  assert (R : preachable 0%N (pq_open 2 (fst ex_f1) (snd ex_f1))).
  { destruct (start_facts 0%N 2 ex_f1 Pf ltac:(lia)) as [R _]. exact R. }
  assert (U : usable (pq_open 2 (fst ex_f1) (snd ex_f1))) by (split; vm_compute; discriminate).
  assert (G := H N N 0%N ex_dto ex_true 2 _ _ _ 2 _ _ ex_life1 ltac:(lia) (pc_holds _ R U) (7, 70, 3)%N).
  vm_compute in G.
  destruct G as [G|G]; try (intros X; repeat destruct X as [X|X]; try discriminate X; try contradiction).
  - do 6 right. now left.
  - repeat destruct G as [G|G]; try discriminate G; contradiction.
  - contradiction.
Qed.
Print Assumptions C84_accepted_requests_survive_crashes_refuted.

(** True: for any number of lives with any events, each ended by a crash at any point (between the commits of a call,
    of the shut-down or of the start-up) or gracefully, every accepted request is, exactly once, pending or in error in
    the next life, finished, removed, dropped as a duplicate, lost to a failure, or among those lost by crashes, and these
    are never more than the bound of [lives]: per crash four pages, two requests, and those not yet pushed; a graceful end
    loses none but those not yet pushed. *)
Theorem C84_accepted_requests_survive_crashes_partial :
  forall (D M : Type) (no_meta : M) (dto_ok truthy : D -> bool) (max_retries : Z) outs n f ps,
  lives no_meta dto_ok truthy max_retries outs n f -> 1 <= ps ->
  exists lp le crashed, holds (pq_open ps (fst f) (snd f)) lp le /\
    Permutation (accepted outs)
      (items_p lp ++ items_e le ++ finished outs ++ removed outs ++ dropped outs ++ lost outs ++ crashed) /\
    Z.of_nat (List.length crashed) <= n.
Proof. exact (@crash_accounting). Qed.
Print Assumptions C84_accepted_requests_survive_crashes_partial.

(** Four of the seven requests of the first life are gone after its crash, and no more after the second life. *)
Example C84_example :
  map key_of (accepted (ex_o1 ++ ex_o2 ++ ex_o3)) = [1; 2; 3; 4; 5; 6; 7]%N /\
  map key_of (finished (ex_o1 ++ ex_o2 ++ ex_o3)) = [1%N] /\
  contents (pend (pq_open 3 (fst (files_of (hq ex_s3))) (snd (files_of (hq ex_s3))))) = [] /\
  map fst (contents (errq (pq_open 3 (fst (files_of (hq ex_s3))) (snd (files_of (hq ex_s3)))))) = [5; 6]%N.
Proof. vm_compute. repeat split. Qed.

(** ** C85: attempts and crashes *)

(** For requests with distinct keys, over any number of crashed or graceful lives: each is in at most one place; it is
    never called more than max(1, max_retries) times between two operator commands that put it back; it has been finished
    by exactly one True; if the next life finds it pending, its stored count is exactly the number of its calls so far,
    all of which returned False, and less than the maximum, and it has the accepted data and metadata; if the next life
    finds it in error, it has had all its calls. *)
Theorem C85_attempts_and_crashes :
  forall (D M : Type) (no_meta : M) (dto_ok truthy : D -> bool) (max_retries : Z) outs n f ps k,
  lives no_meta dto_ok truthy max_retries outs n f -> 1 <= ps ->
  NoDup (map key_of (accepted outs)) -> In k (map key_of (accepted outs)) ->
  exists lp le, holds (pq_open ps (fst f) (snd f)) lp le /\
    NoDup (map key_of (items_p lp ++ items_e le ++ finished outs ++ removed outs)) /\
    0 <= calls k 0 outs <= Z.max 1 max_retries /\
    (forall x, In x (finished outs) -> key_of x = k ->
       returns k true 0 outs = 1 /\ calls k 0 outs = returns k false 0 outs + 1) /\
    (forall e, In (k, e) lp -> pe_retries e = calls k 0 outs /\ returns k false 0 outs = calls k 0 outs /\
       returns k true 0 outs = 0 /\ calls k 0 outs < Z.max 1 max_retries /\ In (k, pe_data e, pe_meta e) (accepted outs)) /\
    (forall e, In (k, e) le -> calls k 0 outs = Z.max 1 max_retries /\ returns k false 0 outs = Z.max 1 max_retries /\
       ee_reason e = "Max retries reached."%string /\ In (k, ee_data e, ee_meta e) (accepted outs)).
Proof. exact (@crash_attempts). Qed.
Print Assumptions C85_attempts_and_crashes.

Lemma ex_nodup (l : list N) : (fix nd l := match l with [] => true | x :: r => negb (existsb (N.eqb x) r) && nd r end) l = true -> NoDup l.
Proof.
  induction l as [|x r IH]; intros H; constructor; apply andb_prop in H as [A B]; [|apply IH; exact B].
  intros I. apply negb_true_iff in A. assert (X : existsb (N.eqb x) r = true) by (apply existsb_exists; exists x; split; [auto|apply N.eqb_refl]).
  congruence.
Qed.

Example C85_example : NoDup (map key_of (accepted (ex_o1 ++ ex_o2 ++ ex_o3))) /\
  calls 5 0 (ex_o1 ++ ex_o2 ++ ex_o3) = 2 /\ calls 2 0 (ex_o1 ++ ex_o2 ++ ex_o3) = 1.
Proof. split; [apply ex_nodup; vm_compute; reflexivity|vm_compute; auto]. Qed.
