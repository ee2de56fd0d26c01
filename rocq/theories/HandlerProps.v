(** Properties of buffered endpoints: C12 - C19, C21, C47 (part). *)
From Coq Require Import List ZArith NArith Bool String Lia Permutation.
From Verif Require Import Base PQueueModel PQueueSpec PQueueProofs PendingModel PendingSpec PendingProofs
  HandlerModel HandlerSpec HandlerProofs HandlerProofs2 HandlerProofs3 HandlerProofs4 HandlerProofs5 HandlerProofs6.
Import ListNotations.
Local Open Scope Z_scope.

(** ** A concrete endpoint for the examples: numbers as data and metadata, data from 1000 on is rejected by the DTO
    type, 0 is falsy, two attempts. *)
Definition ex_dto (d : N) : bool := (d <? 1000)%N.
Definition ex_true (d : N) : bool := negb (d =? 0)%N.
Notation ex_run := (hrun 0%N ex_dto ex_true 2).
Notation ex_step := (hstep 0%N ex_dto ex_true 2).
Definition ex_q0 : pqueue N N := pq_open 2 [] [].
Lemma ex_reach : preachable 0%N ex_q0. Proof. apply preach_fresh. Qed.
Lemma ex_usable : usable ex_q0. Proof. split; discriminate. Qed.
Lemma ex_holds : holds ex_q0 [] [].
Proof. apply (holds_contents ex_q0 (preachable_inv 0%N _ ex_reach) ex_usable). Qed.
Lemma pc_holds q : preachable 0%N q -> usable q -> holds (D:=N) (M:=N) q (contents (pend q)) (contents (errq q)).
Proof. intros R U. apply (holds_contents q (preachable_inv 0%N _ R) U). Qed.

(** Request [k] with data [d] and metadata [m] arrives and is accepted, pushed. *)
Definition arrive (k d m : N) : list (hev N N) := [ERequest k d; ECollected 0 m; EPush 0].
(** Task [i] processes the request it holds, the function returns [b]. *)
Definition attempt (i : nat) (b : bool) : list (hev N N) := [ETask i ROk; ETask i (RRet b); ETask i ROk].

(** Three requests: the first succeeds, the second fails twice, the third fails once and is then being processed. *)
Definition ex_evs : list (hev N N) :=
  arrive 1 10 5 ++ arrive 2 20 6 ++ arrive 3 30 7 ++ [ETask 0 ROk] ++
  attempt 0 true ++ attempt 0 false ++ attempt 0 false ++ attempt 0 false ++ [ETask 0 ROk].

Example ex_evs_runs : let '(s, o) := ex_run (setup ex_q0) ex_evs in closed s = 0%nat /\
  map key_of (accepted o) = [1; 2; 3]%N /\ finished o = [(1, 10, 5)]%N /\ in_process s = [(3, 30, 7)]%N /\
  contents (pend (hq s)) = [] /\ contents (errq (hq s)) = [(2, mkE 2 20 "Max retries reached." 6)]%N /\
  started o = [1; 2; 3; 2; 3]%N /\ called o = [1; 2; 3; 2; 3]%N /\ lost o = [] /\
  forallb (fun e => negb (failure e)) ex_evs = true.
Proof. vm_compute. repeat split. Qed.

(** ** C12: pop, inspect and reprocess-one tell found from missing *)

(** The full claim: the reply is "not found" exactly when the key is not in the error queue. *)
Definition C12_found_or_missing : Prop :=
  forall (D M : Type) (no_meta : M) (dto_ok truthy : D -> bool) (max_retries : Z) q0 evs s o lp le k ev s1 o1,
  preachable no_meta q0 -> usable q0 -> hrun no_meta dto_ok truthy max_retries (setup q0) evs = (s, o) ->
  closed s = 0%nat -> holds (hq s) lp le ->
  (forall e, In (k, e) le -> dto_ok (ee_data e) = true) ->
  ev = EPopError k \/ ev = EInspectError k \/ ev = EReprocessOne k ->
  hstep no_meta dto_ok truthy max_retries s ev = (s1, o1) ->
  replies o1 = [option_map ee_data (lookup k le)].

(** False: a request whose data is an empty JSON object is reported missing (and is removed or moved all the same). *)
Theorem C12_found_or_missing_refuted : ~ C12_found_or_missing.
Proof.
  intros H.
  set (evs := arrive 1 0 5 ++ [ETask 0 ROk] ++ attempt 0 false ++ attempt 0 false).
  destruct (ex_run (setup ex_q0) evs) as [s o] eqn:E.
  assert (C : closed s = 0%nat) by (vm_compute in E; injection E as <- <-; reflexivity).
  pose proof (run_inv 0%N ex_dto ex_true 2 _ _ _ _ ex_reach ex_usable E C) as Hi.
  pose proof (run_holds 0%N s Hi) as Hh.
  destruct (ex_step s (EPopError 1%N)) as [s1 o1] eqn:E1.
  assert (G := H N N 0%N ex_dto ex_true 2 _ _ _ _ _ _ 1%N (EPopError 1%N) s1 o1 ex_reach ex_usable E C Hh).
  vm_compute in E. injection E as <- <-. vm_compute in E1. injection E1 as <- <-.
  assert (X := G ltac:(intros e [X|[]]; injection X as <-; reflexivity) ltac:(auto) eq_refl). vm_compute in X. discriminate.
Qed.
Print Assumptions C12_found_or_missing_refuted.

(** True for payloads with at least one field (truthy data); also what the three operations do to the queues. *)
Theorem C12_found_or_missing_partial :
  forall (D M : Type) (no_meta : M) (dto_ok truthy : D -> bool) (max_retries : Z) q0 evs s o lp le k,
  preachable no_meta q0 -> usable q0 -> hrun no_meta dto_ok truthy max_retries (setup q0) evs = (s, o) ->
  closed s = 0%nat -> holds (hq s) lp le ->
  (forall e, In (k, e) le -> dto_ok (ee_data e) = true /\ truthy (ee_data e) = true) ->
  (exists s1 o1, hstep no_meta dto_ok truthy max_retries s (EPopError k) = (s1, o1) /\
     replies o1 = [option_map ee_data (lookup k le)] /\ holds (hq s1) lp (without k le)) /\
  (exists o1, hstep no_meta dto_ok truthy max_retries s (EInspectError k) = (s, o1) /\
     replies o1 = [option_map ee_data (lookup k le)]) /\
  (exists s1 o1, hstep no_meta dto_ok truthy max_retries s (EReprocessOne k) = (s1, o1) /\
     replies o1 = [option_map ee_data (lookup k le)] /\
     holds (hq s1) (match lookup k le with
                    | Some x => if has k lp then lp else lp ++ [retried (k, x)]
                    | None => lp end) (without k le)).
Proof.
  intros D M no_meta dto_ok truthy max_retries q0 evs s o lp le k R U E C Hh Ok.
  destruct (operator_commands no_meta dto_ok truthy max_retries q0 evs s o lp le k R U E C Hh) as [A [B F]].
  assert (An : answer (M:=M) dto_ok truthy (option_map ee_data (lookup k le)) = [option_map ee_data (lookup k le)]).
  { unfold answer, reply. destruct (lookup k le) as [e|] eqn:L; [|reflexivity]. cbn [option_map].
    destruct (Ok e) as [-> ->]; [apply lookup_In; auto|]. reflexivity. }
  rewrite An in *. auto.
Qed.
Print Assumptions C12_found_or_missing_partial.

(** After [ex_evs] the error queue holds key 2 and not key 9. *)
Example C12_example : let '(s, o) := ex_run (setup ex_q0) ex_evs in
  replies (snd (ex_step s (EPopError 2%N))) = [Some 20%N] /\ replies (snd (ex_step s (EPopError 9%N))) = [None] /\
  replies (snd (ex_step s (EInspectError 2%N))) = [Some 20%N] /\ replies (snd (ex_step s (EReprocessOne 2%N))) = [Some 20%N].
Proof. vm_compute. repeat split. Qed.

(** ** C13: attempts *)

(** For every request accepted in a run: never more than max(1, max_retries) calls; if it finished, its last call and
    only that returned True; while it is pending it has had fewer calls, all of which returned False; if it is in the
    error queue it has had exactly max(1, max_retries) calls which all returned False, and it is there with its
    original data and metadata. Counts start afresh when an operator moves it back. *)
Theorem C13_attempts :
  forall (D M : Type) (no_meta : M) (dto_ok truthy : D -> bool) (max_retries : Z) q0 lp0 le0 evs s o k,
  preachable no_meta q0 -> usable q0 -> holds q0 lp0 le0 ->
  hrun no_meta dto_ok truthy max_retries (setup q0) evs = (s, o) -> closed s = 0%nat ->
  NoDup (map key_of (accepted o ++ items_p lp0 ++ items_e le0)) -> In k (map key_of (accepted o)) ->
  exists lp le, holds (hq s) lp le /\
    0 <= calls k 0 o <= Z.max 1 max_retries /\
    (forall x, In x (finished o) -> key_of x = k -> returns k true 0 o = 1 /\ calls k 0 o = returns k false 0 o + 1) /\
    (forall e, In (k, e) lp -> pe_retries e = calls k 0 o /\ returns k false 0 o = calls k 0 o /\ returns k true 0 o = 0 /\
       calls k 0 o < Z.max 1 max_retries) /\
    (forall e, In (k, e) le -> calls k 0 o = Z.max 1 max_retries /\ returns k false 0 o = Z.max 1 max_retries /\
       ee_reason e = "Max retries reached."%string /\ In (k, ee_data e, ee_meta e) (accepted o)).
Proof. exact (@attempts). Qed.
Print Assumptions C13_attempts.

(** And it does get there: once max(1, max_retries) calls have returned False the request is in the error queue (or
    the last attempt is just being wound up, or an operator has removed it since). *)
Theorem C13_exhausted_requests_are_in_error :
  forall (D M : Type) (no_meta : M) (dto_ok truthy : D -> bool) (max_retries : Z) q0 lp0 le0 evs s o k,
  preachable no_meta q0 -> usable q0 -> holds q0 lp0 le0 ->
  hrun no_meta dto_ok truthy max_retries (setup q0) evs = (s, o) -> closed s = 0%nat ->
  forallb (fun e => negb (failure e)) evs = true ->
  Forall (fun x => dto_ok (data_of x) = true) (accepted o ++ items_p lp0 ++ items_e le0) ->
  NoDup (map key_of (accepted o ++ items_p lp0 ++ items_e le0)) -> In k (map key_of (accepted o)) ->
  returns k false 0 o = Z.max 1 max_retries ->
  In k (map key_of (in_process s)) \/ In k (map key_of (removed o)) \/
  exists lp le e, holds (hq s) lp le /\ In (k, e) le.
Proof. exact (@exhausted). Qed.
Print Assumptions C13_exhausted_requests_are_in_error.

(** Requests found pending at start-up continue with their stored count. *)
Theorem C13_attempts_across_restart :
  forall (D M : Type) (no_meta : M) (dto_ok truthy : D -> bool) (max_retries : Z) q0 lp0 le0 evs s o k e0,
  preachable no_meta q0 -> usable q0 -> holds q0 lp0 le0 ->
  hrun no_meta dto_ok truthy max_retries (setup q0) evs = (s, o) -> closed s = 0%nat ->
  NoDup (map key_of (accepted o ++ items_p lp0 ++ items_e le0)) -> In (k, e0) lp0 ->
  0 <= pe_retries e0 < Z.max 1 max_retries ->
  exists lp le, holds (hq s) lp le /\
    calls k (pe_retries e0) o <= Z.max 1 max_retries /\
    (forall e, In (k, e) lp -> pe_retries e = calls k (pe_retries e0) o) /\
    (forall e, In (k, e) le -> calls k (pe_retries e0) o = Z.max 1 max_retries /\
       ee_data e = pe_data e0 /\ ee_meta e = pe_meta e0).
Proof. exact (@attempts_kept). Qed.
Print Assumptions C13_attempts_across_restart.

Example C13_example : let '(s, o) := ex_run (setup ex_q0) ex_evs in
  (calls 1 0 o, returns 1 true 0 o, returns 1 false 0 o) = (1, 1, 0) /\
  (calls 2 0 o, returns 2 true 0 o, returns 2 false 0 o) = (2, 0, 2) /\
  (calls 3 0 o, returns 3 true 0 o, returns 3 false 0 o) = (2, 0, 1).
Proof. vm_compute. repeat split. Qed.

(** ** C14: exactly one place *)

(** Accounting in every run, whatever happens: what was accepted, plus what the queues held at start-up, is what is
    waiting to be queued, pending, in process, in error, finished, removed by an operator, dropped as a duplicate of a
    queued key, or lost to an exception or cancellation. *)
Theorem C14_accounting :
  forall (D M : Type) (no_meta : M) (dto_ok truthy : D -> bool) (max_retries : Z) q0 lp0 le0 evs s o,
  preachable no_meta q0 -> usable q0 -> holds q0 lp0 le0 ->
  hrun no_meta dto_ok truthy max_retries (setup q0) evs = (s, o) -> closed s = 0%nat ->
  exists lp le, holds (hq s) lp le /\
    Permutation (accepted o ++ items_p lp0 ++ items_e le0)
      (pushing s ++ items_p lp ++ in_process s ++ items_e le ++ finished o ++ removed o ++ dropped o ++ lost o).
Proof. exact (@conservation). Qed.
Print Assumptions C14_accounting.

(** When functions return booleans (nothing raises, nothing is cancelled), data is valid and keys are distinct, every
    request is in exactly one of the six places. *)
Theorem C14_exactly_one_place :
  forall (D M : Type) (no_meta : M) (dto_ok truthy : D -> bool) (max_retries : Z) q0 lp0 le0 evs s o,
  preachable no_meta q0 -> usable q0 -> holds q0 lp0 le0 ->
  hrun no_meta dto_ok truthy max_retries (setup q0) evs = (s, o) -> closed s = 0%nat ->
  forallb (fun e => negb (failure e)) evs = true ->
  Forall (fun x => dto_ok (data_of x) = true) (accepted o ++ items_p lp0 ++ items_e le0) ->
  NoDup (map key_of (accepted o ++ items_p lp0 ++ items_e le0)) ->
  exists lp le, holds (hq s) lp le /\
    Permutation (accepted o ++ items_p lp0 ++ items_e le0)
      (pushing s ++ items_p lp ++ in_process s ++ items_e le ++ finished o ++ removed o) /\
    NoDup (map key_of (pushing s ++ items_p lp ++ in_process s ++ items_e le ++ finished o ++ removed o)).
Proof. exact (@exactly_one_place). Qed.
Print Assumptions C14_exactly_one_place.

Example C14_example : let '(s, o) := ex_run (setup ex_q0) (ex_evs ++ [EPopError 2%N; ERequest 4%N 40%N; ECollected 0 8%N]) in
  accepted o = [(1, 10, 5); (2, 20, 6); (3, 30, 7); (4, 40, 8)]%N /\
  pushing s = [(4, 40, 8)]%N /\ in_process s = [(3, 30, 7)]%N /\ finished o = [(1, 10, 5)]%N /\ removed o = [(2, 20, 6)]%N.
Proof. vm_compute. repeat split. Qed.

(** ** C15: a request whose function raises *)

(** The full claim (for runs in which nothing is cancelled, nothing removed by an operator). *)
Definition C15_raising_not_lost : Prop :=
  forall (D M : Type) (no_meta : M) (dto_ok truthy : D -> bool) (max_retries : Z) q0 evs s o,
  preachable no_meta q0 -> usable q0 -> holds q0 [] [] ->
  hrun no_meta dto_ok truthy max_retries (setup q0) evs = (s, o) -> closed s = 0%nat ->
  (forall ev, In ev evs -> match ev with ECancel _ | ECancelPush _ => False | _ => True end) ->
  Forall (fun x => dto_ok (data_of x) = true) (accepted o) ->
  NoDup (map key_of (accepted o)) ->
  exists lp le, holds (hq s) lp le /\
    incl (accepted o) (pushing s ++ items_p lp ++ in_process s ++ items_e le ++ finished o ++ removed o).

(** False: the exception leaves the processing task, the popped request is gone. *)
Theorem C15_raising_not_lost_refuted : ~ C15_raising_not_lost.
Proof.
  intros H.
  set (evs := arrive 1 10 5 ++ [ETask 0 ROk; ETask 0 ROk; ETask 0 RExn]).
  destruct (ex_run (setup ex_q0) evs) as [s o] eqn:E.
  assert (C : closed s = 0%nat) by (vm_compute in E; injection E as <- <-; reflexivity).
  assert (Hi := run_inv 0%N ex_dto ex_true 2 _ _ _ _ ex_reach ex_usable E C).
  destruct (H N N 0%N ex_dto ex_true 2 _ _ _ _ ex_reach ex_usable ex_holds E C) as [lp [le [Hh Hinc]]].
  - cbn. intuition (subst; exact I).
  - vm_compute in E. injection E as <- <-. repeat constructor.
  - vm_compute in E. injection E as <- <-. repeat constructor; auto.
  - destruct (run_contents 0%N s lp le Hi Hh) as [-> ->]. vm_compute in E. injection E as <- <-.
    specialize (Hinc (1, 10, 5)%N). vm_compute in Hinc. apply Hinc. now left.
Qed.
Print Assumptions C15_raising_not_lost_refuted.

(** What is true: a step loses nothing but the request being processed in a task that raises or is cancelled, a
    request whose push is cancelled, or one whose stored data no longer fits the DTO. *)
Theorem C15_loses_only_that_request_partial :
  forall (D M : Type) (no_meta : M) (dto_ok truthy : D -> bool) (max_retries : Z) q0 evs s o ev s' o' x,
  preachable no_meta q0 -> usable q0 -> hrun no_meta dto_ok truthy max_retries (setup q0) evs = (s, o) -> closed s = 0%nat ->
  hstep no_meta dto_ok truthy max_retries s ev = (s', o') -> closed s' = 0%nat ->
  In x (lost o') -> In x (in_process s) \/ In x (pushing s) \/ dto_ok (data_of x) = false.
Proof.
  intros D M no_meta dto_ok truthy max_retries q0 evs s o ev s' o' x R U E C E1 C1.
  apply (loses_only_failed no_meta dto_ok truthy max_retries s ev s' o' x); auto; [|congruence].
  eapply run_inv; eauto.
Qed.
Print Assumptions C15_loses_only_that_request_partial.

Example C15_example : let '(s, o) := ex_run (setup ex_q0) ex_evs in let '(s', o') := ex_step s (ETask 0 RExn) in
  lost o' = [(3, 30, 7)]%N /\ closed s' = 0%nat /\ contents (errq (hq s')) = contents (errq (hq s)).
Proof. vm_compute. repeat split. Qed.

(** ** C16: one request at a time, in queue order *)

(** There is never more than one live processing task, in any run (also during and after shutting down). *)
Theorem C16_one_task :
  forall (D M : Type) (no_meta : M) (dto_ok truthy : D -> bool) (max_retries : Z) q0 evs s o i j t t',
  hrun no_meta dto_ok truthy max_retries (setup q0) evs = (s, o) ->
  nth_error (tasks s) i = Some t -> live t -> nth_error (tasks s) j = Some t' -> live t' -> i = j.
Proof. exact (@one_live_task). Qed.
Print Assumptions C16_one_task.

(** Requests are started in the order in which they were put into the queue: what was pending at start-up followed by
    what was queued since is what was started followed by what is pending. *)
Theorem C16_queue_order :
  forall (D M : Type) (no_meta : M) (dto_ok truthy : D -> bool) (max_retries : Z) q0 lp0 le0 evs s o,
  preachable no_meta q0 -> usable q0 -> holds q0 lp0 le0 ->
  hrun no_meta dto_ok truthy max_retries (setup q0) evs = (s, o) -> closed s = 0%nat ->
  Forall (fun x => dto_ok (data_of x) = true) (accepted o ++ items_p lp0 ++ items_e le0) ->
  exists lp le, holds (hq s) lp le /\ map fst lp0 ++ queued o = started o ++ map fst lp.
Proof. exact (@order). Qed.
Print Assumptions C16_queue_order.

Example C16_example : let '(s, o) := ex_run (setup ex_q0) (ex_evs ++ arrive 4 40 0 ++ arrive 5 50 0) in
  queued o = [1; 2; 3; 2; 3; 4; 5]%N /\ started o = [1; 2; 3; 2; 3]%N /\ map fst (contents (pend (hq s))) = [4; 5]%N /\
  List.length (filter (fun t => match t with TDone => false | _ => true end) (tasks s)) = 1%nat.
Proof. vm_compute. repeat split. Qed.

(** ** C17: pausing *)

(** While processing is paused (no unpause, no reprocessing) nothing is started, and at most one call of the function
    is made: the one for a request that had been started before. *)
Theorem C17_processing_pause_effective :
  forall (D M : Type) (no_meta : M) (dto_ok truthy : D -> bool) (max_retries : Z) q0 evs0 evs s o s' o',
  hrun no_meta dto_ok truthy max_retries (setup q0) evs0 = (s, o) -> proc_paused s = true ->
  forallb (fun e => negb (unpauses e)) evs = true ->
  hrun no_meta dto_ok truthy max_retries s evs = (s', o') ->
  proc_paused s' = true /\ started o' = [] /\ (List.length (called o') <= 1)%nat.
Proof.
  intros D M no_meta dto_ok truthy max_retries q0 evs0 evs s o s' o' E0 P U E.
  destruct (paused_run no_meta dto_ok truthy max_retries evs s s' o' P U E) as [A B]. split; [auto|]. split; [auto|].
  pose proof (calls_run no_meta dto_ok truthy max_retries evs s s' o' E) as X. rewrite B in X.
  pose proof (single_before s (single_run no_meta dto_ok truthy max_retries _ _ _ _ (single_setup q0) E0)) as Y. cbn in X. lia.
Qed.
Print Assumptions C17_processing_pause_effective.

(** The full claim for receiving: nothing is accepted while receiving is paused. *)
Definition C17_receiving_pause_effective : Prop :=
  forall (D M : Type) (no_meta : M) (dto_ok truthy : D -> bool) (max_retries : Z) q0 evs0 evs s o s' o',
  hrun no_meta dto_ok truthy max_retries (setup q0) evs0 = (s, o) -> recv_paused s = true -> ~ In EUnpauseReceiving evs ->
  hrun no_meta dto_ok truthy max_retries s evs = (s', o') ->
  refused o' = flat_map request evs /\ accepted o' = [].

(** False: a call of [run] that waits for a middleware has passed the check before the pause. *)
Theorem C17_receiving_pause_effective_refuted : ~ C17_receiving_pause_effective.
Proof.
  intros H.
  destruct (ex_run (setup ex_q0) [ERequest 1%N 10%N; EPauseReceiving]) as [s o] eqn:E.
  destruct (ex_run s [ECollected 0 5%N]) as [s' o'] eqn:E1.
  assert (P : recv_paused s = true) by (vm_compute in E; injection E as <- <-; reflexivity).
  assert (I : ~ In EUnpauseReceiving [ECollected (D:=N) 0 5%N]) by (intros [X|[]]; discriminate).
  destruct (H N N 0%N ex_dto ex_true 2 _ _ _ _ _ _ _ E P I E1) as [_ A].
  vm_compute in E. injection E as <- <-.
  vm_compute in E1. injection E1 as <- <-. vm_compute in A. discriminate.
Qed.
Print Assumptions C17_receiving_pause_effective_refuted.

(** True: every request arriving while receiving is paused is refused, and no more requests are accepted than had
    already passed the check. *)
Theorem C17_receiving_pause_effective_partial :
  forall (D M : Type) (no_meta : M) (dto_ok truthy : D -> bool) (max_retries : Z) evs s s' o',
  recv_paused s = true -> ~ In EUnpauseReceiving evs -> hrun no_meta dto_ok truthy max_retries s evs = (s', o') ->
  recv_paused s' = true /\ refused o' = flat_map request evs /\
  (List.length (accepted o') + List.length (collecting s') <= List.length (collecting s))%nat.
Proof. exact (@refused_run). Qed.
Print Assumptions C17_receiving_pause_effective_partial.

Example C17_example : let '(s, o) := ex_run (setup ex_q0) (ex_evs ++ arrive 4 40 0 ++ [EPauseProcessing; EPauseReceiving]) in
  let '(s', o') := ex_run s ([ERequest 5%N 50%N] ++ [ETask 0 (RRet true); ETask 0 ROk]) in
  started o' = [] /\ finished o' = [(3, 30, 7)]%N /\ refused o' = [5]%N /\ map fst (contents (pend (hq s'))) = [4]%N.
Proof. vm_compute. repeat split. Qed.

(** ** C18: no accepted request is stranded *)

(** The full claim. *)
Definition C18_no_stranded_request : Prop :=
  forall (D M : Type) (no_meta : M) (dto_ok truthy : D -> bool) (max_retries : Z) q0 lp0 le0 evs s o lp le,
  preachable no_meta q0 -> usable q0 -> holds q0 lp0 le0 ->
  hrun no_meta dto_ok truthy max_retries (setup q0) evs = (s, o) -> closed s = 0%nat ->
  forallb (fun e => negb (failure e)) evs = true ->
  Forall (fun x => dto_ok (data_of x) = true) (accepted o ++ items_p lp0 ++ items_e le0) ->
  proc_paused s = false -> holds (hq s) lp le -> lp <> [] -> awake s.

(** False: a request is accepted while the processing task is winding up its last request; the task finds the queue
    empty and ends before the request is pushed (buffered_handler_base.py:227-229 against 180 and 216). *)
Definition c18_evs : list (hev N N) :=
  arrive 1 10 5 ++ [ETask 0 ROk; ETask 0 ROk; ETask 0 (RRet true);
                    ERequest 2%N 20%N; ECollected 0 6%N; ETask 0 ROk; EPush 0].
Theorem C18_no_stranded_request_refuted : ~ C18_no_stranded_request.
Proof.
  intros H.
  destruct (ex_run (setup ex_q0) c18_evs) as [s o] eqn:E.
  assert (C : closed s = 0%nat) by (vm_compute in E; injection E as <- <-; reflexivity).
  assert (Hi := run_inv 0%N ex_dto ex_true 2 _ _ _ _ ex_reach ex_usable E C).
  pose proof (run_holds 0%N s Hi) as Hh.
  assert (G := fun F P => H N N 0%N ex_dto ex_true 2 _ _ _ _ _ _ _ _ ex_reach ex_usable ex_holds E C eq_refl F P Hh).
  vm_compute in E. injection E as <- <-.
  destruct (G ltac:(repeat constructor) eq_refl ltac:(discriminate)) as [[|[|[|j]]] [t [N L]]];
    vm_compute in N; try discriminate; injection N as <-; now apply L.
Qed.
Print Assumptions C18_no_stranded_request_refuted.

(** True for runs in which every push happens while a processing task is live. *)
Theorem C18_no_stranded_request_partial :
  forall (D M : Type) (no_meta : M) (dto_ok truthy : D -> bool) (max_retries : Z) q0 lp0 le0 evs s o lp le,
  preachable no_meta q0 -> usable q0 -> holds q0 lp0 le0 ->
  hrun no_meta dto_ok truthy max_retries (setup q0) evs = (s, o) -> closed s = 0%nat ->
  forallb (fun e => negb (failure e)) evs = true ->
  Forall (fun x => dto_ok (data_of x) = true) (accepted o ++ items_p lp0 ++ items_e le0) ->
  pushes_awake no_meta dto_ok truthy max_retries (setup q0) evs ->
  proc_paused s = false -> holds (hq s) lp le -> lp <> [] -> awake s.
Proof.
  intros D M no_meta dto_ok truthy max_retries q0 lp0 le0 evs s o lp le R U H0 E C F Ok Pa P Hh Ne.
  destruct (setup_ok no_meta q0 R U) as [Hi [Ha Hc]].
  destruct (run_contents no_meta s lp le (run_inv no_meta dto_ok truthy max_retries q0 evs s o R U E C) Hh) as [-> ->].
  destruct (holds_unique q0 lp0 le0 (preachable_inv no_meta q0 R) U H0) as [-> ->].
  refine (no_stranded_run no_meta dto_ok truthy max_retries evs _ _ _ Hi _ E ltac:(congruence) F _ Pa P Ne).
  - intros _ _. apply setup_awake.
  - rewrite Ha. exact Ok.
Qed.
Print Assumptions C18_no_stranded_request_partial.

(** A stranded request is picked up by the next accepted request, unpause or reprocess command: each leaves a live
    processing task. *)
Theorem C18_next_event_wakes :
  forall (D M : Type) (no_meta : M) (dto_ok truthy : D -> bool) (max_retries : Z) q0 evs s o ev s' o',
  preachable no_meta q0 -> usable q0 ->
  hrun no_meta dto_ok truthy max_retries (setup q0) evs = (s, o) -> closed s = 0%nat ->
  hstep no_meta dto_ok truthy max_retries s ev = (s', o') -> closed s' = 0%nat ->
  match ev with
  | ECollected i _ => (i < List.length (collecting s))%nat
  | EUnpauseProcessing | EUnpauseReceiving | EReprocessAll | EReprocessOne _ => True
  | _ => False
  end -> awake s'.
Proof. exact (@wakes). Qed.
Print Assumptions C18_next_event_wakes.

(** [ex_evs] meets the condition on pushes, with requests pending at the end of a prefix. *)
Example C18_example : let '(s, o) := ex_run (setup ex_q0) (firstn 10 ex_evs) in
  pushes_awake 0%N ex_dto ex_true 2 (setup ex_q0) (firstn 10 ex_evs) /\
  proc_paused s = false /\ map fst (contents (pend (hq s))) = [2; 3]%N.
Proof. vm_compute. repeat split; exists 0%nat; eexists; (split; [reflexivity|intros X; discriminate X]). Qed.

(** ** C19: reprocessing and the operator's pause *)

Definition C19_pause_survives_reprocessing : Prop :=
  forall (D M : Type) (no_meta : M) (dto_ok truthy : D -> bool) (max_retries : Z) q0 evs s o ev s' o',
  preachable no_meta q0 -> usable q0 ->
  hrun no_meta dto_ok truthy max_retries (setup q0) evs = (s, o) -> closed s = 0%nat ->
  (ev = EReprocessAll \/ exists k, ev = EReprocessOne k) ->
  hstep no_meta dto_ok truthy max_retries s ev = (s', o') -> proc_paused s' = proc_paused s.

(** False: reprocessing ends with an unconditional unpause. *)
Theorem C19_pause_survives_reprocessing_refuted : ~ C19_pause_survives_reprocessing.
Proof.
  intros H.
  destruct (ex_run (setup ex_q0) [EPauseProcessing]) as [s o] eqn:E.
  assert (C : closed s = 0%nat) by (vm_compute in E; injection E as <- <-; reflexivity).
  destruct (ex_step s EReprocessAll) as [s' o'] eqn:E1.
  pose proof (H N N 0%N ex_dto ex_true 2 _ _ _ _ _ _ _ ex_reach ex_usable E C ltac:(auto) E1) as X.
  vm_compute in E. injection E as <- <-. vm_compute in E1. injection E1 as <- <-. discriminate.
Qed.
Print Assumptions C19_pause_survives_reprocessing_refuted.

(** What is true: after reprocessing, processing is never paused (so the claim holds exactly when it was not paused
    before); and nothing but the unpause and reprocess commands ends a pause (C17_processing_pause_effective). *)
Theorem C19_reprocessing_unpauses_partial :
  forall (D M : Type) (no_meta : M) (dto_ok truthy : D -> bool) (max_retries : Z) q0 evs s o ev s' o',
  preachable no_meta q0 -> usable q0 ->
  hrun no_meta dto_ok truthy max_retries (setup q0) evs = (s, o) -> closed s = 0%nat ->
  (ev = EReprocessAll \/ exists k, ev = EReprocessOne k) ->
  hstep no_meta dto_ok truthy max_retries s ev = (s', o') -> proc_paused s' = false.
Proof.
  intros D M no_meta dto_ok truthy max_retries q0 evs s o ev s' o' R U E C Ev E1.
  pose proof (run_inv no_meta dto_ok truthy max_retries q0 evs s o R U E C) as H.
  destruct Ev as [->|[k ->]]; cbn [hstep] in E1.
  - destruct (move_all_ok no_meta (hq s) (hi_q _ _ H) (proj2 (hi_u _ _ H))) as [q [A _]].
    rewrite A in E1. injection E1 as <- <-. now rewrite check_paused.
  - destruct (move_one_ok no_meta (hq s) k (hi_q _ _ H)) as [q [A _]].
    rewrite A in E1. injection E1 as <- <-. now rewrite check_paused.
Qed.
Print Assumptions C19_reprocessing_unpauses_partial.

(** ** C21: shutting down *)

(** The full claims: the queues are written exactly once ... *)
Definition C21_closes_at_most_once : Prop :=
  forall (D M : Type) (no_meta : M) (dto_ok truthy : D -> bool) (max_retries : Z) q0 evs s o,
  preachable no_meta q0 -> usable q0 -> hrun no_meta dto_ok truthy max_retries (setup q0) evs = (s, o) ->
  (closed s <= 1)%nat.

(** ... and every accepted request that is not done is found after the restart. *)
Definition C21_restart_finds_everything : Prop :=
  forall (D M : Type) (no_meta : M) (dto_ok truthy : D -> bool) (max_retries : Z) q0 evs s o ps lp le,
  preachable no_meta q0 -> usable q0 -> holds q0 [] [] ->
  hrun no_meta dto_ok truthy max_retries (setup q0) evs = (s, o) -> closed s = 1%nat ->
  forallb (fun e => negb (failure e)) evs = true -> Forall (fun x => dto_ok (data_of x) = true) (accepted o) ->
  NoDup (map key_of (accepted o)) -> pushing s = [] -> ps <> 0 -> holds (restarted ps s) lp le ->
  incl (accepted o) (items_p lp ++ items_e le ++ finished o ++ removed o).

(** Both false. A processing task that was created but has not started does not count as running: the queues are
    closed at once, and again when the task ends. *)
Theorem C21_closes_at_most_once_refuted : ~ C21_closes_at_most_once.
Proof.
  intros H.
  destruct (ex_run (setup ex_q0) [EShutDown; ETask 0 ROk]) as [s o] eqn:E.
  pose proof (H N N 0%N ex_dto ex_true 2 _ _ _ _ ex_reach ex_usable E) as X.
  vm_compute in E. injection E as <- <-. cbn in X. lia.
Qed.
Print Assumptions C21_closes_at_most_once_refuted.

(** A request accepted before the shut-down and pushed after it stays in memory. *)
Theorem C21_restart_finds_everything_refuted : ~ C21_restart_finds_everything.
Proof.
  intros H.
  destruct (ex_run (setup ex_q0) [ERequest 1%N 10%N; ECollected 0 5%N; EShutDown; EPush 0]) as [s o] eqn:E.
  assert (G := fun lp le => H N N 0%N ex_dto ex_true 2 _ _ _ _ 2 lp le ex_reach ex_usable ex_holds E).
  vm_compute in E. injection E as <- <-.
  assert (X := G [] [] eq_refl eq_refl ltac:(repeat constructor) ltac:(repeat constructor; auto) eq_refl ltac:(discriminate) ex_holds (1, 10, 5)%N).
  vm_compute in X. apply X. now left.
Qed.
Print Assumptions C21_restart_finds_everything_refuted.

(** True: when the queues are first closed nothing is in process, and after a restart on the files, with any page size,
    the queues hold everything accepted except what is still waiting to be pushed, is done, or was lost or dropped
    before (C14, C15). *)
Theorem C21_close_is_safe_partial :
  forall (D M : Type) (no_meta : M) (dto_ok truthy : D -> bool) (max_retries : Z) q0 lp0 le0 evs s o ev s' o' ps,
  preachable no_meta q0 -> usable q0 -> holds q0 lp0 le0 ->
  hrun no_meta dto_ok truthy max_retries (setup q0) evs = (s, o) -> closed s = 0%nat ->
  hstep no_meta dto_ok truthy max_retries s ev = (s', o') -> closed s' <> 0%nat -> ps <> 0 ->
  closed s' = 1%nat /\ in_process s' = [] /\
  exists lp le, preachable no_meta (restarted ps s') /\ holds (restarted ps s') lp le /\
    Permutation (accepted (o ++ o') ++ items_p lp0 ++ items_e le0)
      (pushing s' ++ items_p lp ++ items_e le ++ finished (o ++ o') ++ removed (o ++ o') ++ dropped (o ++ o') ++ lost (o ++ o')).
Proof. exact (@closes_once). Qed.
Print Assumptions C21_close_is_safe_partial.

(** The shut-down completes: it closes the queues at once or as soon as the request being processed is done. *)
Theorem C21_shut_down_completes :
  forall (D M : Type) (no_meta : M) (dto_ok truthy : D -> bool) (max_retries : Z) q0 evs s o s1 o1,
  preachable no_meta q0 -> usable q0 ->
  hrun no_meta dto_ok truthy max_retries (setup q0) evs = (s, o) -> closed s = 0%nat ->
  hstep no_meta dto_ok truthy max_retries s EShutDown = (s1, o1) ->
  closed s1 = 1%nat \/
  exists i, forall b, closed (fst (hrun no_meta dto_ok truthy max_retries s1 [ETask i ROk; ETask i (RRet b); ETask i ROk])) = 1%nat.
Proof. exact (@shut_down_completes). Qed.
Print Assumptions C21_shut_down_completes.

(** The application's own way of ending (cancel all tasks, then shut down) closes exactly once, leaves nothing behind
    that could run, loses exactly the request in process and the ones waiting to be pushed, and keeps both queues. *)
Theorem C21_teardown :
  forall (D M : Type) (no_meta : M) (dto_ok truthy : D -> bool) (max_retries : Z) q0 evs s o s' o' lp le ps,
  preachable no_meta q0 -> usable q0 ->
  hrun no_meta dto_ok truthy max_retries (setup q0) evs = (s, o) -> closed s = 0%nat -> shut s = false ->
  holds (hq s) lp le ->
  hrun no_meta dto_ok truthy max_retries s (teardown s) = (s', o') -> ps <> 0 ->
  closed s' = 1%nat /\ pushing s' = [] /\ collecting s' = [] /\
  (forall j t, nth_error (tasks s') j = Some t -> ~ live t) /\
  lost o' = in_process s ++ pushing s /\
  exists lp' le', preachable no_meta (restarted ps s') /\ holds (restarted ps s') lp' le' /\
    Permutation lp lp' /\ Permutation le le'.
Proof. exact (@teardown_closes). Qed.
Print Assumptions C21_teardown.

(** [ex_evs] followed by three more requests of which one is still being accepted and one waits to be pushed. *)
Example C21_example : let '(s, o) := ex_run (setup ex_q0) (ex_evs ++ arrive 4 40 8 ++ [ERequest 5%N 50%N; ECollected 0 9%N; ERequest 6%N 60%N]) in
  closed s = 0%nat /\ shut s = false /\ let '(s', o') := ex_run s (teardown s) in lost o' = [(3, 30, 7); (5, 50, 9)]%N /\
  map fst (contents (pend (restarted 2 s'))) = [4]%N /\ map fst (contents (errq (restarted 2 s'))) = [2]%N.
Proof. vm_compute. repeat split. Qed.
Example C21_example_graceful : let '(s, o) := ex_run (setup ex_q0) (ex_evs ++ arrive 4 40 8 ++ [EShutDown; ETask 0 (RRet false)]) in closed s = 0%nat /\
  let '(s', o') := ex_step s (ETask 0 ROk) in closed s' = 1%nat /\
  map fst (contents (pend (restarted 2 s'))) = [4]%N /\ map fst (contents (errq (restarted 2 s'))) = [2; 3]%N.
Proof. vm_compute. repeat split. Qed.

(** ** C47 (part): every attempt gets the data and metadata stored at acceptance *)
Theorem C47_attempts_get_stored_metadata :
  forall (D M : Type) (no_meta : M) (dto_ok truthy : D -> bool) (max_retries : Z) q0 lp0 le0 evs s o k d m r,
  preachable no_meta q0 -> usable q0 -> holds q0 lp0 le0 ->
  hrun no_meta dto_ok truthy max_retries (setup q0) evs = (s, o) -> closed s = 0%nat -> In (HStarted k d m r) o ->
  In (k, d, m) (accepted o ++ items_p lp0 ++ items_e le0).
Proof. exact (@started_data). Qed.
Print Assumptions C47_attempts_get_stored_metadata.

Example C47_example : let '(s, o) := ex_run (setup ex_q0) (ex_evs ++ [EReprocessOne 2%N; ETask 0 (RRet true); ETask 0 ROk]) in
  flat_map (fun x => match x with HStarted k d m r => [(k, d, m, r)] | _ => [] end) o =
  [(1, 10, 5, 0%Z); (2, 20, 6, 0%Z); (3, 30, 7, 0%Z); (2, 20, 6, 1%Z); (3, 30, 7, 1%Z); (2, 20, 6, 0%Z)]%N.
Proof. vm_compute. reflexivity. Qed.

(** ** C19: reprocessing that fails (here with page_size 0, see C10) stops a handler that was processing: it stays paused. *)
Theorem C19_failed_reprocessing_pauses : exists (q0 : pqueue N N) s' o',
  preachable 0%N q0 /\ proc_paused (setup q0) = false /\
  ex_step (setup q0) EReprocessAll = (s', o') /\ o' = [HExn "AttributeError"] /\ proc_paused s' = true /\
  error_size (hq s') = 2.
Proof.
  destruct (psteps 0%N (pq_open 0 [] []) [PushError 1%N 10%N "x" None; PushError 2%N 20%N "x" None]) as [q|] eqn:E;
    [|discriminate].
  exists q. do 2 eexists. split; [eapply psteps_reachable; [apply preach_fresh|exact E]|].
  vm_compute in E. injection E as <-. split; [reflexivity|]. split; [vm_compute; reflexivity|]. repeat split.
Qed.
Print Assumptions C19_failed_reprocessing_pauses.
