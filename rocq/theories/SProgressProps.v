(** C123, C124: progress of buffered senders. *)
From Coq Require Import List ZArith NArith Bool String Lia Permutation.
From Verif Require Import Base PermTac PQueueModel PQueueSpec PQueueProofs PendingModel PendingSpec PendingProofs
  SenderModel SenderSpec SenderProofs SenderProofs2 SenderProofs3 SenderProps SProgressSpec SProgressProofs.
Import ListNotations.
Local Open Scope Z_scope.

Section Facts.
Context {D M : Type}.
Variable no_meta : M.
Variables dto_ok truthy : D -> bool.
Variable wait : bool.
Variable max_retries : Z.
Notation srun := (@srun D M no_meta dto_ok truthy wait max_retries).

Lemma s_reach q0 lp0 le0 evs s o lp le : preachable no_meta q0 -> usable q0 -> holds q0 lp0 le0 ->
  srun (s_setup q0) evs = (s, o) -> sclosed s = 0%nat ->
  Forall (fun x => dto_ok (snd x) = true) (enqueued o ++ msgs_p lp0 ++ msgs_e le0) -> holds (sq s) lp le ->
  exists a, R no_meta s a /\ wf a /\ lp = al a /\ le = ae a /\ Forall (ok_entry dto_ok) (al a) /\
    (forall e, hand_of (at_ a) = [e] -> dto_ok (pe_data e) = true).
Proof.
  intros Rq U H0 E C V Hh. destruct (holds_unique q0 lp0 le0 (preachable_inv no_meta q0 Rq) U H0) as [-> ->].
  destruct (run_inv2 no_meta dto_ok truthy wait max_retries (fun _ _ => True) q0 evs s o Rq U) as (a & A & W & P & _); auto.
  destruct (R_unique no_meta s a lp le A Hh) as [-> ->].
  exists a. split; [exact A|]. split; [exact W|]. split; [auto|]. split; [auto|].
  apply (valid_perm dto_ok _ _ P) in V. apply valid_app in V as [V _]. unfold a_msgs in V. apply valid_app in V as [V1 V2]. apply valid_app in V2 as [V2 _].
  split.
  - unfold Valid, msgs_p in V1. rewrite Forall_map in V1. exact V1.
  - intros e He. rewrite He in V2. inversion V2; subst. assumption.
Qed.
Lemma live_cur s (a : @ast D M) i t : Rm no_meta s a -> nth_error (stasks s) i = Some t -> s_live t -> i = an a /\ t = at_ a.
Proof.
  intros H N L. rewrite (r_t _ _ _ H) in N. destruct (Nat.eq_dec i (an a)) as [->|Ne].
  - rewrite nth_cur in N. injection N as <-. auto.
  - exfalso. destruct (nth_old (an a) SDone (at_ a) i Ne) as [X|X]; rewrite X in N; [|discriminate]. injection N as <-. now apply L.
Qed.
Lemma undisturbed_open (evs : list (sev D)) : forallb s_undisturbed evs = true -> forall ev, In ev evs -> ev <> SShutDown.
Proof. intros F ev Hi ->. rewrite forallb_forall in F. discriminate (F _ Hi). Qed.
End Facts.

(** ** C123: bounded waiting *)
(** The sender has run in any way; it is not shut down, sending is not paused and a sending task is live; a message is pending
    with [List.length pre] messages before it.  Then, however the sends end and whatever else happens (undisturbed: no
    cancellation, no pause), [send_data] is called with the message by the time the task has made that many steps. *)
Theorem C123_bounded_waiting :
  forall (D M : Type) (no_meta : M) (dto_ok truthy : D -> bool) (wait : bool) (max_retries : Z) q0 lp0 le0 evs s o pre k e post le i t evs' s' o',
  preachable no_meta q0 -> usable q0 -> holds q0 lp0 le0 ->
  srun no_meta dto_ok truthy wait max_retries (s_setup q0) evs = (s, o) -> sclosed s = 0%nat -> sshut s = false ->
  Forall (fun x => dto_ok (snd x) = true) (enqueued o ++ msgs_p lp0 ++ msgs_e le0) ->
  spaused s = false -> nth_error (stasks s) i = Some t -> s_live t ->
  holds (sq s) (pre ++ (k, e) :: post) le ->
  srun no_meta dto_ok truthy wait max_retries s evs' = (s', o') -> forallb s_undisturbed evs' = true ->
  (2 * List.length pre + 3 <= s_steps_of i evs')%nat ->
  In (OSend k (pe_data e)) o'.
Proof.
  intros D M no_meta dto_ok truthy wait max_retries q0 lp0 le0 evs s o pre k e post le i t evs' s' o' Rq U H0 E C S V P N L Hh E' Un St.
  destruct (s_reach no_meta dto_ok truthy wait max_retries q0 lp0 le0 evs s o _ le Rq U H0 E C V Hh) as (a & A & W & Al & _ & Va & _).
  destruct (live_cur no_meta s a i t (proj1 A) N L) as [-> ->].
  rewrite (r_s _ _ _ (proj1 A)) in S. rewrite (r_p _ _ _ (proj1 A)) in P.
  destruct (srun_R no_meta dto_ok truthy wait max_retries evs' s a s' o' A S (undisturbed_open evs' Un) E') as (_ & -> & _).
  assert (K : pe_key e = k).
  { pose proof (wf_p _ W) as Q. rewrite <- Al in Q. apply Forall_app in Q as [_ Q]. inversion Q; auto. }
  rewrite <- K. apply (bounded no_meta dto_ok truthy wait max_retries evs' a pre k e post); auto.
  - destruct (at_ a); [reflexivity..|]. now contradict L.
  - rewrite <- Al in Va. apply Forall_app in Va as [V1 V2]. apply Forall_app. split; [exact V1|]. inversion V2; subst. now repeat constructor.
  - destruct (at_ a); cbn [left]; lia.
Qed.
Print Assumptions C123_bounded_waiting.

(** ** C124: draining *)
(** From then on only the sending task runs, and the sends end in any way [rs] (success, a busy server or communication that
    gives up, any other exception): after [s_steps_needed] steps nothing is pending or in hand, and every message that was ever
    enqueued or there at the start has been delivered, is in the error queue, or was removed by the operator. *)
Theorem C124_drains :
  forall (D M : Type) (no_meta : M) (dto_ok truthy : D -> bool) (wait : bool) (max_retries : Z) q0 lp0 le0 evs s o lp le i t rs s' o',
  preachable no_meta q0 -> usable q0 -> holds q0 lp0 le0 ->
  srun no_meta dto_ok truthy wait max_retries (s_setup q0) evs = (s, o) -> sclosed s = 0%nat -> sshut s = false ->
  forallb (fun ev => negb (cancels ev)) evs = true ->
  Forall (fun x => dto_ok (snd x) = true) (enqueued o ++ msgs_p lp0 ++ msgs_e le0) ->
  NoDup (map fst (enqueued o ++ msgs_p lp0 ++ msgs_e le0)) ->
  spaused s = false -> nth_error (stasks s) i = Some t -> s_live t -> holds (sq s) lp le ->
  srun no_meta dto_ok truthy wait max_retries s (map (STask i) rs) = (s', o') ->
  (s_steps_needed max_retries s lp <= List.length rs)%nat ->
  exists le', holds (sq s') [] le' /\ in_hand s' = [] /\
    Permutation (enqueued o ++ msgs_p lp0 ++ msgs_e le0) (msgs_e le' ++ delivered (o ++ o') ++ s_removed o).
Proof.
  intros D M no_meta dto_ok truthy wait max_retries q0 lp0 le0 evs s o lp le i t rs s' o' Rq U H0 E C S Nc V Nd P N L Hh E' Le.
  destruct (s_reach no_meta dto_ok truthy wait max_retries q0 lp0 le0 evs s o lp le Rq U H0 E C V Hh) as (a & A & W & -> & _ & Va & Hd).
  destruct (live_cur no_meta s a i t (proj1 A) N L) as [-> ->].
  rewrite (r_s _ _ _ (proj1 A)) in S. rewrite (r_p _ _ _ (proj1 A)) in P.
  assert (Un : forallb s_undisturbed (map (STask (D:=D) (an a)) rs) = true) by (clear; induction rs; auto).
  assert (Cn : forallb (fun ev => negb (cancels ev)) (map (STask (D:=D) (an a)) rs) = true) by (clear; induction rs; auto).
  destruct (srun_R no_meta dto_ok truthy wait max_retries _ s a s' o' A S (undisturbed_open _ Un) E') as (A' & Eo & _).
  assert (G : good dto_ok a).
  { split; [exact P|]. split; [exact Va|]. split; [exact Hd|]. intros X. now contradict L. }
  assert (Me : (measure max_retries a <= s_steps_needed max_retries s (al a))%nat).
  { unfold s_steps_needed, measure. rewrite map_app, list_sum_app, map_map, (in_hand_R no_meta s a (proj1 A)). fold (cost max_retries (al a)).
    change (list_sum (map (fun x => s_attempts_left max_retries (pe_retries (snd x))) (al a))) with (cost max_retries (al a)).
    assert (A1 : forall r, (1 <= s_attempts_left max_retries r)%nat) by (intros r; unfold s_attempts_left; lia).
    destruct (at_ a) as [|e|e|]; cbn [hand_of left hold map list_sum fold_right]; try lia; specialize (A1 (pe_retries e)); unfold att; lia. }
  destruct (drains no_meta dto_ok truthy wait max_retries rs a G ltac:(lia)) as [Dl Dt].
  assert (Ea : srun no_meta dto_ok truthy wait max_retries (s_setup q0) (evs ++ map (STask (an a)) rs) = (s', o ++ o')).
  { rewrite srun_app, E, E'. reflexivity. }
  set (a' := fst (arun no_meta dto_ok truthy wait max_retries a (map (STask (an a)) rs))) in *.
  assert (Own : forall l b, enqueued (snd (arun no_meta dto_ok truthy wait max_retries b (map (STask (an a)) l))) = [] /\
                            s_removed (snd (arun no_meta dto_ok truthy wait max_retries b (map (STask (an a)) l))) = []).
  { assert (Ra : forall x y : list (sout D), s_removed (x ++ y) = s_removed x ++ s_removed y) by (intros; apply flat_map_app).
    assert (Lp : forall b : @ast D M, enqueued (snd (a_loop dto_ok wait b)) = [] /\ s_removed (snd (a_loop dto_ok wait b)) = []).
    { intros b. unfold a_loop. destruct (ap b); [auto|]. destruct (al b) as [|[k e] r]; [auto|]. destruct (dto_ok _); [destruct wait|]; auto. }
    assert (Se : forall (b : @ast D M) e r, enqueued (snd (a_settle no_meta max_retries b e r)) = [] /\ s_removed (snd (a_settle no_meta max_retries b e r)) = []).
    { intros b e [| |m]; cbn [a_settle]; [auto| |]; [destruct (_ <=? _)|]; cbn [fst snd a_err a_pend]; destruct (has _ _); auto. }
    assert (On : forall (b : @ast D M) r, enqueued (snd (astep no_meta dto_ok truthy wait max_retries b (STask (an a) r))) = [] /\
                              s_removed (snd (astep no_meta dto_ok truthy wait max_retries b (STask (an a) r))) = []).
    { intros b r. cbn [astep]. destruct (Nat.eqb _ _); [|auto]. destruct (at_ b); [apply Lp|auto| |auto].
      cbn [snd]. rewrite enq_app, Ra. destruct (Se b e r) as [-> ->]. apply Lp. }
    induction l as [|r l IH]; intros b; cbn [map]; [auto|].
    destruct (arun_cons no_meta dto_ok truthy wait max_retries b (STask (an a) r) (map (STask (an a)) l)) as [-> _].
    rewrite enq_app, Ra. destruct (On b r) as [-> ->]. apply IH. }
  destruct (Own rs a) as [Q1 Q2]. rewrite <- Eo in Q1, Q2.
  assert (Eq : enqueued (o ++ o') = enqueued o) by (rewrite enq_app, Q1; apply app_nil_r).
  assert (Rq' : s_removed (o ++ o') = s_removed o) by (unfold s_removed in *; rewrite flat_map_app, Q2; apply app_nil_r).
  destruct (s_one_place no_meta dto_ok truthy wait max_retries q0 lp0 le0 _ s' (o ++ o') Rq U H0 Ea) as (lp' & le' & Hh' & Pm & _).
  { exact (r_n _ _ _ (proj1 A')). }
  { now rewrite forallb_app, Nc, Cn. }
  { now rewrite Eq. }
  { now rewrite Eq. }
  destruct (R_unique no_meta s' a' lp' le' A' Hh') as [-> ->]. rewrite Dl in *.
  assert (Ih : in_hand s' = []) by (rewrite (in_hand_R no_meta s' a' (proj1 A')), Dt; reflexivity).
  exists (ae a'). split; [exact Hh'|]. split; [exact Ih|]. rewrite Eq, Ih, Rq' in Pm. exact Pm.
Qed.
Print Assumptions C124_drains.

(** ** Example: [se_evs] with one more message; message 4 is being sent. *)
Definition sp_evs : list (sev N) := (se_evs ++ [SEnqueue 5 50; SEnqueue 6 60])%N.
Definition sp_s : sstate N N := Eval vm_compute in fst (se_run (s_setup se_q0) sp_evs).
Definition sp_o : list (sout N) := Eval vm_compute in snd (se_run (s_setup se_q0) sp_evs).
Lemma sp_run : se_run (s_setup se_q0) sp_evs = (sp_s, sp_o). Proof. vm_compute. reflexivity. Qed.
Definition sp_lp : list (N * pentry N N) := [(5, mkP 5 0 50 0); (6, mkP 6 0 60 0)]%N.
Definition sp_le : list (N * eentry N N) := [(3, mkE 3 30 "boom" 0); (2, mkE 2 20 "Max retries reached." 0)]%N.
Lemma sp_holds : holds (sq sp_s) sp_lp sp_le.
Proof.
  destruct (reach_R 0%N se_dto se_true false 2 se_q0 sp_evs sp_s sp_o se_reach se_usable sp_run eq_refl) as [a A].
  pose proof (R_holds 0%N sp_s a A) as H. rewrite <- (r_l _ _ _ (proj1 A)), <- (r_e _ _ _ (proj1 A)) in H. exact H.
Qed.
(** Message 6 is sent although the two before it fail and an operator puts messages back. *)
Example C123_example : In (OSend 6 60)%N (snd (se_run sp_s
  ([STask 0 RRetryable; SReprocessAll; STask 0 (RFails "no"); SEnqueue 7 70; STask 0 ROk; STask 0 ROk; STask 0 ROk]%N))).
Proof.
  set (evs' := [STask 0 RRetryable; SReprocessAll; STask 0 (RFails "no"); SEnqueue 7 70; STask 0 ROk; STask 0 ROk; STask 0 ROk]%N).
  destruct (se_run sp_s evs') as [s' o'] eqn:E'.
  refine (C123_bounded_waiting N N 0%N se_dto se_true false 2 se_q0 [] [] sp_evs sp_s sp_o [(5, mkP 5 0 50 0)]%N 6%N (mkP 6 0 60 0)%N [] sp_le 0
            (SSending (mkP 4 0 40 0)%N) evs' s' o' se_reach se_usable se_holds sp_run eq_refl eq_refl _ eq_refl eq_refl _ sp_holds E' eq_refl _).
  - vm_compute. repeat constructor.
  - discriminate.
  - vm_compute. repeat constructor.
Qed.
Example C124_example_bound : s_steps_needed 2 sp_s sp_lp = 13%nat. Proof. reflexivity. Qed.
Example C124_example : let '(s', o') := se_run sp_s (map (STask 0) (RFails "no" :: ROk :: repeat RRetryable 11)) in
  in_hand s' = [] /\ exists le', holds (sq s') [] le' /\
    Permutation [(1, 10); (2, 20); (3, 30); (4, 40); (5, 50); (6, 60)]%N (msgs_e le' ++ delivered (sp_o ++ o')).
Proof.
  destruct (se_run sp_s (map (STask 0) (RFails "no" :: ROk :: repeat RRetryable 11))) as [s' o'] eqn:E'.
  destruct (C124_drains N N 0%N se_dto se_true false 2 se_q0 [] [] sp_evs sp_s sp_o sp_lp sp_le 0 (SSending (mkP 4 0 40 0)%N)
              (RFails "no" :: ROk :: repeat RRetryable 11) s' o' se_reach se_usable se_holds sp_run eq_refl eq_refl eq_refl)
    as (le' & A & B & C); try reflexivity; try exact sp_holds; try exact E'.
  - vm_compute. repeat constructor.
  - vm_compute. repeat constructor; cbn; intuition discriminate.
  - discriminate.
  - split; [exact B|]. exists le'. split; [exact A|]. change (s_removed sp_o) with (@nil (msg N)) in C. rewrite (app_nil_r (delivered _)) in C. exact C.
Qed.
