(** C46, C60: the lock file of an application instance. *)
From Coq Require Import Bool Lia List Arith.
From Verif Require Import LockModel LockSpec LockProofs.
Import ListNotations.

Definition anyone (_ _ : nat) : bool := true.

(** At any time the instance runs in at most one process. *)
Definition C46_exclusive (may : nat -> nat -> bool) : Prop := forall es i j,
  running (run may boot es) i -> running (run may boot es) j -> i = j.
(** False: two processes that start at the same time both find no lock file. *)
Theorem C46_exclusive_refuted : ~ C46_exclusive anyone.
Proof.
  intros H.
  assert (E : 0 = 1) by (apply (H [Start 0 10; Start 0 11; Step 0; Step 1; Step 0; Step 0; Step 1; Step 1]); split; vm_compute; (lia || reflexivity)).
  discriminate.
Qed.
Print Assumptions C46_exclusive_refuted.
(** True when processes start one after another and may send each other signals. *)
Theorem C46_exclusive_partial : forall may es i j, (forall u v, may u v = true) -> one_by_one may boot es ->
  running (run may boot es) i -> running (run may boot es) j -> i = j.
Proof. intros may es i j M O. exact (exclusive may M es i j O). Qed.
Print Assumptions C46_exclusive_partial.
(** Also false when they start one after another, but as different users: a process one may not signal counts as dead. *)
Definition C46_exclusive_users (may : nat -> nat -> bool) : Prop := forall es i j, one_by_one may boot es ->
  running (run may boot es) i -> running (run may boot es) j -> i = j.
Definition ex_users : list event := Start 1 10 :: repeat (Step 0) 3 ++ Start 2 11 :: repeat (Step 1) 6.
Lemma one_by_one_cons : forall may s e es, match e with Start _ _ => forall i, ~ starting s i | _ => True end ->
  one_by_one may (step may s e) es -> one_by_one may s (e :: es).
Proof. intros. split; assumption. Qed.
Theorem C46_users_refuted : ~ C46_exclusive_users Nat.eqb.
Proof.
  intros H. assert (E : 0 = 1); [|discriminate]. apply (H ex_users); [|split; vm_compute; (lia || reflexivity)..].
  apply one_by_one_cons; [intros i [I _]; vm_compute in I; lia|]. do 3 (apply one_by_one_cons; [exact I|]).
  apply one_by_one_cons; [|repeat (apply one_by_one_cons; [exact I|]); exact I].
  intros i [J S]. vm_compute in J. assert (i = 0) by lia. subst i. exact S.
Qed.
Print Assumptions C46_users_refuted.
(** A second start is refused, whatever process id it gets, and the first goes on. *)
Theorem C46_refused_partial : forall may es i u p, (forall u v, may u v = true) -> one_by_one may boot es ->
  let s := run may boot es in
  running s i -> ~ pid_used s p ->
  st (procs (start_alone may s u p) (nprocs s)) = PRefused (pid (procs s i)) /\ running (start_alone may s u p) i.
Proof.
  intros may es i u p M O s R U. pose proof (inv_run may M es boot inv_boot O) as V. fold s in V.
  destruct (i_lock s V i R) as [f [L C]]. pose proof R as [J E].
  assert (A : pid_used s (pid (procs s i))) by (exists i; repeat split; [exact J|congruence]).
  assert (Q : pid (procs s i) <> p) by (intros X; subst p; contradiction).
  assert (K : kill_ok may s u (pid (procs s i)) = true) by (rewrite kill_ok_all by exact M; apply pid_alive_spec; exact A).
  pose proof (alone_refused may s u p f _ U L C Q K) as W. destruct W as [N P OO _ _]. rewrite P. split; [reflexivity|].
  split; [rewrite N; lia|rewrite OO by exact J; exact E].
Qed.
Print Assumptions C46_refused_partial.
(** A graceful shut-down removes the lock file. *)
Definition C46_removed (may : nat -> nat -> bool) : Prop := forall es i,
  running (run may boot es) i -> lock (step may (run may boot es) (Exit i)) = None.
(** False: it is never removed, except by the next start. *)
Theorem C46_removed_refuted : ~ C46_removed anyone.
Proof.
  intros H. specialize (H (Start 0 10 :: repeat (Step 0) 3) 0).
  assert (R : running (run anyone boot (Start 0 10 :: repeat (Step 0) 3)) 0) by (split; vm_compute; [lia|reflexivity]).
  specialize (H R). vm_compute in H. discriminate H.
Qed.
Print Assumptions C46_removed_refuted.

(** C60: when no process of the application is left, it can be started. *)
Definition C60_restart (may : nat -> nat -> bool) : Prop := forall es u p, let s := run may boot es in
  nobody s -> ~ pid_used s p -> running (start_alone may s u p) (nprocs s).
(** False: a process killed between creating the lock file and writing to it leaves an empty file ... *)
Definition ex_killed : list event := [Start 0 10; Step 0; Step 0; Kill 0].
Theorem C60_restart_refuted : ~ C60_restart anyone.
Proof.
  intros H. specialize (H ex_killed 0 11). cbv zeta in H. destruct H as [_ H].
  - intros i J. vm_compute in J. assert (i = 0) by lia. subst i. left. reflexivity.
  - intros [i [J [P S]]]. vm_compute in J. assert (i = 0) by lia. subst i. apply S. reflexivity.
  - vm_compute in H. discriminate H.
Qed.
Print Assumptions C60_restart_refuted.
(** ... and then no process ever runs the application again. *)
Theorem C60_blocked_for_good : exists es, nobody (run anyone boot es) /\
  forall es' i, ~ running (run anyone (run anyone boot es) es') i.
Proof.
  exists ex_killed. split.
  - intros i J. vm_compute in J. assert (i = 0) by lia. subst i. left. reflexivity.
  - intros es' i. apply (stuck_never anyone es' _ 0). repeat split. intros j J. vm_compute in J. assert (j = 0) by lia. subst j. exact I.
Qed.
Print Assumptions C60_blocked_for_good.
(** False also because process ids are used again: by another program ... *)
Definition ex_reused : list event := Start 0 10 :: repeat (Step 0) 3 ++ [Exit 0; Spawn 0 10].
Theorem C60_reused_refuted : ~ C60_restart anyone.
Proof.
  intros H. specialize (H ex_reused 0 11). cbv zeta in H. destruct H as [_ H].
  - intros i J. vm_compute in J. destruct i as [|[|i]]; [left; reflexivity|right; reflexivity|lia].
  - intros [i [J [P S]]]. vm_compute in J. destruct i as [|[|i]]; [apply S; reflexivity|discriminate P|lia].
  - vm_compute in H. discriminate H.
Qed.
Print Assumptions C60_reused_refuted.
(** ... or by the new process itself: after a graceful shut-down, it takes itself for the old instance. *)
Definition ex_own : list event := Start 0 1 :: repeat (Step 0) 3 ++ [Exit 0].
Theorem C60_own_pid_refuted : nobody (run anyone boot ex_own) /\ ~ pid_used (run anyone boot ex_own) 1 /\
  st (procs (start_alone anyone (run anyone boot ex_own) 0 1) 1) = PRefused 1.
Proof.
  split; [|split; [|reflexivity]].
  - intros i J. vm_compute in J. assert (i = 0) by lia. subst i. left. reflexivity.
  - intros [i [J [P S]]]. vm_compute in J. assert (i = 0) by lia. subst i. apply S. reflexivity.
Qed.
Print Assumptions C60_own_pid_refuted.
(** True when there is no lock file, or the process id in it is not in use and not the one of the new process. *)
Theorem C60_restart_partial : forall may s u p, ~ pid_used s p ->
  lock s = None \/ (exists f q, lock s = Some f /\ cont s f = Some q /\ ~ pid_used s q /\ q <> p) ->
  running (start_alone may s u p) (nprocs s).
Proof.
  intros may s u p U [L|[f [q [L [C [D Q]]]]]].
  - destruct (alone_free may s u p U L) as [g V]. exact (view_running _ _ _ _ _ _ V).
  - assert (K : kill_ok may s u q = false).
    { destruct (kill_ok may s u q) eqn:K; [|reflexivity]. exfalso. apply D. apply pid_alive_spec. unfold kill_ok, pid_alive in *.
      apply existsb_exists in K. destruct K as [i [J E]]. apply existsb_exists. exists i. split; [exact J|].
      apply andb_prop in E. apply E. }
    destruct (alone_stale may s u p f q U L C Q K) as [g V]. exact (view_running _ _ _ _ _ _ V).
Qed.
Print Assumptions C60_restart_partial.

(** Cases that meet the hypotheses: two starts one after another, the second refused; a restart after a crash. *)
Example C46_example : one_by_one anyone boot (Start 0 10 :: repeat (Step 0) 3 ++ Start 0 11 :: repeat (Step 1) 3) /\
  running (run anyone boot (Start 0 10 :: repeat (Step 0) 3 ++ Start 0 11 :: repeat (Step 1) 3)) 0.
Proof.
  split; [|split; vm_compute; [lia|reflexivity]].
  apply one_by_one_cons; [intros i [I _]; vm_compute in I; lia|]. do 3 (apply one_by_one_cons; [exact I|]).
  apply one_by_one_cons; [|repeat (apply one_by_one_cons; [exact I|]); exact I].
  intros i [J S]. vm_compute in J. assert (i = 0) by lia. subst i. exact S.
Qed.
Example C60_example : let s := run anyone boot (Start 0 10 :: repeat (Step 0) 3 ++ [Kill 0]) in
  ~ pid_used s 12 /\ exists f q, lock s = Some f /\ cont s f = Some q /\ ~ pid_used s q /\ q <> 12.
Proof.
  cbv zeta. split.
  - intros [i [J [P S]]]. vm_compute in J. assert (i = 0) by lia. subst i. apply S. reflexivity.
  - exists 0, 10. repeat split; [|lia]. intros [i [J [P S]]]. vm_compute in J. assert (i = 0) by lia. subst i. apply S. reflexivity.
Qed.
