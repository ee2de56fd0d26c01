(** Proofs about the lock file. *)
From Coq Require Import Bool Lia List Arith.
From Verif Require Import LockModel LockSpec.
Import ListNotations.

Lemma upd_same : forall {A} (f : nat -> A) i x, upd f i x i = x.
Proof. intros. unfold upd. rewrite Nat.eqb_refl. reflexivity. Qed.
Lemma upd_other : forall {A} (f : nat -> A) i j x, j <> i -> upd f i x j = f j.
Proof. intros. unfold upd. destruct (Nat.eqb_spec j i); [contradiction|reflexivity]. Qed.
Lemma pid_alive_spec : forall s p, pid_alive s p = true <-> pid_used s p.
Proof.
  intros s p. unfold pid_alive, pid_used. rewrite existsb_exists. split.
  - intros [i [I H]]. apply in_seq in I. apply andb_prop in H. destruct H as [A B]. apply Nat.eqb_eq in B.
    exists i. repeat split; [lia|exact B|]. unfold alive in A. intros E. rewrite E in A. discriminate.
  - intros [i [I [B A]]]. exists i. split; [apply in_seq; lia|]. rewrite B, Nat.eqb_refl, andb_true_r.
    unfold alive. destruct (st (procs s i)); congruence.
Qed.
Lemma kill_ok_all : forall may s u p, (forall a b, may a b = true) -> kill_ok may s u p = pid_alive s p.
Proof.
  intros may s u p M. unfold kill_ok, pid_alive. induction (seq 0 (nprocs s)); [reflexivity|]. cbn [existsb].
  rewrite IHl, M, andb_true_r. reflexivity.
Qed.

Definition checking (x : pst) : Prop := match x with PExists | PRead | PKill _ | PRemove | PCreate | PWrite _ => True | _ => False end.
Definition before (p : nat) (x : pst) : Prop := match x with PExists | PRead => True | PKill q => q = p | _ => False end.

Record inv (s : os) : Prop := {
  i_pids : forall i j, i < nprocs s -> j < nprocs s -> st (procs s i) <> PDead -> st (procs s j) <> PDead ->
           pid (procs s i) = pid (procs s j) -> i = j;
  i_one : forall i j, i < nprocs s -> j < nprocs s -> checking (st (procs s i)) -> checking (st (procs s j)) -> i = j;
  i_lock : forall i, running s i -> exists f, lock s = Some f /\ cont s f = Some (pid (procs s i));
  i_before : forall i c, running s i -> c < nprocs s -> checking (st (procs s c)) -> before (pid (procs s i)) (st (procs s c));
  i_write : forall i f, i < nprocs s -> st (procs s i) = PWrite f -> lock s = Some f }.

(** Changing the state of one process to something that is neither starting nor running. *)
Lemma inv_quiet : forall s i x, inv s -> i < nprocs s -> ~ checking x -> x <> PRunning ->
  (st (procs s i) <> PDead \/ x = PDead) -> inv (set_st s i x).
Proof.
  intros s i x [P O L B W] I NC NR D. unfold set_st, with_st. constructor; unfold running; cbn [lock nfiles cont nprocs procs].
  - intros a b Ia Ib. destruct (Nat.eq_dec a i) as [->|Na], (Nat.eq_dec b i) as [->|Nb]; rewrite ?upd_same, ?upd_other by assumption; cbn [pid st]; auto.
    + intros X Y E. destruct D as [D|D]; [|congruence]. apply (P i b); auto.
    + intros X Y E. destruct D as [D|D]; [|congruence]. apply (P a i); auto.
  - intros a b Ia Ib. destruct (Nat.eq_dec a i) as [->|Na], (Nat.eq_dec b i) as [->|Nb]; rewrite ?upd_same, ?upd_other by assumption; cbn [pid st]; auto; contradiction.
  - intros a. destruct (Nat.eq_dec a i) as [->|Na]; rewrite ?upd_same, ?upd_other by assumption; cbn [pid st]; [intros [_ E]; contradiction|apply L].
  - intros a c. destruct (Nat.eq_dec a i) as [->|Na]; rewrite ?upd_same, ?upd_other by assumption; cbn [pid st]; [intros [_ E]; contradiction|].
    destruct (Nat.eq_dec c i) as [->|Nc]; rewrite ?upd_same, ?upd_other by assumption; cbn [pid st]; [contradiction|apply B].
  - intros a f Ia. destruct (Nat.eq_dec a i) as [->|Na]; rewrite ?upd_same, ?upd_other by assumption; cbn [pid st]; [intros ->; destruct NC; exact Logic.I|apply W; exact Ia].
Qed.
(** A starting process takes a step that keeps it starting: the lock may only change if nothing is running. *)
Lemma inv_check : forall s i x l n c, inv s -> i < nprocs s -> checking (st (procs s i)) -> checking x ->
  (forall r, running s r -> l = lock s /\ (forall f, lock s = Some f -> c f = cont s f) /\ before (pid (procs s r)) x) ->
  (forall f, x = PWrite f -> l = Some f) ->
  inv (mkOs l n c (nprocs s) (upd (procs s) i (with_st (procs s i) x))).
Proof.
  intros s i x l n c [P O L B W] I C1 C2 Q WR. unfold with_st. constructor; unfold running; cbn [lock nfiles cont nprocs procs].
  - intros a b Ia Ib. assert (st (procs s i) <> PDead) by (intros E; rewrite E in C1; exact C1).
    destruct (Nat.eq_dec a i) as [->|Na], (Nat.eq_dec b i) as [->|Nb]; rewrite ?upd_same, ?upd_other by assumption; cbn [pid st]; auto.
  - intros a b Ia Ib. destruct (Nat.eq_dec a i) as [->|Na], (Nat.eq_dec b i) as [->|Nb]; rewrite ?upd_same, ?upd_other by assumption; cbn [pid st]; auto.
  - intros a. destruct (Nat.eq_dec a i) as [->|Na]; rewrite ?upd_same, ?upd_other by assumption; cbn [pid st].
    + intros [_ E]. rewrite E in C2. contradiction.
    + intros R. destruct (Q a R) as [E [F _]]. destruct (L a R) as [f [K V]]. exists f. rewrite E, (F f K). auto.
  - intros a d. destruct (Nat.eq_dec a i) as [->|Na]; rewrite ?upd_same, ?upd_other by assumption; cbn [pid st].
    + intros [_ E]. rewrite E in C2. contradiction.
    + intros R Id. destruct (Nat.eq_dec d i) as [->|Nd]; rewrite ?upd_same, ?upd_other by assumption; cbn [pid st]; [|apply B; auto].
      intros _. apply (Q a R).
  - intros a f Ia. destruct (Nat.eq_dec a i) as [->|Na]; rewrite ?upd_same, ?upd_other by assumption; cbn [pid st]; [apply WR|].
    intros E. exfalso. apply Na. apply (O a i); auto. rewrite E. exact Logic.I.
Qed.
Lemma not_running : forall s i, inv s -> i < nprocs s ->
  match st (procs s i) with PRemove | PCreate | PWrite _ => True | _ => False end -> forall r, ~ running s r.
Proof.
  intros s i H I C r R. pose proof (i_before s H r i R I) as B.
  destruct (st (procs s i)); try contradiction; cbn in B; auto.
Qed.
Lemma set_st_same : forall s i x, set_st s i x = mkOs (lock s) (nfiles s) (cont s) (nprocs s) (upd (procs s) i (with_st (procs s i) x)).
Proof. reflexivity. Qed.

Section Run.
Context (may : nat -> nat -> bool) (M : forall a b, may a b = true).
Lemma inv_advance : forall s i, inv s -> i < nprocs s -> inv (advance may s i).
Proof.
  intros s i H I. unfold advance. destruct (st (procs s i)) as [| |q| | |f| |q| | |] eqn:E; try exact H.
  - destruct (lock s) eqn:L; rewrite set_st_same; apply inv_check; auto; try (rewrite E; exact Logic.I); try exact Logic.I; try discriminate.
    + intros r R. repeat split; auto.
    + intros r R. destruct (i_lock s H r R) as [f [K _]]. congruence.
  - assert (D : ~ checking PFailed /\ PFailed <> PRunning) by (split; [intros []|discriminate]).
    destruct (lock s) as [f|] eqn:L; [|apply inv_quiet; try tauto; left; congruence].
    destruct (cont s f) as [q|] eqn:C; [|apply inv_quiet; try tauto; left; congruence].
    rewrite set_st_same. apply inv_check; auto; try (rewrite E; exact Logic.I); try exact Logic.I; try discriminate.
    intros r R. repeat split; auto. destruct (i_lock s H r R) as [g [K V]]. cbn. congruence.
  - destruct (kill_ok may s (user (procs s i)) q) eqn:K.
    + apply inv_quiet; [exact H|exact I|intros []|discriminate|left; congruence].
    + rewrite set_st_same. apply inv_check; auto; try (rewrite E; exact Logic.I); try exact Logic.I; try discriminate.
      intros r R. exfalso. pose proof (i_before s H r i R I) as B. rewrite E in B. specialize (B Logic.I). cbn in B. subst q.
      rewrite kill_ok_all in K by exact M.
      assert (A : pid_alive s (pid (procs s r)) = true).
      { apply pid_alive_spec. destruct R as [Ir Er]. exists r. repeat split; [exact Ir|congruence]. }
      congruence.
  - assert (N : forall r, ~ running s r) by (apply (not_running s i H I); rewrite E; exact Logic.I).
    destruct (lock s) as [f|] eqn:L.
    + rewrite set_st_same. cbn [lock nfiles cont nprocs procs].
      apply inv_check; auto; try (rewrite E; exact Logic.I); try exact Logic.I; try discriminate. intros r R. destruct (N r R).
    + apply inv_quiet; [exact H|exact I|intros []|discriminate|left; congruence].
  - assert (N : forall r, ~ running s r) by (apply (not_running s i H I); rewrite E; exact Logic.I).
    destruct (lock s) as [f|] eqn:L; rewrite set_st_same; cbn [lock nfiles cont nprocs procs];
      apply inv_check; auto; try (rewrite E; exact Logic.I); try exact Logic.I; try (intros r R; destruct (N r R)); intros g Eg; congruence.
  - assert (N : forall r, ~ running s r) by (apply (not_running s i H I); rewrite E; exact Logic.I).
    destruct H as [P O L B W]. unfold set_st, with_st. constructor; unfold running; cbn [lock nfiles cont nprocs procs].
    + intros a b Ia Ib. assert (st (procs s i) <> PDead) by congruence.
      destruct (Nat.eq_dec a i) as [->|Na], (Nat.eq_dec b i) as [->|Nb]; rewrite ?upd_same, ?upd_other by assumption; cbn [pid st]; auto.
    + intros a b Ia Ib. destruct (Nat.eq_dec a i) as [->|Na], (Nat.eq_dec b i) as [->|Nb]; rewrite ?upd_same, ?upd_other by assumption; cbn [pid st]; auto; try (intros []; fail); try (intros ? []).
    + intros a. destruct (Nat.eq_dec a i) as [->|Na]; rewrite ?upd_same, ?upd_other by assumption; cbn [pid st].
      * intros _. exists f. rewrite upd_same. split; [apply (W i f I E)|reflexivity].
      * intros R. destruct (N a R).
    + intros a c. destruct (Nat.eq_dec c i) as [->|Nc]; [rewrite upd_same; intros _ _ []|].
      intros _ Ic C. rewrite upd_other in C by exact Nc. exfalso. apply Nc. apply (O c i Ic I C). rewrite E. exact Logic.I.
    + intros a g Ia. destruct (Nat.eq_dec a i) as [->|Na]; rewrite ?upd_same, ?upd_other by assumption; cbn [pid st]; [discriminate|].
      apply W. exact Ia.
Qed.
Lemma inv_add : forall s p, inv s -> st p = PForeign \/ st p = PExists /\ (forall i, ~ starting s i) -> inv (add_proc s p).
Proof.
  intros s p H F. unfold add_proc. destruct (pid_alive s (pid p)) eqn:A; [exact H|].
  assert (NU : ~ pid_used s (pid p)) by (intros X; apply pid_alive_spec in X; congruence).
  destruct H as [P O L B W]. constructor; unfold running; cbn [lock nfiles cont nprocs procs].
  - intros a b Ia Ib. destruct (Nat.eq_dec a (nprocs s)) as [->|Na], (Nat.eq_dec b (nprocs s)) as [->|Nb]; rewrite ?upd_same, ?upd_other by assumption; auto.
    + intros X Y E. exfalso. apply NU. exists b. repeat split; [lia|congruence|exact Y].
    + intros X Y E. exfalso. apply NU. exists a. repeat split; [lia|congruence|exact X].
    + intros. apply P; auto; lia.
  - intros a b Ia Ib. destruct (Nat.eq_dec a (nprocs s)) as [->|Na], (Nat.eq_dec b (nprocs s)) as [->|Nb]; rewrite ?upd_same, ?upd_other by assumption; auto.
    + intros X Y. destruct F as [F|[F G]]; [rewrite F in X; contradiction|]. destruct (G b). split; [lia|exact Y].
    + intros X Y. destruct F as [F|[F G]]; [rewrite F in Y; contradiction|]. destruct (G a). split; [lia|exact X].
    + apply O; lia.
  - intros a. destruct (Nat.eq_dec a (nprocs s)) as [->|Na]; rewrite ?upd_same, ?upd_other by assumption.
    + intros [_ E]. destruct F as [F|[F G]]; congruence.
    + intros [X Y]. apply L. split; [lia|exact Y].
  - intros a c. destruct (Nat.eq_dec a (nprocs s)) as [->|Na]; rewrite ?upd_same, ?upd_other by assumption.
    + intros [_ E]. destruct F as [F|[F G]]; congruence.
    + intros [X Y] Ic. destruct (Nat.eq_dec c (nprocs s)) as [->|Nc]; rewrite ?upd_same, ?upd_other by assumption.
      * destruct F as [F|[F G]]; rewrite F; [intros []|intros _; exact Logic.I].
      * apply B; [split; [lia|exact Y]|lia].
  - intros a f Ia. destruct (Nat.eq_dec a (nprocs s)) as [->|Na]; rewrite ?upd_same, ?upd_other by assumption.
    + destruct F as [F|[F G]]; congruence.
    + apply W. lia.
Qed.
Lemma inv_step : forall s e, inv s -> match e with Start _ _ => forall i, ~ starting s i | _ => True end -> inv (step may s e).
Proof.
  intros s e H N. destruct e as [u p|u p|i|i|i]; cbn [step].
  - apply inv_add; [exact H|right; split; [reflexivity|exact N]].
  - apply inv_add; [exact H|left; reflexivity].
  - destruct (Nat.ltb_spec i (nprocs s)); [apply inv_advance; assumption|exact H].
  - destruct (Nat.ltb_spec i (nprocs s)); [|exact H]. destruct (st (procs s i)); try exact H.
    apply inv_quiet; [exact H|assumption|intros []|discriminate|right; reflexivity].
  - destruct (Nat.ltb_spec i (nprocs s)); [|exact H]. apply inv_quiet; [exact H|assumption|intros []|discriminate|right; reflexivity].
Qed.
Lemma inv_run : forall es s, inv s -> one_by_one may s es -> inv (run may s es).
Proof.
  induction es as [|e es IH]; intros s H O; [exact H|]. destruct O as [N O]. apply (IH (step may s e)); [apply inv_step; assumption|exact O].
Qed.
Lemma inv_boot : inv boot.
Proof. constructor; unfold running; cbn; intros; lia. Qed.
Lemma inv_exclusive : forall s i j, inv s -> running s i -> running s j -> i = j.
Proof.
  intros s i j H Ri Rj. destruct (i_lock s H i Ri) as [f [K V]], (i_lock s H j Rj) as [g [K2 V2]].
  destruct Ri as [Ii Ei], Rj as [Ij Ej]. apply (i_pids s H); auto; congruence.
Qed.
Lemma exclusive : forall es i j, one_by_one may boot es -> running (run may boot es) i -> running (run may boot es) j -> i = j.
Proof. intros es i j O. apply inv_exclusive. apply inv_run; [apply inv_boot|exact O]. Qed.
End Run.

(** ** A start that is not disturbed *)
(** State [t] is [s] with one more process, which is at [x]; the lock file is [l] and its content [o]. *)
Record view (s : os) (u p : nat) (t : os) (x : pst) (l : option nat) (o : option nat) : Prop := {
  v_n : nprocs t = S (nprocs s);
  v_p : procs t (nprocs s) = mkProc p u x;
  v_o : forall j, j < nprocs s -> procs t j = procs s j;
  v_l : lock t = l;
  v_c : forall f, l = Some f -> cont t f = o }.
Section Alone.
Context (may : nat -> nat -> bool) (s : os) (u p : nat).
Notation view := (view s u p). Notation n := (nprocs s).
Lemma view_kill : forall t x l o q, view t x l o -> x <> PDead -> q <> p -> kill_ok may t u q = kill_ok may s u q.
Proof.
  intros t x l o q [N P O _ _] X Q. unfold kill_ok. rewrite N, seq_S, existsb_app. cbn [existsb plus]. rewrite P. cbn [pid].
  destruct (Nat.eqb_spec p q); [congruence|]. rewrite andb_false_r. cbn [andb orb]. rewrite orb_false_r.
  apply eq_true_iff_eq. rewrite !existsb_exists. split; intros [i [I H]]; exists i; (split; [exact I|]); apply in_seq in I;
  rewrite O in * by lia; exact H.
Qed.
Lemma view_set : forall t x l o y l' c' m o', view t x l o -> (forall f, l' = Some f -> c' f = o') ->
  view (set_st (mkOs l' m c' (nprocs t) (procs t)) n y) y l' o'.
Proof.
  intros t x l o y l' c' m o' [N P O L C] H. unfold set_st, with_st. constructor; cbn [lock nfiles cont nprocs procs].
  - exact N.
  - rewrite upd_same, P. reflexivity.
  - intros j J. rewrite upd_other by lia. apply O. exact J.
  - reflexivity.
  - exact H.
Qed.
Lemma view_set_st : forall t x l o y, view t x l o -> view (set_st t n y) y l o.
Proof. intros t x l o y V. pose proof (view_set t x l o y (lock t) (cont t) (nfiles t) o V) as K. destruct V as [N P O L C]. rewrite L in K. destruct t. cbn in *. subst. apply K. exact C. Qed.
Lemma view_start : ~ pid_used s p -> view (step may s (Start u p)) PExists (lock s) (match lock s with Some f => cont s f | None => None end).
Proof.
  intros U. cbn [step]. unfold add_proc. cbn [pid]. destruct (pid_alive s p) eqn:A; [apply pid_alive_spec in A; contradiction|].
  constructor; cbn [lock nfiles cont nprocs procs]; auto.
  - apply upd_same.
  - intros j J. apply upd_other. lia.
  - intros f ->. reflexivity.
Qed.
Lemma view_step : forall t x l o, view t x l o -> step may t (Step n) = advance may t n /\ st (procs t n) = x /\ user (procs t n) = u /\ pid (procs t n) = p.
Proof. intros t x l o [N P O L C]. cbn [step]. rewrite N, P. destruct (Nat.ltb_spec n (S n)); [auto|lia]. Qed.
Ltac step_ V := destruct (view_step _ _ _ _ V) as [Hs [H [H0 H1]]]; rewrite Hs; clear Hs; unfold advance.
Lemma s_exists : forall t l o, view t PExists l o -> view (step may t (Step n)) (match l with Some _ => PRead | None => PCreate end) l o.
Proof. intros t l o V. step_ V. rewrite H. rewrite (v_l _ _ _ _ _ _ _ V). destruct l; eapply view_set_st; exact V. Qed.
Lemma s_read : forall t f o, view t PRead (Some f) o -> view (step may t (Step n)) (match o with Some q => PKill q | None => PFailed end) (Some f) o.
Proof.
  intros t f o V. step_ V. rewrite H. rewrite (v_l _ _ _ _ _ _ _ V), (v_c _ _ _ _ _ _ _ V f eq_refl). destruct o; eapply view_set_st; exact V.
Qed.
Lemma s_kill : forall t q l o, view t (PKill q) l o -> q <> p -> view (step may t (Step n)) (if kill_ok may s u q then PRefused q else PRemove) l o.
Proof.
  intros t q l o V Q. step_ V. rewrite H, H0. rewrite (view_kill t _ l o q V) by (auto; discriminate).
  destruct (kill_ok may s u q); eapply view_set_st; exact V.
Qed.
Lemma s_remove : forall t f o, view t PRemove (Some f) o -> view (step may t (Step n)) PCreate None None.
Proof.
  intros t f o V. step_ V. rewrite H. rewrite (v_l _ _ _ _ _ _ _ V). eapply view_set; [exact V|discriminate].
Qed.
Lemma s_create : forall t o, view t PCreate None o -> exists g, view (step may t (Step n)) (PWrite g) (Some g) None.
Proof.
  intros t o V. step_ V. rewrite H. rewrite (v_l _ _ _ _ _ _ _ V). exists (nfiles t). eapply view_set; [exact V|].
  intros f E. injection E as <-. apply upd_same.
Qed.
Lemma s_write : forall t g, view t (PWrite g) (Some g) None -> view (step may t (Step n)) PRunning (Some g) (Some p).
Proof.
  intros t g V. step_ V. rewrite H, H1. rewrite (v_l _ _ _ _ _ _ _ V). eapply view_set; [exact V|].
  intros f E. injection E as <-. apply upd_same.
Qed.
Lemma s_rest : forall t x l o k, view t x l o -> match x with PRunning | PRefused _ | PFailed => True | _ => False end ->
  view (run may t (repeat (Step n) k)) x l o.
Proof.
  intros t x l o k V X. revert t V. induction k; intros t V; [exact V|]. cbn [repeat]. change (run may t (Step n :: repeat (Step n) k)) with (run may (step may t (Step n)) (repeat (Step n) k)).
  apply IHk. step_ V. rewrite H. destruct x; try contradiction; exact V.
Qed.
Lemma run_cons : forall t e es, run may t (e :: es) = run may (step may t e) es. Proof. reflexivity. Qed.
(** The lock file holds the id of a process that may be sent signals: refused. *)
Lemma alone_refused : forall f q, ~ pid_used s p -> lock s = Some f -> cont s f = Some q -> q <> p -> kill_ok may s u q = true ->
  view (start_alone may s u p) (PRefused q) (Some f) (Some q).
Proof.
  intros f q U L C Q K. unfold start_alone. cbn [repeat]. rewrite run_cons.
  pose proof (view_start U) as V. rewrite L, C in V.
  apply s_exists in V. apply s_read in V. apply s_kill in V; [|exact Q]. rewrite K in V.
  rewrite !run_cons. exact (s_rest _ _ _ _ 3 V Logic.I).
Qed.
Lemma alone_free : ~ pid_used s p -> lock s = None -> exists g, view (start_alone may s u p) PRunning (Some g) (Some p).
Proof.
  intros U L. unfold start_alone. cbn [repeat]. rewrite run_cons.
  pose proof (view_start U) as V. rewrite L in V.
  apply s_exists in V. apply s_create in V. destruct V as [g V]. apply s_write in V. exists g.
  rewrite !run_cons. exact (s_rest _ _ _ _ 3 V Logic.I).
Qed.
Lemma alone_stale : forall f q, ~ pid_used s p -> lock s = Some f -> cont s f = Some q -> q <> p -> kill_ok may s u q = false ->
  exists g, view (start_alone may s u p) PRunning (Some g) (Some p).
Proof.
  intros f q U L C Q K. unfold start_alone. cbn [repeat]. rewrite run_cons.
  pose proof (view_start U) as V. rewrite L, C in V.
  apply s_exists in V. apply s_read in V. apply s_kill in V; [|exact Q]. rewrite K in V. apply s_remove in V.
  apply s_create in V. destruct V as [g V]. apply s_write in V. exists g. exact V.
Qed.
Lemma alone_empty : forall f, ~ pid_used s p -> lock s = Some f -> cont s f = None -> view (start_alone may s u p) PFailed (Some f) None.
Proof.
  intros f U L C. unfold start_alone. cbn [repeat]. rewrite run_cons.
  pose proof (view_start U) as V. rewrite L, C in V.
  apply s_exists in V. apply s_read in V. rewrite !run_cons. exact (s_rest _ _ _ _ 4 V Logic.I).
Qed.
Lemma view_running : forall t l o, view t PRunning l o -> running t n.
Proof. intros t l o [N P _ _ _]. split; [rewrite N; lia|rewrite P; reflexivity]. Qed.
End Alone.

(** ** An empty lock file *)
Definition harmless (x : pst) : Prop := match x with PExists | PRead | PForeign | PDead | PRefused _ | PFailed => True | _ => False end.
Definition stuck (s : os) (f : nat) : Prop := lock s = Some f /\ cont s f = None /\ forall i, i < nprocs s -> harmless (st (procs s i)).
Lemma stuck_set : forall s f i x, stuck s f -> harmless x -> stuck (set_st s i x) f.
Proof.
  intros s f i x [L [C H]] X. unfold set_st, with_st. split; [exact L|]. split; [exact C|]. cbn [nprocs procs]. intros j J.
  destruct (Nat.eq_dec j i) as [->|N]; [rewrite upd_same; exact X|rewrite upd_other by exact N; apply H; exact J].
Qed.
Lemma stuck_add : forall s f p, stuck s f -> harmless (st p) -> stuck (add_proc s p) f.
Proof.
  intros s f p [L [C H]] X. unfold add_proc. destruct (pid_alive s (pid p)); [repeat split; assumption|]. split; [exact L|]. split; [exact C|].
  cbn [nprocs procs]. intros j J. destruct (Nat.eq_dec j (nprocs s)) as [->|N]; [rewrite upd_same; exact X|rewrite upd_other by exact N; apply H; lia].
Qed.
Lemma stuck_step : forall may s f e, stuck s f -> stuck (step may s e) f.
Proof.
  intros may s f e S. destruct e as [u p|u p|i|i|i]; cbn [step].
  - apply stuck_add; [exact S|exact I].
  - apply stuck_add; [exact S|exact I].
  - destruct (Nat.ltb_spec i (nprocs s)) as [J|J]; [|exact S]. pose proof S as [L [C H]]. specialize (H i J). unfold advance.
    destruct (st (procs s i)); try contradiction; try exact S; rewrite L; try rewrite C; apply stuck_set; try exact S; exact I.
  - destruct (Nat.ltb_spec i (nprocs s)) as [J|J]; [|exact S]. destruct (st (procs s i)); try exact S. apply stuck_set; [exact S|exact I].
  - destruct (Nat.ltb_spec i (nprocs s)) as [J|J]; [|exact S]. apply stuck_set; [exact S|exact I].
Qed.
Lemma stuck_run : forall may es s f, stuck s f -> stuck (run may s es) f.
Proof. intros may. induction es as [|e es IH]; intros s f S; [exact S|]. apply (IH (step may s e)). apply stuck_step. exact S. Qed.
Lemma stuck_never : forall may es s f i, stuck s f -> ~ running (run may s es) i.
Proof. intros may es s f i S [J E]. apply (stuck_run may es) in S. destruct S as [_ [_ H]]. specialize (H i J). rewrite E in H. exact H. Qed.
