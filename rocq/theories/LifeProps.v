(** The life of an application: what is kept when it ends (C75), what a termination signal does (C76), servers that cannot start (C77). *)
From Coq Require Import List ZArith NArith Bool String Permutation Lia.
From Verif Require Import Base PQueueModel PQueueSpec PQueueProofs PQueueProofs2 LifeModel LifeSpec LifeProofs LifeProofs2.
Import ListNotations.
Local Open Scope Z_scope.

(** ** C75: however a run ends, nothing queued is lost *)

(** The full claim: whatever happens, once the process is over the files hold exactly what the calls of the queues left. *)
Definition C75_nothing_is_lost : Prop :=
  forall (V : Type) files ts evs (a : app V) o, usable_files files -> lrun (new_app files ts) evs = (a, o) -> over a ->
  all_kept files a o.

(** *** Witnesses *)
Definition one_file : list (Z * table nat * table nat) := [(1, [], [])].
Lemma one_file_usable : usable_files one_file.
Proof. repeat constructor. discriminate. Qed.
Lemma empty_behaves (ps : Z) : ps <> 0 -> behaves_as (open_queue ps ([] : table nat)) [].
Proof.
  intros H. destruct (open_queue_ok ps ([] : table nat) ltac:(constructor) ltac:(constructor)) as [I [C [P _]]].
  assert (E : contents (open_queue ps ([] : table nat)) = []).
  { rewrite C. apply Permutation_nil. symmetry. apply reopened_order_perm. }
  rewrite <- E. apply behaves; [exact I|congruence].
Qed.
(** The message is not found by a later start. *)
Lemma not_kept (t : table nat) k v : run (open_queue 1 t) [Inspect k] = [OVal None] -> ~ survives (Closed t) [(k, v)].
Proof.
  intros E S. destruct (S 1 ltac:(discriminate)) as [l [B P]]. apply Permutation_length_1_inv in P. subst l.
  specialize (B [Inspect k]). cbn [file] in B. rewrite E in B. cbn in B. unfold lookup in B. cbn in B. rewrite N.eqb_refl in B. discriminate B.
Qed.
(** A signal (SIGTERM, Ctrl-C) while the TCP server is being started; the same message, pushed and never processed. *)
Definition hasty : list (ev nat) :=
  [EStart; ESetup Completes; EHookDone; EServerStarts 0; EWork 0 Pending (Push 7%N 42%nat); ESignal WaitingForEvents; EExit None].
(** A second signal before the queues are shut down. *)
Definition impatient : list (ev nat) :=
  [EStart; ESetup Completes; EHookDone; EServerStarts 0; EServerBound 0; EWork 0 Pending (Push 7%N 42%nat);
   ESignal WaitingForEvents; EExit (Some 1%nat)].
(** A message in the file, and the error queue's file cannot be opened. *)
Definition stored : list (Z * table nat * table nat) := [(1, [mkRec (-1) 7%N 42%nat], [])].

Definition lost (files : list (Z * table nat * table nat)) (evs : list (ev nat)) : Prop :=
  over (fst (lrun (new_app files [TCP]) evs)) /\ ~ all_kept files (fst (lrun (new_app files [TCP]) evs)) (snd (lrun (new_app files [TCP]) evs)).
Lemma lost_hasty : lost one_file hasty.
Proof.
  split; [vm_compute; eauto|]. intros H.
  destruct (H 0%nat 1 [] [] [] [] eq_refl (empty_behaves 1 ltac:(discriminate)) (empty_behaves 1 ltac:(discriminate))) as [c [E [S _]]].
  vm_compute in E. injection E as <-.
  assert (X : after [] (calls 0 Pending (snd (lrun (new_app one_file [TCP]) hasty))) = [(7%N, 42%nat)]) by reflexivity.
  rewrite X in S. revert S. cbn [c_pend]. intros S. apply (not_kept [] 7%N 42%nat eq_refl).
  intros ps Hp. exact (S ps Hp).
Qed.
Lemma lost_impatient : lost one_file impatient.
Proof.
  split; [vm_compute; eauto|]. intros H.
  destruct (H 0%nat 1 [] [] [] [] eq_refl (empty_behaves 1 ltac:(discriminate)) (empty_behaves 1 ltac:(discriminate))) as [c [E [S _]]].
  vm_compute in E. injection E as <-.
  assert (X : after [] (calls 0 Pending (snd (lrun (new_app one_file [TCP]) impatient))) = [(7%N, 42%nat)]) by reflexivity.
  rewrite X in S. revert S. cbn [c_pend]. intros S. apply (not_kept [] 7%N 42%nat eq_refl).
  intros ps Hp. exact (S ps Hp).
Qed.

Theorem C75_nothing_is_lost_refuted : ~ C75_nothing_is_lost.
Proof.
  intros H. destruct lost_hasty as [A B]. apply B. destruct (lrun (new_app one_file [TCP]) hasty) as [a o] eqn:E.
  eapply H; eauto. apply one_file_usable.
Qed.
(** Each of the three ways loses a message: an interrupted start of a server, a second signal, a set-up that fails between its two files. *)
Definition row : table nat := [mkRec (-1) 7%N 42%nat].
Lemma row_on_disk : on_disk row.
Proof.
  destruct (step (open_queue 1 []) (Push 7%N 42%nat)) as [[q r]|] eqn:S; [|discriminate S].
  destruct (q_shut_down q) as [q2|] eqn:Q; [|vm_compute in S; injection S as <- <-; discriminate Q].
  assert (db q2 = row) as <-. { vm_compute in S. injection S as <- <-. vm_compute in Q. injection Q as <-. reflexivity. }
  eapply disk_shut; [|exact Q]. eapply reach_step; [|exact S]. apply reach_open. constructor.
Qed.
Lemma stored_usable : usable_files stored.
Proof. constructor; [|constructor]. split; [discriminate|]. split; [exact row_on_disk|constructor]. Qed.
Lemma row_behaves : behaves_as (open_queue 1 row) [(7%N, 42%nat)].
Proof.
  destruct (on_disk_good row row_on_disk) as [A B]. destruct (open_queue_ok 1 row A B) as [I [C [P _]]].
  change [(7%N, 42%nat)] with (contents (open_queue 1 row)). apply behaves; [exact I|]. now rewrite P.
Qed.
Definition unlucky : list (ev nat) := [EStart; ESetup (RaisesAt BetweenFiles "OperationalError"); EExit None].
Lemma lost_unlucky : lost stored unlucky.
Proof.
  split; [vm_compute; eauto|]. intros H.
  destruct (H 0%nat 1 row [] [(7%N, 42%nat)] [] eq_refl row_behaves (empty_behaves 1 ltac:(discriminate))) as [c [E [S _]]].
  vm_compute in E. injection E as <-.
  assert (X : after [(7%N, 42%nat)] (calls 0 Pending (snd (lrun (new_app stored [TCP]) unlucky))) = [(7%N, 42%nat)]) by reflexivity.
  rewrite X in S. revert S. cbn [c_pend]. intros S. apply (not_kept [] 7%N 42%nat eq_refl).
  intros ps Hp. exact (S ps Hp).
Qed.
Theorem C75_three_ways_to_lose : lost one_file hasty /\ lost one_file impatient /\ lost stored unlucky.
Proof. exact (conj lost_hasty (conj lost_impatient lost_unlucky)). Qed.

(** Exit status 0 means that nothing is lost: every queue is in its file, and the log has been flushed. *)
Theorem C75_clean_exit_keeps_everything (V : Type) files ts evs (a : app V) o :
  usable_files files -> lrun (new_app files ts) evs = (a, o) -> exits_with 0 o -> over a /\ flushed a = true /\ all_kept files a o.
Proof.
  intros U E X. destruct (clean_exit_kept files ts U evs a o E X) as [A [B C]]. split; [auto|]. split; [auto|]. now apply kept_all.
Qed.

(** Those three are the only ways. *)
Theorem C75_nothing_is_lost_partial (V : Type) files ts evs (a : app V) o :
  usable_files files -> lrun (new_app files ts) evs = (a, o) -> over a ->
  never_interrupted (new_app files ts) evs -> existsb second_signal evs = false -> existsb half_set_up evs = false ->
  all_kept files a o.
Proof. intros U E O N S H. apply kept_all. eapply quiet_kept; eauto. Qed.

(** If also every set-up completes, the exit status is 0. *)
Theorem C75_exits_cleanly (V : Type) files ts evs (a : app V) o :
  usable_files files -> lrun (new_app files ts) evs = (a, o) -> over a ->
  never_interrupted (new_app files ts) evs -> existsb second_signal evs = false -> existsb bad_setup evs = false ->
  ~ In EBodyEnds evs -> (forall e, ~ In (EBodyRaises e) evs) -> exits_with 0 o.
Proof. intros. eapply quiet_zero; eauto. Qed.

(** A run that is ended while a TCP or UDS server is still being started shuts down no queue and does not flush the log. *)
Theorem C75_interrupted_start_skips_the_shut_down (V : Type) files ts pre x post (a : app V) :
  usable_files files -> fst (lrun (new_app files ts) (pre ++ x :: post)) = a -> over a ->
  interrupts (fst (lrun (new_app files ts) pre)) x ->
  comps a = comps (fst (lrun (new_app files ts) pre)) /\ flushed a = false /\ exists e, now a = Exited (Some e).
Proof. intros U E O I. eapply interrupted_run; eauto. Qed.

(** The same events with the server up before the signal. *)
Definition patient : list (ev nat) :=
  [EStart; ESetup Completes; EHookDone; EServerStarts 0; EServerBound 0; EWork 0 Pending (Push 7%N 42%nat);
   EWork 0 Pending (Push 8%N 43%nat); EWork 0 Pending Pop; EWork 0 Errors (Push 7%N 42%nat); ESignal WaitingForEvents; EExit None].
Lemma patient_quiet : never_interrupted (new_app one_file [TCP]) patient.
Proof.
  intros pre x post E [A [B [j [s [J [[K T] N]]]]]].
  unfold patient in E. do 11 (destruct pre as [|y pre]; [injection E as <- <-; try discriminate B;
    (destruct j as [|j]; [|destruct j; discriminate J]); vm_compute in J; injection J as <-; discriminate T
    |injection E as <- E]). destruct pre; discriminate E.
Qed.
Example ex_patient : usable_files one_file /\ never_interrupted (new_app one_file [TCP]) patient /\
  existsb second_signal patient = false /\ existsb half_set_up patient = false /\ existsb bad_setup patient = false /\
  over (fst (lrun (new_app one_file [TCP]) patient)) /\ exits_with 0 (snd (lrun (new_app one_file [TCP]) patient)) /\
  after [] (calls 0 Pending (snd (lrun (new_app one_file [TCP]) patient))) = [(8%N, 43%nat)] /\
  after [] (calls 0 Errors (snd (lrun (new_app one_file [TCP]) patient))) = [(7%N, 42%nat)].
Proof.
  split; [apply one_file_usable|]. split; [apply patient_quiet|]. vm_compute. repeat split; eauto 10.
Qed.
Example ex_hasty_interrupts : interrupts (fst (lrun (new_app one_file [TCP]) (firstn 5 hasty))) (ESignal WaitingForEvents) /\
  hasty = (firstn 5 hasty ++ ESignal WaitingForEvents :: [EExit None])%list.
Proof.
  split; [|reflexivity]. split; [reflexivity|]. split; [reflexivity|]. exists 0%nat. eexists. split; [reflexivity|].
  split; [split; reflexivity|]. intros [[e H]|H]; discriminate H.
Qed.

(** ** C76: a termination signal ends the application *)

(** The full claim: wherever the signal arrives in a serving application, the run ends. *)
Definition C76_signal_ends : Prop :=
  forall (V : Type) files ts evs (a : app V) o w, usable_files files -> lrun (new_app files ts) evs = (a, o) -> now a = Serving ->
  (forall i, w <> InServerStart i) -> exists c, now (fst (lstep a (ESignal w))) = Ended c.
Theorem C76_signal_ends_refuted : ~ C76_signal_ends.
Proof.
  intros H. destruct (lrun (new_app one_file [TCP]) (firstn 9 patient)) as [a o] eqn:E.
  destruct (H nat one_file [TCP] (firstn 9 patient) a o InRequest one_file_usable E) as [c C].
  - vm_compute in E. injection E as <- <-. reflexivity.
  - discriminate.
  - vm_compute in E. injection E as <- <-. discriminate C.
Qed.

(** In the event loop, the main task or a gathered task it does: the process ends with status 0 and prints no traceback, no socket is open,
    the log has been flushed, and nothing queued is lost. *)
Theorem C76_signal_ends_partial (V : Type) files ts evs (a : app V) o w :
  usable_files files -> lrun (new_app files ts) evs = (a, o) -> now a = Serving ->
  w = WaitingForEvents \/ w = InMainTask \/ w = InGatheredTask -> (forall s, In s (servers a) -> ~ starting s) ->
  exists a', lrun (new_app files ts) (evs ++ [ESignal w; EExit None]) = (a', (o ++ [OExit 0])%list) /\ now a' = Exited None /\
    flushed a' = true /\ Forall (fun s => listening s = false) (servers a') /\ all_kept files a' (o ++ [OExit 0]).
Proof.
  intros U E N W S. destruct (serving_parts files ts U evs a o E N) as [_ [_ P]].
  assert (G : Forall (fun s => good_server (sv_cancel s) /\ listening (sv_cancel s) = false) (servers a)).
  { apply Forall_forall. intros s I. destruct (P s I) as [_ [D X]]. eapply cancel_good; eauto. }
  destruct (serving_end files ts U evs a o a (Some signal_exn) E N eq_refl G) as [a' [X [A [B [C D]]]]].
  assert (L : lstep a (ESignal w) = (end_run a (Some signal_exn), [])).
  { unfold lstep. rewrite N. destruct W as [->|[->| ->]]; cbn [on_signal]; auto. unfold task_failed. now rewrite N. }
  exists a'. rewrite (run_two files ts evs a o _ _ _ _ E L). cbn [lstep now end_run set_now].
  change (lstep (end_run a (Some signal_exn)) (EExit None)) with (exit (end_run a (Some signal_exn)) (Some signal_exn) None).
  rewrite X. cbn [fst snd report List.app]. auto.
Qed.
Example ex_signal : now (fst (lrun (new_app one_file [TCP]) (firstn 9 patient))) = Serving /\
  Forall (fun s => task s = TServing) (servers (fst (lrun (new_app one_file [TCP]) (firstn 9 patient)))).
Proof. split; [reflexivity|]. repeat constructor. Qed.

(** Elsewhere it is lost: in a callback or in another task nothing happens, in a request the request is answered UNHANDLED; the application
    goes on in every case. *)
Theorem C76_signal_lost (V : Type) (a : app V) w : now a = Hook \/ now a = Serving -> w = InCallback \/ w = InOtherTask \/ w = InRequest ->
  lstep a (ESignal w) = (a, match w with InRequest => [OUnhandled] | _ => [] end).
Proof. intros [N|N] [->|[->| ->]]; unfold lstep; now rewrite N. Qed.
(** While a message is being sent, the message is taken for one that cannot be sent: it goes to the error queue, and nothing else happens. *)
Theorem C76_signal_while_sending (V : Type) files ts evs (a : app V) o i k v :
  usable_files files -> lrun (new_app files ts) evs = (a, o) -> now a = Serving -> (i < List.length files)%nat ->
  exists a' r, lstep a (ESignal (InSending i k v)) = (a', [OWork i Errors (Push k v) r; OErrored i k v]) /\
    now a' = Serving /\ servers a' = servers a /\ forall j, j <> i -> nth_error (comps a') j = nth_error (comps a) j.
Proof.
  intros U E N I. destruct (serving_parts files ts U evs a o E N) as [[L F] _].
  destruct (nth_error files i) as [f|] eqn:FE; [|apply nth_error_None in FE; lia].
  destruct (nth_error (comps a) i) as [c|] eqn:CE; [|apply nth_error_None in CE; lia].
  destruct (F i f c FE CE) as [R _]. destruct (R I) as [[_ [qp [qe [A [B [_ [RE _]]]]]]] _].
  destruct (never_raises qe RE) as [S _]. destruct (S (Push k v)) as [q' [x SE]].
  unfold lstep. rewrite N. cbn [on_signal]. unfold work, with_comp. rewrite CE. cbn [queue_of]. rewrite B, SE.
  eexists _, x. split; [reflexivity|]. split; [exact N|]. split; [reflexivity|]. intros j J. cbn [comps set_comps].
  rewrite nth_set_nth. destruct (Nat.eqb i j) eqn:Q; [apply Nat.eqb_eq in Q; congruence|reflexivity].
Qed.

(** ** C77: servers that cannot start *)

(** A serving application has all its queues open and no server that has failed; one that is up is listening. *)
Theorem C77_serving_is_set_up (V : Type) files ts evs (a : app V) o :
  usable_files files -> lrun (new_app files ts) evs = (a, o) -> now a = Serving ->
  (forall i c, nth_error (comps a) i = Some c -> exists p e, c_pend c = Open p /\ c_err c = Open e) /\
  forall s, In s (servers a) -> (task s = TCreated \/ task s = TStarting \/ task s = TServing) /\ (task s = TServing <-> listening s = true).
Proof.
  intros U E N. destruct (serving_parts files ts U evs a o E N) as [[L F] [_ P]]. split.
  - intros i c CE. destruct (nth_error files i) as [f|] eqn:FE.
    + destruct (F i f c FE CE) as [R _]. destruct R as [[_ [qp [qe [A [B _]]]]] _]; [apply nth_error_Some; congruence|]. eauto.
    + apply nth_error_None in FE. assert (i < List.length (comps a))%nat by (apply nth_error_Some; congruence). lia.
  - intros s I. destruct (P s I) as [A [B C]]. unfold sinv in C. destruct (task s) eqn:T; try congruence; (split; [auto|]);
      destruct C as [_ [_ ->]]; split; intros; congruence.
Qed.

(** When the run has ended, however it did, no socket is left open. *)
Theorem C77_nothing_listens_afterwards (V : Type) files ts evs (a : app V) o :
  usable_files files -> lrun (new_app files ts) evs = (a, o) -> ended a = true -> forall s, In s (servers a) -> listening s = false.
Proof. intros U E N. apply Forall_forall. eapply over_listening; eauto. Qed.

(** The full claim: if a server cannot be started, the process ends with that error in its output and a status that says so. *)
Definition C77_failure_is_reported : Prop :=
  forall (V : Type) files ts evs (a : app V) o i s e, usable_files files -> lrun (new_app files ts) evs = (a, o) -> now a = Serving ->
  nth_error (servers a) i = Some s -> task s = TStarting ->
  let o' := snd (lrun (new_app files ts) (evs ++ [EServerFails i e; EExit None])) in In (OTrace e) o' /\ ~ In (OExit 0) o'.
Definition tcp_alone : list (ev nat) := [EStart; ESetup Completes; EHookDone; EServerStarts 0].
Theorem C77_failure_is_reported_refuted : ~ C77_failure_is_reported.
Proof.
  intros H. destruct (lrun (new_app one_file [TCP]) tcp_alone) as [a o] eqn:E.
  assert (E' := E). vm_compute in E'. injection E' as <- <-.
  destruct (H nat one_file [TCP] tcp_alone _ _ 0%nat _ "OSError"%string one_file_usable E eq_refl eq_refl eq_refl) as [A _].
  vm_compute in A. destruct A as [A|[A|[]]]; discriminate A.
Qed.
(** What is true: the run ends and a traceback is printed. It is the error's for UDP, and an AttributeError's in its place for TCP and UDS.
    The exit status is 0. *)
Theorem C77_failure_is_reported_partial (V : Type) files ts evs (a : app V) o i s e :
  usable_files files -> lrun (new_app files ts) evs = (a, o) -> now a = Serving ->
  nth_error (servers a) i = Some s -> task s = TStarting -> e <> signal_exn -> e <> "CancelledError"%string ->
  (forall j t, nth_error (servers a) j = Some t -> starting t -> j = i) ->
  exists a' e', lrun (new_app files ts) (evs ++ [EServerFails i e; EExit None]) = (a', (o ++ [OTrace e'; OExit 0])%list) /\
    e' = (match kind s with UDP => e | _ => "AttributeError"%string end) /\ now a' = Exited None /\ flushed a' = true /\
    Forall (fun s => listening s = false) (servers a') /\ all_kept files a' (o ++ [OTrace e'; OExit 0]).
Proof.
  intros U E N SE T NS NC O. destruct (serving_parts files ts U evs a o E N) as [_ [_ P]].
  destruct (P s (nth_error_In _ _ SE)) as [_ [_ SI]].
  set (e' := match kind s with UDP => e | _ => "AttributeError"%string end).
  assert (FA : snd (sv_fails s e) = e').
  { unfold sinv in SI. rewrite T in SI. unfold sv_fails, e'. destruct SI as [_ [-> _]]. destruct (kind s); reflexivity. }
  destruct (sv_fails_ok _ s e SI T) as [SI' T']. destruct (sv_fails s e) as [s' e2] eqn:FE. cbn [fst snd] in *. subst e2.
  set (a2 := set_servers a (set_nth i s' (servers a))).
  assert (G : Forall (fun s => good_server (sv_cancel s) /\ listening (sv_cancel s) = false) (servers a2)).
  { apply Forall_forall. intros t I. unfold a2 in I. cbn [servers set_servers] in I. destruct (In_nth_error _ _ I) as [j J].
    destruct (nth_set_cases _ _ _ _ _ J) as [[<- ->]|[NE J']].
    - unfold sv_cancel. rewrite T'. unfold sv_fails in FE. unfold sinv in SI. rewrite T in SI. destruct SI as [A [B C]].
      destruct (is_stream (kind s)); injection FE as <- _; cbn; split; auto; discriminate.
    - destruct (P t (nth_error_In _ _ J')) as [_ [D X]]. eapply cancel_good; eauto. intros ST. apply NE. symmetry. eapply O; eauto. }
  destruct (serving_end files ts U evs a o a2 (Some e') E N eq_refl G) as [a' [X [A [B [C D]]]]].
  assert (L : lstep a (EServerFails i e) = (end_run a2 (Some e'), [])).
  { unfold lstep. rewrite N. unfold server_event. rewrite SE, T, FE. unfold task_failed. fold a2. now rewrite (N : now a2 = Serving). }
  assert (R : report (V := V) (Some e') = [OTrace e']).
  { unfold report. assert (String.eqb e' signal_exn = false) as ->.
    { apply String.eqb_neq. unfold e'. destruct (kind s); auto; discriminate. }
    assert (String.eqb e' "CancelledError" = false) as ->; [|reflexivity].
    apply String.eqb_neq. unfold e'. destruct (kind s); auto; discriminate. }
  rewrite R in *. exists a', e'. rewrite (run_two files ts evs a o _ _ _ _ E L).
  change (lstep (end_run a2 (Some e')) (EExit None)) with (exit (end_run a2 (Some e')) (Some e') None).
  rewrite X. cbn [fst snd List.app]. auto 10.
Qed.
Example ex_tcp_alone : now (fst (lrun (new_app one_file [TCP]) tcp_alone)) = Serving /\
  exists s, servers (fst (lrun (new_app one_file [TCP]) tcp_alone)) = [s] /\ task s = TStarting /\ kind s = TCP.
Proof. vm_compute. eauto. Qed.

(** While the user's [setup_tasks] is running, a server that cannot be started is not noticed: the application and its other servers go on.
    It ends the run, as the first failure, when [setup_tasks] returns. *)
Theorem C77_failure_waits_for_setup_tasks (V : Type) (a : app V) i s e : now a = Hook ->
  nth_error (servers a) i = Some s -> task s = TStarting ->
  let a' := fst (lstep a (EServerFails i e)) in
  now a' = Hook /\ comps a' = comps a /\ (forall j, j <> i -> nth_error (servers a') j = nth_error (servers a) j) /\
  exists f, failed a' = Some f /\ (forall g, failed a = Some g -> f = g) /\ now (fst (lstep a' EHookDone)) = Ended (Some f).
Proof.
  intros N SE T. unfold lstep at 1. rewrite N. unfold server_event. rewrite SE, T. cbn [fst]. destruct (sv_fails s e) as [s' e'].
  unfold task_failed. cbn [now set_servers]. rewrite N. cbn [failed set_servers].
  assert (O : forall j, j <> i -> nth_error (set_nth i s' (servers a)) j = nth_error (servers a) j).
  { intros j J. rewrite nth_set_nth. destruct (Nat.eqb i j) eqn:Q; [apply Nat.eqb_eq in Q; congruence|reflexivity]. }
  destruct (failed a) as [g|] eqn:FA; cbn zeta.
  - split; [exact N|]. split; [reflexivity|]. split; [exact O|]. exists g. split; [exact FA|]. split; [congruence|].
    unfold lstep. cbn [now set_servers]. rewrite N. cbn [failed set_servers]. now rewrite FA.
  - split; [exact N|]. split; [reflexivity|]. split; [exact O|]. exists e'. split; [reflexivity|]. split; [discriminate|].
    unfold lstep. cbn [now set_servers set_failed]. now rewrite N.
Qed.
Definition two_servers : list (ev nat) := [EStart; ESetup Completes; EServerStarts 0; EServerStarts 1; EServerBound 1].
Example ex_hook : now (fst (lrun (new_app one_file [TCP; UDP]) two_servers)) = Hook /\
  map task (servers (fst (lrun (new_app one_file [TCP; UDP]) two_servers))) = [TStarting; TServing] /\
  map listening (servers (fst (lrun (new_app one_file [TCP; UDP]) (two_servers ++ [EServerFails 0 "OSError"])))) = [false; true].
Proof. vm_compute. auto. Qed.

Print Assumptions C75_nothing_is_lost_refuted.
Print Assumptions C75_three_ways_to_lose.
Print Assumptions C75_clean_exit_keeps_everything.
Print Assumptions C75_nothing_is_lost_partial.
Print Assumptions C75_exits_cleanly.
Print Assumptions C75_interrupted_start_skips_the_shut_down.
Print Assumptions C76_signal_ends_refuted.
Print Assumptions C76_signal_ends_partial.
Print Assumptions C76_signal_lost.
Print Assumptions C76_signal_while_sending.
Print Assumptions C77_serving_is_set_up.
Print Assumptions C77_nothing_listens_afterwards.
Print Assumptions C77_failure_is_reported_refuted.
Print Assumptions C77_failure_is_reported_partial.
Print Assumptions C77_failure_waits_for_setup_tasks.
