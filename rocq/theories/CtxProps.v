(** C118, C119: the span key of log lines and of code. *)
From Coq Require Import List NArith Bool Lia.
Import ListNotations.
From Verif Require Import CtxModel CtxSpec CtxProofs.
Open Scope N_scope.

(** ** C118: code that runs for a request sees that request's span key, in every interleaving of all tasks *)
Theorem C118_handlers_see_their_key : forall evs, handlers_lines (snd (crun cstart evs)).
Proof. exact handlers_lines_ok. Qed.

(** The other way round: connections, datagrams and the main task see no span key between requests. *)
Theorem C118_no_key_between_requests : forall evs a t x b, snd (crun cstart evs) = a ++ OLine t x :: b ->
  doing a t = None -> (forall t0 kd, ~ In (OStarted t t0 kd) a) -> x = None.
Proof.
  intros evs a t x b E D Ns. apply (lines_exact evs a t x b None E). apply sees_none; [|exact Ns].
  intros k [H|H]; congruence.
Qed.

(** Two connections with interleaved requests 7 and 8; the first one's handler starts a task that logs after the request is
    over; the connection logs after its request. *)
Definition ex118 : list cev :=
  [CArrive; CArrive; CRequest 1 7; CRequest 2 8; CLog 1; CLog 2; CStart 1; CDone 1; CLog 3; CLog 1; CRequest 1 9; CLog 3; CLog 1; CDone 2; CLog 2].
Example C118_example : snd (crun cstart ex118) =
  [ORequest 1 7; ORequest 2 8; OLine 1 (Some 7); OLine 2 (Some 8); OStarted 3 1 KOther; ODone 1; OLine 3 (Some 7); OLine 1 None;
   ORequest 1 9; OLine 3 (Some 7); OLine 1 (Some 9); ODone 2; OLine 2 None].
Proof. reflexivity. Qed.
Example C118_example_runs_for :
  runs_for [ORequest 1 7; ORequest 2 8; OLine 1 (Some 7); OLine 2 (Some 8); OStarted 3 1 KOther; ODone 1] 3 7.
Proof.
  apply (rf_started [ORequest 1 7; ORequest 2 8; OLine 1 (Some 7); OLine 2 (Some 8)] 3 1 [ODone 1] 7).
  apply rf_handles. now left.
Qed.

(** ** C119: a message's log lines carry the message's span key; the framework's own lines carry none *)
Definition C119_statement : Prop := forall evs, senders_lines (snd (crun cstart evs)) /\ idle_lines (snd (crun cstart evs)).

(** Requests 7 and 8 each send a message through sender 0; request 7 creates the sending task: message 8 is sent under 7. *)
Definition ex119s : list cev :=
  [CArrive; CArrive; CRequest 1 7; CRequest 2 8; CWakeSend 1 0; CWakeSend 2 0; CTake 3 7; CLog 3; CDone 3; CTake 3 8; CLog 3].
Theorem C119_refuted_send : ~ (forall evs, senders_lines (snd (crun cstart evs))).
Proof.
  intros H. specialize (H ex119s
    [ORequest 1 7; ORequest 2 8; OStarted 3 1 (KSend 0); OMessage 3 7; OLine 3 (Some 7); ODone 3; OMessage 3 8] 3%nat (Some 7) [] 8 eq_refl eq_refl).
  discriminate.
Qed.
(** Request 7 to a buffered endpoint creates the processing task; what the task logs when it stops carries 7, although by then
    it has processed request 8 as well. *)
Definition ex119i : list cev :=
  [CArrive; CArrive; CRequest 1 7; CWakeProcess 1 0; CDone 1; CTake 3 7; CDone 3; CTake 3 8; CLog 3; CDone 3; CLog 3].
Theorem C119_refuted_idle : ~ (forall evs, idle_lines (snd (crun cstart evs))).
Proof.
  intros H. specialize (H ex119i
    [ORequest 1 7; OStarted 3 1 (KProcess 0); ODone 1; OItem 3 7; ODone 3; OItem 3 8; OLine 3 (Some 8); ODone 3] 3%nat (Some 7) [] eq_refl eq_refl).
  enough (Some 7 = None) by discriminate. apply H. intros [t0 Hin]. cbn in Hin.
  repeat (destruct Hin as [Hin|Hin]; [discriminate Hin|]). exact Hin.
Qed.
Theorem C119_refuted : ~ C119_statement.
Proof. intros H. apply C119_refuted_send. intros evs. apply H. Qed.

(** What every line carries, exactly: the key of the request the task handles; if it handles none, the key that the code
    which created the task saw at that moment; none if no code created it. *)
Theorem C119_exact_partial : forall evs a t x b, snd (crun cstart evs) = a ++ OLine t x :: b -> forall y, sees a t y <-> x = y.
Proof.
  intros evs a t x b E y. split.
  - exact (lines_exact evs a t x b y E).
  - intros <-. exact (line_sees evs a t x b E).
Qed.
(** So all the lines of a sending task, whatever it sends, carry the key of the request whose code created it: a message's
    lines carry its own key if its request created the task. *)
Theorem C119_send_partial : forall evs a0 t t0 j a1 x b k, snd (crun cstart evs) = (a0 ++ OStarted t t0 (KSend j) :: a1) ++ OLine t x :: b ->
  runs_for a0 t0 k -> x = Some k.
Proof.
  intros evs a0 t t0 j a1 x b k E R. apply (lines_exact evs _ t x b (Some k) E).
  destruct (prefix_trace evs _ _ E) as [e1 He1]. destruct (prefix_trace e1 _ _ He1) as [e0 He0].
  apply sees_started; [|exact (runs_for_sees _ _ _ R e0 He0)].
  intros k' Hk. rewrite <- He1 in Hk. pose proof (inv_run e1) as I.
  destruct (inv_st _ _ I t t0 (KSend j)) as (u & Hu & Ku); [rewrite He1; apply in_or_app; right; now left|].
  pose proof (inv_ok _ _ I _ _ Hu) as Ok. unfold task_ok in Ok.
  destruct (tphase u); repeat match goal with H : _ /\ _ |- _ => destruct H | H : exists _, _ |- _ => destruct H end; destruct Hk; congruence.
Qed.
(** And a sending or processing task that the main task created (the set-up), or a connection, has no foreign key. *)
Theorem C119_setup_partial : forall evs a0 t t0 kd a1 x b, snd (crun cstart evs) = (a0 ++ OStarted t t0 kd :: a1) ++ OLine t x :: b ->
  doing a0 t0 = None -> (forall t1 kd1, ~ In (OStarted t0 t1 kd1) a0) -> (forall k, ~ handles (a0 ++ OStarted t t0 kd :: a1) t k) -> x = None.
Proof.
  intros evs a0 t t0 kd a1 x b E D Ns Nh. apply (lines_exact evs _ t x b None E).
  apply sees_started; [exact Nh|]. apply sees_none; [|exact Ns]. intros k [H|H]; congruence.
Qed.
Example C119_example : snd (crun cstart ex119s) =
  ([ORequest 1 7; ORequest 2 8] ++ OStarted 3 1 (KSend 0) :: [OMessage 3 7]) ++ OLine 3 (Some 7) :: [ODone 3; OMessage 3 8; OLine 3 (Some 7)].
Proof. reflexivity. Qed.
Example C119_example_sees : sees [ORequest 1 7; ORequest 2 8; OStarted 3 1 (KSend 0); OMessage 3 7; OLine 3 (Some 7); ODone 3; OMessage 3 8] 3 (Some 7).
Proof.
  apply (proj2 (C119_exact_partial ex119s
    [ORequest 1 7; ORequest 2 8; OStarted 3 1 (KSend 0); OMessage 3 7; OLine 3 (Some 7); ODone 3; OMessage 3 8] 3%nat (Some 7) [] eq_refl (Some 7))). reflexivity.
Qed.
Example C119_example_setup : snd (crun cstart [CWakeSend 0 0; CArrive; CRequest 2 7; CWakeSend 2 0; CTake 1 7; CLog 1]) =
  ([] ++ OStarted 1 0 (KSend 0) :: [ORequest 2 7; OMessage 1 7]) ++ OLine 1 None :: [].
Proof. reflexivity. Qed.

Print Assumptions C118_handlers_see_their_key.
Print Assumptions C118_no_key_between_requests.
Print Assumptions C119_refuted_send.
Print Assumptions C119_refuted_idle.
Print Assumptions C119_refuted.
Print Assumptions C119_exact_partial.
Print Assumptions C119_send_partial.
Print Assumptions C119_setup_partial.
