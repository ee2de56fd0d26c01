(** C145: when a persistent client sends heartbeats. *)
From Coq Require Import List ZArith Bool Lia ZifyBool.
From Verif Require Import BeatModel BeatSpec BeatProofs.
Import ListNotations.
Local Open Scope Z_scope.

(** The full statement: a client that made its first call is never silent for longer than its heartbeat period, the delays of
    its task and of one heartbeat aside. *)
Definition C145_never_silent : Prop := forall period late long t0 xs,
  0 < period -> 0 <= late -> 0 <= long -> 0 <= t0 -> forward t0 xs -> prompt period late long (first_call t0) xs ->
  within (period + late + long) (activity (run period (first_call t0) xs)).

(** A call answered just after a look at the clock: the next look finds the client busy, and the heartbeat comes a period later. *)
Theorem C145_never_silent_refuted : ~ C145_never_silent.
Proof.
  intros H. specialize (H 60 0 1 1000 [Woke 1000; Acked 1000; Answer 1001; Woke 1060; Woke 1120]
    ltac:(lia) ltac:(lia) ltac:(lia) ltac:(lia)).
  cbn in H. lia.
Qed.

(** The silence lasts at most two periods (or one and the length of a heartbeat, if that is more), as long as no heartbeat raises. *)
Theorem C145_never_silent_partial : forall period late long t0 xs,
  0 < period -> 0 <= late -> 0 <= long -> 0 <= t0 -> forward t0 xs -> prompt period late long (first_call t0) xs ->
  forallb (fun x => negb (raised x)) xs = true ->
  within (period + Z.max period long + late) (activity (run period (first_call t0) xs)).
Proof.
  intros period late long t0 xs Hp Hl Hg H0 F P R.
  apply (run_inv period late long Hl ltac:(lia) Hg xs t0); auto. apply first_inv; lia.
Qed.
Example C145_never_silent_partial_ex :
  let xs := [Woke 1000; Acked 1000; Answer 1001; Woke 1060; Woke 1120; Missed 1121; Woke 1181; Call 1182; Acked 1183] in
  forward 1000 xs /\ prompt 60 0 2 (first_call 1000) xs /\ forallb (fun x => negb (raised x)) xs = true /\
  activity (run 60 (first_call 1000) xs) = [1183; 1182; 1181; 1120; 1001; 1000; 1000; 1000].
Proof. cbn. repeat split; lia. Qed.

(** Once a heartbeat has raised, there is no bound on the silence. *)
Theorem C145_silent_after_failure : forall period bound, 0 < period -> exists t0 xs,
  0 <= t0 /\ forward t0 xs /\ prompt period 0 0 (first_call t0) xs /\ ~ within bound (activity (run period (first_call t0) xs)).
Proof.
  intros period bound Hp. exists (period + 1), [Woke (period + 1); Raised (period + 1); Call (period + 2 + Z.abs bound)].
  assert (C : check period (first_call (period + 1)) (period + 1) = mkClient 0 (Probing (period + 1)) [period + 1] [period + 1; period + 1]).
  { unfold check. cbn [last first_call]. replace (0 <? period + 1 - period) with true by lia. reflexivity. }
  split; [lia|]. split; [cbn [forward at_time]; lia|]. split.
  - cbn [prompt at_time step]. change (task (first_call (period + 1))) with (Ready (period + 1)). cbv iota. rewrite C. cbn [task]. lia.
  - cbn [run fold_left step]. change (task (first_call (period + 1))) with (Ready (period + 1)). cbv iota. rewrite C.
    cbn [task activity last probes within]. lia.
Qed.
(** And no heartbeat is sent any more until the next call, which starts them again. *)
Theorem C145_failure : forall period t0 a t b s,
  task (run period (first_call t0) a) = Probing s -> forallb (fun x => negb (a_call x)) b = true ->
  probes (run period (first_call t0) (a ++ Raised t :: b)) = probes (run period (first_call t0) a) /\
  forall u, task (run period (first_call t0) (a ++ Raised t :: b ++ [Call u])) = Ready u.
Proof.
  intros period t0 a t b s T H. unfold run in *. rewrite !fold_left_app. cbn [fold_left].
  set (c := fold_left (step period) a (first_call t0)) in *.
  assert (D : task (step period c (Raised t)) = Dead) by (cbn [step]; rewrite T; reflexivity).
  assert (Q : probes (step period c (Raised t)) = probes c) by (cbn [step]; rewrite T; reflexivity).
  split.
  - rewrite <- Q. apply (dead_run period b _ D H).
  - intros u. rewrite fold_left_app. cbn [fold_left]. rewrite fold_left_app. cbn [fold_left].
    assert (G : forall b c, task c = Dead -> forallb (fun x => negb (a_call x)) b = true -> task (fold_left (step period) b c) = Dead).
    { clear. induction b as [|x b IH]; intros c D H; [exact D|]. cbn [forallb] in H. apply andb_true_iff in H as (H1 & H2). cbn [fold_left].
      apply IH; [|exact H2]. destruct x; cbn [step] in *; try discriminate; rewrite ?D; auto. }
    change (match task (fold_left (step period) b (step period c (Raised t))) with Dead => Ready u | p => p end = Ready u).
    rewrite (G b _ D H). reflexivity.
Qed.
Example C145_failure_ex : task (run 60 (first_call 1000) [Woke 1000]) = Probing 1000 /\
  probes (run 60 (first_call 1000) [Woke 1000; Raised 1003; Answer 1004; Woke 1063; Woke 2000]) = [1000].
Proof. split; reflexivity. Qed.

(** A heartbeat is sent only when the last answer and the last acknowledgement are more than a period old. *)
Theorem C145_only_when_silent : forall period t0 xs t,
  0 <= t0 -> forward t0 (xs ++ [Woke t]) ->
  probes (run period (first_call t0) (xs ++ [Woke t])) <> probes (run period (first_call t0) xs) ->
  (forall u, In (Answer u) xs -> u < t - period) /\
  (forall a u b s, xs = a ++ Acked u :: b -> task (run period (first_call t0) a) = Probing s -> u < t - period).
Proof.
  intros period t0 xs t H0 F N.
  assert (F' : forward t0 xs).
  { clear N. revert t0 H0 F. induction xs as [|x xs IH]; intros t0 H0 F; cbn [forward app] in *; [exact I|]. destruct F as (F1 & F2).
    split; [exact F1|]. apply IH; auto. lia. }
  assert (E : run period (first_call t0) (xs ++ [Woke t]) = step period (run period (first_call t0) xs) (Woke t)).
  { unfold run. rewrite fold_left_app. reflexivity. }
  rewrite E in N. destruct (probes_step period (run period (first_call t0) xs) (Woke t)) as [K|(t' & K & _ & L)]; [contradiction|].
  injection K as <-. split.
  - intros u Hu. pose proof (last_answer period xs t0 (first_call t0) u H0 F' Hu). lia.
  - intros a u b s Hx Ht. pose proof (last_now period xs t0 (first_call t0) H0 F' a (Acked u) b Hx) as K. cbn [at_time] in K.
    assert (X : last (run period (first_call t0) (a ++ [Acked u])) = u).
    { unfold run in *. rewrite fold_left_app. cbn [fold_left step]. rewrite Ht. reflexivity. }
    specialize (K X). lia.
Qed.
Example C145_only_when_silent_ex : let xs := [Woke 1000; Acked 1000; Answer 1001; Woke 1060] in
  forward 1000 (xs ++ [Woke 1120]) /\ probes (run 60 (first_call 1000) (xs ++ [Woke 1120])) = [1120; 1000].
Proof. cbn. repeat split; lia. Qed.

(** Heartbeats are at least a period apart, however often the client is called, as long as none raises (after one that raised,
    the next call may start one at once). *)
Theorem C145_not_more_often_partial : forall period t0 xs,
  forward t0 xs -> patient period (first_call t0) xs -> forallb (fun x => negb (raised x)) xs = true ->
  spaced period (probes (run period (first_call t0) xs)).
Proof.
  intros period t0 xs F P R. apply (apart_run period xs t0); auto. unfold apart. cbn. repeat split; auto. intros p r E. discriminate.
Qed.
Example C145_not_more_often_partial_ex :
  let xs := [Woke 1000; Missed 1000; Call 1001; Call 1030; Woke 1060; Call 1061; Acked 1062; Call 1100; Woke 1123] in
  forward 1000 xs /\ patient 60 (first_call 1000) xs /\ forallb (fun x => negb (raised x)) xs = true /\
  probes (run 60 (first_call 1000) xs) = [1123; 1060; 1000].
Proof. cbn. repeat split; try lia; intros s t A B; try discriminate; injection A as <-; injection B as <-; lia. Qed.
Theorem C145_more_often_after_failure : exists period t0 xs, 0 < period /\ forward t0 xs /\ patient period (first_call t0) xs /\
  ~ spaced period (probes (run period (first_call t0) xs)).
Proof.
  exists 60, 1000, [Woke 1000; Raised 1001; Call 1002; Woke 1003]. split; [lia|]. split; [cbn; lia|]. split; [|cbn; lia].
  cbn. repeat split; intros s t A B; discriminate.
Qed.

(** A silent client does send one when its task looks: in particular at the first call, whatever that call itself does, unless
    its answer comes first. *)
Theorem C145_first : forall period t0 t, period < t -> probes (run period (first_call t0) [Woke t]) = [t].
Proof.
  intros period t0 t H. cbn [run fold_left step first_call task]. unfold check. cbn [last first_call]. replace (0 <? t - period) with true by lia. reflexivity.
Qed.
Theorem C145_sends_when_silent : forall period t0 xs s t,
  task (run period (first_call t0) xs) = Sleeping s -> last (run period (first_call t0) xs) < t - period ->
  probes (run period (first_call t0) (xs ++ [Woke t])) = t :: probes (run period (first_call t0) xs).
Proof.
  intros period t0 xs s t T L. unfold run in *. rewrite fold_left_app. cbn [fold_left step]. rewrite T. unfold check.
  replace (last _ <? t - period) with true by lia. reflexivity.
Qed.
Example C145_sends_when_silent_ex : let c := run 60 (first_call 1000) [Woke 1000; Missed 1001] in task c = Sleeping 1001 /\ last c = 0.
Proof. split; reflexivity. Qed.
Print Assumptions C145_never_silent_refuted. Print Assumptions C145_never_silent_partial. Print Assumptions C145_silent_after_failure.
Print Assumptions C145_failure. Print Assumptions C145_only_when_silent. Print Assumptions C145_first. Print Assumptions C145_sends_when_silent.
Print Assumptions C145_not_more_often_partial. Print Assumptions C145_more_often_after_failure.
