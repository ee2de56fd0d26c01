(** Property C144: statistics are gathered once per period (statistics_keeper.py 152-166). *)
From Coq Require Import List ZArith Bool String Lia ZifyBool ZifyNat.
From Verif Require Import GatherModel GatherSpec GatherProofs.
Import ListNotations.
Local Open Scope Z_scope.

(** Whatever period is configured, gatherings are one period apart (as far as sleeps are punctual) and the rest of the
    application goes on. *)
Definition C144_every_period : Prop := forall p t0 late o xs, Forall (fun x => ~ sets_period x) xs -> punctual late (start p t0 o) xs ->
  spaced (p * 1000) (p * (1000 + late)) (gathered (fst (run (start p t0 o) xs)) ++ [t0]) /\ ~ In false (snd (run (start p t0 o) xs)).
(** False: with a period of 0 (ECOENV_STAT_GP=0) nothing else ever runs. *)
Theorem C144_every_period_refuted : ~ C144_every_period.
Proof.
  intros H. destruct (H 0 0 0 None [Other]) as (_ & X).
  - repeat constructor. intros (p & E). discriminate.
  - cbn. auto.
  - apply X. cbn. auto.
Qed.
Print Assumptions C144_every_period_refuted.
(** Precisely: with a period that is not positive, if gathering does not raise, no event of the application happens any more. *)
Theorem C144_blocked : forall p t0 xs, p <= 0 -> Forall (eq false) (snd (run (start p t0 None) xs)).
Proof.
  intros p t0 xs H. rewrite spin_run.
  - apply Forall_forall. intros b X. apply in_map_iff in X. destruct X as (x & <- & _). reflexivity.
  - unfold start, head. cbn. destruct (0 <? p) eqn:E; [lia|reflexivity].
Qed.
Print Assumptions C144_blocked.
(** The same if such a period is set later: it happens when the sleep is over. *)
Theorem C144_blocked_later : forall p t0 late o ys k t q xs, 0 < p -> Forall (fun x => ~ sets_period x) ys -> punctual late (start p t0 o) ys ->
  k = fst (run (start p t0 o) ys) -> going k -> running k = true -> q <= 0 ->
  snd (run k (SetPeriod q :: Woken t None :: xs)) = true :: true :: map (fun _ => false) xs.
Proof.
  intros p t0 late o ys k t q xs Hp F T E (c & s & L) R H.
  destruct (run_inv p t0 late Hp ys 0 _ (start_inv p t0 late Hp o) F T) as (I & _). rewrite <- E in I.
  destruct (inv_as _ _ _ _ _ I c s L) as (C & _).
  cbn [run]. unfold step at 1. rewrite L. unfold step at 1. cbn [loop].
  set (k2 := woken _ _ _ _). assert (X : loop k2 = Spinning).
  { subst k2. unfold woken. cbn [running period loop gathered]. rewrite R. cbn [andb]. destruct (c + 1 <? q) eqn:Q; [lia|].
    unfold head. cbn [running period gathered]. destruct (0 <? q) eqn:Z; [lia|reflexivity]. }
  rewrite (spin_run k2 xs X). reflexivity.
Qed.
Print Assumptions C144_blocked_later.

(** With a positive period: the first gathering one period after the start, each one period after the one before it, never
    earlier, and later only by the delays of as many sleeps as the period has seconds; everything else goes on. *)
Theorem C144_every_period_partial : forall p t0 late o xs, 0 < p -> Forall (fun x => ~ sets_period x) xs -> punctual late (start p t0 o) xs ->
  spaced (p * 1000) (p * (1000 + late)) (gathered (fst (run (start p t0 o) xs)) ++ [t0]) /\ ~ In false (snd (run (start p t0 o) xs)).
Proof.
  intros p t0 late o xs Hp F T. destruct (run_inv p t0 late Hp xs 0 _ (start_inv p t0 late Hp o) F T) as (I & B).
  split; [apply (inv_sp _ _ _ _ _ I)|exact B].
Qed.
Print Assumptions C144_every_period_partial.
(** As long as the loop goes on, none is left out: their number is the number of seconds slept, divided by the period. *)
Theorem C144_none_left_out_partial : forall p t0 late o xs, 0 < p -> Forall (fun x => ~ sets_period x) xs -> punctual late (start p t0 o) xs ->
  going (fst (run (start p t0 o) xs)) -> Z.of_nat (List.length (gathered (fst (run (start p t0 o) xs)))) = wakes xs / p.
Proof.
  intros p t0 late o xs Hp F T (c & s & L). destruct (run_inv p t0 late Hp xs 0 _ (start_inv p t0 late Hp o) F T) as (I & _).
  destruct (inv_as _ _ _ _ _ I c s L) as (C & _ & E). apply (Z.div_unique _ _ _ c); lia.
Qed.
Print Assumptions C144_none_left_out_partial.

(** Once the keeper is left or its task is cancelled nothing is gathered any more, *)
Theorem C144_stops : forall k x xs, loop k <> Spinning -> In x [Leave; Cancel] -> gathered (fst (run k (x :: xs))) = gathered k.
Proof.
  intros k x xs N H. cbn [run]. assert (O : over (fst (step k x)) /\ gathered (fst (step k x)) = gathered k).
  { unfold step. destruct (loop k) as [c s| |e|] eqn:L; [| | |congruence]; destruct H as [<-|[<-|[]]]; cbn [fst]; unfold over; cbn [running loop gathered];
      rewrite ?L; repeat split; discriminate. }
  destruct O as (O & G). destruct (step k x) as (k1, b). cbn [fst] in *. pose proof (over_run xs k1 O) as X.
  destruct (run k1 xs). cbn [fst] in *. congruence.
Qed.
Print Assumptions C144_stops.
(** and the loop ends at once, or when its sleep of one second is over. *)
Theorem C144_ends : forall k t o, going k -> loop (fst (run k [Cancel])) = Ended /\ loop (fst (run k [Leave; Woken t o])) = Ended.
Proof.
  intros k t o (c & s & L). cbn [run]. unfold step. rewrite L. cbn [loop fst running]. split; [reflexivity|].
  unfold woken. cbn [running]. reflexivity.
Qed.
Print Assumptions C144_ends.
(** A gathering that raises is the last. *)
Theorem C144_failure : forall k c s t e xs, loop k = Asleep c s -> running k = true -> period k <= c + 1 ->
  gathered (fst (run k (Woken t (Some e) :: xs))) = gathered k.
Proof.
  intros k c s t e xs L R H. cbn [run]. unfold step. rewrite L. unfold woken. rewrite R. cbn [andb]. destruct (c + 1 <? period k) eqn:Q; [lia|].
  pose proof (dead_run xs (mkKeeper true (period k) (Failed e) (gathered k))) as X.
  destruct (run (mkKeeper true (period k) (Failed e) (gathered k)) xs). cbn [fst gathered loop] in *. apply X. discriminate.
Qed.
Print Assumptions C144_failure.

(** A period of 2 seconds, started at 100 ms, sleeps up to 50 ms late *)
Definition ex_events : list ev := [Woken 1100 None; Other; Woken 2150 None; Woken 3150 None; Other; Woken 4160 None; Woken 5170 None].
Example C144_ex : gathered (fst (run (start 2 100 None) ex_events)) = [4160; 2150] /\ wakes ex_events = 5 /\
  going (fst (run (start 2 100 None) ex_events)) /\ running (fst (run (start 2 100 None) ex_events)) = true.
Proof. repeat split; try reflexivity. eexists _, _. reflexivity. Qed.
Example C144_ex_hypotheses : Forall (fun x => ~ sets_period x) ex_events /\ punctual 50 (start 2 100 None) ex_events.
Proof. split; [repeat constructor; intros (p & E); discriminate|cbn; lia]. Qed.
Example C144_ex_failure : let k := fst (run (start 2 100 None) ex_events) in
  loop k = Asleep 1 5170 /\ gathered (fst (run k [Woken 6170 (Some "TypeError"%string); Woken 7170 None; Woken 8170 None])) = [4160; 2150] /\
  gathered (fst (run k [Woken 6170 None])) = [6170; 4160; 2150].
Proof. repeat split; reflexivity. Qed.
