(** Proofs about the gathering loop. *)
From Coq Require Import List ZArith Bool String Lia ZifyBool ZifyNat.
From Verif Require Import GatherModel GatherSpec.
Import ListNotations.
Local Open Scope Z_scope.

Section P.
Variables (p t0 late : Z).
Hypothesis Hp : 0 < p.

Record inv (n : Z) (k : keeper) : Prop := mkInv {
  inv_p : period k = p;
  inv_ns : loop k <> Spinning;
  inv_sp : spaced (p * 1000) (p * (1000 + late)) (gathered k ++ [t0]);
  inv_as : forall c s, loop k = Asleep c s -> 0 <= c < p /\ c * 1000 <= s - hd t0 (gathered k) <= c * (1000 + late) /\
    n = p * Z.of_nat (List.length (gathered k)) + c }.

Lemma hd_app l : hd t0 (l ++ [t0]) = hd t0 l.
Proof. destruct l; reflexivity. Qed.
Lemma spaced_cons lo hi x l : lo <= x - hd t0 l <= hi -> spaced lo hi (l ++ [t0]) -> spaced lo hi ((x :: l) ++ [t0]).
Proof. intros H S. destruct l as [|y l]; cbn [app spaced] in *; auto. Qed.

Lemma start_inv o : inv 0 (start p t0 o).
Proof.
  unfold start, head. cbn [running period gathered]. destruct (0 <? p) eqn:E; [|lia]. constructor; cbn; try congruence; auto.
  intros c s [= <- <-]. cbn. lia.
Qed.
Lemma step_inv n k x : inv n k -> ~ sets_period x ->
  match x, loop k with Woken t _, Asleep _ since => since + 1000 <= t <= since + 1000 + late | _, _ => True end ->
  inv (if is_wake x then n + 1 else n) (fst (step k x)).
Proof.
  intros [P N S W] X T. unfold step. destruct (loop k) as [c since|  |e|] eqn:L; [| | |congruence].
  2-3: destruct x as [t o|q| | |]; cbn [fst is_wake]; try (elim X; eexists; reflexivity);
    constructor; cbn [period loop gathered]; rewrite ?L; auto; try congruence; intros; congruence.
  destruct (W c since eq_refl) as (C & D & E).
  destruct x as [t o|q| | |]; cbn [fst is_wake].
  - unfold woken. destruct (running k) eqn:R; cbn [andb]; [|constructor; cbn [period loop gathered]; auto; try congruence; intros; congruence].
    destruct (c + 1 <? period k) eqn:Q; rewrite P in Q.
    + constructor; cbn [period loop gathered]; auto; try congruence. intros c' s' [= <- <-]. lia.
    + destruct o as [e|]; [constructor; cbn [period loop gathered]; auto; try congruence; intros; congruence|].
      unfold head. cbn [running period gathered]. rewrite P. destruct (0 <? p) eqn:Z0; [|lia].
      assert (c + 1 = p) as Cp by lia.
      constructor; cbn [period loop gathered]; auto; try congruence.
      * apply spaced_cons; [nia|exact S].
      * intros c' s' [= <- <-]. cbn [hd List.length]. lia.
  - elim X. eexists. reflexivity.
  - constructor; cbn [period loop gathered]; rewrite ?L; auto; congruence.
  - constructor; cbn [period loop gathered]; auto; try congruence; intros; congruence.
  - constructor; auto; rewrite ?L; auto; congruence.
Qed.
Lemma run_inv : forall xs n k, inv n k -> Forall (fun x => ~ sets_period x) xs -> punctual late k xs ->
  inv (n + wakes xs) (fst (run k xs)) /\ ~ In false (snd (run k xs)).
Proof.
  induction xs as [|x xs IH]; intros n k I F T; cbn [run].
  - unfold wakes. cbn. replace (n + 0) with n by lia. auto.
  - inversion_clear F as [|? ? F1 F2]. cbn [punctual] in T. destruct T as (T1 & T2).
    pose proof (step_inv n k x I F1 T1) as I1. 
    assert (B : snd (step k x) = true).
    { pose proof (inv_ns n k I). unfold step. destruct (loop k); [| | |congruence]; destruct x; reflexivity. }
    destruct (step k x) as (k1, b). cbn [fst snd] in *. destruct (IH _ k1 I1 F2 T2) as (I2 & G2).
    destruct (run k1 xs) as (k2, bs). cbn [fst snd] in *. split.
    + replace (n + wakes (x :: xs)) with ((if is_wake x then n + 1 else n) + wakes xs); [exact I2|].
      unfold wakes. cbn [filter]. destruct (is_wake x); cbn [List.length]; lia.
    + intros [Y|Y]; [congruence|contradiction].
Qed.
End P.

(** ** Whatever the period *)
Lemma spin_run k xs : loop k = Spinning -> run k xs = (k, map (fun _ => false) xs).
Proof.
  intros H. induction xs as [|x xs IH]; cbn [run map]; [reflexivity|]. unfold step. rewrite H. rewrite IH. reflexivity.
Qed.
(** Not running, and not to gather again *)
Definition over (k : keeper) : Prop := running k = false /\ loop k <> Spinning.
Lemma over_step k x : over k -> over (fst (step k x)) /\ gathered (fst (step k x)) = gathered k.
Proof.
  intros (R & N). unfold step. destruct (loop k) as [c s| |e|] eqn:L; [| | |congruence];
    destruct x as [t o|q| | |]; cbn [fst]; unfold over; cbn [running loop gathered]; rewrite ?L; repeat split; auto; try congruence.
  - unfold woken. rewrite R. reflexivity.
  - unfold woken. rewrite R. cbn. discriminate.
  - unfold woken. rewrite R. reflexivity.
Qed.
Lemma over_run : forall xs k, over k -> gathered (fst (run k xs)) = gathered k.
Proof.
  induction xs as [|x xs IH]; intros k O; cbn [run]; [reflexivity|]. destruct (over_step k x O) as (O1 & G).
  destruct (step k x) as (k1, b). cbn [fst] in *. specialize (IH k1 O1). destruct (run k1 xs). cbn [fst] in *. congruence.
Qed.
(** Ended by an exception or for good *)
Lemma dead_run : forall xs k, (forall c s, loop k <> Asleep c s) -> gathered (fst (run k xs)) = gathered k.
Proof.
  induction xs as [|x xs IH]; intros k D; cbn [run]; [reflexivity|].
  assert (X : (forall c s, loop (fst (step k x)) <> Asleep c s) /\ gathered (fst (step k x)) = gathered k).
  { unfold step. destruct (loop k) as [c s| |e|] eqn:L; [elim (D c s eq_refl)| | |]; destruct x; cbn [fst loop gathered]; rewrite ?L; split; auto; discriminate. }
  destruct X as (D1 & G). destruct (step k x) as (k1, b). cbn [fst] in *. specialize (IH k1 D1). destruct (run k1 xs). cbn [fst] in *. congruence.
Qed.
