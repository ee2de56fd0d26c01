(** Proofs about the times of heartbeats. *)
From Coq Require Import List ZArith Bool Lia ZifyBool.
From Verif Require Import BeatModel BeatSpec.
Import ListNotations.
Local Open Scope Z_scope.

Section P.
Variables (period late long : Z).
Hypothesis Hl : 0 <= late.
Hypothesis Hp : 0 <= period.
Hypothesis Hg : 0 <= long.
Let B := period + Z.max period long + late.

Definition latest (c : client) : Z := hd 0 (activity c).
Record inv (now : Z) (c : client) : Prop := mkInv {
  inv_ne : activity c <> [];
  inv_now : latest c <= now;
  inv_last : last c <= latest c;
  inv_task : match task c with
             | Ready s => s <= latest c
             | Sleeping s => s - latest c <= Z.max period long
             | Probing s => s <= latest c
             | Dead => False end;
  inv_w : within B (activity c) }.

Lemma push t l : within B l -> l <> [] -> t - hd 0 l <= B -> within B (t :: l).
Proof. destruct l as [|y l]; [congruence|]. cbn. auto. Qed.

Lemma step_inv now c x : inv now c -> now <= at_time x -> raised x = false ->
  match task c with Ready s => at_time x <= s + late | Sleeping s => at_time x <= s + period + late | Probing s => at_time x <= s + long | Dead => True end ->
  inv (at_time x) (step period c x).
Proof.
  intros [N W L T S] Ht Hr P.
  assert (G : at_time x - hd 0 (activity c) <= B).
  { unfold B. unfold latest in *. destruct (task c); try contradiction; lia. }
  pose proof (push (at_time x) (activity c) S N G) as S'.
  unfold latest in *.
  destruct x as [t|t|t|t|t|t]; cbn [at_time step raised] in *; try discriminate.
  - constructor; cbn [activity last task]; unfold latest; cbn [activity hd]; try congruence; try lia; auto.
    destruct (task c); try contradiction; lia.
  - constructor; cbn [activity last task]; unfold latest; cbn [activity hd]; try congruence; try lia; auto.
    destruct (task c); try contradiction; lia.
  - assert (K : inv t (check period c t)).
    { unfold check. destruct (last c <? t - period) eqn:E; constructor; cbn [activity last task]; unfold latest; cbn [activity hd]; try congruence; auto; try lia. }
    destruct (task c) eqn:Q; [exact K|exact K| |contradiction]. constructor; unfold latest; auto; try lia. rewrite Q. lia.
  - destruct (task c) eqn:Q; try contradiction; constructor; cbn [activity last task]; unfold latest; cbn [activity hd]; rewrite ?Q; try congruence; auto; try lia.
  - destruct (task c) eqn:Q; try contradiction; constructor; cbn [activity last task]; unfold latest; cbn [activity hd]; rewrite ?Q; try congruence; auto; try lia.
Qed.
Lemma run_inv : forall xs now c, inv now c -> forward now xs -> prompt period late long c xs -> forallb (fun x => negb (raised x)) xs = true ->
  within B (activity (run period c xs)).
Proof.
  induction xs as [|x xs IH]; intros now c I F P R; [apply (inv_w now c I)|].
  cbn [forward prompt forallb] in *. apply andb_true_iff in R as (R1 & R2). destruct F as (F1 & F2), P as (P1 & P2).
  apply (IH (at_time x) (step period c x)); auto. apply (step_inv now); auto. destruct (raised x); [discriminate|reflexivity].
Qed.
Lemma first_inv t0 : 0 <= t0 -> inv t0 (first_call t0).
Proof. intros H. constructor; cbn; try congruence; auto; lia. Qed.
End P.

(** ** Heartbeats come only after silence *)
Lemma last_step period c x : last (step period c x) = last c \/ last (step period c x) = at_time x.
Proof.
  destruct x as [t|t|t|t|t|t]; cbn [step at_time]; auto.
  - unfold check. destruct (task c), (last c <? t - period); auto.
  - destruct (task c); auto.
  - destruct (task c); auto.
  - destruct (task c); auto.
Qed.
Lemma last_bounds period : forall xs now c, last c <= now -> forward now xs -> last c <= last (run period c xs).
Proof.
  induction xs as [|x xs IH]; intros now c L F; cbn [run fold_left]; [lia|]. cbn [forward] in F. destruct F as (F1 & F2).
  assert (X : last c <= last (step period c x) <= at_time x) by (destruct (last_step period c x); lia).
  specialize (IH (at_time x) (step period c x) (proj2 X) F2). unfold run in IH. lia.
Qed.
Lemma last_answer period : forall xs now c t, last c <= now -> forward now xs -> In (Answer t) xs -> t <= last (run period c xs).
Proof.
  induction xs as [|x xs IH]; intros now c t L F H; [destruct H|]. cbn [forward] in F. destruct F as (F1 & F2). cbn [run fold_left].
  assert (X : last (step period c x) <= at_time x) by (destruct (last_step period c x); lia).
  destruct H as [->|H].
  - apply (last_bounds period xs t (step period c (Answer t))) in F2; [|cbn; lia]. cbn [step last] in F2. exact F2.
  - apply (IH (at_time x) (step period c x) t X F2 H).
Qed.
Lemma probes_step period c x : probes (step period c x) = probes c \/
  (exists t, x = Woke t /\ probes (step period c x) = t :: probes c /\ last c < t - period).
Proof.
  destruct x as [t|t|t|t|t|t]; cbn [step]; auto; try (destruct (task c); auto; fail).
  destruct (task c); auto; unfold check; destruct (last c <? t - period) eqn:E; cbn [probes]; auto; right; exists t; repeat split; lia.
Qed.
Lemma dead_run period : forall xs c, task c = Dead -> forallb (fun x => negb (a_call x)) xs = true -> probes (run period c xs) = probes c.
Proof.
  induction xs as [|x xs IH]; intros c D R; [reflexivity|]. cbn [forallb] in R. apply andb_true_iff in R as (R1 & R2).
  cbn [run fold_left]. assert (X : task (step period c x) = Dead /\ probes (step period c x) = probes c).
  { destruct x; cbn [step] in *; try discriminate; rewrite ?D; auto. }
  destruct X as (X1 & X2). specialize (IH _ X1 R2). unfold run in IH. congruence.
Qed.
Lemma last_now period : forall xs now c, last c <= now -> forward now xs -> forall a x b, xs = a ++ x :: b ->
  last (run period c (a ++ [x])) = at_time x -> at_time x <= last (run period c xs).
Proof.
  intros xs now c L F a x b -> E.
  assert (G : forall a now c, last c <= now -> forward now (a ++ x :: b) -> last (run period c (a ++ [x])) = at_time x ->
    at_time x <= last (run period c (a ++ x :: b))).
  { clear. induction a as [|y a IH]; intros now c L F E; cbn [app forward] in *; destruct F as (F1 & F2).
    - cbn [run fold_left] in *. pose proof (last_bounds period b (at_time x) (step period c x)) as K. unfold run in K. rewrite <- E at 1. apply K; [lia|exact F2].
    - cbn [run fold_left] in *. apply (IH (at_time y)); auto. destruct (last_step period c y); lia. }
  apply (G a now c L F E).
Qed.

(** ** Heartbeats are a period apart *)
Definition apart (period now : Z) (c : client) : Prop :=
  spaced period (probes c) /\ (forall p r, probes c = p :: r -> p <= now) /\
  match task c with
  | Ready _ => probes c = []
  | Sleeping s | Probing s => s <= now /\ forall p r, probes c = p :: r -> p <= s
  | Dead => False
  end.
Lemma apart_step period now c x : apart period now c -> now <= at_time x -> raised x = false ->
  (forall s t, task c = Sleeping s -> x = Woke t -> s + period <= t) -> apart period (at_time x) (step period c x).
Proof.
  intros (S & N & T) Ht R P.
  assert (N' : forall p r, probes c = p :: r -> p <= at_time x) by (intros p r E; specialize (N p r E); lia).
  destruct x as [t|t|t|t|t|t]; cbn [step at_time raised] in *; try discriminate.
  - unfold apart. cbn [probes task]. destruct (task c); try contradiction; repeat split; auto; try lia; apply T.
  - unfold apart. cbn [probes task]. destruct (task c); try contradiction; repeat split; auto; try lia; apply T.
  - assert (Z : forall s, (task c = Ready s \/ task c = Sleeping s) -> apart period t (check period c t)).
    { intros s Q. unfold check. destruct (last c <? t - period); unfold apart; cbn [probes task].
      - assert (S' : spaced period (t :: probes c)).
        { destruct Q as [Q|Q]; rewrite Q in T; [rewrite T; exact I|]. destruct T as (_ & T). specialize (P s t Q eq_refl).
          destruct (probes c) as [|p r] eqn:E; [exact I|]. cbn [spaced]. split; [|exact S]. specialize (T p r eq_refl). lia. }
        repeat split; auto; try lia; intros p r E; injection E as <- <-; lia.
      - repeat split; auto; lia. }
    destruct (task c) as [s|s|s|] eqn:Q; [apply (Z s); auto|apply (Z s); auto| |contradiction].
    unfold apart. rewrite Q. repeat split; auto; try lia. apply T.
  - destruct (task c) as [s|s|s|] eqn:Q; try contradiction; unfold apart; cbn [probes task]; rewrite ?Q; repeat split; auto; try lia; apply T.
  - destruct (task c) as [s|s|s|] eqn:Q; try contradiction; unfold apart; cbn [probes task]; rewrite ?Q; repeat split; auto; try lia; apply T.
Qed.
Lemma apart_run period : forall xs now c, apart period now c -> forward now xs -> patient period c xs ->
  forallb (fun x => negb (raised x)) xs = true -> spaced period (probes (run period c xs)).
Proof.
  induction xs as [|x xs IH]; intros now c I F P R; [apply I|].
  cbn [forward patient forallb] in *. apply andb_true_iff in R as (R1 & R2). destruct F as (F1 & F2), P as (P1 & P2).
  apply (IH (at_time x) (step period c x)); auto. apply (apart_step period now); auto. destruct (raised x); [discriminate|reflexivity].
Qed.
