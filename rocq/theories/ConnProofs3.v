(** Schedules in which a persistent client opens any number of connections that all stay open. *)
From Coq Require Import List ZArith NArith Bool String Lia Arith.
From Verif Require Import RouterModel ClientModel ClientSpec ClientProofs ClientProofs2 EndSpec EndProofs ConnSpec ConnProofs ConnProofs2.
Import ListNotations.
Local Open Scope Z_scope.

(** First calls made at the same time. *)
Definition all_open (s : pclient) : Prop := forall c, (0 < c < nchan s)%nat -> dead (chans s c) = false.
Lemma starts_k max (H : 0 < max) k : let s := prun max (repeat (PStart false) k) in
  connected s = false /\ nchan s = 1%nat /\ ntasks s = k /\ forall i, (i < k)%nat -> tasks s i = POpen 0 true.
Proof.
  induction k as [|k IH]; cbv zeta; [repeat split; intros; lia|]. cbv zeta in IH. replace (S k) with (k + 1)%nat by lia. rewrite repeat_app. cbn [repeat]. rewrite snoc_run.
  destruct IH as (I1 & I2 & I3 & I4). cbn [ClientModel.pstep orb]. assert (0 <? max = true) as -> by lia. unfold begin_attempt. cbn [connected]. rewrite I1.
  cbn [set_task connected nchan ntasks tasks]. rewrite I3. repeat split; auto; [lia|].
  intros i Hi. destruct (Nat.eq_dec i k) as [->|N]; [now rewrite fupd_same|rewrite fupd_other by exact N]. apply I4. lia.
Qed.
Lemma opens_k max k : forall s m, (forall i, (m <= i < m + k)%nat -> tasks s i = POpen 0 true) -> (m + k <= ntasks s)%nat -> (1 <= nchan s)%nat -> all_open s ->
  let d := fold_left (pstep max) (map POpened (seq m k)) s in nchan d = (nchan s + k)%nat /\ all_open d.
Proof.
  induction k as [|k IH]; intros s m H N C A; cbv zeta; cbn [seq map fold_left]; [split; [lia|exact A]|].
  set (s1 := pstep max s (POpened m)).
  assert (F : nchan s1 = S (nchan s) /\ ntasks s1 = ntasks s /\ all_open s1 /\ forall i, i <> m -> tasks s1 i = tasks s i).
  { unfold s1. cbn [ClientModel.pstep]. unfold plive. assert (Nat.ltb m (ntasks s) = true) as -> by (apply Nat.ltb_lt; lia). rewrite (H m) by lia. cbv zeta.
    rewrite nchan_write, ntasks_write. cbn [nchan ntasks]. repeat split.
    - intros c Hc. rewrite nchan_write in Hc. cbn [nchan] in Hc.
      assert (D : forall k0, (0 < k0 < S (nchan s))%nat -> dead (fupd (chans s) (nchan s) (mkChan [] [] false) k0) = false).
      { intros j Hj. destruct (Nat.eq_dec j (nchan s)) as [->|Nj]; [now rewrite fupd_same|rewrite fupd_other by exact Nj]. apply A. lia. }
      unfold write_and_read. cbn [holder waiters count_try set_chan cur chans].
      assert (G : dead (fupd (fupd (chans s) (nchan s) (mkChan [] [] false)) (nchan s) (mkChan (unans (fupd (chans s) (nchan s) (mkChan [] [] false) (nchan s)) ++ [m]) (inbox (fupd (chans s) (nchan s) (mkChan [] [] false) (nchan s))) (dead (fupd (chans s) (nchan s) (mkChan [] [] false) (nchan s)))) c) = false).
      { destruct (Nat.eq_dec c (nchan s)) as [->|Nc]; [rewrite !fupd_same; reflexivity|rewrite fupd_other by exact Nc; now apply D]. }
      destruct (holder s); [exact G|]. destruct (waiters s); exact G.
    - intros i Hi. match goal with |- tasks (write_and_read ?d _ _) _ = _ => destruct (tasks_write d m 0 i) as [[E _]|[E _]] end; [exact E|contradiction]. }
  destruct F as (F1 & F2 & F3 & F4). destruct (IH s1 (S m)) as [G1 G2].
  - intros i Hi. rewrite F4 by lia. apply H. lia.
  - rewrite F2. lia.
  - lia.
  - exact F3.
  - cbv zeta in *. split; [rewrite G1; lia|exact G2].
Qed.
Theorem racing_k max k : 0 < max -> exists evs, (forall e, In e evs -> e = PStart false \/ exists i, e = POpened i) /\ opened (prun max evs) = k /\ forall c, (1 <= c <= k)%nat -> open_now (prun max evs) c.
Proof.
  intros H. exists (repeat (PStart false) k ++ map POpened (seq 0 k)). split.
  - intros e He. apply in_app_or in He as [He|He]; [left; now apply repeat_spec in He|right]. apply in_map_iff in He as (i & <- & _). now exists i.
  - destruct (starts_k max H k) as (_ & S2 & S3 & S4). unfold prun in *. rewrite fold_left_app.
    destruct (opens_k max k (fold_left (pstep max) (repeat (PStart false) k) pstart) 0) as [G1 G2].
    + intros i Hi. apply S4. lia.
    + rewrite S3. lia.
    + rewrite S2. lia.
    + intros c Hc. rewrite S2 in Hc. lia.
    + cbv zeta in *. unfold opened, open_now. rewrite G1, S2. split; [reflexivity|]. intros c Hc. split; [lia|]. apply G2. rewrite G1, S2. lia.
Qed.

(** One call at a time: a call times out, its response comes late, and the next heartbeat reads it. *)
Definition round (k : nat) : list pev :=
  [PStart false; POpened (2 * k); PTimeout (2 * k); PAnswer (S k); PStart true; PData (S (2 * k))].
Fixpoint rounds (k : nat) : list pev := match k with O => [] | S m => rounds m ++ round m end.
Record Rd (k : nat) (s : pclient) : Prop := {
  d_con : connected s = false; d_n : nchan s = S k; d_h : holder s = None; d_w : waiters s = []; d_t : ntasks s = (2 * k)%nat;
  d_done : forall j, exists o, tasks s j = PDone o; d_open : all_open s }.

Lemma step1 cu nc ch su i ts be tr : pstep 1 (mkP false cu nc ch None [] su i ts be tr) (PStart false) =
  mkP false cu nc ch None [] false (S i) (fupd ts i (POpen 0 true)) (fupd be i false) (fupd tr i 0%nat).
Proof. reflexivity. Qed.
Lemma step2 cu nc ch i ts be tr : pstep 1 (mkP false cu nc ch None [] false (S i) (fupd ts i (POpen 0 true)) be tr) (POpened i) =
  mkP true nc (S nc) (fupd (fupd ch nc (mkChan [] [] false)) nc (mkChan [i] [] false)) (Some i) [] false (S i) (fupd (fupd ts i (POpen 0 true)) i (PRead 0 nc)) be (fupd tr i (S (tr i))).
Proof.
  cbn [ClientModel.pstep]. unfold plive. cbn [ntasks tasks]. rewrite fupd_same. assert (Nat.ltb i (S i) = true) as -> by (apply Nat.ltb_lt; lia).
  cbv zeta. unfold write_and_read. cbn [holder waiters count_try set_chan set_task set_lock connected cur nchan chans psuccess ntasks tasks beat tries]. now rewrite fupd_same.
Qed.
Lemma step3 cu nc ch i ts be tr : be i = false -> pstep 1 (mkP true cu nc ch (Some i) [] false (S i) (fupd ts i (PRead 0 cu)) be tr) (PTimeout i) =
  mkP true cu nc ch None [] false (S i) (fupd (fupd ts i (PRead 0 cu)) i (PDone OMax)) be tr.
Proof.
  intros B. cbn [ClientModel.pstep]. unfold plive. cbn [ntasks tasks]. rewrite fupd_same. assert (Nat.ltb i (S i) = true) as -> by (apply Nat.ltb_lt; lia).
  cbv zeta. cbn [beat set_lock]. rewrite B. reflexivity.
Qed.
Lemma step4 cu nc ch n ts be tr i : pstep 1 (mkP true cu nc (fupd ch cu (mkChan [i] [] false)) None [] false n ts be tr) (PAnswer cu) =
  mkP true cu nc (fupd (fupd ch cu (mkChan [i] [] false)) cu (mkChan [] [i] false)) None [] false n ts be tr.
Proof. cbn [ClientModel.pstep chans]. rewrite fupd_same. reflexivity. Qed.
Lemma step5 cu nc ch n ts be tr i : pstep 1 (mkP true cu nc (fupd ch cu (mkChan [] [i] false)) None [] false n ts be tr) (PStart true) =
  mkP true cu nc (fupd (fupd ch cu (mkChan [] [i] false)) cu (mkChan [n] [i] false)) (Some n) [] false (S n) (fupd ts n (PRead 0 cu)) (fupd be n true) (fupd (fupd tr n 0%nat) n (S (fupd tr n 0%nat n))).
Proof.
  cbn [ClientModel.pstep orb]. unfold begin_attempt, write_and_read. cbn [holder waiters count_try set_chan set_task set_lock connected cur nchan chans psuccess ntasks tasks beat tries]. now rewrite fupd_same.
Qed.
Lemma step6 cu nc ch n ts be tr i : be i = false -> i <> n -> pstep 1 (mkP true cu nc (fupd ch cu (mkChan [n] [i] false)) (Some n) [] false (S n) (fupd ts n (PRead 0 cu)) (fupd be n true) tr) (PData n) =
  mkP false cu nc (fupd (fupd ch cu (mkChan [n] [i] false)) cu (mkChan [n] [] false)) None [] false (S n) (fupd (fupd ts n (PRead 0 cu)) n (PDone ONone)) (fupd be n true) tr.
Proof.
  intros B N. cbn [ClientModel.pstep]. unfold plive. cbn [ntasks tasks]. rewrite fupd_same. assert (Nat.ltb n (S n) = true) as -> by (apply Nat.ltb_lt; lia).
  cbn [chans]. rewrite !fupd_same. cbv zeta. cbn [inbox beat set_lock set_chan unans dead]. rewrite fupd_same, fupd_other, B by exact N. reflexivity.
Qed.
Lemma round_step k s : Rd k s ->
  (forall i, exists o, tasks (fold_left (pstep 1) [PStart false; POpened (2 * k); PTimeout (2 * k); PAnswer (S k)] s) i = PDone o) /\
  Rd (S k) (fold_left (pstep 1) (round k) s).
Proof.
  intros [C N H W T D O]. destruct s as [co cu nc ch ho wa su nt ts be tr]. cbn [connected nchan holder waiters ntasks tasks] in *. subst.
  unfold all_open in O. cbn [nchan chans] in O. unfold round. set (i := (2 * k)%nat) in *.
  cbn [fold_left]. rewrite step1, step2, step3, step4 by apply fupd_same. cbn [tasks].
  assert (D' : forall j, exists o, fupd (fupd (fupd ts i (POpen 0 true)) i (PRead 0 (S k))) i (PDone OMax) j = PDone o).
  { intros j. destruct (Nat.eq_dec j i) as [->|Hj]; [rewrite fupd_same; eauto|rewrite !fupd_other by exact Hj; apply D]. }
  split; [exact D'|]. rewrite step5, step6 by (try apply fupd_same; lia).
  constructor; cbn [connected nchan holder waiters ntasks tasks]; auto; [lia| |].
  - intros j. destruct (Nat.eq_dec j (S i)) as [->|Hj]; [rewrite fupd_same; eauto|rewrite 2 fupd_other by exact Hj; apply D'].
  - intros c Hc. cbn [nchan chans] in *. destruct (Nat.eq_dec c (S k)) as [->|Nc]; [rewrite fupd_same; reflexivity|rewrite !fupd_other by exact Nc]. apply O. lia.
Qed.
Lemma rounds_ok k : Rd k (prun 1 (rounds k)) /\ one_at_a_time 1 (rounds k).
Proof.
  induction k as [|k [I O]].
  - split; [|intros b hb a E; destruct b; discriminate]. constructor; cbn; auto; [intros; eauto|]. intros c Hc. cbn in Hc. lia.
  - destruct (round_step k _ I) as [M R]. cbn [rounds]. split; [unfold prun in *; now rewrite fold_left_app|].
    intros b hb a E. apply app_eq_app in E as (l & [[E1 E2]|[E1 E2]]).
    + destruct l as [|x l]; [|injection E2 as <- ->; apply (O b hb l); exact E1].
      rewrite app_nil_r in E1. subst b. intros j. apply (d_done _ _ I).
    + subst b. unfold round in E2. intros j. unfold prun in *. rewrite fold_left_app.
      destruct l as [|x1 l]; [cbn [fold_left]; apply (d_done _ _ I)|].
      do 3 (destruct l as [|? l]; [discriminate|]).
      destruct l as [|? l]; [cbn [app] in E2; injection E2; intros; subst; apply M|].
      destruct l as [|? l]; [discriminate|]. destruct l; discriminate.
Qed.
Theorem beats_k k : exists evs, one_at_a_time 1 evs /\ (forall e, In e evs -> match e with PDie _ | PCancel _ => False | _ => True end) /\
  opened (prun 1 evs) = k /\ forall c, (1 <= c <= k)%nat -> open_now (prun 1 evs) c.
Proof.
  exists (rounds k). destruct (rounds_ok k) as [R O]. split; [exact O|]. split.
  - clear. induction k as [|k IH]; cbn [rounds]; [intros e []|]. intros e He. apply in_app_or in He as [He|He]; [now apply IH|].
    unfold round in He. repeat (destruct He as [<-|He]; [exact I|]). destruct He.
  - unfold opened, open_now. rewrite (d_n _ _ R). split; [reflexivity|]. intros c Hc. split; [lia|]. apply (d_open _ _ R). rewrite (d_n _ _ R). lia.
Qed.
