(** Connections of a persistent client. *)
From Coq Require Import List ZArith NArith Bool String Lia Arith.
From Verif Require Import RouterModel ClientModel ClientSpec ClientProofs ClientProofs2 EndSpec EndProofs ConnSpec.
Import ListNotations.
Local Open Scope Z_scope.

Section Persistent.
Context (max : Z).
Notation pstep := (pstep max).
Notation M := (Z.max 1 max).

(** ** How many connections each call opens *)
Definition allow (b : bool) (t : pstate) : Z :=
  if b then match t with POpen _ true => 1 | _ => 0 end
  else match t with
       | POpen n true | PSleep n => 2 * (M - n)
       | POpen n false | PWait n | PRead n _ => 2 * (M - n) - 1
       | PDone _ => 0
       end.
Definition beat_ok (b : bool) (t : pstate) : Prop := if b then match t with POpen _ false | PSleep _ => False | _ => True end else True.
Definition by_now (i : nat) (s : pclient) (e : pev) : nat := match e with POpened j => if Nat.eqb i j then opened (pstep s e) - opened s else 0 | _ => 0 end%nat.

Lemma allow_pos b t : range max t -> 0 <= allow b t.
Proof. destruct b, t as [n []|n|n c|n|o]; cbn [range allow]; lia. Qed.
Lemma tasks_write s i n j : tasks (write_and_read s i n) j = tasks s j /\ j <> i \/ j = i /\ (tasks (write_and_read s i n) j = PWait n \/ exists c, tasks (write_and_read s i n) j = PRead n c).
Proof.
  unfold write_and_read. cbn [holder waiters count_try set_chan].
  destruct (Nat.eq_dec j i) as [->|Hj]; [right; split; [reflexivity|]|left; split; [|exact Hj]].
  - destruct (holder s); [left; cbn; apply fupd_same|]. destruct (waiters s); [right; eexists|left]; cbn; apply fupd_same.
  - destruct (holder s); [cbn; now apply fupd_other|]. destruct (waiters s); cbn; now apply fupd_other.
Qed.
Lemma beat_write s i n : beat (write_and_read s i n) = beat s.
Proof. unfold write_and_read. cbn [holder waiters count_try set_chan]. destruct (holder s); [reflexivity|]. now destruct (waiters s). Qed.
Lemma nchan_write s i n : nchan (write_and_read s i n) = nchan s.
Proof. unfold write_and_read. cbn [holder waiters count_try set_chan]. destruct (holder s); [reflexivity|]. now destruct (waiters s). Qed.

Ltac other i j := destruct (Nat.eq_dec i j) as [->|?]; [rewrite ?fupd_same|rewrite ?fupd_other by assumption].
(** One step of a task that has begun. *)
Lemma allow_step s e i : LInv max (holder s) (waiters s) (ntasks s) (tasks s) -> (i < ntasks s)%nat -> beat_ok (beat s i) (tasks s i) ->
  beat (pstep s e) i = beat s i /\ beat_ok (beat s i) (tasks (pstep s e) i) /\
  Z.of_nat (by_now i s e) + allow (beat s i) (tasks (pstep s e) i) <= allow (beat s i) (tasks s i).
Proof.
  intros I Hi B. assert (RG : forall j, range max (tasks s j)) by apply (l_range _ _ _ _ _ I).
  assert (R : forall e', by_now i s e' = 0%nat -> beat s i = beat s i /\ beat_ok (beat s i) (tasks s i) /\ Z.of_nat (by_now i s e') + allow (beat s i) (tasks s i) <= allow (beat s i) (tasks s i)).
  { intros e' ->. repeat split; [exact B|lia]. }
  assert (Z0 : forall d : pclient, beat d i = beat s i -> tasks d i = tasks s i -> forall k, k = 0%nat ->
     beat d i = beat s i /\ beat_ok (beat s i) (tasks d i) /\ Z.of_nat k + allow (beat s i) (tasks d i) <= allow (beat s i) (tasks s i)).
  { intros d E1 E2 k ->. rewrite E2. repeat split; [exact E1|exact B|lia]. }
  destruct e as [b|j|j x| |j|j x|j|j|j|c|c]; cbn [by_now].
  - cbn [ClientModel.pstep]. apply Z0; [| |reflexivity].
    + destruct (b || (0 <? max)); [|cbn; apply fupd_other; lia]. unfold begin_attempt. cbn [connected]. destruct (connected s); [rewrite beat_write|]; cbn; apply fupd_other; lia.
    + destruct (b || (0 <? max)); [|cbn; apply fupd_other; lia]. unfold begin_attempt. cbn [connected]. destruct (connected s); [|cbn; apply fupd_other; lia].
      match goal with |- tasks (write_and_read ?d _ _) _ = _ => destruct (tasks_write d (ntasks s) 0 i) as [[E _]|[E _]] end; [exact E|lia].
  - cbn [ClientModel.pstep]. destruct (plive s j) eqn:Lv; [|apply Z0; auto; destruct (Nat.eqb i j); lia].
    destruct (tasks s j) as [n fr|n|n c|n|o] eqn:T; try (apply Z0; auto; destruct (Nat.eqb i j); lia). pose proof (RG j) as Rn. rewrite T in Rn. cbn [range] in Rn.
    cbv zeta. destruct fr.
    + rewrite beat_write. unfold opened. rewrite nchan_write. cbn [beat nchan Nat.pred].
      match goal with |- context [tasks (write_and_read ?d j n) i] => destruct (tasks_write d j n i) as [[E Ne]|[-> [E|[c E]]]] end; rewrite E; cbn [tasks].
      * apply Nat.eqb_neq in Ne. rewrite Ne. repeat split; [exact B|lia].
      * rewrite Nat.eqb_refl, T. destruct (beat s j); cbn [beat_ok allow]; repeat split; lia.
      * rewrite Nat.eqb_refl, T. destruct (beat s j); cbn [beat_ok allow]; repeat split; lia.
    + unfold retry_logic, opened. destruct (max <=? n + 1) eqn:L; cbn [set_task tasks beat nchan Nat.pred].
      * destruct (Nat.eqb_spec i j) as [->|Ne]; [rewrite fupd_same, T in *|rewrite fupd_other by exact Ne; repeat split; [exact B|lia]].
        destruct (beat s j); cbn [beat_ok allow] in *; repeat split; try contradiction; lia.
      * destruct (Nat.eqb_spec i j) as [->|Ne]; [rewrite fupd_same, T in *|rewrite fupd_other by exact Ne; repeat split; [exact B|lia]].
        destruct (beat s j); cbn [beat_ok allow] in *; repeat split; try contradiction; lia.
  - cbn [ClientModel.pstep]. destruct (plive s j); [|apply Z0; auto]. destruct (tasks s j) as [n fr|n|n c|n|o] eqn:T; try (apply Z0; auto; fail). pose proof (RG j) as Rn. rewrite T in Rn. cbn [range] in Rn.
    destruct fr; [destruct (beat s j) eqn:Bj|]; [| |].
    + cbn [set_task tasks beat]. other i j; repeat split; try assumption; try lia; rewrite ?T, ?Bj; cbn [beat_ok allow]; try exact Logic.I; lia.
    + destruct x; cbn [failed]; unfold retry_logic; [destruct (max <=? n + 1) eqn:L|..]; cbn [set_task set_connected tasks beat]; (other i j; repeat split; try assumption; try lia; rewrite ?T, ?Bj; cbn [beat_ok allow]; try exact Logic.I; lia).
    + cbn [set_task tasks beat]. other i j; repeat split; try assumption; try lia; rewrite ?T; destruct (beat s j); cbn [beat_ok allow]; try exact Logic.I; lia.
  - cbn [ClientModel.pstep]. destruct (holder s); [apply Z0; auto|]. destruct (waiters s) as [|j r]; [apply Z0; auto|]. destruct (tasks s j) as [n fr|n|n c|n|o] eqn:T; try (apply Z0; auto; fail).
    cbn [set_task set_lock tasks beat]. other i j; repeat split; try assumption; try lia; rewrite ?T; destruct (beat s j); cbn [beat_ok allow]; try exact Logic.I; lia.
  - cbn [ClientModel.pstep]. destruct (plive s j); [|apply Z0; auto]. destruct (tasks s j) as [n fr|n|n c|n|o] eqn:T; try (apply Z0; auto; fail). pose proof (RG j) as Rn. rewrite T in Rn. cbn [range] in Rn.
    destruct (inbox (chans s c)) as [|r rest]; [apply Z0; auto|]. cbv zeta. cbn [beat set_lock set_chan].
    destruct (beat s j) eqn:Bj; [destruct (beat s r)|]; cbn [set_task set_connected set_success set_lock set_chan tasks beat]; (other i j; repeat split; try assumption; try lia; rewrite ?T, ?Bj; cbn [beat_ok allow]; try exact Logic.I; lia).
  - cbn [ClientModel.pstep]. destruct (plive s j); [|apply Z0; auto]. destruct (tasks s j) as [n fr|n|n c|n|o] eqn:T; try (apply Z0; auto; fail). pose proof (RG j) as Rn. rewrite T in Rn. cbn [range] in Rn.
    destruct (dead (chans s c) && _); [|apply Z0; auto]. cbv zeta. cbn [beat set_lock set_chan].
    destruct (beat s j) eqn:Bj.
    + destruct x; cbn [set_task set_connected set_success set_lock set_chan tasks beat]; (other i j; repeat split; try assumption; try lia; rewrite ?T, ?Bj; cbn [beat_ok allow]; try exact Logic.I; lia).
    + destruct x; cbn [failed]; unfold retry_logic; [destruct (max <=? n + 1) eqn:L|..]; cbn [set_task set_connected set_success set_lock set_chan tasks beat]; (other i j; repeat split; try assumption; try lia; rewrite ?T, ?Bj; cbn [beat_ok allow]; try exact Logic.I; lia).
  - cbn [ClientModel.pstep]. destruct (plive s j); [|apply Z0; auto]. destruct (tasks s j) as [n fr|n|n c|n|o] eqn:T; try (apply Z0; auto; fail). pose proof (RG j) as Rn. rewrite T in Rn. cbn [range] in Rn.
    cbv zeta. cbn [beat set_lock]. destruct (beat s j) eqn:Bj; [|cbn [failed]; unfold retry_logic; destruct (max <=? n + 1) eqn:L]; cbn [set_task set_lock tasks beat]; (other i j; repeat split; try assumption; try lia; rewrite ?T, ?Bj; cbn [beat_ok allow]; try exact Logic.I; lia).
  - cbn [ClientModel.pstep]. destruct (plive s j); [|apply Z0; auto]. pose proof (RG j) as Rn.
    destruct (tasks s j) as [n fr|n|n c|n|o] eqn:T; try (apply Z0; auto; fail); cbn [range] in Rn; cbn [set_task set_lock tasks beat]; (other i j; repeat split; try assumption; try lia; rewrite ?T; destruct (beat s j); cbn [beat_ok allow]; try exact Logic.I; try destruct fr; lia).
  - cbn [ClientModel.pstep]. destruct (plive s j); [|apply Z0; auto]. destruct (tasks s j) as [n fr|n|n c|n|o] eqn:T; try (apply Z0; auto; fail). pose proof (RG j) as Rn. rewrite T in Rn. cbn [range] in Rn.
    destruct ((n <? max) && negb (psuccess s)).
    + unfold begin_attempt. destruct (connected s).
      * rewrite beat_write. destruct (tasks_write s j n i) as [[E Ne]|[-> [E|[c E]]]]; rewrite E; [repeat split; [exact B|lia]|..];
          (rewrite T in *; destruct (beat s j); cbn [beat_ok allow] in *; repeat split; try contradiction; lia).
      * cbn [set_task tasks beat]. other i j; [|repeat split; [exact B|lia]]. rewrite T in *. destruct (beat s j); cbn [beat_ok allow] in *; repeat split; try contradiction; lia.
    + cbn [set_task tasks beat]. other i j; [|repeat split; [exact B|lia]]. rewrite T in *. destruct (beat s j); cbn [beat_ok allow] in *; repeat split; try contradiction; lia.
  - cbn [ClientModel.pstep]. destruct (unans (chans s c)); [apply Z0; auto|]. destruct (dead (chans s c)); apply Z0; auto.
  - cbn [ClientModel.pstep]. apply Z0; auto.
Qed.
Notation Inv s := (LInv max (holder s) (waiters s) (ntasks s) (tasks s)).
Lemma step_inv s e : Inv s -> Inv (pstep s e).
Proof.
  intros I. assert (Q : not_start e -> Inv (pstep s e)) by (intros NS; now apply pstep_good).
  destruct e; try (apply Q; exact Logic.I). now apply start_good.
Qed.
Lemma ntasks_write s i n : ntasks (write_and_read s i n) = ntasks s.
Proof. unfold write_and_read. cbn [holder waiters count_try set_chan]. destruct (holder s); [reflexivity|]. now destruct (waiters s). Qed.
Lemma step_ntasks s e : Inv s -> ntasks (pstep s e) = match e with PStart _ => S (ntasks s) | _ => ntasks s end.
Proof.
  intros I. assert (Q : not_start e -> ntasks (pstep s e) = ntasks s) by (intros NS; now destruct (pstep_good max s e I NS) as [[E _] _]).
  destruct e as [b| | | | | | | | | | ]; try (apply Q; exact Logic.I). cbn [ClientModel.pstep]. destruct (b || (0 <? max)); [|reflexivity].
  unfold begin_attempt. cbn [connected]. destruct (connected s); [now rewrite ntasks_write|reflexivity].
Qed.
Lemma start_task s b : Inv s -> let d := pstep s (PStart b) in
  beat d (ntasks s) = b /\ beat_ok b (tasks d (ntasks s)) /\ allow b (tasks d (ntasks s)) <= if b then 1 else 2 * M.
Proof.
  intros I. cbn [ClientModel.pstep]. cbv zeta. destruct (b || (0 <? max)).
  - unfold begin_attempt. cbn [connected]. destruct (connected s).
    + rewrite beat_write. cbn [beat]. rewrite fupd_same. split; [reflexivity|].
      match goal with |- context [tasks (write_and_read ?d ?i ?n) ?j] => pose proof (tasks_write d i n j) as W end.
      destruct W as [[_ E]|[_ [E|[c E]]]]; [now destruct E| |]; rewrite E; destruct b; cbn [beat_ok allow]; (split; [exact Logic.I|lia]).
    + cbn [set_task tasks beat]. rewrite !fupd_same. split; [reflexivity|]. destruct b; cbn [beat_ok allow]; split; try exact Logic.I; lia.
  - cbn [set_task tasks beat]. rewrite !fupd_same. split; [reflexivity|]. destruct b; cbn [beat_ok allow]; split; try exact Logic.I; lia.
Qed.
Lemma by_now_new s e i : (ntasks s <= i)%nat -> by_now i s e = 0%nat.
Proof.
  intros H. destruct e as [b|j| | | | | | | | | ]; try reflexivity. cbn [by_now]. destruct (Nat.eqb_spec i j) as [->|]; [|reflexivity]. cbn [ClientModel.pstep].
  unfold plive. destruct (Nat.ltb_spec j (ntasks s)); lia.
Qed.
Lemma begun_bound i evs : forall s, Inv s -> (i < ntasks s)%nat -> beat_ok (beat s i) (tasks s i) ->
  beat (fold_left pstep evs s) i = beat s i /\ Z.of_nat (opened_by max i s evs) <= allow (beat s i) (tasks s i).
Proof.
  induction evs as [|e evs IH]; intros s I Hi B; cbn [opened_by fold_left].
  - split; [reflexivity|]. apply allow_pos. apply (l_range _ _ _ _ _ I).
  - destruct (allow_step s e i I Hi B) as (E & B' & A). pose proof (step_inv s e I) as I'.
    assert (Hi' : (i < ntasks (pstep s e))%nat) by (rewrite step_ntasks by exact I; destruct e; lia).
    rewrite <- E in B'. destruct (IH _ I' Hi' B') as [E1 E2]. split; [now rewrite E1|]. rewrite E in E2.
    change (match e with POpened j => if Nat.eqb i j then (opened (pstep s e) - opened s)%nat else 0%nat | _ => 0%nat end) with (by_now i s e). lia.
Qed.
Lemma opened_by_bound i evs : forall s, Inv s -> (ntasks s <= i)%nat ->
  Z.of_nat (opened_by max i s evs) <= if beat (fold_left pstep evs s) i then 1 else 2 * M.
Proof.
  induction evs as [|e evs IH]; intros s I Hi; cbn [opened_by fold_left].
  - destruct (beat s i); lia.
  - pose proof (step_inv s e I) as I'. pose proof (step_ntasks s e I) as N.
    change (match e with POpened j => if Nat.eqb i j then (opened (pstep s e) - opened s)%nat else 0%nat | _ => 0%nat end) with (by_now i s e).
    rewrite by_now_new by exact Hi. cbn [plus].
    destruct (Nat.lt_ge_cases i (ntasks (pstep s e))) as [L|L]; [|now apply IH].
    destruct e as [b| | | | | | | | | | ]; try lia. assert (i = ntasks s) as -> by lia.
    destruct (start_task s b I) as (E & B & A). cbv zeta in *. assert (B1 : beat_ok (beat (pstep s (PStart b)) (ntasks s)) (tasks (pstep s (PStart b)) (ntasks s))) by now rewrite E.
    destruct (begun_bound (ntasks s) evs _ I' L B1) as [E1 E2]. rewrite E1, E in *. destruct b; lia.
Qed.
(** Every connection was opened by some task. *)
Definition total (f : nat -> nat) (n : nat) : nat := list_sum (map f (seq 0 n)).
Lemma total_S f n : total f (S n) = (total f n + f n)%nat.
Proof. unfold total. rewrite seq_S, map_app, list_sum_app. cbn. lia. Qed.
Lemma total_add f g n : total (fun i => f i + g i)%nat n = (total f n + total g n)%nat.
Proof. induction n as [|n IH]; [reflexivity|]. rewrite !total_S, IH. lia. Qed.
Lemma total_zero f n : (forall i, (i < n)%nat -> f i = 0%nat) -> total f n = 0%nat.
Proof. induction n as [|n IH]; intros H; [reflexivity|]. rewrite total_S, IH, H by (auto; lia). lia. Qed.
Lemma total_one j x n : total (fun i => if Nat.eqb i j then x else 0%nat) n = if Nat.ltb j n then x else 0%nat.
Proof.
  induction n as [|n IH]; [reflexivity|]. rewrite total_S, IH. destruct (Nat.eqb_spec n j), (Nat.ltb_spec j n), (Nat.ltb_spec j (S n)); lia.
Qed.
Lemma nchan_step s e : (1 <= nchan s)%nat -> nchan (pstep s e) = nchan s \/ (exists j, e = POpened j /\ (j < ntasks s)%nat) /\ nchan (pstep s e) = S (nchan s).
Proof.
  intros H. destruct e as [b|j|j x| |j|j x|j|j|j|c|c]; cbn [ClientModel.pstep].
  - left. destruct (b || (0 <? max)); [|reflexivity]. unfold begin_attempt. cbn [connected]. destruct (connected s); [now rewrite nchan_write|reflexivity].
  - unfold plive. destruct (Nat.ltb_spec j (ntasks s)); [|now left]. destruct (tasks s j) as [n fr|n|n c|n|o]; auto. right. split; [eauto|].
    cbv zeta. destruct fr; [now rewrite nchan_write|]. unfold retry_logic. now destruct (max <=? n + 1).
  - left. destruct (plive s j); [|reflexivity]. destruct (tasks s j) as [n [|]|n|n c|n|o]; try reflexivity. destruct (beat s j); [reflexivity|].
    destruct x; cbn [failed]; unfold retry_logic; try reflexivity. now destruct (max <=? n + 1).
  - left. destruct (holder s); [reflexivity|]. destruct (waiters s) as [|i r]; [reflexivity|]. now destruct (tasks s i).
  - left. destruct (plive s j); [|reflexivity]. destruct (tasks s j) as [n fr|n|n c|n|o]; try reflexivity. destruct (inbox (chans s c)); [reflexivity|]. cbv zeta. cbn [beat set_lock set_chan].
    destruct (beat s j); [|reflexivity]. now destruct (beat s n0).
  - left. destruct (plive s j); [|reflexivity]. destruct (tasks s j) as [n fr|n|n c|n|o]; try reflexivity. destruct (dead (chans s c) && _); [|reflexivity]. cbv zeta. cbn [beat set_lock set_chan].
    destruct (beat s j); [now destruct x|]. destruct x; cbn [failed]; unfold retry_logic; try reflexivity. now destruct (max <=? n + 1).
  - left. destruct (plive s j); [|reflexivity]. destruct (tasks s j) as [n fr|n|n c|n|o]; try reflexivity. cbv zeta. cbn [beat set_lock]. destruct (beat s j); [reflexivity|].
    cbn [failed]. unfold retry_logic. now destruct (max <=? n + 1).
  - left. destruct (plive s j); [|reflexivity]. now destruct (tasks s j).
  - left. destruct (plive s j); [|reflexivity]. destruct (tasks s j) as [n fr|n|n c|n|o]; try reflexivity. destruct ((n <? max) && negb (psuccess s)); [|reflexivity].
    unfold begin_attempt. destruct (connected s); [apply nchan_write|reflexivity].
  - left. destruct (unans (chans s c)); [reflexivity|]. now destruct (dead (chans s c)).
  - now left.
Qed.
Lemma total_now s e n : (1 <= nchan s)%nat -> (ntasks s <= n)%nat -> opened (pstep s e) = (opened s + total (fun i => by_now i s e) n)%nat.
Proof.
  intros H Hn. destruct (nchan_step s e H) as [E|[(j & -> & Hj) E]].
  - rewrite total_zero; [unfold opened; rewrite E; lia|]. intros i _. destruct e; try reflexivity. cbn [by_now]. unfold opened. rewrite E. destruct (Nat.eqb i i0); lia.
  - cbn [by_now]. rewrite total_one. assert (Nat.ltb j n = true) as -> by (apply Nat.ltb_lt; lia). unfold opened. lia.
Qed.
Lemma opened_total evs : forall s n, Inv s -> (1 <= nchan s)%nat -> (ntasks (fold_left pstep evs s) <= n)%nat ->
  opened (fold_left pstep evs s) = (opened s + total (fun i => opened_by max i s evs) n)%nat.
Proof.
  assert (MT : forall l s, Inv s -> (ntasks s <= ntasks (fold_left pstep l s))%nat).
  { induction l as [|e l IH]; intros s I; cbn [fold_left]; [lia|]. specialize (IH _ (step_inv s e I)). rewrite step_ntasks in IH by exact I. destruct e; lia. }
  induction evs as [|e evs IH]; intros s n I H Hn; cbn [fold_left opened_by] in *.
  - rewrite total_zero by reflexivity. lia.
  - assert (H' : (1 <= nchan (pstep s e))%nat) by (destruct (nchan_step s e H) as [->|[_ ->]]; lia).
    rewrite (IH _ n (step_inv s e I) H' Hn). assert (T : (ntasks s <= n)%nat).
    { specialize (MT evs _ (step_inv s e I)). rewrite step_ntasks in MT by exact I. destruct e; lia. }
    apply (total_now s e n H) in T. pose proof (total_add (fun i => by_now i s e) (fun i => opened_by max i (pstep s e) evs) n) as X.
    etransitivity; [apply (f_equal (fun k => (k + _)%nat) T)|]. rewrite <- Nat.add_assoc. f_equal. symmetry. exact X.
Qed.
Lemma pstart_good : Inv pstart.
Proof. exact (prun_inv max []). Qed.
Theorem opened_by_each evs i : Z.of_nat (opened_by max i pstart evs) <= if beat (prun max evs) i then 1 else 2 * M.
Proof. apply opened_by_bound; [apply pstart_good|cbn; lia]. Qed.
Theorem opened_all evs : opened (prun max evs) = list_sum (map (fun i => opened_by max i pstart evs) (seq 0 (ntasks (prun max evs)))).
Proof. exact (opened_total evs pstart _ pstart_good ltac:(cbn; lia) (le_n _)). Qed.
End Persistent.
