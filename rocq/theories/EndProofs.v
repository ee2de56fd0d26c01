(** Calls of persistent stream clients end. *)
From Coq Require Import List ZArith NArith Bool String Lia Arith.
From Verif Require Import RouterModel ClientModel ClientSpec ClientProofs ClientProofs2 EndSpec.
Import ListNotations.
Local Open Scope Z_scope.

Section Persistent.
Context (max : Z).
Notation pstep := (pstep max).
Notation M := (Z.max 1 max).

Definition range (t : pstate) : Prop := match t with POpen n _ | PWait n | PRead n _ | PSleep n => 0 <= n < M | PDone _ => True end.
Record LInv (h : option nat) (ws : list nat) (nt : nat) (ts : nat -> pstate) : Prop := {
  l_held : forall i, h = Some i <-> exists n c, ts i = PRead n c;
  l_wait : forall i, In i ws <-> exists n, ts i = PWait n;
  l_once : NoDup ws;
  l_new : forall i, (nt <= i)%nat -> ts i = PDone ONone;
  l_range : forall i, range (ts i) }.
Notation Inv s := (LInv (holder s) (waiters s) (ntasks s) (tasks s)).
Definition weight (t : pstate) : Z :=
  match t with
  | PSleep n => 5 * (M - n - 1) + 5 | POpen n true => 5 * (M - n - 1) + 4 | PWait n => 5 * (M - n - 1) + 3 | PRead n _ => 5 * (M - n - 1) + 2
  | POpen n false => 5 * (M - n - 1) + 1 | PDone _ => 0
  end.
Lemma weight_pos t : range t -> 0 <= weight t <= 5 * M.
Proof. destruct t as [n []|n|n c|n|o]; cbn [range weight]; lia. Qed.
Definition parked (t : pstate) : Prop := idle t /\ range t.

Lemma l_set h ws nt nt' ts i t : LInv h ws nt ts -> idle (ts i) -> parked t -> (nt <= nt')%nat -> (i < nt')%nat -> LInv h ws nt' (fupd ts i t).
Proof.
  intros [L1 L2 L3 L4 L5] Hi [Ht Hr] Hn Hl. constructor; auto.
  - intros j. rewrite (L1 j). destruct (Nat.eq_dec j i) as [->|Hj]; [rewrite fupd_same|now rewrite fupd_other by auto].
    split; intros (n & c & E); [rewrite E in Hi|rewrite E in Ht]; contradiction.
  - intros j. rewrite (L2 j). destruct (Nat.eq_dec j i) as [->|Hj]; [rewrite fupd_same|now rewrite fupd_other by auto].
    split; intros (n & E); [rewrite E in Hi|rewrite E in Ht]; contradiction.
  - intros j Hj. rewrite fupd_other by lia. apply L4. lia.
  - intros j. destruct (Nat.eq_dec j i) as [->|Hj]; [now rewrite fupd_same|now rewrite fupd_other by auto].
Qed.
Lemma l_read ws nt nt' ts i n c : LInv None ws nt ts -> idle (ts i) -> 0 <= n < M -> (nt <= nt')%nat -> (i < nt')%nat -> LInv (Some i) ws nt' (fupd ts i (PRead n c)).
Proof.
  intros [L1 L2 L3 L4 L5] Hi Hr Hn Hl. constructor; auto.
  - intros j. destruct (Nat.eq_dec j i) as [->|Hj]; [rewrite fupd_same; split; [intros _; eauto|reflexivity]|rewrite fupd_other by auto].
    rewrite <- (L1 j). split; [congruence|discriminate].
  - intros j. rewrite (L2 j). destruct (Nat.eq_dec j i) as [->|Hj]; [rewrite fupd_same|now rewrite fupd_other by auto].
    split; intros (k & E); [rewrite E in Hi; contradiction|discriminate].
  - intros j Hj. rewrite fupd_other by lia. apply L4. lia.
  - intros j. destruct (Nat.eq_dec j i) as [->|Hj]; [now rewrite fupd_same|now rewrite fupd_other by auto].
Qed.
Lemma l_queue h ws nt nt' ts i n : LInv h ws nt ts -> idle (ts i) -> 0 <= n < M -> (nt <= nt')%nat -> (i < nt')%nat -> LInv h (ws ++ [i]) nt' (fupd ts i (PWait n)).
Proof.
  intros [L1 L2 L3 L4 L5] Hi Hr Hn Hl. assert (NI : ~ In i ws) by (intros H; apply L2 in H as (k & E); now rewrite E in Hi). constructor.
  - intros j. rewrite (L1 j). destruct (Nat.eq_dec j i) as [->|Hj]; [rewrite fupd_same|now rewrite fupd_other by auto].
    split; intros (k & c & E); [rewrite E in Hi; contradiction|discriminate].
  - intros j. rewrite in_app_iff. cbn [In]. destruct (Nat.eq_dec j i) as [->|Hj].
    + rewrite fupd_same. split; [intros _; now exists n|auto].
    + rewrite fupd_other by auto. rewrite (L2 j). split; [intros [E|[E|[]]]; [exact E|congruence]|auto].
  - now apply nodup_snoc.
  - intros j Hj. rewrite fupd_other by lia. apply L4. lia.
  - intros j. destruct (Nat.eq_dec j i) as [->|Hj]; [now rewrite fupd_same|now rewrite fupd_other by auto].
Qed.
Lemma l_grant ws nt ts i n c : LInv None (i :: ws) nt ts -> ts i = PWait n -> LInv (Some i) ws nt (fupd ts i (PRead n c)).
Proof.
  intros [L1 L2 L3 L4 L5] E. apply NoDup_cons_iff in L3 as [L3 L3']. pose proof (L5 i) as R. rewrite E in R.
  assert (Hl : (i < nt)%nat) by (destruct (Nat.lt_ge_cases i nt) as [H|H]; [exact H|]; rewrite (L4 i H) in E; discriminate). constructor; auto.
  - intros j. destruct (Nat.eq_dec j i) as [->|Hj]; [rewrite fupd_same; split; [intros _; eauto|reflexivity]|rewrite fupd_other by auto].
    rewrite <- (L1 j). split; [congruence|discriminate].
  - intros j. destruct (Nat.eq_dec j i) as [->|Hj].
    + rewrite fupd_same. split; [contradiction|intros (k & X); discriminate].
    + rewrite fupd_other by auto. rewrite <- (L2 j). cbn [In]. split; [auto|intros [X|X]; [congruence|exact X]].
  - intros j Hj. rewrite fupd_other by lia. auto.
  - intros j. destruct (Nat.eq_dec j i) as [->|Hj]; [now rewrite fupd_same|now rewrite fupd_other by auto].
Qed.
Lemma l_release h ws nt ts i n c : LInv h ws nt ts -> ts i = PRead n c -> forall t, parked t -> LInv None ws nt (fupd ts i t).
Proof.
  intros [L1 L2 L3 L4 L5] E t [Ht Hr]. assert (Hh : h = Some i) by (apply L1; eauto).
  assert (Hl : (i < nt)%nat) by (destruct (Nat.lt_ge_cases i nt) as [H|H]; [exact H|]; rewrite (L4 i H) in E; discriminate). constructor; auto.
  - intros j. split; [discriminate|]. intros (k & d & X). destruct (Nat.eq_dec j i) as [->|Hj].
    + rewrite fupd_same in X. rewrite X in Ht. contradiction.
    + rewrite fupd_other in X by auto. assert (h = Some j) by (apply L1; eauto). congruence.
  - intros j. rewrite (L2 j). destruct (Nat.eq_dec j i) as [->|Hj]; [rewrite fupd_same|now rewrite fupd_other by auto].
    split; intros (k & X); [congruence|rewrite X in Ht; contradiction].
  - intros j Hj. rewrite fupd_other by lia. auto.
  - intros j. destruct (Nat.eq_dec j i) as [->|Hj]; [now rewrite fupd_same|now rewrite fupd_other by auto].
Qed.
Lemma l_remove h ws nt ts i n : LInv h ws nt ts -> ts i = PWait n -> forall o, LInv h (remove_waiter i ws) nt (fupd ts i (PDone o)).
Proof.
  intros [L1 L2 L3 L4 L5] E o.
  assert (Hl : (i < nt)%nat) by (destruct (Nat.lt_ge_cases i nt) as [H|H]; [exact H|]; rewrite (L4 i H) in E; discriminate). constructor; auto.
  - intros j. rewrite (L1 j). destruct (Nat.eq_dec j i) as [->|Hj]; [rewrite fupd_same|now rewrite fupd_other by auto].
    split; intros (k & c & X); [congruence|discriminate].
  - intros j. unfold remove_waiter. rewrite filter_In. destruct (Nat.eqb_spec j i) as [->|Hj]; cbn [negb].
    + rewrite fupd_same. split; [intros [_ X]; discriminate|intros (k & X); discriminate].
    + rewrite fupd_other by auto. rewrite (L2 j). tauto.
  - now apply NoDup_filter.
  - intros j Hj. rewrite fupd_other by lia. auto.
  - intros j. destruct (Nat.eq_dec j i) as [->|Hj]; [rewrite fupd_same; exact I|now rewrite fupd_other by auto].
Qed.

(** ** Steps *)
Definition Moves (s d : pclient) : Prop :=
  ntasks d = ntasks s /\ (tasks d = tasks s \/ exists i t, (i < ntasks s)%nat /\ tasks d = fupd (tasks s) i t /\ weight t < weight (tasks s i)).
Definition Good (s d : pclient) : Prop := Moves s d /\ Inv d.
(** [s'] differs from [s] only in things that the invariant does not see. *)
Definition Same (s s' : pclient) : Prop := holder s' = holder s /\ waiters s' = waiters s /\ ntasks s' = ntasks s /\ tasks s' = tasks s.
Lemma good_same s s' : Inv s -> Same s s' -> Good s s'.
Proof. intros I (E1 & E2 & E3 & E4). split; [split; auto|]. now rewrite E1, E2, E3, E4. Qed.
Lemma good_set s s' i t : Inv s -> Same s s' -> idle (tasks s i) -> parked t -> (i < ntasks s)%nat -> weight t < weight (tasks s i) -> Good s (set_task s' i t).
Proof.
  intros I (E1 & E2 & E3 & E4) Hi Ht Hl W. split; [split; cbn [ntasks tasks set_task]; [exact E3|right; exists i, t; rewrite E4; auto]|].
  cbn [holder waiters ntasks tasks set_task]. rewrite E1, E2, E3, E4. eapply l_set; eauto.
Qed.
Lemma good_write s s' i n : Inv s -> Same s s' -> idle (tasks s i) -> 0 <= n < M -> (i < ntasks s)%nat -> 5 * (M - n - 1) + 3 < weight (tasks s i) -> Good s (write_and_read s' i n).
Proof.
  intros I (E1 & E2 & E3 & E4) Hi Hn Hl W. unfold write_and_read. cbn [holder waiters count_try set_chan]. rewrite E1, E2.
  destruct (holder s) as [h|] eqn:H.
  { split; [split; cbn [ntasks tasks set_task set_lock count_try set_chan]; [exact E3|right; exists i, (PWait n); rewrite E4; auto]|].
    cbn [holder waiters ntasks tasks set_task set_lock count_try set_chan]. rewrite E3, E4. now apply (l_queue _ _ (ntasks s)). }
  destruct (waiters s) as [|w ws] eqn:Wt.
  { split; [split; cbn [ntasks tasks set_task set_lock count_try set_chan cur]; [exact E3|right; exists i, (PRead n (cur s')); rewrite E4; cbn [weight]; repeat split; auto; lia]|].
    cbn [holder waiters ntasks tasks set_task set_lock count_try set_chan cur]. rewrite E3, E4. now apply (l_read _ (ntasks s)). }
  split; [split; cbn [ntasks tasks set_task set_lock count_try set_chan]; [exact E3|right; exists i, (PWait n); rewrite E4; auto]|].
  cbn [holder waiters ntasks tasks set_task set_lock count_try set_chan]. rewrite E3, E4. now apply (l_queue _ (w :: ws) (ntasks s)).
Qed.
Lemma good_release s s' i n c t : Inv s -> waiters s' = waiters s -> ntasks s' = ntasks s -> tasks s' = tasks s -> holder s' = None -> tasks s i = PRead n c -> (i < ntasks s)%nat ->
  parked t -> weight t < weight (tasks s i) -> Good s (set_task s' i t).
Proof.
  intros I E2 E3 E4 E1 E Hl Ht W. split; [split; cbn [ntasks tasks set_task]; [exact E3|right; exists i, t; rewrite E4; auto]|].
  cbn [holder waiters ntasks tasks set_task]. rewrite E1, E2, E3, E4. eapply l_release; eauto.
Qed.
Definition not_start (e : pev) : Prop := match e with PStart _ => False | _ => True end.
Lemma retry_parked n : 0 <= n < M -> forall t, (t = PDone OMax \/ (n + 1 < max /\ t = PSleep (n + 1))) -> parked t /\ 0 <= weight t < 5 * (M - n - 1) + 1.
Proof. intros H t [->|[L ->]]; (split; [split; [exact I|cbn [range]; try exact I; lia]|cbn [weight]; lia]). Qed.
Lemma done_parked o : parked (PDone o).
Proof. split; exact I. Qed.
(** After a failure that leaves the lock free. *)
Lemma failed_cases s i n x : exists s' t, failed max s i n x = set_task s' i t /\ Same s s' /\
  (t = PDone OMax \/ (n + 1 < max /\ t = PSleep (n + 1)) \/ t = POpen n false \/ exists o, t = PDone o).
Proof.
  assert (R : exists s' t, retry_logic max s i n = set_task s' i t /\ Same s s' /\ (t = PDone OMax \/ (n + 1 < max /\ t = PSleep (n + 1)) \/ t = POpen n false \/ exists o, t = PDone o)).
  { unfold retry_logic. destruct (Z.leb_spec max (n + 1)); eexists _, _; (split; [reflexivity|]); (split; [repeat split|]); auto. }
  unfold failed. destruct x; auto; eexists _, _; (split; [reflexivity|]); (split; [repeat split|]); eauto.
Qed.
Lemma pstep_good s e : Inv s -> not_start e -> Good s (pstep s e).
Proof.
  intros I NS. assert (R : Good s s) by (apply good_same; [exact I|repeat split]).
  assert (RG : forall i, range (tasks s i)) by apply (l_range _ _ _ _ I).
  destruct e as [b|i|i x| |i|i x|i|i|i|c|c]; cbn [ClientModel.pstep]; [destruct NS|..].
  - destruct (plive s i) eqn:Lv; [|exact R]. apply Nat.ltb_lt in Lv. destruct (tasks s i) as [n fr|n|n c|n|o] eqn:T; auto. pose proof (RG i) as Rn. rewrite T in Rn. cbn [range] in Rn. destruct fr.
    + eapply good_write; auto; [repeat split|rewrite T; exact Logic.I|rewrite T; cbn [weight]; lia].
    + unfold retry_logic. destruct (Z.leb_spec max (n + 1)) as [L|L].
      * destruct (retry_parked n Rn (PDone OMax)) as [P W]; auto. eapply good_set; auto; [repeat split|rewrite T; exact Logic.I|rewrite T; cbn [weight] in *; lia].
      * destruct (retry_parked n Rn (PSleep (n + 1))) as [P W]; auto. eapply good_set; auto; [repeat split|rewrite T; exact Logic.I|rewrite T; cbn [weight] in *; lia].
  - destruct (plive s i) eqn:Lv; [|exact R]. apply Nat.ltb_lt in Lv. destruct (tasks s i) as [n [|]|n|n c|n|o] eqn:T; auto; pose proof (RG i) as Rn; rewrite T in Rn; cbn [range] in Rn.
    + destruct (beat s i).
      * eapply good_set; auto using done_parked; [repeat split|rewrite T; exact Logic.I|rewrite T; cbn [weight]; lia].
      * destruct (failed_cases s i n x) as (s' & t & -> & Sm & Ct). assert (Q : parked t /\ weight t < 5 * (M - n - 1) + 4).
        { destruct Ct as [Ct|[Ct|[->|[o ->]]]]; [destruct (retry_parked n Rn t ltac:(auto)); split; [assumption|lia]|destruct (retry_parked n Rn t ltac:(auto)); split; [assumption|lia]| |];
          (split; [split; [exact Logic.I|cbn [range]; auto; lia]|cbn [weight]; lia]). }
        destruct Q as [Q1 Q2]. eapply good_set; auto; [rewrite T; exact Logic.I|rewrite T; cbn [weight]; lia].
    + eapply good_set; auto using done_parked; [repeat split|rewrite T; exact Logic.I|rewrite T; cbn [weight]; lia].
  - destruct (holder s) eqn:H; [exact R|]. destruct (waiters s) as [|i r] eqn:W; [exact R|]. destruct (tasks s i) as [n fr|n|n c|n|o] eqn:T; try exact R.
    pose proof (RG i) as Rn; rewrite T in Rn; cbn [range] in Rn.
    assert (Lv : (i < ntasks s)%nat) by (destruct (Nat.lt_ge_cases i (ntasks s)) as [X|X]; [exact X|]; rewrite (l_new _ _ _ _ I i X) in T; discriminate).
    split; [split; cbn [ntasks tasks set_task set_lock]; [reflexivity|right; exists i, (PRead n (cur s)); rewrite T; cbn [weight]; repeat split; auto; lia]|].
    cbn [holder waiters ntasks tasks set_task set_lock]. now apply l_grant.
  - destruct (plive s i) eqn:Lv; [|exact R]. apply Nat.ltb_lt in Lv. destruct (tasks s i) as [n fr|n|n c|n|o] eqn:T; auto. pose proof (RG i) as Rn; rewrite T in Rn; cbn [range] in Rn.
    destruct (inbox (chans s c)) as [|r rest]; [exact R|]. cbv zeta. cbn [beat set_lock set_chan].
    destruct (beat s i); [destruct (beat s r)|]; eapply good_release; eauto using done_parked; rewrite T; cbn [weight]; lia.
  - destruct (plive s i) eqn:Lv; [|exact R]. apply Nat.ltb_lt in Lv. destruct (tasks s i) as [n fr|n|n c|n|o] eqn:T; auto. pose proof (RG i) as Rn; rewrite T in Rn; cbn [range] in Rn.
    destruct (dead (chans s c) && _); [|exact R]. cbv zeta. cbn [beat set_lock set_chan]. destruct (beat s i).
    + destruct x; eapply good_release; eauto using done_parked; rewrite T; cbn [weight]; lia.
    + match goal with |- Good s (failed max ?d i n x) => destruct (failed_cases d i n x) as (s' & t & -> & (E1 & E2 & E3 & E4) & Ct); assert (Z0 : holder d = None /\ waiters d = waiters s /\ ntasks d = ntasks s /\ tasks d = tasks s) by (destruct x; repeat split) end.
      destruct Z0 as (Z1 & Z2 & Z3 & Z4). assert (Q : parked t /\ weight t < 5 * (M - n - 1) + 2).
      { destruct Ct as [Ct|[Ct|[->|[o ->]]]]; [destruct (retry_parked n Rn t ltac:(auto)); split; [assumption|lia]|destruct (retry_parked n Rn t ltac:(auto)); split; [assumption|lia]| |];
          (split; [split; [exact Logic.I|cbn [range]; auto; lia]|cbn [weight]; lia]). }
      destruct Q as [Q1 Q2]. eapply good_release; eauto; try congruence. rewrite T. cbn [weight]. lia.
  - destruct (plive s i) eqn:Lv; [|exact R]. apply Nat.ltb_lt in Lv. destruct (tasks s i) as [n fr|n|n c|n|o] eqn:T; auto. pose proof (RG i) as Rn; rewrite T in Rn; cbn [range] in Rn.
    cbv zeta. cbn [beat set_lock]. destruct (beat s i); [eapply good_release; eauto using done_parked; rewrite T; cbn [weight]; lia|].
    cbn [failed]. unfold retry_logic. destruct (Z.leb_spec max (n + 1)) as [L|L].
    + destruct (retry_parked n Rn (PDone OMax)) as [P W]; auto. eapply good_release; eauto. rewrite T. cbn [weight] in *. lia.
    + destruct (retry_parked n Rn (PSleep (n + 1))) as [P W]; auto. eapply good_release; eauto. rewrite T. cbn [weight] in *. lia.
  - destruct (plive s i) eqn:Lv; [|exact R]. apply Nat.ltb_lt in Lv. destruct (tasks s i) as [n fr|n|n c|n|o] eqn:T; auto; pose proof (RG i) as Rn; rewrite T in Rn; cbn [range] in Rn.
    + eapply good_set; auto using done_parked; [repeat split|rewrite T; exact Logic.I|rewrite T; destruct fr; cbn [weight]; lia].
    + split; [split; cbn [ntasks tasks set_task set_lock]; [reflexivity|right; exists i, (PDone (ORaw XCancel)); rewrite T; cbn [weight]; repeat split; auto; lia]|].
      cbn [holder waiters ntasks tasks set_task set_lock]. eapply l_remove; eauto.
    + eapply good_release; eauto using done_parked; rewrite T; cbn [weight]; lia.
    + eapply good_set; auto using done_parked; [repeat split|rewrite T; exact Logic.I|rewrite T; cbn [weight]; lia].
  - destruct (plive s i) eqn:Lv; [|exact R]. apply Nat.ltb_lt in Lv. destruct (tasks s i) as [n fr|n|n c|n|o] eqn:T; auto. pose proof (RG i) as Rn; rewrite T in Rn; cbn [range] in Rn.
    destruct (Z.ltb n max && negb (psuccess s)); [|eapply good_set; auto using done_parked; [repeat split|rewrite T; exact Logic.I|rewrite T; cbn [weight]; lia]].
    unfold begin_attempt. destruct (connected s); [eapply good_write; auto; [repeat split|rewrite T; exact Logic.I|rewrite T; cbn [weight]; lia]|].
    eapply good_set; auto; [repeat split|rewrite T; exact Logic.I|split; [exact Logic.I|exact Rn]|rewrite T; cbn [weight]; lia].
  - destruct (unans (chans s c)); [exact R|]. destruct (dead (chans s c)); [exact R|]. apply good_same; [exact I|repeat split].
  - apply good_same; [exact I|repeat split].
Qed.
Lemma start_good s b : Inv s -> Inv (pstep s (PStart b)).
Proof.
  intros I. assert (T : tasks s (ntasks s) = PDone ONone) by (apply (l_new _ _ _ _ I); lia). assert (Hi : idle (tasks s (ntasks s))) by now rewrite T.
  cbn [ClientModel.pstep]. assert (P : forall t, parked t -> LInv (holder s) (waiters s) (S (ntasks s)) (fupd (tasks s) (ntasks s) t)).
  { intros t Ht. eapply l_set; eauto. }
  destruct (b || (0 <? max)); [|cbn [holder waiters ntasks tasks set_task]; apply P; split; exact Logic.I].
  assert (Z0 : 0 <= 0 < M) by lia.
  unfold begin_attempt. cbn [connected]. destruct (connected s); [|cbn [holder waiters ntasks tasks set_task]; apply P; split; [exact Logic.I|exact Z0]].
  unfold write_and_read. cbn [holder waiters count_try set_chan]. destruct (holder s) eqn:H.
  { cbn [holder waiters ntasks tasks set_task set_lock count_try set_chan]. eapply l_queue; eauto. }
  destruct (waiters s) as [|w ws] eqn:W; cbn [holder waiters ntasks tasks set_task set_lock count_try set_chan cur]; [eapply l_read; eauto|].
  apply (l_queue _ (w :: ws) (ntasks s)); auto.
Qed.
Lemma prun_inv evs : Inv (prun max evs).
Proof.
  assert (G : forall l s, Inv s -> Inv (fold_left pstep l s)).
  { induction l as [|e l IH]; intros s I; [exact I|]. cbn [fold_left]. apply IH. assert (Q : not_start e -> Inv (pstep s e)) by (intros NS; now apply pstep_good).
    destruct e; try (apply Q; exact Logic.I). now apply start_good. }
  apply G. cbn [pstart holder waiters ntasks tasks]. constructor; cbn; auto; try constructor; try discriminate; try (intros (n & E); discriminate); try (intros (n & c & E); discriminate); try contradiction.
Qed.

(** ** How often a task goes on *)
Lemma start_other s b i : (i < ntasks s)%nat -> tasks (pstep s (PStart b)) i = tasks s i /\ (i < ntasks (pstep s (PStart b)))%nat.
Proof.
  intros Hi. assert (NE : i <> ntasks s) by lia. cbn [ClientModel.pstep]. destruct (b || (0 <? max)); [|cbn [set_task tasks ntasks]; rewrite fupd_other by exact NE; auto].
  unfold begin_attempt. cbn [connected]. destruct (connected s); [|cbn [set_task tasks ntasks]; rewrite fupd_other by exact NE; auto].
  unfold write_and_read. cbn [holder waiters count_try set_chan]. destruct (holder s); [|destruct (waiters s)];
    cbn [set_task set_lock count_try set_chan tasks ntasks]; rewrite fupd_other by exact NE; auto.
Qed.
Lemma each_bound i evs : forall s k, Inv s -> (i < ntasks s)%nat -> moves pstep (fun s => tasks s i) s evs k -> Z.of_nat k <= weight (tasks s i).
Proof.
  assert (ST : forall s e, Inv s -> (i < ntasks s)%nat -> Inv (pstep s e) /\ (i < ntasks (pstep s e))%nat /\
    (tasks (pstep s e) i = tasks s i \/ weight (tasks (pstep s e) i) < weight (tasks s i))).
  { intros s e I Hi. assert (Q : not_start e -> Inv (pstep s e) /\ (i < ntasks (pstep s e))%nat /\ (tasks (pstep s e) i = tasks s i \/ weight (tasks (pstep s e) i) < weight (tasks s i))).
    { intros NS. destruct (pstep_good s e I NS) as [[E [M0|(j & t & Hj & Et & W)]] I']; (split; [exact I'|]); rewrite E; (split; [exact Hi|]).
      - left. now rewrite M0.
      - rewrite Et. destruct (Nat.eq_dec i j) as [->|Ne]; [right; now rewrite fupd_same|left; now rewrite fupd_other]. }
    destruct e; try (apply Q; exact Logic.I). destruct (start_other s heartbeat i Hi) as [A B]. split; [now apply start_good|]. auto. }
  induction evs as [|e evs IH]; intros s k I Hi Mv; inversion Mv as [|? ? ? ? E Mv'|? ? ? k' E Mv']; subst.
  - apply weight_pos. apply (l_range _ _ _ _ I).
  - destruct (ST s e I Hi) as (I' & Hi' & _). specialize (IH _ _ I' Hi' Mv'). now rewrite E in IH.
  - destruct (ST s e I Hi) as (I' & Hi' & [D|D]); [contradiction|]. specialize (IH _ _ I' Hi' Mv'). lia.
Qed.
Lemma not_stuck s i : Inv s -> (i < ntasks s)%nat -> (forall o, tasks s i <> PDone o) -> exists e, alone e /\ exists j, tasks (pstep s e) j <> tasks s j.
Proof.
  intros I Hi P. assert (live : forall j, (j < ntasks s)%nat -> plive s j = true) by (intros j Hj; now apply Nat.ltb_lt).
  assert (kn : forall j, (forall o, tasks s j <> PDone o) -> (j < ntasks s)%nat).
  { intros j H. destruct (Nat.lt_ge_cases j (ntasks s)) as [X|X]; [exact X|]. destruct (H ONone). apply (l_new _ _ _ _ I j X). }
  assert (TM : forall j n c, tasks s j = PRead n c -> exists k, tasks (pstep s (PTimeout j)) k <> tasks s k).
  { intros j n c T. exists j. cbn [ClientModel.pstep]. rewrite live by (apply kn; intros o; rewrite T; discriminate). rewrite T. cbv zeta. cbn [beat set_lock].
    destruct (beat s j); [cbn [set_task tasks]; rewrite fupd_same; discriminate|]. cbn [failed]. unfold retry_logic.
    destruct (Z.leb max (n + 1)); cbn [set_task tasks]; rewrite fupd_same; discriminate. }
  assert (WR : forall d j n, tasks (write_and_read d j n) j = PWait n \/ exists c, tasks (write_and_read d j n) j = PRead n c).
  { intros d j n. unfold write_and_read. cbn [holder waiters count_try set_chan]. destruct (holder d); [left; cbn; apply fupd_same|]. destruct (waiters d); [right; eexists|left]; cbn; apply fupd_same. }
  destruct (tasks s i) as [n fr|n|n c|n|o] eqn:T.
  - exists (POpened i). split; [exact Logic.I|]. exists i. cbn [ClientModel.pstep]. rewrite live, T by exact Hi. cbv zeta. destruct fr.
    + match goal with |- tasks (write_and_read ?d i n) i <> _ => destruct (WR d i n) as [E|[c E]] end; rewrite E; discriminate.
    + unfold retry_logic. destruct (Z.leb max (n + 1)); cbn [set_task tasks]; rewrite fupd_same; discriminate.
  - destruct (holder s) as [j|] eqn:H.
    + destruct (proj1 (l_held _ _ _ _ I j) eq_refl) as (k & c & E). exists (PTimeout j). split; [exact Logic.I|eapply TM; eauto].
    + exists PGrant. split; [exact Logic.I|]. assert (X : In i (waiters s)) by (apply (l_wait _ _ _ _ I); eauto). cbn [ClientModel.pstep]. rewrite H.
      destruct (waiters s) as [|j l] eqn:W; [destruct X|]. destruct (proj1 (l_wait _ _ _ _ I j) (or_introl eq_refl)) as [k Y].
      exists j. rewrite Y. cbn [set_task tasks set_lock]. rewrite fupd_same. discriminate.
  - exists (PTimeout i). split; [exact Logic.I|eapply TM; eauto].
  - exists (PWake i). split; [exact Logic.I|]. exists i. cbn [ClientModel.pstep]. rewrite live, T by exact Hi.
    destruct (Z.ltb n max && negb (psuccess s)); [|cbn [set_task tasks]; rewrite fupd_same; discriminate]. unfold begin_attempt. destruct (connected s).
    + destruct (WR s i n) as [E|[c E]]; rewrite E; discriminate.
    + cbn [set_task tasks]. rewrite fupd_same. discriminate.
  - now destruct (P o).
Qed.
End Persistent.
