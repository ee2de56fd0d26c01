(** One call at a time: a persistent client has at most one connection. *)
From Coq Require Import List ZArith NArith Bool String Lia Arith.
From Verif Require Import RouterModel ClientModel ClientSpec ClientProofs ClientProofs2 EndSpec EndProofs ConnSpec ConnProofs.
Import ListNotations.
Local Open Scope Z_scope.

Section Persistent.
Context (max : Z).
Notation pstep := (pstep max).
Notation Inv s := (LInv max (holder s) (waiters s) (ntasks s) (tasks s)).

Definition over (t : pstate) : Prop := exists o, t = PDone o.
Definition only (ts : nat -> pstate) (i : nat) : Prop := forall j, j <> i -> over (ts j).
Record Seq (s : pclient) : Prop := {
  q_one : exists i, only (tasks s) i;
  q_cur : (cur s < nchan s)%nat;
  q_rest : forall c, (c < nchan s)%nat -> c <> cur s -> dead (chans s c) = true;
  q_lost : connected s = false -> dead (chans s (cur s)) = true;
  q_open : forall i n f, tasks s i = POpen n f -> connected s = false;
  q_read : forall i n c, tasks s i = PRead n c -> c = cur s }.

Lemma only_live s i : Seq s -> ~ over (tasks s i) -> only (tasks s) i.
Proof. intros Q H. destruct (q_one s Q) as [k K]. destruct (Nat.eq_dec i k) as [->|N]; [exact K|]. destruct (H (K i N)). Qed.
Lemma only_set ts i t : only ts i -> only (fupd ts i t) i.
Proof. intros O j Hj. rewrite fupd_other by exact Hj. now apply O. Qed.
(** A task goes on, the connections stay. *)
Lemma seq_move s d i t : Seq s -> only (tasks s) i -> tasks d = fupd (tasks s) i t -> cur d = cur s -> nchan d = nchan s ->
  (forall c, dead (chans s c) = true -> dead (chans d c) = true) ->
  (connected d = connected s \/ dead (chans s (cur s)) = true) ->
  (forall n f, t = POpen n f -> connected d = false) -> (forall n c, t = PRead n c -> c = cur s) -> Seq d.
Proof.
  intros [Q1 Q2 Q3 Q4 Q5 Q6] O T C N D K P R. constructor.
  - exists i. rewrite T. now apply only_set.
  - now rewrite C, N.
  - rewrite C, N. auto.
  - rewrite C. intros F. apply D. destruct K as [K|K]; [apply Q4; now rewrite <- K|exact K].
  - intros j n f E. rewrite T in E. destruct (Nat.eq_dec j i) as [->|Hj]; [rewrite fupd_same in E; eauto|rewrite fupd_other in E by exact Hj].
    destruct (O j Hj) as [o X]. rewrite X in E. discriminate.
  - intros j n c E. rewrite T in E. rewrite C. destruct (Nat.eq_dec j i) as [->|Hj]; [rewrite fupd_same in E; eauto|rewrite fupd_other in E by exact Hj; eauto].
Qed.
Lemma seq_same s d : Seq s -> tasks d = tasks s -> cur d = cur s -> nchan d = nchan s -> connected d = connected s ->
  (forall c, dead (chans s c) = true -> dead (chans d c) = true) -> Seq d.
Proof.
  intros [Q1 Q2 Q3 Q4 Q5 Q6] T C N K D. constructor; rewrite ?T, ?C, ?N, ?K; auto.
Qed.
Lemma alone_free s i : Inv s -> only (tasks s) i -> idle (tasks s i) -> holder s = None /\ waiters s = [].
Proof.
  intros I O D. split.
  - destruct (holder s) as [j|] eqn:H; [|reflexivity]. destruct (proj1 (l_held _ _ _ _ _ I j) eq_refl) as (n & c & E).
    destruct (Nat.eq_dec j i) as [->|Hj]; [rewrite E in D; contradiction|]. destruct (O j Hj) as [o X]. congruence.
  - destruct (waiters s) as [|j l] eqn:W; [reflexivity|]. destruct (proj1 (l_wait _ _ _ _ _ I j) (or_introl eq_refl)) as (n & E).
    destruct (Nat.eq_dec j i) as [->|Hj]; [rewrite E in D; contradiction|]. destruct (O j Hj) as [o X]. congruence.
Qed.
Lemma dead_upd (chs : nat -> chan) c x : (dead (chs c) = true -> dead x = true) -> forall k, dead (chs k) = true -> dead (fupd chs c x k) = true.
Proof. intros H k D. destruct (Nat.eq_dec k c) as [->|Hk]; [rewrite fupd_same; auto|now rewrite fupd_other]. Qed.
(** [s'] differs from [s] in the success flag, the counters and the tasks started. *)
Lemma seq_write s i n : Seq s -> holder s = None -> waiters s = [] -> only (tasks s) i -> Seq (write_and_read s i n).
Proof.
  intros Q H W O. unfold write_and_read. cbn [holder waiters count_try set_chan]. rewrite H, W.
  apply (seq_move s _ i (PRead n (cur s))); auto.
  - cbn [set_task set_lock count_try set_chan chans]. now apply dead_upd.
  - discriminate.
  - intros m c E. now injection E.
Qed.
Lemma seq_begin s i n : Seq s -> holder s = None -> waiters s = [] -> only (tasks s) i -> Seq (begin_attempt s i n).
Proof.
  intros Q H W O. unfold begin_attempt. destruct (connected s) eqn:C; [now apply seq_write|]. apply (seq_move s _ i (POpen n true)); auto. discriminate.
Qed.

Definition fair_step (s : pclient) (e : pev) : Prop :=
  match e with
  | PStart _ => forall j, over (tasks s j)
  | PData i => forall n c r l, tasks s i = PRead n c -> beat s i = true -> inbox (chans s c) = r :: l -> beat s r = true
  | _ => True
  end.
Lemma seq_step s e : Inv s -> Seq s -> fair_step s e -> Seq (pstep s e).
Proof.
  intros I Q F. assert (LV : forall i t, tasks s i = t -> (forall o, t <> PDone o) -> only (tasks s) i).
  { intros i t E H. apply only_live; [exact Q|]. intros [o X]. rewrite E in X. now apply (H o). }
  destruct e as [b|i|i x| |i|i x|i|i|i|c|c]; cbn [ClientModel.pstep]; cbn [fair_step] in F.
  - set (s' := mkP _ _ _ _ _ _ _ _ _ _ _). assert (Q' : Seq s') by (apply (seq_same s); auto).
    assert (O : only (tasks s') (ntasks s)) by (intros j _; apply F).
    destruct (alone_free s (ntasks s) I) as [H W]; [intros j _; apply F|destruct (F (ntasks s)) as [o ->]; exact Logic.I|].
    destruct (b || (0 <? max)); [now apply seq_begin|]. apply (seq_move s' _ (ntasks s) (PDone ONone)); auto; discriminate.
  - unfold plive. destruct (Nat.ltb_spec i (ntasks s)) as [Hi|]; [|exact Q]. destruct (tasks s i) as [n fresh|n|n c|n|o] eqn:E; try exact Q.
    set (s' := mkP _ _ _ _ _ _ _ _ _ _ _). assert (O : only (tasks s) i) by (eapply LV; [exact E|discriminate]).
    pose proof (q_open s Q i n fresh E) as NC. pose proof (q_lost s Q NC) as DC.
    destruct (alone_free s i I O) as [H W]; [rewrite E; exact Logic.I|].
    assert (Base : forall t, (forall m f, t <> POpen m f) -> (forall m c, t = PRead m c -> c = nchan s) -> forall ch' ho wa nt tr, dead ch' = false ->
       Seq (mkP true (nchan s) (S (nchan s)) (fupd (fupd (chans s) (nchan s) (mkChan [] [] false)) (nchan s) ch') ho wa (psuccess s) nt (fupd (tasks s) i t) (beat s) tr)).
    { intros t T1 T2 ch' ho wa nt tr Dh. constructor; cbn [tasks cur nchan chans connected].
      - exists i. now apply only_set.
      - lia.
      - intros c Hc Hn. rewrite !fupd_other by exact Hn. destruct (Nat.eq_dec c (cur s)) as [->|Hx]; [exact DC|]. apply (q_rest s Q); lia.
      - discriminate.
      - intros j m f X. destruct (Nat.eq_dec j i) as [->|Hj]; [rewrite fupd_same in X; destruct (T1 _ _ X)|rewrite fupd_other in X by exact Hj]. destruct (O j Hj) as [o Y]. congruence.
      - intros j m c X. destruct (Nat.eq_dec j i) as [->|Hj]; [rewrite fupd_same in X; eauto|rewrite fupd_other in X by exact Hj]. destruct (O j Hj) as [o Y]. congruence. }
    assert (Same : Seq (mkP true (nchan s) (S (nchan s)) (fupd (chans s) (nchan s) (mkChan [] [] false)) (holder s) (waiters s) (psuccess s) (ntasks s) (fupd (tasks s) i (PDone OMax)) (beat s) (tries s))
       /\ Seq (mkP true (nchan s) (S (nchan s)) (fupd (chans s) (nchan s) (mkChan [] [] false)) (holder s) (waiters s) (psuccess s) (ntasks s) (fupd (tasks s) i (PSleep (n + 1))) (beat s) (tries s))).
    { split; (constructor; cbn [tasks cur nchan chans connected];
      [exists i; now apply only_set|lia|intros c Hc Hn; rewrite !fupd_other by exact Hn; (destruct (Nat.eq_dec c (cur s)) as [->|Hx]; [exact DC|]); apply (q_rest s Q); lia|discriminate
      |intros j m f X; (destruct (Nat.eq_dec j i) as [->|Hj]; [rewrite fupd_same in X; discriminate|rewrite fupd_other in X by exact Hj]); destruct (O j Hj) as [o Y]; congruence
      |intros j m c X; (destruct (Nat.eq_dec j i) as [->|Hj]; [rewrite fupd_same in X; discriminate|rewrite fupd_other in X by exact Hj]); destruct (O j Hj) as [o Y]; congruence]). }
    destruct fresh.
    + unfold write_and_read. cbn [s' holder waiters count_try set_chan cur]. rewrite H, W. cbn [set_task set_lock count_try set_chan connected cur nchan chans holder waiters psuccess ntasks tasks beat tries].
      apply Base; [discriminate|intros m c X; now injection X|]. cbn [dead]. unfold s'. cbn [chans]. now rewrite fupd_same.
    + unfold retry_logic. destruct (max <=? n + 1); apply Same.
  - unfold plive. destruct (Nat.ltb_spec i (ntasks s)) as [Hi|]; [|exact Q]. destruct (tasks s i) as [n fr|n|n c|n|o] eqn:E; try exact Q.
    assert (O : only (tasks s) i) by (eapply LV; [exact E|discriminate]). pose proof (q_open s Q i n fr E) as NC. pose proof (q_lost s Q NC) as DC.
    assert (G : forall t d, tasks d = fupd (tasks s) i t -> cur d = cur s -> nchan d = nchan s -> chans d = chans s -> connected d = false -> (forall m c, t <> PRead m c) -> Seq d).
    { intros t d T1 T2 T3 T4 T5 T6. apply (seq_move s d i t); auto; [rewrite T4; auto|]. intros m c X. now destruct (T6 m c). }
    destruct fr; [destruct (beat s i)|]; [eapply G; try reflexivity; [exact NC|discriminate]| |eapply G; try reflexivity; [exact NC|discriminate]].
    destruct x; cbn [failed]; unfold retry_logic; try (eapply G; try reflexivity; [exact NC|discriminate]); try (eapply G; try reflexivity; discriminate).
    destruct (max <=? n + 1); (eapply G; try reflexivity; [exact NC|discriminate]).
  - destruct (holder s) as [h|] eqn:Eh; [exact Q|]. destruct (waiters s) as [|i r] eqn:Ew; [exact Q|].
    destruct (tasks s i) as [n fr|n|n c|n|o] eqn:E; try exact Q. apply (seq_move s _ i (PRead n (cur s))); auto; [eapply LV; [exact E|discriminate]|discriminate|].
    intros m c X. now injection X.
  - unfold plive. destruct (Nat.ltb_spec i (ntasks s)) as [Hi|]; [|exact Q]. destruct (tasks s i) as [n fr|n|n c|n|o] eqn:E; try exact Q.
    destruct (inbox (chans s c)) as [|r rest] eqn:Eb; [exact Q|]. cbv zeta. cbn [beat set_lock set_chan].
    assert (O : only (tasks s) i) by (eapply LV; [exact E|discriminate]).
    assert (G : forall o d, tasks d = fupd (tasks s) i (PDone o) -> cur d = cur s -> nchan d = nchan s -> connected d = connected s ->
       (forall k, dead (chans s k) = true -> dead (chans d k) = true) -> Seq d).
    { intros o d T1 T2 T3 T4 T5. apply (seq_move s d i (PDone o)); auto; discriminate. }
    destruct (beat s i) eqn:Bi; [rewrite (F n c r rest eq_refl eq_refl Eb)|]; (eapply G; try reflexivity; cbn [set_task set_success set_lock set_chan chans]; now apply dead_upd).
  - unfold plive. destruct (Nat.ltb_spec i (ntasks s)) as [Hi|]; [|exact Q]. destruct (tasks s i) as [n fr|n|n c|n|o] eqn:E; try exact Q.
    destruct (dead (chans s c)) eqn:Dc; [|exact Q]. cbn [andb]. destruct (match x with XEmpty => _ | _ => true end); [|exact Q]. cbv zeta. cbn [beat set_lock set_chan].
    assert (O : only (tasks s) i) by (eapply LV; [exact E|discriminate]). pose proof (q_read s Q i n c E) as ->.
    assert (G : forall t d, tasks d = fupd (tasks s) i t -> cur d = cur s -> nchan d = nchan s -> chans d = fupd (chans s) (cur s) (mkChan (unans (chans s (cur s))) [] true) ->
       (forall m f, t = POpen m f -> connected d = false) -> (forall m c, t <> PRead m c) -> Seq d).
    { intros t d T1 T2 T3 T4 T5 T6. apply (seq_move s d i t); auto; [rewrite T4; now apply dead_upd|]. intros m c X. now destruct (T6 m c). }
    destruct (beat s i); [destruct x; (eapply G; try reflexivity; discriminate)|].
    destruct x; cbn [failed]; unfold retry_logic; try (eapply G; try reflexivity; discriminate).
    destruct (max <=? n + 1); (eapply G; try reflexivity; discriminate).
  - unfold plive. destruct (Nat.ltb_spec i (ntasks s)) as [Hi|]; [|exact Q]. destruct (tasks s i) as [n fr|n|n c|n|o] eqn:E; try exact Q. cbv zeta. cbn [beat set_lock failed]. unfold retry_logic.
    assert (O : only (tasks s) i) by (eapply LV; [exact E|discriminate]).
    assert (G : forall t d, tasks d = fupd (tasks s) i t -> cur d = cur s -> nchan d = nchan s -> chans d = chans s -> connected d = connected s -> (forall m f, t <> POpen m f) -> (forall m c, t <> PRead m c) -> Seq d).
    { intros t d T1 T2 T3 T4 T5 T6 T7. apply (seq_move s d i t); auto; [rewrite T4; auto|intros m f X; now destruct (T6 m f)|intros m k X; now destruct (T7 m k)]. }
    destruct (beat s i); [eapply G; try reflexivity; discriminate|]. destruct (max <=? n + 1); (eapply G; try reflexivity; discriminate).
  - unfold plive. destruct (Nat.ltb_spec i (ntasks s)) as [Hi|]; [|exact Q].
    assert (G : only (tasks s) i -> forall d, tasks d = fupd (tasks s) i (PDone (ORaw XCancel)) -> cur d = cur s -> nchan d = nchan s -> chans d = chans s -> connected d = connected s -> Seq d).
    { intros O d T1 T2 T3 T4 T5. apply (seq_move s d i (PDone (ORaw XCancel))); auto; [rewrite T4; auto|discriminate..]. }
    destruct (tasks s i) as [n fr|n|n c|n|o] eqn:E; try exact Q; (apply G; [eapply LV; [exact E|discriminate]|reflexivity..]).
  - unfold plive. destruct (Nat.ltb_spec i (ntasks s)) as [Hi|]; [|exact Q]. destruct (tasks s i) as [n fr|n|n c|n|o] eqn:E; try exact Q.
    assert (O : only (tasks s) i) by (eapply LV; [exact E|discriminate]). destruct (alone_free s i I O) as [H W]; [rewrite E; exact Logic.I|].
    destruct ((n <? max) && _); [now apply seq_begin|]. apply (seq_move s _ i (PDone ONone)); auto; discriminate.
  - destruct (unans (chans s c)) as [|r rest]; [exact Q|]. destruct (dead (chans s c)) eqn:Ed; [exact Q|].
    apply (seq_same s); auto. cbn [set_chan chans]. apply dead_upd. congruence.
  - apply (seq_same s); auto. cbn [set_chan chans]. now apply dead_upd.
Qed.
Lemma seq_start : Seq pstart.
Proof.
  constructor; cbn; try lia; auto; try discriminate. exists 0%nat. intros j _. now exists ONone.
Qed.
Lemma seq_one s c d : Seq s -> open_now s c -> open_now s d -> c = d.
Proof.
  intros Q [H1 D1] [H2 D2]. destruct (Nat.eq_dec c (cur s)) as [->|N1].
  - destruct (Nat.eq_dec d (cur s)) as [->|N2]; [reflexivity|]. rewrite (q_rest s Q d) in D2 by (auto; lia). discriminate.
  - rewrite (q_rest s Q c) in D1 by (auto; lia). discriminate.
Qed.

(** Without heartbeats nobody is one. *)
Lemma beat_step s e i : e <> PStart true -> (forall j, beat s j = false) -> beat (pstep s e) i = false.
Proof.
  intros N B. destruct e as [b|j|j x| |j|j x|j|j|j|c|c]; cbn [ClientModel.pstep]; auto.
  - destruct b; [now destruct N|]. cbn [orb]. destruct (0 <? max).
    + unfold begin_attempt. cbn [connected]. destruct (connected s); [rewrite beat_write|]; cbn [set_task beat]; (destruct (Nat.eq_dec i (ntasks s)) as [->|Hj]; [now rewrite fupd_same|now rewrite fupd_other]).
    + cbn [set_task beat]. destruct (Nat.eq_dec i (ntasks s)) as [->|Hj]; [now rewrite fupd_same|now rewrite fupd_other].
  - destruct (plive s j); [|apply B]. destruct (tasks s j) as [n fr|n|n c|n|o]; try apply B. cbv zeta. destruct fr; [rewrite beat_write; apply B|]. unfold retry_logic. destruct (max <=? n + 1); apply B.
  - destruct (plive s j); [|apply B]. destruct (tasks s j) as [n [|]|n|n c|n|o]; try apply B. rewrite B. destruct x; cbn [failed]; unfold retry_logic; try apply B. destruct (max <=? n + 1); apply B.
  - destruct (holder s); [apply B|]. destruct (waiters s) as [|k r]; [apply B|]. destruct (tasks s k); apply B.
  - destruct (plive s j); [|apply B]. destruct (tasks s j) as [n fr|n|n c|n|o]; try apply B. destruct (inbox (chans s c)); [apply B|]. cbv zeta. cbn [beat set_lock set_chan]. rewrite !B. apply B.
  - destruct (plive s j); [|apply B]. destruct (tasks s j) as [n fr|n|n c|n|o]; try apply B. destruct (dead (chans s c) && _); [|apply B]. cbv zeta. cbn [beat set_lock set_chan]. rewrite B.
    destruct x; cbn [failed]; unfold retry_logic; try apply B. destruct (max <=? n + 1); apply B.
  - destruct (plive s j); [|apply B]. destruct (tasks s j) as [n fr|n|n c|n|o]; try apply B. cbv zeta. cbn [beat set_lock]. rewrite B. cbn [failed]. unfold retry_logic. destruct (max <=? n + 1); apply B.
  - destruct (plive s j); [|apply B]. destruct (tasks s j); apply B.
  - destruct (plive s j); [|apply B]. destruct (tasks s j) as [n fr|n|n c|n|o]; try apply B. destruct ((n <? max) && _); [|apply B]. unfold begin_attempt. destruct (connected s); [rewrite beat_write|]; apply B.
  - destruct (unans (chans s c)); [apply B|]. destruct (dead (chans s c)); apply B.
  - apply B.
Qed.

Lemma snoc_run evs e : prun max (evs ++ [e]) = pstep (prun max evs) e.
Proof. unfold prun. now rewrite fold_left_app. Qed.
Lemma one_init evs e : one_at_a_time max (evs ++ [e]) -> one_at_a_time max evs.
Proof. intros O b hb a E. apply (O b hb (a ++ [e])). now rewrite E, <- app_assoc. Qed.
Lemma one_last evs e : one_at_a_time max (evs ++ [e]) -> match e with PStart _ => forall j, over (tasks (prun max evs) j) | _ => True end.
Proof. intros O. destruct e as [b| | | | | | | | | | ]; try exact I. intros j. exact (O evs b [] eq_refl j). Qed.

Theorem one_calls evs : one_at_a_time max evs -> (forall e, In e evs -> e <> PStart true) -> forall c d, open_now (prun max evs) c -> open_now (prun max evs) d -> c = d.
Proof.
  intros O H. assert (G : Seq (prun max evs) /\ forall j, beat (prun max evs) j = false).
  { induction evs as [|e evs IH] using rev_ind; [split; [apply seq_start|reflexivity]|].
    destruct IH as [Q B]; [now apply one_init in O|intros x Hx; apply H, in_or_app; now left|]. rewrite snoc_run. split.
    - apply seq_step; [apply prun_inv|exact Q|]. apply one_last in O. destruct e; try exact Logic.I; [exact O|]. cbn [fair_step]. intros n c r l _ X. rewrite B in X. discriminate.
    - intros j. apply beat_step; [apply H, in_or_app; right; now left|exact B]. }
  intros c d. now apply seq_one.
Qed.
Theorem one_beats evs : one_at_a_time max evs -> (forall e, In e evs -> match e with PTimeout _ | PCancel _ => False | _ => True end) ->
  forall c d, open_now (prun max evs) c -> open_now (prun max evs) d -> c = d.
Proof.
  intros O H. assert (G : Seq (prun max evs) /\ PInv (cur (prun max evs)) (nchan (prun max evs)) (chans (prun max evs)) (holder (prun max evs)) (waiters (prun max evs)) (ntasks (prun max evs)) (tasks (prun max evs))).
  { induction evs as [|e evs IH] using rev_ind; [split; [apply seq_start|apply pstart_inv]|].
    destruct IH as [Q P]; [now apply one_init in O|intros x Hx; apply H, in_or_app; now left|]. rewrite snoc_run.
    assert (He := H e ltac:(apply in_or_app; right; now left)).
    assert (Rd : forall i n c r l, tasks (prun max evs) i = PRead n c -> inbox (chans (prun max evs) c) = r :: l -> r = i).
    { intros i n c r l E Eb. destruct (i_read _ _ _ _ _ _ _ P _ _ _ E) as [Eh Hc]. assert (J := i_chan _ _ _ _ _ _ _ P c Hc). unfold reads in J.
      rewrite Eh, E, Nat.eqb_refl in J. destruct J as [[_ J]|J]; [congruence|]. rewrite Eb in J. now injection J. }
    split.
    - apply seq_step; [apply prun_inv|exact Q|]. apply one_last in O. destruct e; try exact Logic.I; [exact O|]. cbn [fair_step]. intros n c r l E B Eb. now rewrite (Rd _ _ _ _ _ E Eb).
    - destruct e as [b|i|i x| |i|i x|i|i|i|c|c]; try contradiction; try (apply pstep_inv; [exact Logic.I|exact P]).
      destruct (tasks (prun max evs) i) as [n fr|n|n c|n|o] eqn:E.
      + apply pstep_inv; [|exact P]. cbn [calm]. destruct (alone_free (prun max evs) i); [apply prun_inv| |rewrite E; exact Logic.I|assumption].
        apply only_live; [exact Q|]. intros [o X]. rewrite E in X. discriminate.
      + assert (pstep (prun max evs) (POpened i) = prun max evs) as ->; [|exact P]. cbn [ClientModel.pstep]. rewrite E. now destruct (plive _ i).
      + assert (pstep (prun max evs) (POpened i) = prun max evs) as ->; [|exact P]. cbn [ClientModel.pstep]. rewrite E. now destruct (plive _ i).
      + assert (pstep (prun max evs) (POpened i) = prun max evs) as ->; [|exact P]. cbn [ClientModel.pstep]. rewrite E. now destruct (plive _ i).
      + assert (pstep (prun max evs) (POpened i) = prun max evs) as ->; [|exact P]. cbn [ClientModel.pstep]. rewrite E. now destruct (plive _ i). }
  intros c d. now apply seq_one.
Qed.
End Persistent.
