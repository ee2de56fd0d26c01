(** Proofs about clients: pairing of responses with requests. *)
From Coq Require Import List ZArith NArith Bool String Lia Arith ZifyBool ZifyNat.
From Verif Require Import RouterModel ClientModel ClientSpec ClientProofs.
Import ListNotations.
Local Open Scope Z_scope.

Lemma nodup_snoc {A} (l : list A) x : NoDup l -> ~ In x l -> NoDup (l ++ [x]).
Proof.
  induction l as [|y l IH]; intros H N; cbn [app].
  - constructor; [intros []|constructor].
  - inversion H; subst. constructor.
    + rewrite in_app_iff. intros [E|[->|[]]]; [auto|]. apply N. now left.
    + apply IH; auto. intros E. apply N. now right.
Qed.

(** ** The persistent connection *)
Section Persistent.
Context (max : Z).

Definition idle (t : pstate) : Prop := match t with PRead _ _ | PWait _ => False | _ => True end.
Definition fine (i : nat) (t : pstate) : Prop := forall r, t = PDone (OText r) -> r = i.
(** Who is reading from connection [c]. *)
Definition reads (h : option nat) (ts : nat -> pstate) (c : nat) : list nat :=
  match h with
  | Some i => match ts i with PRead _ c' => if Nat.eqb c' c then [i] else [] | _ => [] end
  | None => []
  end.
Definition chan_ok (ch : chan) (expected : list nat) : Prop :=
  (dead ch = true /\ inbox ch = []) \/ inbox ch ++ unans ch = expected.

Record PInv (cu nc : nat) (chs : nat -> chan) (h : option nat) (ws : list nat) (nt : nat) (ts : nat -> pstate) : Prop := {
  i_cur : (cu < nc)%nat;
  i_chan : forall c, (c < nc)%nat -> chan_ok (chs c) (reads h ts c ++ if Nat.eqb c cu then ws else []);
  i_read : forall i n c, ts i = PRead n c -> h = Some i /\ (c < nc)%nat;
  i_held : forall i, h = Some i -> exists n c, ts i = PRead n c;
  i_wait : forall i, In i ws <-> exists n, ts i = PWait n;
  i_nodup : NoDup ws;
  i_new : forall i, (nt <= i)%nat -> ts i = PDone ONone;
  i_fine : forall i, fine i (ts i) }.
Notation Inv s := (PInv (cur s) (nchan s) (chans s) (holder s) (waiters s) (ntasks s) (tasks s)).

Lemma reads_other h ts i t c : h <> Some i -> reads h (fupd ts i t) c = reads h ts c.
Proof. intros H. unfold reads. destruct h as [j|]; [|reflexivity]. rewrite fupd_other; [reflexivity|congruence]. Qed.
Lemma idle_held cu nc chs h ws nt ts i : PInv cu nc chs h ws nt ts -> idle (ts i) -> h <> Some i /\ ~ In i ws.
Proof.
  intros I H. split.
  - intros E. destruct (i_held _ _ _ _ _ _ _ I _ E) as [n [c E']]. now rewrite E' in H.
  - intros E. apply (i_wait _ _ _ _ _ _ _ I) in E as [n E]. now rewrite E in H.
Qed.
(** A task that neither reads nor waits for the lock moves on. *)
Lemma inv_task cu nc chs h ws nt nt' ts i t : PInv cu nc chs h ws nt ts -> idle (ts i) -> idle t -> fine i t -> (nt <= nt')%nat -> (i < nt')%nat ->
  PInv cu nc chs h ws nt' (fupd ts i t).
Proof.
  intros I Hi Ht Hf Hn Hl. destruct (idle_held _ _ _ _ _ _ _ _ I Hi) as [Hh Hw]. destruct I as [I1 I2 I3 I4 I5 I6 I7 I8]. constructor; auto.
  - intros c Hc. rewrite reads_other by auto. auto.
  - intros j n c E. destruct (Nat.eq_dec j i) as [->|Hj].
    + rewrite fupd_same in E. now rewrite E in Ht.
    + rewrite fupd_other in E by auto. eauto.
  - intros j E. rewrite fupd_other by congruence. auto.
  - intros j. destruct (Nat.eq_dec j i) as [->|Hj].
    + rewrite fupd_same. split; [tauto|]. intros [n E]. now rewrite E in Ht.
    + rewrite fupd_other by auto. apply I5.
  - intros j Hj. rewrite fupd_other by lia. apply I7. lia.
  - intros j. destruct (Nat.eq_dec j i) as [->|Hj]; [now rewrite fupd_same|]. rewrite fupd_other by auto. apply I8.
Qed.
Lemma inv_set s i t : Inv s -> idle (tasks s i) -> (i < ntasks s)%nat -> idle t -> fine i t -> Inv (set_task s i t).
Proof. intros. eapply inv_task; eauto. Qed.
Lemma inv_more cu nc chs h ws nt nt' ts : PInv cu nc chs h ws nt ts -> (nt <= nt')%nat -> PInv cu nc chs h ws nt' ts.
Proof. intros [I1 I2 I3 I4 I5 I6 I7 I8] H. constructor; auto. intros i Hi. apply I7. lia. Qed.

Lemma chan_add ch l i : chan_ok ch l -> chan_ok (mkChan (unans ch ++ [i]) (inbox ch) (dead ch)) (l ++ [i]).
Proof. intros [[A B]|A]; [now left|right]. cbn [unans inbox]. now rewrite app_assoc, A. Qed.
(** A request is written and the task reads or waits. *)
Lemma inv_write s i n : Inv s -> idle (tasks s i) -> (i < ntasks s)%nat -> Inv (write_and_read s i n).
Proof.
  intros I Hi Hl. destruct (idle_held _ _ _ _ _ _ _ _ I Hi) as [Hh Hw]. destruct I as [I1 I2 I3 I4 I5 I6 I7 I8].
  unfold write_and_read. cbn [count_try set_chan holder waiters].
  assert (G1 : holder s = None -> waiters s = [] ->
     PInv (cur s) (nchan s) (fupd (chans s) (cur s) (mkChan (unans (chans s (cur s)) ++ [i]) (inbox (chans s (cur s))) (dead (chans s (cur s)))))
        (Some i) [] (ntasks s) (fupd (tasks s) i (PRead n (cur s)))).
  { intros Eh Ew. rewrite Ew, Eh in *. constructor; auto.
    - intros c Hc. specialize (I2 c Hc). unfold reads. rewrite fupd_same. destruct (Nat.eqb_spec (cur s) c) as [<-|Hn].
      + rewrite fupd_same. rewrite Nat.eqb_refl in *. cbn [reads app] in *. now apply (chan_add _ []).
      + rewrite fupd_other by auto. assert (Nat.eqb c (cur s) = false) as E by (apply Nat.eqb_neq; auto). rewrite E in *. exact I2.
    - intros j m c E. destruct (Nat.eq_dec j i) as [->|Hj].
      + rewrite fupd_same in E. injection E as <- <-. auto.
      + rewrite fupd_other in E by auto. destruct (I3 _ _ _ E). congruence.
    - intros j E. injection E as <-. rewrite fupd_same. eauto.
    - intros j. split; [intros []|]. intros [m E]. destruct (Nat.eq_dec j i) as [->|Hj].
      + rewrite fupd_same in E. discriminate. + rewrite fupd_other in E by auto. apply I5. eauto.
    - intros j Hj. rewrite fupd_other by lia. now apply I7.
    - intros j. destruct (Nat.eq_dec j i) as [->|Hj]; [rewrite fupd_same; discriminate|]. rewrite fupd_other by auto. apply I8. }
  assert (G2 : PInv (cur s) (nchan s) (fupd (chans s) (cur s) (mkChan (unans (chans s (cur s)) ++ [i]) (inbox (chans s (cur s))) (dead (chans s (cur s)))))
        (holder s) (waiters s ++ [i]) (ntasks s) (fupd (tasks s) i (PWait n))).
  { constructor; auto.
    - intros c Hc. specialize (I2 c Hc). rewrite reads_other by auto. revert I2. case (Nat.eqb_spec c (cur s)); [intros -> I2|intros Hn I2].
      + rewrite fupd_same, app_assoc. now apply chan_add.
      + rewrite fupd_other by auto. exact I2.
    - intros j m c E. destruct (Nat.eq_dec j i) as [->|Hj]; [rewrite fupd_same in E; discriminate|]. rewrite fupd_other in E by auto. eauto.
    - intros j E. rewrite fupd_other by congruence. auto.
    - intros j. rewrite in_app_iff. destruct (Nat.eq_dec j i) as [->|Hj].
      + rewrite fupd_same. split; [eauto|]. intros _. right. now left.
      + rewrite fupd_other, I5 by auto. split; [|tauto]. intros [E|[E|[]]]; [auto|congruence].
    - now apply nodup_snoc.
    - intros j Hj. rewrite fupd_other by lia. now apply I7.
    - intros j. destruct (Nat.eq_dec j i) as [->|Hj]; [rewrite fupd_same; discriminate|]. rewrite fupd_other by auto. apply I8. }
  destruct (holder s) as [hh|] eqn:Eh; [exact G2|]. destruct (waiters s) as [|w ws] eqn:Ew; [|exact G2]. now apply G1.
Qed.
Lemma inv_begin s i n : Inv s -> idle (tasks s i) -> (i < ntasks s)%nat -> Inv (begin_attempt s i n).
Proof.
  intros I Hi Hl. unfold begin_attempt. destruct (connected s); [now apply inv_write|]. cbn [set_task cur nchan chans holder waiters ntasks tasks].
  eapply inv_task; eauto; try exact Logic.I; try lia. discriminate.
Qed.
Lemma inv_retry s i n : Inv s -> idle (tasks s i) -> (i < ntasks s)%nat -> Inv (retry_logic max s i n).
Proof.
  intros I Hi Hl. unfold retry_logic. destruct (max <=? n + 1); ((apply inv_set; [assumption|assumption|assumption|exact Logic.I|discriminate])).
Qed.
Lemma inv_failed s i n x : Inv s -> idle (tasks s i) -> (i < ntasks s)%nat -> Inv (failed max s i n x).
Proof.
  intros I Hi Hl. destruct x; cbn [failed]; try (now apply inv_retry); try ((apply inv_set; [assumption|assumption|assumption|exact Logic.I|discriminate])).
Qed.
(** The reader is done with connection [c]: the response is taken out, or nothing more will come. *)
Lemma inv_release s i n c ch' t : Inv s -> tasks s i = PRead n c -> (i < ntasks s)%nat -> idle t -> fine i t ->
  ((dead ch' = true /\ inbox ch' = []) \/ (forall l, chan_ok (chans s c) (i :: l) -> chan_ok ch' l)) ->
  PInv (cur s) (nchan s) (fupd (chans s) c ch') None (waiters s) (ntasks s) (fupd (tasks s) i t).
Proof.
  intros I E Hl Ht Hf Hch. destruct I as [I1 I2 I3 I4 I5 I6 I7 I8]. destruct (I3 _ _ _ E) as [Eh Hc]. constructor; auto.
  - intros d Hd. specialize (I2 d Hd). cbn [reads app]. rewrite Eh in I2. cbn [reads] in I2. rewrite E in I2.
    destruct (Nat.eq_dec d c) as [->|Hn].
    + rewrite fupd_same. rewrite Nat.eqb_refl in I2. cbn [app] in I2. destruct Hch as [Hch|Hch]; [now left|]. now apply Hch.
    + rewrite fupd_other by auto. assert (Nat.eqb c d = false) as Ed by (apply Nat.eqb_neq; auto). now rewrite Ed in I2.
  - intros j m d E'. destruct (Nat.eq_dec j i) as [->|Hj]; [rewrite fupd_same in E'; now rewrite E' in Ht|].
    rewrite fupd_other in E' by auto. destruct (I3 _ _ _ E'). congruence.
  - discriminate.
  - intros j. rewrite I5. destruct (Nat.eq_dec j i) as [->|Hj]; [|now rewrite fupd_other].
    rewrite fupd_same. split; intros [m E']; [congruence|]. now rewrite E' in Ht.
  - intros j Hj. rewrite fupd_other by lia. now apply I7.
  - intros j. destruct (Nat.eq_dec j i) as [->|Hj]; [now rewrite fupd_same|]. rewrite fupd_other by auto. apply I8.
Qed.
Lemma inv_chan s c ch' : Inv s -> (forall l, chan_ok (chans s c) l -> chan_ok ch' l) ->
  PInv (cur s) (nchan s) (fupd (chans s) c ch') (holder s) (waiters s) (ntasks s) (tasks s).
Proof.
  intros [I1 I2 I3 I4 I5 I6 I7 I8] H. constructor; auto. intros d Hd. specialize (I2 d Hd).
  destruct (Nat.eq_dec d c) as [->|Hn]; [rewrite fupd_same; auto|now rewrite fupd_other].
Qed.
Lemma new_idle s i : Inv s -> (ntasks s <= i)%nat -> idle (tasks s i).
Proof. intros I H. rewrite (i_new _ _ _ _ _ _ _ I) by auto. exact Logic.I. Qed.

(** Events that keep requests and responses paired. *)
Definition calm (s : pclient) (e : pev) : Prop :=
  match e with PTimeout _ | PCancel _ => False | POpened _ => waiters s = [] | _ => True end.

Lemma pstep_inv s e : calm s e -> Inv s -> Inv (pstep max s e).
Proof.
  intros C I. destruct e as [hb|i|i x| |i|i x|i|i|i|c|c]; cbn [pstep]; try contradiction.
  - set (s' := mkP _ _ _ _ _ _ _ _ _ _ _).
    assert (I' : Inv s') by (eapply inv_more; [exact I|]; cbn; lia).
    assert (Hd : idle (tasks s' (ntasks s))) by (apply (new_idle s); auto).
    destruct (hb || (0 <? max)); [apply inv_begin; auto; cbn; lia|].
    eapply inv_task; [exact I'|exact Hd|exact Logic.I|discriminate|cbn; lia|cbn; lia].
  - unfold plive. destruct (Nat.ltb_spec i (ntasks s)) as [Hi|]; [|exact I]. destruct (tasks s i) as [n fresh|n|n c|n|o] eqn:E; try exact I.
    set (s' := mkP _ _ _ _ _ _ _ _ _ _ _). cbn [calm] in C.
    assert (I' : Inv s').
    { destruct I as [I1 I2 I3 I4 I5 I6 I7 I8]. constructor; cbn [s' cur nchan chans holder waiters ntasks tasks]; auto.
      - intros c Hc. assert (Rn : reads (holder s) (tasks s) (nchan s) = []).
        { unfold reads. destruct (holder s) as [j|] eqn:Eh; [|reflexivity]. destruct (I4 j eq_refl) as [m [d Ed]]. rewrite Ed. destruct (I3 _ _ _ Ed).
          assert (Nat.eqb d (nchan s) = false) as -> by (apply Nat.eqb_neq; lia). reflexivity. }
        rewrite C. destruct (Nat.eq_dec c (nchan s)) as [->|Hn].
        + rewrite fupd_same, Rn. right. now destruct (Nat.eqb _ _).
        + rewrite fupd_other by auto. specialize (I2 c ltac:(lia)). rewrite C in I2. destruct (Nat.eqb c (nchan s)), (Nat.eqb c (cur s)); exact I2.
      - intros j m d Ed. destruct (I3 _ _ _ Ed). split; [auto|lia]. }
    assert (Hd : idle (tasks s' i)) by (cbn [s' tasks]; rewrite E; exact Logic.I).
    destruct fresh; [apply inv_write|apply inv_retry]; auto.
  - unfold plive. destruct (Nat.ltb_spec i (ntasks s)) as [Hi|]; [|exact I]. destruct (tasks s i) as [n [|]|n|n c|n|o] eqn:E; try exact I.
    + assert (Hd : idle (tasks s i)) by (rewrite E; exact Logic.I). destruct (beat s i); [|now apply inv_failed].
      (apply inv_set; [assumption|assumption|assumption|exact Logic.I|discriminate]).
    + assert (Hd : idle (tasks s i)) by (rewrite E; exact Logic.I). (apply inv_set; [assumption|assumption|assumption|exact Logic.I|discriminate]).
  - destruct (holder s) as [h|] eqn:Eh; [now rewrite Eh|]. destruct (waiters s) as [|i r] eqn:Ew; [now rewrite Eh, Ew|].
    destruct (tasks s i) as [n fresh|n|n c|n|o] eqn:E; try now rewrite Eh, Ew.
    cbn [set_task set_lock cur nchan chans holder waiters ntasks tasks]. 
    destruct I as [I1 I2 I3 I4 I5 I6 I7 I8]. inversion I6; subst.
    assert (Hi : (i < ntasks s)%nat). { destruct (Nat.lt_ge_cases i (ntasks s)); auto. rewrite I7 in E by auto. discriminate. }
    constructor; auto.
    + intros c Hc. specialize (I2 c Hc). unfold reads in *. rewrite fupd_same. cbn [app] in I2.
      destruct (Nat.eqb_spec (cur s) c) as [<-|Hn].
      * rewrite Nat.eqb_refl in *. exact I2.
      * assert (Nat.eqb c (cur s) = false) as Ec by (apply Nat.eqb_neq; auto). rewrite Ec in *. exact I2.
    + intros j m c Ej. destruct (Nat.eq_dec j i) as [->|Hj].
      * rewrite fupd_same in Ej. injection Ej as <- <-. auto.
      * rewrite fupd_other in Ej by auto. destruct (I3 _ _ _ Ej). discriminate.
    + intros j Ej. injection Ej as <-. rewrite fupd_same. eauto.
    + intros j. destruct (Nat.eq_dec j i) as [->|Hj].
      * rewrite fupd_same. split; [tauto|]. intros [m Ej]. discriminate.
      * rewrite fupd_other by auto. rewrite <- I5. cbn. split; [tauto|]. intros [Ej|Ej]; [congruence|auto].
    + intros j Hj. rewrite fupd_other by lia. now apply I7.
    + intros j. destruct (Nat.eq_dec j i) as [->|Hj]; [rewrite fupd_same; discriminate|]. rewrite fupd_other by auto. apply I8.
  - unfold plive. destruct (Nat.ltb_spec i (ntasks s)) as [Hi|]; [|exact I]. destruct (tasks s i) as [n fresh|n|n c|n|o] eqn:E; try exact I.
    destruct (inbox (chans s c)) as [|r rest] eqn:Eb; [exact I|].
    assert (Hr : r = i).
    { destruct (i_read _ _ _ _ _ _ _ I _ _ _ E) as [Eh Hc]. assert (J := i_chan _ _ _ _ _ _ _ I c Hc). unfold reads in J.
      rewrite Eh, E, Nat.eqb_refl in J. destruct J as [[_ J]|J]; [congruence|]. rewrite Eb in J. now injection J. }
    subst r. set (ch' := mkChan _ rest _).
    assert (Hch : forall l, chan_ok (chans s c) (i :: l) -> chan_ok ch' l).
    { intros l [[_ J]|J]; [congruence|]. right. rewrite Eb in J. cbn [ch' inbox unans]. now injection J. }
    cbn [set_lock set_chan beat]. destruct (beat s i).
    + apply (inv_release s i n c ch' (PDone ONone)); [exact I|exact E|exact Hi|exact Logic.I|discriminate|now right].
    + apply (inv_release s i n c ch' (PDone (OText i))); [exact I|exact E|exact Hi|exact Logic.I| |now right]. intros r Er. now injection Er.
  - unfold plive. destruct (Nat.ltb_spec i (ntasks s)) as [Hi|]; [|exact I]. destruct (tasks s i) as [n fresh|n|n c|n|o] eqn:E; try exact I.
    destruct (dead (chans s c) && _) eqn:Ed; [|exact I]. cbn [set_lock set_chan beat].
    set (ch' := mkChan _ [] true).
    assert (Rel : forall t, idle t -> fine i t -> PInv (cur s) (nchan s) (fupd (chans s) c ch') None (waiters s) (ntasks s) (fupd (tasks s) i t)).
    { intros t T1 T2. apply (inv_release s i n c ch' t); auto. }
    destruct (beat s i).
    + destruct x; (apply Rel; [exact Logic.I|discriminate]).
    + destruct x; cbn [failed set_connected set_lock set_chan set_task]; unfold retry_logic; try (apply Rel; [exact Logic.I|discriminate]).
      destruct (max <=? n + 1); (apply Rel; [exact Logic.I|discriminate]).
  - unfold plive. destruct (Nat.ltb_spec i (ntasks s)) as [Hi|]; [|exact I]. destruct (tasks s i) as [n fresh|n|n c|n|o] eqn:E; try exact I.
    assert (Hd : idle (tasks s i)) by (rewrite E; exact Logic.I).
    destruct ((n <? max) && _); [now apply inv_begin|]. (apply inv_set; [assumption|assumption|assumption|exact Logic.I|discriminate]).
  - destruct (unans (chans s c)) as [|r rest] eqn:Eu; [exact I|]. destruct (dead (chans s c)) eqn:Ed; [exact I|].
    apply (inv_chan s c (mkChan rest (inbox (chans s c) ++ [r]) false)); auto. intros l [[J _]|J]; [congruence|]. right. cbn [inbox unans]. rewrite Eu in J. now rewrite <- app_assoc.
  - apply (inv_chan s c (mkChan (unans (chans s c)) (inbox (chans s c)) true)); auto. intros l [[J J']|J]; [now left|]. now right.
Qed.
Lemma pstart_inv : Inv pstart.
Proof.
  constructor; cbn; try lia; try discriminate; auto.
  - intros c Hc. left. auto.
  - intros i. split; [intros []|intros [n E]; discriminate].
  - constructor.
Qed.
(** Timeouts and cancellations aside, and as long as no connection is replaced while a task waits for its turn to read:
    every response is the one to the call's own request. *)
Theorem paired evs : (forall e, In e evs -> match e with PTimeout _ | PCancel _ => False | _ => True end) ->
  (forall before i after, evs = before ++ POpened i :: after -> waiters (prun max before) = []) ->
  forall i r, tasks (prun max evs) i = PDone (OText r) -> r = i.
Proof.
  intros H1 H2. assert (I : Inv (prun max evs)).
  { unfold prun in *. induction evs as [|e evs IH] using rev_ind; [apply pstart_inv|].
    rewrite fold_left_app. cbn [fold_left]. apply pstep_inv.
    - assert (H1' := H1 e). destruct e; cbn [calm]; try exact Logic.I; try (apply H1'; apply in_or_app; right; now left). eapply (H2 evs _ []). reflexivity.
    - apply IH.
      + intros e' He. apply H1. apply in_or_app. now left.
      + intros b i a E. apply (H2 b i (a ++ [e])). rewrite E, <- app_assoc. reflexivity. }
  intros i r E. exact (i_fine _ _ _ _ _ _ _ I i r E).
Qed.

(** *** Attempts on a persistent connection *)
Definition tries_ok (k : nat) (t : pstate) : Prop :=
  match t with
  | POpen n true | PSleep n => Z.of_nat k <= n /\ n < max /\ 0 <= n
  | POpen n false | PWait n | PRead n _ => Z.of_nat k <= n + 1 /\ n < max /\ 0 <= n
  | PDone _ => Z.of_nat k <= Z.max max 0
  end.
Definition TInv (s : pclient) : Prop := forall i, (i < ntasks s)%nat -> beat s i = false -> tries_ok (tries s i) (tasks s i).

Lemma t_set s i t : TInv s -> (beat s i = false -> tries_ok (tries s i) t) -> TInv (set_task s i t).
Proof.
  intros T H j Hj Bj. cbn [set_task ntasks beat tries tasks] in *. destruct (Nat.eq_dec j i) as [->|Hn].
  - rewrite fupd_same. auto. - rewrite fupd_other by auto. now apply T.
Qed.
Lemma t_write s i n : TInv s -> (beat s i = false -> Z.of_nat (tries s i) <= n /\ n < max /\ 0 <= n) -> TInv (write_and_read s i n).
Proof.
  intros T H. unfold write_and_read. cbn [count_try set_chan holder waiters cur].
  assert (G : forall h w t, (match t with PWait m | PRead m _ => m = n | _ => False end) ->
    TInv (set_task (set_lock (count_try (set_chan s (cur s) (mkChan (unans (chans s (cur s)) ++ [i]) (inbox (chans s (cur s))) (dead (chans s (cur s))))) i) h w) i t)).
  { intros h w t Ht j Hj Bj. cbn [set_task set_lock count_try set_chan ntasks beat tries tasks] in *. destruct (Nat.eq_dec j i) as [->|Hn].
    - rewrite !fupd_same. specialize (H Bj). destruct t; try destruct Ht; subst; cbn [tries_ok]; lia.
    - rewrite !fupd_other by auto. now apply T. }
  destruct (holder s); [apply G; reflexivity|]. destruct (waiters s); apply G; reflexivity.
Qed.
Lemma t_begin s i n : TInv s -> (beat s i = false -> Z.of_nat (tries s i) <= n /\ n < max /\ 0 <= n) -> TInv (begin_attempt s i n).
Proof. intros T H. unfold begin_attempt. destruct (connected s); [now apply t_write|now apply t_set]. Qed.
Lemma t_retry s i n : TInv s -> (beat s i = false -> Z.of_nat (tries s i) <= n + 1 /\ n < max /\ 0 <= n) -> TInv (retry_logic max s i n).
Proof.
  intros T H. unfold retry_logic. destruct (Z.leb_spec max (n + 1)); apply t_set; auto; intros B; specialize (H B); cbn [tries_ok]; lia.
Qed.
Lemma t_failed s i n x : TInv s -> (beat s i = false -> Z.of_nat (tries s i) <= n + 1 /\ n < max /\ 0 <= n) -> TInv (failed max s i n x).
Proof.
  intros T H. destruct x; cbn [failed]; try (now apply t_retry); (apply t_set; [exact T|]; cbn [set_connected beat tries]; intros B; specialize (H B); cbn [tries_ok]; lia).
Qed.
Lemma pstep_tries s e : TInv s -> TInv (pstep max s e).
Proof.
  intros T. destruct e as [hb|i|i x| |i|i x|i|i|i|c|c]; cbn [pstep].
  - set (s' := mkP _ _ _ _ _ _ _ _ _ _ _).
    assert (T' : forall j, (j < ntasks s)%nat -> beat s j = false -> tries_ok (tries s' j) (tasks s' j)).
    { intros j Hj Bj. cbn [s' tries tasks]. rewrite fupd_other by lia. auto. }
    assert (G : forall t f, (hb = false -> tries_ok (f (tries s' (ntasks s))) t) -> forall s'', ntasks s'' = S (ntasks s) -> beat s'' = beat s' ->
       tasks s'' = fupd (tasks s') (ntasks s) t -> tries s'' = fupd (tries s') (ntasks s) (f (tries s' (ntasks s))) -> TInv s'').
    { intros t f H s'' E1 E2 E3 E4 j Hj Bj. rewrite E1 in Hj. rewrite E2 in Bj. cbn [s' beat] in Bj. rewrite E3, E4.
      destruct (Nat.eq_dec j (ntasks s)) as [->|Hn]; [rewrite fupd_same in Bj; rewrite !fupd_same; auto|].
      rewrite fupd_other in Bj by auto. rewrite !fupd_other by auto. apply T'; auto. lia. }
    assert (Z0 : tries s' (ntasks s) = 0%nat) by (cbn [s' tries]; apply fupd_same).
    assert (Tid : forall x, fupd (tries s') (ntasks s) (tries s' (ntasks s)) x = tries s' x).
    { intros x. unfold fupd at 1. destruct (Nat.eqb_spec x (ntasks s)) as [->|]; reflexivity. }
    assert (Gs : forall t, (hb = false -> tries_ok 0%nat t) -> TInv (set_task s' (ntasks s) t)).
    { intros t H j Hj Bj. cbn [set_task ntasks beat tries tasks] in *. destruct (Nat.eq_dec j (ntasks s)) as [->|Hn].
      - rewrite fupd_same, Z0. apply H. cbn [s' beat] in Bj. now rewrite fupd_same in Bj.
      - rewrite (fupd_other (tasks s')) by auto. cbn [s' beat ntasks] in Bj, Hj. rewrite fupd_other in Bj by auto. apply T'; auto. lia. }
    destruct (hb || (0 <? max)) eqn:Eb.
    + unfold begin_attempt. destruct (connected s').
      * unfold write_and_read. cbn [count_try set_chan holder waiters cur].
        destruct (holder s'); [|destruct (waiters s')];
          (eapply (G _ S); [|reflexivity|reflexivity|reflexivity|reflexivity]; intros ->; rewrite Z0; cbn [tries_ok orb] in *; lia).
      * apply Gs. intros ->. cbn [tries_ok orb] in *. lia.
    + apply Gs. intros ->. cbn [tries_ok]. lia.
  - unfold plive. destruct (Nat.ltb_spec i (ntasks s)) as [Hi|]; [|exact T]. specialize (T i Hi) as Ti. destruct (tasks s i) as [n fresh|n|n c|n|o] eqn:E; try exact T.
    set (s' := mkP _ _ _ _ _ _ _ _ _ _ _). assert (T' : TInv s') by exact T.
    destruct fresh; [apply t_write|apply t_retry]; auto.
  - unfold plive. destruct (Nat.ltb_spec i (ntasks s)) as [Hi|]; [|exact T]. specialize (T i Hi) as Ti. destruct (tasks s i) as [n [|]|n|n c|n|o] eqn:E; try exact T.
    + destruct (beat s i) eqn:B; [apply t_set; [exact T|congruence]|]. apply t_failed; auto. intros _. specialize (Ti eq_refl). cbn [tries_ok] in Ti. lia.
    + apply t_set; [exact T|]. intros B. specialize (Ti B). cbn [tries_ok] in *. lia.
  - destruct (holder s) as [h|]; [exact T|]. destruct (waiters s) as [|i r]; [exact T|]. destruct (tasks s i) as [n fresh|n|n c|n|o] eqn:E; try exact T.
    intros j Hj Bj. cbn [set_task set_lock ntasks beat tries tasks] in *. destruct (Nat.eq_dec j i) as [->|Hn].
    + rewrite fupd_same. specialize (T i Hj Bj). now rewrite E in T.
    + rewrite fupd_other by auto. now apply T.
  - unfold plive. destruct (Nat.ltb_spec i (ntasks s)) as [Hi|]; [|exact T]. specialize (T i Hi) as Ti. destruct (tasks s i) as [n fresh|n|n c|n|o] eqn:E; try exact T.
    destruct (inbox (chans s c)) as [|r rest]; [exact T|]. cbn [set_lock set_chan beat]. destruct (beat s i) eqn:B.
    + apply t_set; [destruct (beat s r); exact T|]. intros B'. destruct (beat s r); cbn [set_connected set_lock set_chan beat] in B'; congruence.
    + apply t_set; [exact T|]. intros _. specialize (Ti eq_refl). cbn [tries_ok tries set_success set_lock set_chan] in *. lia.
  - unfold plive. destruct (Nat.ltb_spec i (ntasks s)) as [Hi|]; [|exact T]. specialize (T i Hi) as Ti. destruct (tasks s i) as [n fresh|n|n c|n|o] eqn:E; try exact T.
    destruct (dead (chans s c) && _); [|exact T]. cbn [set_lock set_chan beat]. destruct (beat s i) eqn:B.
    + apply t_set; [destruct x; exact T|]. intros B'. destruct x; cbn [set_connected set_lock set_chan beat] in B'; congruence.
    + specialize (Ti eq_refl). apply t_failed; [destruct x; exact T|]. intros _. cbn [tries_ok] in Ti. destruct x; exact Ti.
  - unfold plive. destruct (Nat.ltb_spec i (ntasks s)) as [Hi|]; [|exact T]. specialize (T i Hi) as Ti. destruct (tasks s i) as [n fresh|n|n c|n|o] eqn:E; try exact T.
    cbn [set_lock beat]. destruct (beat s i) eqn:B.
    + apply t_set; [exact T|]. cbn [set_lock beat]. congruence.
    + apply t_failed; [exact T|]. intros _. exact (Ti eq_refl).
  - unfold plive. destruct (Nat.ltb_spec i (ntasks s)) as [Hi|]; [|exact T]. specialize (T i Hi) as Ti.
    destruct (tasks s i) as [n [|]|n|n c|n|o] eqn:E; try exact T;
    (apply t_set; [exact T|]; cbn [set_lock beat tries]; intros B; specialize (Ti B); cbn [tries_ok] in *; lia).
  - unfold plive. destruct (Nat.ltb_spec i (ntasks s)) as [Hi|]; [|exact T]. specialize (T i Hi) as Ti. destruct (tasks s i) as [n fresh|n|n c|n|o] eqn:E; try exact T.
    destruct ((n <? max) && _); [apply t_begin; auto|]. apply t_set; auto. intros B. specialize (Ti B). cbn [tries_ok] in *. lia.
  - destruct (unans (chans s c)); [exact T|]. destruct (dead (chans s c)); exact T.
  - exact T.
Qed.
Theorem tries_bounded evs i : (i < ntasks (prun max evs))%nat -> beat (prun max evs) i = false ->
  Z.of_nat (tries (prun max evs) i) <= Z.max max 0.
Proof.
  intros Hi B. assert (T : TInv (prun max evs)).
  { unfold prun. clear. induction evs as [|e evs IH] using rev_ind; [intros i Hi; cbn in Hi; lia|]. rewrite fold_left_app. cbn [fold_left]. now apply pstep_tries. }
  specialize (T i Hi B). destruct (tasks (prun max evs) i) as [n [|]|n|n c|n|o]; cbn [tries_ok] in T; lia.
Qed.
End Persistent.

(** ** Datagrams *)
Section Datagram.
Context (max : Z).
Record DInv (s : dclient) : Prop := {
  d_sent : forall i n, dtasks s i = DSent n -> dheld s = Some i;
  d_held : forall i, dheld s = Some i -> (exists n, dtasks s i = DSent n) /\ dresponse s = Some false;
  d_free : dheld s = None -> dresponse s = None \/ dresponse s = Some true;
  d_net : net s = [] \/ exists i, dheld s = Some i /\ net s = [i];
  d_new : forall i, (dn s <= i)%nat -> dtasks s i = DDone ONone;
  d_fine : forall i r, dtasks s i = DDone (OText r) -> r = i }.

Definition didle (t : dstate) : Prop := match t with DSent _ => False | _ => True end.
Lemma d_set s i t w m : DInv s -> didle (dtasks s i) -> didle t -> (forall r, t = DDone (OText r) -> r = i) -> (i < m)%nat -> (dn s <= m)%nat ->
  DInv (dset (mkD (dheld s) w (dresponse s) (net s) m (dtasks s)) i t).
Proof.
  intros [D1 D2 D3 D4 D5 D6] Hi Ht Hf Hl Hm. constructor; cbn [dset dheld dwait dresponse net dn dtasks]; auto.
  - intros j n E. destruct (Nat.eq_dec j i) as [->|Hn]; [rewrite fupd_same in E; now rewrite E in Ht|]. rewrite fupd_other in E by auto. eauto.
  - intros j E. destruct (D2 j E) as [[n E'] R]. split; [|exact R]. rewrite fupd_other; [eauto|]. intros ->. now rewrite E' in Hi.
  - intros j Hj. rewrite fupd_other by lia. apply D5. lia.
  - intros j r E. destruct (Nat.eq_dec j i) as [->|Hn]; [rewrite fupd_same in E; auto|]. rewrite fupd_other in E by auto. auto.
Qed.
Lemma d_send s i n w m : DInv s -> dheld s = None -> (i < m)%nat -> (dn s <= m)%nat ->
  DInv (dsend (mkD (dheld s) w (dresponse s) (net s) m (dtasks s)) i n).
Proof.
  intros [D1 D2 D3 D4 D5 D6] Hh Hl Hm. unfold dsend. constructor; cbn [dset dheld dwait dresponse net dn dtasks]; auto.
  - intros j k E. destruct (Nat.eq_dec j i) as [->|Hn]; [reflexivity|]. rewrite fupd_other in E by auto. apply D1 in E. congruence.
  - intros j E. injection E as <-. rewrite fupd_same. eauto.
  - discriminate.
  - destruct D4 as [->|[j [E _]]]; [|congruence]. right. exists i. auto.
  - intros j Hj. rewrite fupd_other by lia. apply D5. lia.
  - intros j r E. destruct (Nat.eq_dec j i) as [->|Hn]; [rewrite fupd_same in E; discriminate|]. rewrite fupd_other in E by auto. auto.
Qed.
Lemma d_attempt s i n m : DInv s -> didle (dtasks s i) -> (i < m)%nat -> (dn s <= m)%nat ->
  DInv (dattempt (mkD (dheld s) (dwait s) (dresponse s) (net s) m (dtasks s)) i n).
Proof.
  intros D Hi Hl Hm. unfold dattempt. cbn [dheld dwait dresponse net dn dtasks].
  assert (G : DInv (dset (mkD (dheld s) (dwait s ++ [i]) (dresponse s) (net s) m (dtasks s)) i (DWait n))) by (apply d_set; [exact D|exact Hi|exact Logic.I|discriminate|exact Hl|exact Hm]).
  assert (G' : dheld s = None -> DInv (dsend (mkD (dheld s) (dwait s) (dresponse s) (net s) m (dtasks s)) i n)) by (intros Hh; now apply d_send).
  destruct (dheld s) eqn:Eh; [exact G|]. destruct (dwait s) eqn:Ew; [|exact G]. now apply G'.
Qed.
Lemma take_one r i rest : take_out r [i] = Some rest -> r = i /\ rest = [].
Proof. cbn. destruct (Nat.eqb_spec i r); [|discriminate]. intros E. injection E as <-. auto. Qed.
Lemma dstep_inv s e : match e with DTimeout _ | DCopy _ => False | _ => True end -> DInv s -> DInv (dstep max s e).
Proof.
  intros C D. destruct e as [| |r|r|r|i|i]; cbn [dstep]; try contradiction.
  - assert (Hd : didle (dtasks s (dn s))) by (rewrite (d_new _ D) by lia; exact Logic.I).
    destruct (0 <? max); [apply d_attempt; auto; lia|]. apply d_set; [exact D|exact Hd|exact Logic.I|discriminate|lia|lia].
  - destruct (dheld s) eqn:Eh; [exact D|]. destruct (dwait s) as [|i w]; [exact D|]. destruct (dtasks s i) as [n|n|n|o] eqn:E; try exact D.
    assert (Hi : (i < dn s)%nat). { destruct (Nat.lt_ge_cases i (dn s)); auto. rewrite (d_new _ D) in E by auto. discriminate. }
    rewrite <- Eh at 1. apply d_send; auto.
  - destruct (take_out r (net s)) as [rest|] eqn:Et; [|exact D]. cbn [dresponse dheld].
    destruct (d_net _ D) as [E|[i [Eh E]]]; rewrite E in Et; [discriminate|]. apply take_one in Et as [-> ->].
    destruct (d_held _ D i Eh) as [[n En] Er]. rewrite Er, Eh. cbn [dwait net dn dtasks].
    destruct D as [D1 D2 D3 D4 D5 D6].
    assert (Hi : (i < dn s)%nat). { destruct (Nat.lt_ge_cases i (dn s)); auto. rewrite D5 in En by auto. discriminate. }
    constructor; cbn [dset dheld dwait dresponse net dn dtasks]; auto; try discriminate.
    + intros j m E'. destruct (Nat.eq_dec j i) as [->|Hn]; [rewrite fupd_same in E'; discriminate|]. rewrite fupd_other in E' by auto. apply D1 in E'. congruence.
    + intros j Hj. rewrite fupd_other by lia. now apply D5.
    + intros j r E'. destruct (Nat.eq_dec j i) as [->|Hn]; [rewrite fupd_same in E'; now injection E'|]. rewrite fupd_other in E' by auto. auto.
  - destruct (take_out r (net s)) as [rest|] eqn:Et; [|exact D].
    destruct (d_net _ D) as [E|[i [Eh E]]]; rewrite E in Et; [discriminate|]. apply take_one in Et as [-> ->].
    destruct D as [D1 D2 D3 D4 D5 D6]. constructor; cbn [dheld dwait dresponse net dn dtasks]; auto.
  - destruct (Nat.ltb_spec i (dn s)) as [Hi|]; [|exact D]. destruct (dtasks s i) as [n|n|n|o] eqn:E; try exact D.
    assert (Hd : didle (dtasks s i)) by (rewrite E; exact Logic.I). destruct s as [h w rs nt m ts]. cbn [dn dtasks] in *.
    destruct (n <? max); [apply (d_attempt (mkD h w rs nt m ts)); auto|]. apply (d_set (mkD h w rs nt m ts)); [exact D|exact Hd|exact Logic.I|discriminate|exact Hi|cbn; lia].
Qed.
Theorem datagrams_paired evs : (forall e, In e evs -> match e with DTimeout _ | DCopy _ => False | _ => True end) ->
  forall i r, dtasks (drun max evs) i = DDone (OText r) -> r = i.
Proof.
  intros H. assert (D : DInv (drun max evs)).
  { unfold drun. induction evs as [|e evs IH] using rev_ind.
    - constructor; cbn; auto; discriminate.
    - rewrite fold_left_app. cbn [fold_left]. apply dstep_inv.
      + apply H. apply in_or_app. right. now left.
      + apply IH. intros e' He. apply H. apply in_or_app. now left. }
  exact (d_fine _ D).
Qed.
End Datagram.
