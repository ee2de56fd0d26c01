(** Proofs about the log handler. *)
From Coq Require Import ZArith Bool Lia List Arith.
From Verif Require Import LogBufModel LogBufSpec.
Import ListNotations.

Section Proofs.
Context {R Sp : Type} (formats : R -> bool) (setting_size size_set : Z -> R).
Context (roll : list (line R Sp) -> line R Sp -> bool) (backups : nat).
Set Default Proof Using "Type".
Notation line := (line R Sp). Notation disk := (disk R Sp). Notation log := (log R Sp). Notation event := (event R Sp).
Notation file_emit := (file_emit formats roll backups). Notation flush := (flush formats roll backups).
Notation step := (step formats setting_size size_set roll backups). Notation run := (run formats setting_size size_set roll backups).
Notation text := (text backups). Notation writable := (writable formats).
Notation logged := (logged setting_size size_set).

(** ** Rotation *)
Definition chain (b : nat -> option (list line)) (n : nat) : list line := flat_map (fun i => content (b i)) (rev (seq 1 n)).
Lemma chain_S : forall b n, chain b (S n) = content (b (S n)) ++ chain b n.
Proof. intros b n. unfold chain. rewrite seq_S, rev_app_distr. reflexivity. Qed.
Lemma chain_eq : forall b c n, (forall i, i <= n -> b i = c i) -> chain b n = chain c n.
Proof.
  intros b c n. induction n; intros H; [reflexivity|].
  rewrite !chain_S, (H (S n)) by lia. rewrite IHn; [reflexivity|intros; apply H; lia].
Qed.
Lemma upd_same : forall {A} (f : nat -> A) i x, upd f i x i = x.
Proof. intros. unfold upd. rewrite Nat.eqb_refl. reflexivity. Qed.
Lemma upd_other : forall {A} (f : nat -> A) i j x, j <> i -> upd f i x j = f j.
Proof. intros. unfold upd. destruct (Nat.eqb_spec j i); [contradiction|reflexivity]. Qed.
Lemma shift_above : forall n (b : nat -> option (list line)) i, S n < i -> shift n b i = b i.
Proof.
  induction n; intros b i H; [reflexivity|]. cbn [shift]. rewrite IHn by lia.
  destruct (b (S n)); [|reflexivity]. rewrite !upd_other by lia. reflexivity.
Qed.
Definition kept (n : nat) (b : nat -> option (list line)) : bool :=
  match n with O => false | S _ => match b n with Some _ => true | None => false end end.
Lemma shift_chain : forall n b,
  chain (shift n b) (S n) = (if kept n b then [] else content (b (S n))) ++ chain b n.
Proof.
  induction n; intros b; [cbn [shift kept]; rewrite chain_S; reflexivity|].
  cbn [shift kept]. rewrite chain_S, shift_above by lia. destruct (b (S n)) as [f|] eqn:E.
  - rewrite upd_other, upd_same by lia. rewrite IHn, upd_same. cbn [content app].
    rewrite (chain_S b n), E. cbn [content]. f_equal.
    rewrite (chain_eq (upd (upd b (S (S n)) (Some f)) (S n) None) b n)
      by (intros; rewrite !upd_other by lia; reflexivity).
    destruct (kept n _); reflexivity.
  - rewrite IHn, E, (chain_S b n), E. cbn [content app]. destruct (kept n b); reflexivity.
Qed.
Lemma shift_first : forall n (b : nat -> option (list line)), n <> 0 -> shift n b 1 = None.
Proof.
  induction n; intros b H; [congruence|]. cbn [shift]. destruct n.
  - cbn [shift]. destruct (b 1) eqn:E; [apply upd_same|exact E].
  - apply IHn. discriminate.
Qed.
Lemma shift_last : forall n (b : nat -> option (list line)), b (S n) <> None -> n <> 0 -> shift n b (S n) <> None.
Proof.
  intros [|n] b H H0; [congruence|]. cbn [shift]. rewrite shift_above by lia.
  destruct (b (S n)); [rewrite upd_other, upd_same by lia; discriminate|exact H].
Qed.

(** What a rollover does to the text: the oldest file may go, nothing else. *)
Definition oldest (d : disk) : list line := match backups with O => [] | S _ => content (bak d backups) end.
Definition full (d : disk) : Prop := match backups with O => False | S _ => bak d backups <> None end.
Lemma text_chain : forall d : disk, text d = chain (bak d) backups ++ base d.
Proof. reflexivity. Qed.
Lemma rollover : forall d : disk, exists gone,
  text d = gone ++ text (do_rollover backups d) /\
  (gone = [] \/ gone = oldest d) /\
  (gone <> [] -> full d) /\ (full d -> full (do_rollover backups d)).
Proof.
  intros d. rewrite !text_chain. unfold oldest, full, do_rollover. destruct backups as [|m] eqn:B.
  - exists []. repeat split; auto.
  - cbn [base bak].
    assert (C : chain (upd (shift m (bak d)) 1 (Some (base d))) (S m) =
                (match m with O => [] | S _ => chain (shift m (bak d)) (S m) end) ++ base d).
    { destruct m.
      - rewrite chain_S, upd_same. unfold chain. cbn [content flat_map rev seq app]. rewrite app_nil_r. reflexivity.
      - assert (K : forall n c, c 1 = None -> chain (upd c 1 (Some (base d))) (S n) = chain c (S n) ++ base d).
        { induction n; intros c H.
          - rewrite !chain_S, upd_same, H. unfold chain. cbn [content flat_map rev seq app]. rewrite app_nil_r. reflexivity.
          - rewrite (chain_S _ (S n)), (chain_S c (S n)), upd_other, IHn, app_assoc by (auto; lia). reflexivity. }
        apply K, shift_first. discriminate. }
    rewrite C, app_nil_r. destruct m as [|m].
    + exists (content (bak d 1)). rewrite chain_S. unfold chain at 1. cbn [flat_map rev seq app]. rewrite app_nil_r.
      repeat split; auto; [|rewrite upd_same; discriminate].
      intros H. destruct (bak d 1); [discriminate|cbn in H; congruence].
    + rewrite shift_chain, (chain_S (bak d) (S m)). destruct (kept (S m) (bak d)) eqn:K.
      * exists (content (bak d (S (S m)))). cbn [app]. rewrite <- app_assoc. repeat split; auto.
        -- intros H. destruct (bak d (S (S m))); [discriminate|cbn in H; congruence].
        -- intros H. rewrite upd_other by lia. apply shift_last; [exact H|discriminate].
      * exists []. split; [reflexivity|]. split; [left; reflexivity|]. split; [congruence|].
        intros H. rewrite upd_other by lia. apply shift_last; [exact H|discriminate].
Qed.

(** [grows d w d']: from [d] to [d'] the lines [w] were written; the front of the text may have gone. *)
Definition grows (d : disk) (w : list line) (d' : disk) : Prop :=
  exists gone, text d ++ w = gone ++ text d' /\ (gone <> [] -> full d') /\ (full d -> full d').
Lemma grows_refl : forall d, grows d [] d.
Proof. intros d. exists []. rewrite app_nil_r. repeat split; [congruence|auto]. Qed.
Lemma grows_trans : forall a v b w c, grows a v b -> grows b w c -> grows a (v ++ w) c.
Proof.
  intros a v b w c [g [E [F G]]] [h [E2 [F2 G2]]]. exists (g ++ h). split; [|split].
  - rewrite app_assoc, E, <- !app_assoc, E2. reflexivity.
  - intros H. destruct g; [apply F2; exact H|apply G2, F; discriminate].
  - auto.
Qed.
Lemma grows_append : forall (d : disk) l, grows d [l] (mkDisk (base d ++ [l]) (bak d)).
Proof.
  intros d l. exists []. rewrite !text_chain. cbn [base bak]. split; [rewrite <- app_assoc; reflexivity|]. split; [congruence|auto].
Qed.
Definition stamped (now : option Sp) (l : list R) : list line := map (fun r => (r, now)) (writable l).
Lemma emit_grows : forall now d r, grows d (stamped now [r]) (file_emit now d r).
Proof.
  intros now d r. unfold file_emit, LogBufModel.file_emit, stamped, LogBufSpec.writable. cbn [filter].
  destruct (formats r); [|apply grows_refl].
  cbn [map]. destruct (roll (base d) (r, now)); [|apply grows_append].
  destruct (rollover d) as [g [E [_ [F G]]]].
  replace [(r, now)] with ([] ++ [(r, now)]) by reflexivity.
  eapply grows_trans; [|apply grows_append].
  exists g. rewrite app_nil_r. repeat split; auto.
Qed.
Lemma stamped_app : forall now a b, stamped now (a ++ b) = stamped now a ++ stamped now b.
Proof. intros. unfold stamped, LogBufSpec.writable. rewrite filter_app, map_app. reflexivity. Qed.
Lemma emits_grow : forall now l d, grows d (stamped now l) (fold_left (file_emit now) l d).
Proof.
  intros now. induction l as [|r l IH]; intros d; [apply grows_refl|].
  change (r :: l) with ([r] ++ l). rewrite stamped_app. eapply grows_trans; [apply emit_grows|apply IH].
Qed.
Lemma flush_grows : forall now s, grows (files s) (stamped now (buffer s)) (files (flush now s)).
Proof. intros. apply emits_grow. Qed.
Lemma stamped_records : forall now l, map fst (stamped now l) = writable l.
Proof. intros. unfold stamped. rewrite map_map. cbn [fst]. apply map_id. Qed.

Lemma records_stamped : forall now l, records (stamped now l) = writable l.
Proof. exact stamped_records. Qed.
Lemma records_app : forall a b : list line, records (a ++ b) = records a ++ records b.
Proof. intros. apply map_app. Qed.

(** ** Runs *)
(** The lines [w] were written since [d], with span keys satisfying [P]; with the unwritten records they are those of [l]. *)
Definition wrote (P : option Sp -> Prop) (d : disk) (s : log) (l : list R) : Prop :=
  exists w, grows d w (files s) /\ map fst w ++ writable (buffer s) = writable l /\ forall x, In x w -> P (snd x).
Lemma writable_app : forall a b, writable (a ++ b) = writable a ++ writable b.
Proof. intros. apply filter_app. Qed.
Lemma wrote_flush : forall (P : option Sp -> Prop) d now s l, P now -> wrote P d s l -> wrote P d (flush now s) l /\ buffer (flush now s) = [].
Proof.
  intros P d now s l N [w [G [E H]]]. split; [|reflexivity]. exists (w ++ stamped now (buffer s)). split; [|split].
  - eapply grows_trans; [exact G|apply flush_grows].
  - rewrite map_app, stamped_records. cbn [flush LogBufModel.flush buffer LogBufSpec.writable filter]. rewrite app_nil_r. exact E.
  - intros x I. apply in_app_or in I. destruct I as [I|I]; [apply H; exact I|].
    unfold stamped in I. apply in_map_iff in I. destruct I as [r [<- _]]. exact N.
Qed.
Lemma wrote_emit : forall (P : option Sp -> Prop) d now s l r, P now -> wrote P d s l -> wrote P d (emit formats roll backups now s r) (l ++ [r]).
Proof.
  intros P d now s l r N [w [G [E H]]]. unfold emit.
  set (s1 := mkLog _ _ _ _).
  assert (H1 : wrote P d s1 (l ++ [r])).
  { exists w. split; [exact G|]. split; [|exact H]. unfold s1. cbn [buffer]. rewrite !writable_app, app_assoc, E. reflexivity. }
  destruct (Z.leb _ _); [apply wrote_flush; assumption|exact H1].
Qed.
Definition shown (lv lvl : Z) (r : R) : list R := if Z.leb lvl lv then [r] else [].
Lemma wrote_log : forall (P : option Sp -> Prop) d now lv s l r, P now -> wrote P d s l ->
  wrote P d (log_record formats roll backups now lv s r) (l ++ shown lv (level s) r).
Proof.
  intros P d now lv s l r N H. unfold log_record, shown.
  destruct (Z.leb _ _); [apply wrote_emit; assumption|rewrite app_nil_r; exact H].
Qed.
Lemma level_log : forall now lv s r, level (log_record formats roll backups now lv s r) = level s.
Proof. intros. unfold log_record, emit. destruct (Z.leb (level s) lv); [|reflexivity]. destruct (Z.leb _ _); reflexivity. Qed.
(** The span keys current while the handler runs. *)
Definition currents (P : option Sp -> Prop) (es : list event) : Prop := forall now, In now (spans es) -> P now.
Lemma wrote_run : forall (P : option Sp -> Prop) es d s l, currents P es -> wrote P d s l -> wrote P d (run s es) (l ++ records (logged (level s) es)).
Proof.
  intros P. induction es as [|e es IH]; intros d s l C H; [cbn; rewrite app_nil_r; exact H|].
  assert (C2 : currents P es) by (intros x Hx; apply C; apply in_or_app; right; exact Hx).
  change (run s (e :: es)) with (run (step s e) es). destruct e as [now lv r|now|lv|now n]; cbn [LogBufSpec.logged].
  - assert (N : P now) by (apply C; left; reflexivity). pose proof (IH d _ _ C2 (wrote_log P d now lv s l r N H)) as W. rewrite level_log in W. cbn [step LogBufModel.step].
    unfold shown in W. destruct (Z.leb (level s) lv); rewrite <- app_assoc in W; exact W.
  - assert (N : P now) by (apply C; left; reflexivity). apply (IH d (flush now s) l C2), wrote_flush; assumption.
  - apply (IH d (mkLog lv (capacity s) (buffer s) (files s)) l C2). exact H.
  - assert (N : P now) by (apply C; left; reflexivity).
    cbn [step LogBufModel.step]. set (s1 := log_record _ _ _ now INFO s (setting_size n)).
    assert (H1 : wrote P d (set_capacity n s1) (l ++ shown INFO (level s) (setting_size n))).
    { pose proof (wrote_log P d now INFO s l (setting_size n) N H) as W. exact W. }
    pose proof (IH d _ _ C2 (wrote_log P d now INFO _ _ (size_set n) N H1)) as W. rewrite level_log in W.
    assert (L : level (set_capacity n s1) = level s) by apply level_log. rewrite L in W. unfold shown, INFO in W.
    destruct (Z.leb (level s) 20); rewrite <- !app_assoc in W; exact W.
Qed.
(** In terms of files only. *)
Lemma in_order : forall (P : option Sp -> Prop) size d es, currents P es ->
  let s := run (start size d) es in
  exists written gone,
    text d ++ written = gone ++ text (files s) /\
    map fst written ++ writable (buffer s) = writable (records (logged 10 es)) /\
    (forall x, In x written -> P (snd x)) /\
    (gone <> [] -> backups <> 0 /\ bak (files s) backups <> None).
Proof.
  intros P size d es C s.
  assert (W : wrote P d s (records (logged 10 es))).
  { apply (wrote_run P es d (start size d) [] C). exists []. split; [apply grows_refl|]. split; [reflexivity|intros x []]. }
  destruct W as [w [[g [E [F G]]] [H HP]]]. exists w, g. split; [exact E|]. split; [exact H|]. split; [exact HP|].
  intros K. apply F in K. unfold full in K. destruct backups; [contradiction|]. split; [discriminate|exact K].
Qed.
Lemma flushed : forall now es s, buffer (run s (es ++ [Flush now])) = [].
Proof. intros. unfold run, LogBufModel.run. rewrite fold_left_app. reflexivity. Qed.

(** ** The bound on what is unwritten *)
Definition bounded (s : log) : Prop := (Z.of_nat (length (buffer s)) < Z.max 1 (capacity s))%Z.
Lemma emit_bounded : forall now s r, bounded (emit formats roll backups now s r) /\ capacity (emit formats roll backups now s r) = capacity s.
Proof.
  intros. unfold emit. set (s1 := mkLog _ _ _ _). destruct (Z.leb_spec (capacity s1) (Z.of_nat (length (buffer s1)))); split; try reflexivity; unfold bounded.
  - cbn [flush LogBufModel.flush buffer capacity length]. lia.
  - lia.
Qed.
Lemma run_bounded : forall es s, (level s <= 20)%Z -> info_shown es -> bounded s ->
  bounded (run s es) /\ capacity (run s es) = size_now (capacity s) es.
Proof.
  induction es as [|e es IH]; intros s L I B; [split; [exact B|reflexivity]|].
  change (run s (e :: es)) with (run (step s e) es).
  assert (I2 : info_shown es) by (intros lv H; apply I; right; exact H).
  destruct e as [now lv r|now|lv|now n]; cbn [size_now].
  - cbn [step LogBufModel.step]. pose proof (level_log now lv s r) as L2.
    assert (B2 : bounded (log_record formats roll backups now lv s r) /\ capacity (log_record formats roll backups now lv s r) = capacity s).
    { unfold log_record. destruct (Z.leb _ _); [apply emit_bounded|split; [exact B|reflexivity]]. }
    destruct B2 as [B2 C2]. rewrite <- C2. apply IH; [rewrite L2; exact L|exact I2|exact B2].
  - apply (IH (flush now s)); [exact L|exact I2|]. unfold bounded. cbn. lia.
  - apply (IH (mkLog lv (capacity s) (buffer s) (files s))); [apply I; left; reflexivity|exact I2|exact B].
  - cbn [step LogBufModel.step]. set (s1 := log_record _ _ _ now INFO s (setting_size n)).
    assert (L1 : level (set_capacity n s1) = level s) by apply level_log.
    assert (E : log_record formats roll backups now INFO (set_capacity n s1) (size_set n) =
                emit formats roll backups now (set_capacity n s1) (size_set n)).
    { unfold log_record. rewrite L1. destruct (Z.leb_spec (level s) INFO); [reflexivity|unfold INFO in *; lia]. }
    rewrite E. pose proof (emit_bounded now (set_capacity n s1) (size_set n)) as [B2 C2].
    cbn [set_capacity capacity] in C2.
    assert (L3 : level (emit formats roll backups now (set_capacity n s1) (size_set n)) = level s).
    { rewrite <- E, level_log. exact L1. }
    destruct (IH _ ltac:(rewrite L3; exact L) I2 B2) as [X Y]. split; [exact X|]. rewrite Y, C2. reflexivity.
Qed.

(** ** Span keys *)
Definition stamps_ok (l : list (R * option Sp)) : list line := filter (fun x => formats (fst x)) l.
Lemma emit_small : forall now s r, (capacity s <= 1)%Z -> buffer s = [] ->
  let s' := emit formats roll backups now s r in
  buffer s' = [] /\ capacity s' = capacity s /\ level s' = level s /\ grows (files s) (stamps_ok [(r, now)]) (files s').
Proof.
  intros now s r C B. unfold emit. rewrite B. cbn [app buffer capacity length]. destruct (Z.leb_spec (capacity s) (Z.of_nat 1)); [|lia].
  repeat split. cbn [flush LogBufModel.flush files buffer fold_left].
  unfold stamps_ok. pose proof (emit_grows now (files s) r) as G. unfold stamped, LogBufSpec.writable in G. cbn [filter] in *.
  cbn [fst]. destruct (formats r); exact G.
Qed.
Lemma log_small : forall now lv s r, (capacity s <= 1)%Z -> buffer s = [] ->
  let s' := log_record formats roll backups now lv s r in
  buffer s' = [] /\ capacity s' = capacity s /\ level s' = level s /\
  grows (files s) (if Z.leb (level s) lv then stamps_ok [(r, now)] else []) (files s').
Proof.
  intros now lv s r C B. unfold log_record. destruct (Z.leb _ _); [apply emit_small; assumption|].
  repeat split; auto. apply grows_refl.
Qed.
Lemma stamps_app : forall a b, stamps_ok (a ++ b) = stamps_ok a ++ stamps_ok b.
Proof. intros. apply filter_app. Qed.
Lemma run_small : forall es s, (capacity s <= 1)%Z -> (forall now n, In (SetSize now n) es -> (n <= 1)%Z) -> buffer s = [] ->
  grows (files s) (stamps_ok (logged (level s) es)) (files (run s es)) /\ buffer (run s es) = [].
Proof.
  induction es as [|e es IH]; intros s C S B; [split; [apply grows_refl|exact B]|].
  change (run s (e :: es)) with (run (step s e) es).
  assert (S2 : forall now n, In (SetSize now n) es -> (n <= 1)%Z) by (intros; eapply S; right; eassumption).
  destruct e as [now lv r|now|lv|now n]; cbn [LogBufSpec.logged].
  - cbn [step LogBufModel.step]. destruct (log_small now lv s r C B) as [B1 [C1 [L1 G1]]].
    destruct (IH _ ltac:(rewrite C1; exact C) S2 B1) as [G2 B2]. split; [|exact B2]. rewrite L1 in G2.
    pose proof (grows_trans _ _ _ _ _ G1 G2) as G. destruct (Z.leb (level s) lv); [rewrite <- stamps_app in G|]; exact G.
  - assert (F : grows (files s) [] (files (flush now s))).
    { pose proof (flush_grows now s) as G. rewrite B in G. exact G. }
    destruct (IH (flush now s) C S2 eq_refl) as [G2 B2]. split; [|exact B2]. exact (grows_trans _ _ _ _ _ F G2).
  - apply (IH (mkLog lv (capacity s) (buffer s) (files s)) C S2 B).
  - cbn [step LogBufModel.step]. destruct (log_small now INFO s (setting_size n) C B) as [B1 [C1 [L1 G1]]].
    set (s1 := log_record _ _ _ now INFO s (setting_size n)) in *.
    assert (N : (n <= 1)%Z) by (eapply S; left; reflexivity).
    destruct (log_small now INFO (set_capacity n s1) (size_set n) N B1) as [B2 [C2 [L2 G2]]].
    destruct (IH _ ltac:(rewrite C2; exact N) S2 B2) as [G3 B3]. split; [|exact B3].
    cbn [set_capacity level files] in L2, G2. rewrite L2, L1 in G3. rewrite L1 in G2.
    pose proof (grows_trans _ _ _ _ _ G1 (grows_trans _ _ _ _ _ G2 G3)) as G. unfold INFO in G.
    destruct (Z.leb (level s) 20); [rewrite <- !stamps_app in G|]; exact G.
Qed.

(** ** Signals *)
Lemma signalled_between : forall now now' k s,
  grows (files s) (stamped now (firstn k (buffer s)) ++ stamped now' (buffer s))
        (files (flush now' (fst (flush_signalled formats roll backups now (Between k) s)))).
Proof. intros. eapply grows_trans; [apply emits_grow|].
  exact (flush_grows now' (fst (flush_signalled formats roll backups now (Between k) s))). Qed.
Lemma signalled_inside : forall now k s,
  grows (files s) (stamped now (firstn k (buffer s) ++ skipn (S k) (buffer s)))
        (files (fst (flush_signalled formats roll backups now (Inside k) s))).
Proof. intros. apply emits_grow. Qed.
End Proofs.
