(** Invariant of the log shipper. *)
From Coq Require Import Bool Lia List Arith Ascii.
From Verif Require Import ShipperModel ShipperSpec.
Import ListNotations.

(** Lines. *)
Definition tail_of (b : list byte) : line := snd (fold_left feed b ([], [])).
Definition no_nl (b : list byte) : Prop := Forall (fun c => Ascii.eqb c newline = false) b.
Lemma feed_from : forall b ls cur, fold_left feed b (ls, cur) =
  (ls ++ fst (fold_left feed b ([], cur)), snd (fold_left feed b ([], cur))).
Proof.
  induction b as [|c b IH]; intros ls cur; cbn [fold_left]; [rewrite app_nil_r; reflexivity|].
  unfold feed at 2 4 6. cbn [fst snd]. destruct (Ascii.eqb c newline).
  - cbn [app]. rewrite (IH (ls ++ [cur])), (IH [cur]). cbn [fst snd]. rewrite <- app_assoc. reflexivity.
  - apply IH.
Qed.
Lemma let_pair : forall (p : list line * line) r, (let '(ls, q) := p in (r :: ls, q)) = ([r] ++ fst p, snd p).
Proof. intros (ls, q) r. reflexivity. Qed.
Lemma split_feed : forall b cur, split_lines cur b = fold_left feed b ([], rev cur).
Proof.
  induction b as [|c b IH]; intros cur; cbn [split_lines fold_left]; [reflexivity|].
  unfold feed at 2. cbn [fst snd]. destruct (Ascii.eqb c newline).
  - rewrite IH. cbn [rev app]. rewrite (feed_from b [rev cur]). apply let_pair.
  - rewrite IH. reflexivity.
Qed.
Lemma split_ok : forall b, split_lines [] b = (complete b, tail_of b).
Proof. intros b. rewrite split_feed. unfold complete, tail_of. cbn [rev]. destruct (fold_left feed b ([], [])); reflexivity. Qed.
Lemma complete_app : forall a b, tail_of a = [] -> complete (a ++ b) = complete a ++ complete b /\ tail_of (a ++ b) = tail_of b.
Proof.
  intros a b H. unfold complete, tail_of in *. rewrite fold_left_app. destruct (fold_left feed a ([], [])) as (ls, p). cbn [fst snd] in *. subst p.
  rewrite feed_from. split; reflexivity.
Qed.
Lemma complete_grows : forall a b, exists m, complete (a ++ b) = complete a ++ m.
Proof.
  intros a b. unfold complete. rewrite fold_left_app. destruct (fold_left feed a ([], [])) as (ls, p). rewrite feed_from. cbn [fst]. eauto.
Qed.
Lemma no_nl_feed : forall b ls cur, no_nl b -> fold_left feed b (ls, cur) = (ls, cur ++ b).
Proof.
  induction b as [|c b IH]; intros ls cur H; cbn [fold_left]; [rewrite app_nil_r; reflexivity|]. inversion H as [|? ? H1 H2]; subst.
  unfold feed at 2. cbn [fst snd]. rewrite H1, IH by exact H2. rewrite <- app_assoc. reflexivity.
Qed.
(** A text is its complete lines and a tail: where the tail begins the lines are the same. *)
Lemma text_split : forall b, exists a, b = a ++ tail_of b /\ tail_of a = [] /\ complete a = complete b /\ no_nl (tail_of b).
Proof.
  induction b as [|c b IH] using rev_ind; [exists []; repeat split; constructor|].
  destruct IH as (a & E & T & C & N). unfold tail_of, complete in *. rewrite fold_left_app. cbn [fold_left].
  destruct (fold_left feed b ([], [])) as (ls, p) eqn:F. cbn [fst snd] in *.
  assert (Q : feed (ls, p) c = if Ascii.eqb c newline then (ls ++ [p], []) else (ls, p ++ [c])) by reflexivity.
  rewrite Q. destruct (Ascii.eqb c newline) eqn:Ec; cbn [fst snd].
  - exists (b ++ [c]). rewrite app_nil_r. split; [reflexivity|]. rewrite fold_left_app, F. cbn [fold_left]. rewrite Q.
    repeat split. constructor.
  - exists a. rewrite E, <- app_assoc. repeat split; auto. apply Forall_app. split; [exact N|]. constructor; [exact Ec|constructor].
Qed.

(** Positions. *)
Definition before (s : sys) (f : nat) : list line := flat_map (fun i => complete (content s i)) (seq 0 f).
Definition idx (s : sys) (f o : nat) : nat := length (before s f) + length (complete (firstn o (content s f))).
Definition at_line (s : sys) (f o : nat) : Prop := o <= length (content s f) /\ tail_of (firstn o (content s f)) = [].
Lemma before_S : forall s f, before s (S f) = before s f ++ complete (content s f).
Proof. intros. unfold before. rewrite seq_S, flat_map_app. cbn. rewrite app_nil_r. reflexivity. Qed.
Lemma written_before : forall s, written s = before s (nfiles s).
Proof. reflexivity. Qed.
Lemma before_prefix : forall s f g, f <= g -> exists m, before s g = before s f ++ m.
Proof.
  intros s f g H. induction H as [|g H (m & IH)]; [exists []; rewrite app_nil_r; reflexivity|].
  rewrite before_S, IH, <- app_assoc. eauto.
Qed.
Lemma rest_of : forall s f o, at_line s f o -> complete (content s f) = complete (firstn o (content s f)) ++ complete (skipn o (content s f)).
Proof.
  intros s f o (_ & H). rewrite <- (firstn_skipn o (content s f)) at 1. apply complete_app. exact H.
Qed.
Lemma idx0 : forall s f, idx s f 0 = length (before s f).
Proof. intros. unfold idx. cbn. lia. Qed.
Lemma at0 : forall s f, at_line s f 0.
Proof. intros. split; [lia|reflexivity]. Qed.
Lemma idx_end : forall s f o, at_line s f o -> complete (skipn o (content s f)) = [] -> idx s f o = idx s (S f) 0.
Proof.
  intros s f o A H. rewrite idx0, before_S, (rest_of s f o A), H, app_nil_r, app_length. reflexivity.
Qed.

Section Inv.
Context (good : line -> bool).
(** How a batch may lie to the point reached: [le] when lines may come twice, [eq] when not. *)
Context (R : nat -> nat -> Prop) (R_refl : forall n, R n n) (R_le : forall m n, R m n -> m <= n)
  (R_max : forall m n k, R m n -> R (m + k) (Nat.max n (m + k))).
Inductive comes (w : list line) : list (list line) -> nat -> Prop :=
| comes_nil : comes w [] 0
| comes_snoc : forall bs n m b, comes w bs n -> stands w m b -> R m n -> comes w (bs ++ [b]) (Nat.max n (m + length b)).

(** The state of the descriptor: the pending bytes are the ones between offset and position, without a newline. *)
Record T_ok (s : sys) (t : tracked) : Prop := {
  t_fd : fd t < nfiles s; t_ino : inode t = ino s (fd t); t_at : at_line s (fd t) (offset t);
  t_pos : pos t = offset t + length (pending t);
  t_pend : firstn (pos t) (content s (fd t)) = firstn (offset t) (content s (fd t)) ++ pending t;
  t_nl : no_nl (pending t);
  t_last : nfiles s <= fd t + 2; t_gone : path s = None -> nfiles s = S (fd t);
  t_uniq : forall f, path s = Some f -> ino s f = ino s (fd t) -> f = fd t }.
Definition pidx (s : sys) (t : tracked) : nat := idx s (fd t) (offset t).
(** The lines in hand end where the descriptor is. *)
Definition hand (s : sys) (n : nat) (t : tracked) (ls : list line) : Prop :=
  exists m, R m n /\ stands (written s) m ls /\ m + length ls = pidx s t.
Definition pc_ok (s : sys) (n : nat) : Prop :=
  match ship s with
  | Down => True
  | Attach i o => saved s = Some (i, o) /\ path s <> None /\ same_file s
  | Open0 o => exists f, path s = Some f /\ at_line s f o /\ R (idx s f o) n
  | Idle t und => T_ok s t /\ hand s n t und
  | Drain t => T_ok s t /\ R (pidx s t) n /\ path s = Some (S (fd t))
  | Reopen t ls => T_ok s t /\ hand s n t ls /\ path s = Some (S (fd t)) /\ pidx s t = length (before s (S (fd t)))
  | Read t ls => T_ok s t /\ hand s n t ls
  | Post t und => T_ok s t /\ hand s n t und
  | Save t und => T_ok s t /\ R (pidx s t) n
  end.
Definition sidx_ok (s : sys) (n : nat) : Prop :=
  match saved s, saved_file s with
  | Some (i, o), Some g =>
      g < nfiles s /\ at_line s g o /\ i = ino s g /\
      match ship s with Save _ _ => idx s g o <= n | _ => R (idx s g o) n end
  | None, None => match ship s with Save _ _ => 0 <= n | _ => R 0 n end
  | _, _ => False
  end.
Record Inv (s : sys) (n : nat) : Prop := {
  v_comes : comes (written s) (arrived s) n;
  v_n : n <= length (written s);
  v_path : forall f, path s = Some f -> nfiles s = S f;
  v_pc : pc_ok s n;
  v_saved : sidx_ok s n }.

Lemma stands_app : forall w m b w', stands w m b -> stands (w ++ w') m b.
Proof. intros w m b w' (x & z & -> & L). exists x, (z ++ w'). rewrite <- !app_assoc. auto. Qed.
Lemma comes_app : forall w bs n w', comes w bs n -> comes (w ++ w') bs n.
Proof. intros w bs n w' H. induction H; econstructor; eauto using stands_app. Qed.
Lemma stands_len : forall w m b, stands w m b -> m + length b <= length w.
Proof. intros w m b (x & z & -> & L). rewrite !app_length. lia. Qed.
Lemma stands_join : forall w m b k c, stands w m b -> stands w k c -> m + length b = k -> stands w m (b ++ c).
Proof.
  intros w m b k c (x & z & E & L) (x' & z' & E' & L') H.
  assert (F : x' = x ++ b /\ c ++ z' = z).
  { rewrite E in E'. rewrite app_assoc in E'. apply app_eq_app in E'.
    assert (len : length (x ++ b) = length x') by (rewrite app_length; lia).
    destruct E' as (l & [[E1 E2]|[E1 E2]]).
    - pose proof (f_equal (@length _) E1) as L1. rewrite !app_length in L1. destruct l; [|cbn in L1; lia]. rewrite app_nil_r in E1. cbn in E2. auto.
    - pose proof (f_equal (@length _) E1) as L1. rewrite !app_length in L1. destruct l; [|cbn in L1; lia]. rewrite app_nil_r in E1. cbn in E2. auto. }
  destruct F as (-> & <-). exists x, z'. split; [rewrite E, <- app_assoc; reflexivity|exact L].
Qed.
Lemma stands_nil : forall w m, m <= length w -> stands w m [].
Proof. intros w m H. exists (firstn m w), (skipn m w). cbn. rewrite firstn_skipn, firstn_length. split; [reflexivity|lia]. Qed.
(** The rest of a file stands where the offset is. *)
Lemma rest_stands : forall s f o, f < nfiles s -> at_line s f o -> stands (written s) (idx s f o) (complete (skipn o (content s f))).
Proof.
  intros s f o H A. destruct (before_prefix s (S f) (nfiles s)) as (m & E); [lia|]. rewrite written_before, E, before_S, (rest_of s f o A).
  exists (before s f ++ complete (firstn o (content s f))), m. rewrite <- !app_assoc, app_length. auto.
Qed.

(** Reading to the end of the file. *)
Lemma read_ok : forall s t t' ls, T_ok s t -> read_lines s t = (t', ls) ->
  T_ok s t' /\ fd t' = fd t /\ ls = complete (skipn (offset t) (content s (fd t))) /\
  pidx s t' = pidx s t + length ls /\ pidx s t' = length (before s (S (fd t))).
Proof.
  intros s t t' ls [Hf Hi [Ha1 Ha2] Hp Hq Hn Hl Hg Hu] E. unfold read_lines in E.
  set (c := content s (fd t)) in *.
  assert (PL : pos t <= length c).
  { assert (L : length (firstn (pos t) c) = length (firstn (offset t) c ++ pending t)) by (rewrite Hq; reflexivity).
    rewrite app_length, !firstn_length in L. lia. }
  assert (B : pending t ++ skipn (pos t) c = skipn (offset t) c).
  { assert (X : firstn (offset t) c ++ skipn (offset t) c = firstn (offset t) c ++ pending t ++ skipn (pos t) c).
    { rewrite firstn_skipn, app_assoc, <- Hq, firstn_skipn. reflexivity. }
    apply app_inv_head in X. auto. }
  rewrite B in E. rewrite split_ok in E. injection E as <- <-.
  set (r := skipn (offset t) c) in *. destruct (text_split r) as (a & Er & Ta & Ca & Nl).
  assert (Lr : length r = length c - offset t) by (unfold r; apply skipn_length).
  assert (La : length r - length (tail_of r) = length a) by (rewrite Er at 1; rewrite app_length; lia).
  rewrite La. replace (Nat.max (pos t) (length c)) with (length c) by lia.
  assert (C : c = (firstn (offset t) c ++ a) ++ tail_of r).
  { rewrite <- app_assoc, <- Er. unfold r. symmetry. apply firstn_skipn. }
  assert (L1 : length (firstn (offset t) c) = offset t) by (rewrite firstn_length; lia).
  assert (F : firstn (offset t + length a) c = firstn (offset t) c ++ a).
  { rewrite C at 1. rewrite firstn_app. rewrite app_length, L1. replace (offset t + length a - (offset t + length a)) with 0 by lia.
    rewrite firstn_O, app_nil_r. apply firstn_all2. rewrite app_length, L1. lia. }
  assert (LA : length a + length (tail_of r) = length r) by (rewrite Er at 2; rewrite app_length; lia).
  destruct (complete_app _ a Ha2) as (CA & TA).
  assert (IX : idx s (fd t) (offset t + length a) = idx s (fd t) (offset t) + length (complete r)).
  { unfold idx. fold c. rewrite F, CA, app_length, <- Ca. lia. }
  split; [constructor; cbn [fd pos inode offset pending]; fold c; auto|].
  - split; cbn [fd offset]; fold c; [lia|]. rewrite F, TA. exact Ta.
  - lia.
  - rewrite F, firstn_all. exact C.
  - split; [reflexivity|]. split; [reflexivity|]. split; [exact IX|].
    unfold pidx. cbn [fd offset]. rewrite IX, before_S, app_length. unfold idx. fold c.
    pose proof (rest_of s (fd t) (offset t) (conj Ha1 Ha2)) as RC. fold c in RC. fold r in RC. rewrite RC, app_length. lia.
Qed.

(** What the writer does keeps the positions. *)
Lemma append_pos : forall s f b, path s = Some f -> nfiles s = S f ->
  let s' := step good s (Append b) in
  (exists w, written s' = written s ++ w) /\
  (forall g, g <= f -> before s' g = before s g) /\
  (forall g o, g < nfiles s -> o <= length (content s g) -> firstn o (content s' g) = firstn o (content s g)) /\
  (forall g o, g < nfiles s -> o <= length (content s g) -> idx s' g o = idx s g o) /\
  (forall g o, g < nfiles s -> at_line s g o -> at_line s' g o) /\
  (forall g, g <> f -> content s' g = content s g).
Proof.
  intros s f b P N s'.
  assert (C : content s' = upd (content s) f (content s f ++ b)) by (unfold s'; cbn [step]; rewrite P; reflexivity).
  assert (NF : nfiles s' = nfiles s) by (unfold s'; cbn [step]; rewrite P; reflexivity).
  assert (O : forall g, g <> f -> content s' g = content s g).
  { intros g H. rewrite C. unfold upd. destruct (Nat.eqb_spec g f); congruence. }
  assert (F : content s' f = content s f ++ b) by (rewrite C; unfold upd; rewrite Nat.eqb_refl; reflexivity).
  assert (B : forall g, g <= f -> before s' g = before s g).
  { intros g H. unfold before. rewrite !flat_map_concat_map. f_equal. apply map_ext_in. intros i Hi. apply in_seq in Hi. rewrite O by lia. reflexivity. }
  assert (FN : forall g o, g < nfiles s -> o <= length (content s g) -> firstn o (content s' g) = firstn o (content s g)).
  { intros g o Hg Ho. destruct (Nat.eq_dec g f) as [->|D]; [|rewrite O by exact D; reflexivity]. rewrite F, firstn_app.
    replace (o - length (content s f)) with 0 by lia. rewrite firstn_O, app_nil_r. reflexivity. }
  split; [|split; [exact B|split; [exact FN|split; [|split; [|exact O]]]]].
  - rewrite !written_before, NF, N, !before_S, B, F by lia. destruct (complete_grows (content s f) b) as (m & ->). exists m. rewrite app_assoc. reflexivity.
  - intros g o Hg Ho. unfold idx. rewrite B by lia. rewrite FN by assumption. reflexivity.
  - intros g o Hg (A1 & A2). split; [|rewrite FN; auto]. destruct (Nat.eq_dec g f) as [->|D]; [rewrite F, app_length; lia|rewrite O by exact D; exact A1].
Qed.
Lemma create_pos : forall s n, path s = None -> free_ino s n = true ->
  let s' := step good s (Create n) in
  written s' = written s /\
  (forall g, g <= nfiles s -> before s' g = before s g) /\
  (forall g, g < nfiles s -> content s' g = content s g /\ ino s' g = ino s g).
Proof.
  intros s n P F s'.
  assert (E : s' = mkS (S (nfiles s)) (upd (content s) (nfiles s) []) (upd (ino s) (nfiles s) n) (upd (linked s) (nfiles s) true)
                    (Some (nfiles s)) (ship s) (saved s) (saved_file s) (arrived s)) by (unfold s'; cbn [step]; rewrite P, F; reflexivity).
  rewrite E. clear E s'.
  assert (O : forall g (X : Type) (h : nat -> X) x, g < nfiles s -> upd h (nfiles s) x g = h g).
  { intros g X h x H. unfold upd. destruct (Nat.eqb_spec g (nfiles s)); [lia|reflexivity]. }
  assert (B : forall g, g <= nfiles s -> flat_map (fun i => complete (upd (content s) (nfiles s) [] i)) (seq 0 g) = before s g).
  { intros g H. unfold before. rewrite !flat_map_concat_map. f_equal. apply map_ext_in. intros i Hi. apply in_seq in Hi. rewrite O by lia. reflexivity. }
  cbn [nfiles content ino]. split; [|split; [exact B|intros g H; split; apply O; exact H]].
  unfold written. cbn [nfiles content]. rewrite seq_S, flat_map_app, B by lia. cbn [flat_map Nat.add]. unfold upd. rewrite Nat.eqb_refl. cbn.
  rewrite app_nil_r. reflexivity.
Qed.
Lemma free_held : forall s n g, free_ino s n = true -> held (ship s) = Some g -> g < nfiles s -> ino s g <> n.
Proof.
  intros s n g F H L E. unfold free_ino in F. rewrite forallb_forall in F. specialize (F g). rewrite in_seq in F. specialize (F ltac:(lia)).
  rewrite H, E, !Nat.eqb_refl, orb_true_r in F. discriminate.
Qed.

Record Ext (s s' : sys) : Prop := {
  e_w : exists w, written s' = written s ++ w;
  e_n : nfiles s <= nfiles s';
  e_first : forall g o, g < nfiles s -> o <= length (content s g) -> firstn o (content s' g) = firstn o (content s g);
  e_idx : forall g o, g < nfiles s -> o <= length (content s g) -> idx s' g o = idx s g o;
  e_at : forall g o, g < nfiles s -> at_line s g o -> at_line s' g o;
  e_ino : forall g, g < nfiles s -> ino s' g = ino s g }.
Lemma pos_le : forall s t, T_ok s t -> pos t <= length (content s (fd t)).
Proof.
  intros s t [Hf Hi [Ha1 Ha2] Hp Hq Hn Hl Hg Hu].
  assert (L : length (firstn (pos t) (content s (fd t))) = length (firstn (offset t) (content s (fd t)) ++ pending t)) by (rewrite Hq; reflexivity).
  rewrite app_length, !firstn_length in L. lia.
Qed.
Lemma T_ext : forall s s' t, Ext s s' -> T_ok s t -> nfiles s' <= fd t + 2 -> (path s' = None -> nfiles s' = S (fd t)) ->
  (forall f, path s' = Some f -> ino s' f = ino s' (fd t) -> f = fd t) -> T_ok s' t.
Proof.
  intros s s' t E T H1 H2 H3. pose proof (pos_le s t T) as PL. destruct T as [Hf Hi Ha Hp Hq Hn Hl Hg Hu]. pose proof (e_n _ _ E) as N.
  constructor; auto.
  - lia.
  - rewrite (e_ino _ _ E) by exact Hf. exact Hi.
  - apply (e_at _ _ E); assumption.
  - rewrite !(e_first _ _ E) by (auto; apply Ha). exact Hq.
Qed.
Lemma T_ship : forall s p t, T_ok s t -> T_ok (with_ship s p) t.
Proof. intros s p t [Hf Hi Ha Hp Hq Hn Hl Hg Hu]. constructor; assumption. Qed.
Lemma pidx_ext : forall s s' t, Ext s s' -> T_ok s t -> pidx s' t = pidx s t.
Proof. intros s s' t E T. apply (e_idx _ _ E); [apply T|apply T]. Qed.
Lemma hand_ext : forall s s' n t ls, Ext s s' -> T_ok s t -> hand s n t ls -> hand s' n t ls.
Proof.
  intros s s' n t ls E T (m & Hm & Hs & He). exists m. split; [exact Hm|]. destruct (e_w _ _ E) as (w & ->).
  split; [apply stands_app; exact Hs|]. rewrite (pidx_ext s s' t E T). exact He.
Qed.
Lemma sidx_ext : forall s s' n, Ext s s' -> saved s' = saved s -> saved_file s' = saved_file s -> ship s' = ship s -> sidx_ok s n -> sidx_ok s' n.
Proof.
  intros s s' n E E1 E2 E3. unfold sidx_ok. rewrite E1, E2, E3. destruct (saved s) as [(i, o)|]; [|auto]. destruct (saved_file s) as [g|]; [|auto].
  intros (H1 & H2 & H3 & H4). pose proof (e_n _ _ E). split; [lia|]. split; [apply (e_at _ _ E); auto|]. split; [rewrite (e_ino _ _ E); auto|].
  rewrite (e_idx _ _ E) by (auto; apply H2). exact H4.
Qed.
Lemma inv_ship : forall s n p, Inv s n -> match ship s with Save _ _ => False | _ => True end -> match p with Save _ _ => False | _ => True end ->
  pc_ok (with_ship s p) n -> Inv (with_ship s p) n.
Proof.
  intros s n p [V1 V2 V3 V4 V5] H1 H2 H3. constructor; auto.
  unfold sidx_ok in *. cbn [with_ship saved saved_file ship nfiles]. destruct (saved s) as [(i, o)|], (saved_file s) as [g|]; auto.
  - destruct V5 as (A & B & C & D). split; [exact A|]. split; [exact B|]. split; [exact C|]. destruct (ship s); try contradiction; destruct p; auto; contradiction.
  - destruct (ship s); try contradiction; destruct p; auto; contradiction.
Qed.

Lemma append_ext : forall s f b, path s = Some f -> nfiles s = S f -> Ext s (step good s (Append b)).
Proof.
  intros s f b P N. destruct (append_pos s f b P N) as (W & B & F & I & A & O). constructor; auto.
  - cbn [step]. rewrite P. auto.
  - intros g _. cbn [step]. rewrite P. reflexivity.
Qed.
Lemma create_ext : forall s n, path s = None -> free_ino s n = true -> Ext s (step good s (Create n)).
Proof.
  intros s n P F. destruct (create_pos s n P F) as (W & B & C). constructor.
  - exists []. rewrite app_nil_r. exact W.
  - cbn [step]. rewrite P, F. cbn. lia.
  - intros g o H _. destruct (C g H) as (-> & _). reflexivity.
  - intros g o H _. unfold idx. destruct (C g H) as (-> & _). rewrite B by lia. reflexivity.
  - intros g o H (A1 & A2). unfold at_line. destruct (C g H) as (-> & _). split; assumption.
  - intros g H. apply C; exact H.
Qed.
Lemma inv_append : forall s n b, Inv s n -> Inv (step good s (Append b)) n.
Proof.
  intros s n b V. destruct (path s) as [f|] eqn:P; [|cbn [step]; rewrite P; exact V].
  destruct V as [V1 V2 V3 V4 V5]. pose proof (V3 f P) as N. pose proof (append_ext s f b P N) as E.
  destruct (append_pos s f b P N) as (_ & B & _ & _ & _ & O).
  assert (Q : nfiles (step good s (Append b)) = nfiles s /\ path (step good s (Append b)) = path s /\ ship (step good s (Append b)) = ship s /\
    saved (step good s (Append b)) = saved s /\ saved_file (step good s (Append b)) = saved_file s /\ arrived (step good s (Append b)) = arrived s /\
    ino (step good s (Append b)) = ino s) by (cbn [step]; rewrite P; repeat split; reflexivity).
  set (s' := step good s (Append b)) in *. clearbody s'. destruct Q as (Q1 & Q2 & Q3 & Q4 & Q5 & Q6 & Q7).
  destruct (e_w _ _ E) as (w & W).
  assert (TT : forall t, T_ok s t -> T_ok s' t).
  { intros t T. apply (T_ext s s' t E T); rewrite ?Q1, ?Q2, ?Q7; apply T. }
  assert (PI : forall t, T_ok s t -> pidx s' t = pidx s t) by (intros t T; apply pidx_ext; assumption).
  constructor.
  - rewrite W, Q6. apply comes_app. exact V1.
  - rewrite W, app_length. lia.
  - rewrite Q1, Q2. exact V3.
  - unfold pc_ok in *. rewrite Q3. destruct (ship s); auto.
    + rewrite Q4, Q2. destruct V4 as (A1 & A2 & A3). split; [exact A1|]. split; [exact A2|]. unfold same_file in *. rewrite Q2, Q4, Q5, P, Q7 in *.
      destruct (saved_file s) as [g|]; [|exact A3]. rewrite A1 in *. destruct A3 as [A3|(A3 & A4 & A5)]; [left; exact A3|right]. rewrite O by lia. auto.
    + destruct V4 as (g & A1 & A2 & A3). pose proof (V3 g A1). exists g. rewrite Q2. split; [exact A1|]. split; [apply (e_at _ _ E); [lia|exact A2]|].
      rewrite (e_idx _ _ E) by (try lia; apply A2). exact A3.
    + destruct V4 as (A1 & A2). split; [auto|]. apply (hand_ext s s'); auto.
    + destruct V4 as (A1 & A2 & A3). rewrite PI, Q2 by exact A1. auto.
    + destruct V4 as (A1 & A2 & A3 & A4). rewrite PI, Q2 by exact A1. split; [auto|]. split; [apply (hand_ext s s'); auto|]. split; [auto|].
      rewrite B; [exact A4|]. rewrite P in A3. injection A3 as A3. lia.
    + destruct V4 as (A1 & A2). split; [auto|]. apply (hand_ext s s'); auto.
    + destruct V4 as (A1 & A2). split; [auto|]. apply (hand_ext s s'); auto.
    + destruct V4 as (A1 & A2). rewrite PI by exact A1. auto.
  - apply (sidx_ext s s'); auto.
Qed.
Lemma inv_create : forall s n k, Inv s n -> Inv (step good s (Create k)) n.
Proof.
  intros s n k V. destruct (path s) as [f|] eqn:P; [cbn [step]; rewrite P; exact V|].
  destruct (free_ino s k) eqn:F; [|cbn [step]; rewrite P, F; exact V].
  pose proof (create_ext s k P F) as E. destruct (create_pos s k P F) as (W & B & C).
  assert (Q : nfiles (step good s (Create k)) = S (nfiles s) /\ path (step good s (Create k)) = Some (nfiles s) /\ ship (step good s (Create k)) = ship s /\
    saved (step good s (Create k)) = saved s /\ saved_file (step good s (Create k)) = saved_file s /\ arrived (step good s (Create k)) = arrived s /\
    ino (step good s (Create k)) (nfiles s) = k).
  { cbn [step]. rewrite P, F. cbn. repeat split. unfold upd. rewrite Nat.eqb_refl. reflexivity. }
  set (s' := step good s (Create k)) in *. clearbody s'. destruct Q as (Q1 & Q2 & Q3 & Q4 & Q5 & Q6 & Q7).
  destruct V as [V1 V2 V3 V4 V5].
  assert (TT : forall t, held (ship s) = Some (fd t) -> T_ok s t -> T_ok s' t).
  { intros t H T. pose proof (t_gone s t T P) as G. pose proof (t_fd s t T) as L. apply (T_ext s s' t E T); rewrite ?Q1, ?Q2.
    - lia.
    - discriminate.
    - intros g Eg I. injection Eg as <-. rewrite Q7 in I. exfalso. apply (free_held s k (fd t) F H L). rewrite I. symmetry. apply (e_ino _ _ E). exact L. }
  assert (PI : forall t, T_ok s t -> pidx s' t = pidx s t) by (intros t T; apply pidx_ext; assumption).
  constructor.
  - rewrite W, Q6. exact V1.
  - rewrite W. exact V2.
  - rewrite Q1, Q2. intros g Eg. injection Eg as <-. reflexivity.
  - unfold pc_ok in *. rewrite Q3. destruct (ship s) eqn:S; auto.
    + destruct V4 as (_ & A & _). congruence.
    + destruct V4 as (g & A & _). congruence.
    + destruct V4 as (A1 & A2). split; [auto|]. apply (hand_ext s s'); auto.
    + destruct V4 as (_ & _ & A). congruence.
    + destruct V4 as (_ & _ & A & _). congruence.
    + destruct V4 as (A1 & A2). split; [auto|]. apply (hand_ext s s'); auto.
    + destruct V4 as (A1 & A2). split; [auto|]. apply (hand_ext s s'); auto.
    + destruct V4 as (A1 & A2). rewrite PI by exact A1. auto.
  - apply (sidx_ext s s'); auto.
Qed.
Lemma inv_rename : forall s n, Inv s n -> path s = None \/ tailing s -> Inv (step good s Rename) n.
Proof.
  intros s n V [P|(f & P & H)].
  - assert (E : step good s Rename = s) by (destruct s; cbn in *; subst; reflexivity). rewrite E. exact V.
  - destruct V as [V1 V2 V3 V4 V5]. pose proof (V3 f P) as N. cbn [step]. set (s' := mkS _ _ _ _ _ _ _ _ _).
    assert (TT : forall t, fd t = f -> T_ok s t -> T_ok s' t).
    { intros t <- [Hf Hi Ha Hp Hq Hn Hl Hg Hu]. constructor; auto. intros g Eg. discriminate Eg. }
    constructor; auto.
    + intros g Eg. discriminate Eg.
    + unfold pc_ok in *. cbn [ship s']. destruct (ship s) eqn:S; cbn [held] in H; try discriminate; injection H as H.
      * destruct V4 as (A1 & A2). split; auto.
      * destruct V4 as (_ & _ & A). rewrite P in A. injection A as A. lia.
      * destruct V4 as (_ & _ & A & _). rewrite P in A. injection A as A. lia.
      * destruct V4 as (A1 & A2). split; auto.
      * destruct V4 as (A1 & A2). split; auto.
      * destruct V4 as (A1 & A2). split; auto.
Qed.
Lemma inv_delete : forall s n i, Inv s n -> Inv (step good s (Delete i)) n.
Proof.
  intros s n i V.
  assert (G : Inv (mkS (nfiles s) (content s) (ino s) (upd (linked s) i false) (path s) (ship s) (saved s) (saved_file s) (arrived s)) n).
  { destruct V as [V1 V2 V3 V4 V5]. set (s' := mkS _ _ _ _ _ _ _ _ _).
    assert (TT : forall t, T_ok s t -> T_ok s' t) by (intros t [Hf Hi Ha Hp Hq Hn Hl Hg Hu]; constructor; assumption).
    constructor; auto. unfold pc_ok in *. cbn [ship s']. destruct (ship s); auto; destruct V4 as (A1 & A2); split; auto. }
  cbn [step]. destruct (path s); [destruct (Nat.eqb i n0)|]; assumption.
Qed.
Lemma inv_boot : forall s n, Inv s n -> same_file s -> Inv (step good s Boot) n.
Proof.
  intros s n V SF. cbn [step]. destruct (ship s) eqn:S; try exact V. destruct (path s) as [f|] eqn:P; [|exact V].
  apply inv_ship; [exact V|rewrite S; exact I|destruct (saved s) as [(i, o)|]; exact I|].
  destruct V as [V1 V2 V3 V4 V5]. unfold sidx_ok in V5. rewrite S in V5. unfold same_file in SF. rewrite P in SF.
  destruct (saved s) as [(i, o)|] eqn:SV; unfold pc_ok; cbn [ship with_ship].
  - cbn [saved path with_ship]. rewrite SV, P. split; [reflexivity|]. split; [discriminate|]. unfold same_file. cbn [path saved_file saved with_ship content ino]. rewrite P, SV. exact SF.
  - destruct (saved_file s); [destruct V5|]. subst f. exists 0. split; [exact P|]. split; [apply at0|]. change (R (idx s 0 0) n). rewrite idx0. exact V5.
Qed.
Lemma inv_kill : forall s n, Inv s n -> (forall a b, a <= b -> R a b) -> Inv (step good s Kill) n.
Proof.
  intros s n [V1 V2 V3 V4 V5] L. constructor; auto; [exact I|].
  unfold sidx_ok in *. cbn [step with_ship saved saved_file ship nfiles]. destruct (saved s) as [(i, o)|], (saved_file s) as [g|]; auto.
  - destruct V5 as (A & B & C & D). split; [exact A|]. split; [exact B|]. split; [exact C|]. destruct (ship s); auto.
  - apply L. lia.
Qed.
Lemma T_open : forall s f o, path s = Some f -> nfiles s = S f -> at_line s f o -> T_ok s (open_at s f o).
Proof.
  intros s f o P N A. constructor; cbn [open_at fd pos inode offset pending length]; auto; try lia.
  - rewrite app_nil_r. reflexivity.
  - constructor.
  - intros g E _. congruence.
Qed.
Lemma hand_nil : forall s n t, n <= length (written s) -> R (pidx s t) n -> hand s n t [].
Proof.
  intros s n t L H. exists (pidx s t). split; [exact H|]. split; [|cbn; lia]. apply stands_nil. apply R_le in H. lia.
Qed.
Lemma hand_nil_inv : forall s n t, hand s n t [] -> R (pidx s t) n.
Proof. intros s n t (m & H & _ & E). cbn in E. rewrite Nat.add_0_r in E. subst. exact H. Qed.
Lemma hand_read : forall s n t t' ls ls', T_ok s t -> hand s n t ls -> read_lines s t = (t', ls') -> T_ok s t' /\ hand s n t' (ls ++ ls').
Proof.
  intros s n t t' ls ls' T (m & H1 & H2 & H3) E. destruct (read_ok s t t' ls' T E) as (T' & F & L & I & _). split; [exact T'|].
  exists m. split; [exact H1|]. split.
  - apply (stands_join _ m ls (pidx s t) ls'); auto. rewrite L. apply rest_stands; apply T.
  - rewrite app_length, I. lia.
Qed.
Lemma deliver_ok : forall s n t und, Inv s n -> match ship s with Save _ _ => False | _ => True end ->
  T_ok s t -> hand s n t und -> Inv (with_ship s (deliver good t und)) n.
Proof.
  intros s n t und V S T H. apply inv_ship; auto.
  - unfold deliver. destruct und; [exact I|]. destruct (forallb _ _); exact I.
  - unfold deliver. destruct und as [|l r]; [split; [apply T_ship; exact T|exact H]|].
    destruct (forallb good (l :: r)); [split; [apply T_ship; exact T|exact H]|exact I].
Qed.
Lemma inv_ship_step : forall s n, Inv s n -> Inv (step good s Step) n.
Proof.
  intros s n V. cbn [step]. unfold ship_step. pose proof V as [V1 V2 V3 V4 V5]. unfold pc_ok in V4.
  destruct (ship s) as [|i o|o|t und|t|t ls|t ls|t und|t und] eqn:S.
  - exact V.
  - apply inv_ship; [exact V|rewrite S; exact I|exact I|]. destruct V4 as (A1 & A2 & A3). unfold sidx_ok in V5. rewrite A1, S in V5.
    unfold same_file in A3. rewrite A1 in A3. destruct (path s) as [f|] eqn:P; [|congruence]. destruct (saved_file s) as [g|]; [|destruct V5].
    destruct V5 as (B1 & B2 & B3 & B4). unfold pc_ok. cbn [ship with_ship]. exists f. split; [exact P|].
    destruct A3 as [->|(C1 & C2 & C3)].
    + rewrite B3, Nat.eqb_refl. split; assumption.
    + destruct (Nat.eqb_spec (ino s f) i); [contradiction|]. split; [apply at0|]. subst f. change (R (idx s (Datatypes.S g) 0) n).
      rewrite <- (idx_end s g o); assumption.
  - destruct V4 as (f & A1 & A2 & A3). rewrite A1. apply inv_ship; [exact V|rewrite S; exact I|exact I|].
    pose proof (T_open s f o A1 (V3 f A1) A2) as T. split; [apply T_ship; exact T|]. apply (hand_nil s); assumption.
  - destruct V4 as (T & H). destruct und as [|l r].
    + apply inv_ship; [exact V|rewrite S; exact I|destruct (path s); [destruct (Nat.eqb _ _)|]; exact I|].
      destruct (path s) as [f|] eqn:P; [|split; [apply T_ship; exact T|exact H]].
      destruct (Nat.eqb_spec (ino s f) (inode t)) as [E|E]; [split; [apply T_ship; exact T|exact H]|].
      split; [apply T_ship; exact T|]. split; [apply (hand_nil_inv s); exact H|]. cbn [path with_ship]. rewrite P. f_equal.
      pose proof (V3 f eq_refl) as N. destruct T as [Hf Hi Ha Hp Hq Hn Hl Hg Hu]. assert (f <> fd t) by congruence. lia.
    + apply deliver_ok; [exact V|rewrite S; exact I|exact T|exact H].
  - destruct V4 as (T & H & P). destruct (read_lines s t) as (t', ls) eqn:E. apply inv_ship; [exact V|rewrite S; exact I|exact I|].
    destruct (hand_read s n t t' [] ls T (hand_nil s n t V2 H) E) as (T' & H'). cbn [app] in H'.
    destruct (read_ok s t t' ls T E) as (_ & F & _ & _ & B). split; [apply T_ship; exact T'|]. split; [exact H'|]. rewrite F. split; [exact P|exact B].
  - destruct V4 as (T & H & P & B). rewrite P. apply inv_ship; [exact V|rewrite S; exact I|exact I|].
    split; [apply T_ship; apply T_open; [exact P|apply V3; exact P|apply at0]|].
    destruct H as (m & H1 & H2 & H3). exists m. split; [exact H1|]. split; [exact H2|]. unfold pidx. cbn [open_at fd offset].
    change (m + length ls = idx s (Datatypes.S (fd t)) 0). rewrite idx0. congruence.
  - destruct V4 as (T & H). destruct (read_lines s t) as (t', ls') eqn:E. destruct (hand_read s n t t' ls ls' T H E) as (T' & H').
    apply deliver_ok; [exact V|rewrite S; exact I|exact T'|exact H'].
  - exact V.
  - destruct V4 as (T & H).
    assert (T' : T_ok (with_saved s (Idle t []) (Some (inode t, offset t)) (Some (fd t))) t).
    { destruct T as [Hf Hi Ha Hp Hq Hn Hl Hg Hu]. constructor; assumption. }
    constructor; auto.
    + split; [exact T'|]. apply (hand_nil s); assumption.
    + unfold sidx_ok. cbn [with_saved saved saved_file ship nfiles ino].
      split; [apply T|]. split; [apply T|]. split; [apply T|]. exact H.
Qed.
Lemma inv_reply : forall s n came ok, Inv s n -> (forall a b, a <= b -> R a b) \/ came = ok ->
  exists n', n <= n' /\ Inv (step good s (Reply came ok)) n'.
Proof.
  intros s n came ok V L. cbn [step]. pose proof V as [V1 V2 V3 V4 V5]. destruct (ship s) eqn:S; try (exists n; split; [lia|exact V]).
  unfold pc_ok in V4. rewrite S in V4. destruct V4 as (T & (m & H1 & H2 & H3)).
  assert (TT : forall p a, T_ok (with_arrived s p a) t) by (intros p a; destruct T as [Hf Hi Ha Hp Hq Hn Hl Hg Hu]; constructor; assumption).
  assert (SV : forall p a n', n <= n' -> (match p with Save _ _ => True | _ => n = n' \/ forall a b, a <= b -> R a b end) -> sidx_ok (with_arrived s p a) n').
  { intros p a n' Hn Hp. unfold sidx_ok in *. rewrite S in V5. cbn [with_arrived saved saved_file ship nfiles].
    destruct (saved s) as [(i, o)|], (saved_file s) as [g|]; auto.
    - destruct V5 as (A & B & C & D). split; [exact A|]. split; [exact B|]. split; [exact C|].
      change (idx (with_arrived s p a) g o) with (idx s g o). pose proof (R_le _ _ D).
      destruct p; try (destruct Hp as [Hp|Hp]; [rewrite <- Hp; exact D|apply Hp; lia]). lia.
    - pose proof (R_le _ _ V5). destruct p; try (destruct Hp as [Hp|Hp]; [rewrite <- Hp; exact V5|apply Hp; lia]). lia. }
  pose proof (stands_len _ _ _ H2) as SL.
  destruct ok.
  - rewrite orb_true_r. exists (Nat.max n (m + length und)). split; [lia|]. constructor.
    + apply (comes_snoc _ _ n m und); assumption.
    + change (Nat.max n (m + length und) <= length (written s)). lia.
    + exact V3.
    + split; [apply TT|]. change (R (pidx s t) (Nat.max n (m + length und))). rewrite <- H3. apply R_max. exact H1.
    + apply SV; [lia|exact I].
  - rewrite orb_false_r. destruct came.
    + destruct L as [L|L]; [|discriminate]. exists (Nat.max n (m + length und)). split; [lia|]. constructor.
      * apply (comes_snoc _ _ n m und); assumption.
      * change (Nat.max n (m + length und) <= length (written s)). lia.
      * exact V3.
      * split; [apply TT|]. exists m. split; [apply L; apply R_le in H1; lia|]. split; assumption.
      * apply SV; [lia|right; exact L].
    + exists n. split; [lia|]. constructor; [exact V1|exact V2|exact V3| |].
      * split; [apply TT|]. exists m. auto.
      * apply SV; [lia|left; reflexivity].
Qed.
Lemma inv_step : forall s n e, Inv s n -> calm s e -> (forall a b, a <= b -> R a b) \/ clean e -> exists n', n <= n' /\ Inv (step good s e) n'.
Proof.
  intros s n e V C L. destruct e; cbn [calm clean] in *.
  - exists n. split; [lia|]. apply inv_append; exact V.
  - exists n. split; [lia|]. apply inv_rename; assumption.
  - exists n. split; [lia|]. apply inv_create; exact V.
  - exists n. split; [lia|]. apply inv_delete; exact V.
  - exists n. split; [lia|]. apply inv_boot; assumption.
  - destruct L as [L|[]]. exists n. split; [lia|]. apply inv_kill; assumption.
  - exists n. split; [lia|]. apply inv_ship_step; exact V.
  - apply inv_reply; assumption.
Qed.
Lemma inv_fresh : Inv fresh 0.
Proof.
  constructor; [apply comes_nil|cbn; lia|intros f H; discriminate H|exact I|]. unfold sidx_ok. cbn. apply R_refl.
Qed.
Lemma inv_run : forall es s n, Inv s n -> always calm good s es -> (forall a b, a <= b -> R a b) \/ Forall clean es ->
  exists n', n <= n' /\ Inv (run good s es) n'.
Proof.
  induction es as [|e es IH]; intros s n V A L; [exists n; split; [lia|exact V]|]. destruct A as (A1 & A2).
  destruct (inv_step s n e V A1) as (n1 & L1 & V1); [destruct L as [L|L]; [left; exact L|right; inversion L; assumption]|].
  destruct (IH _ n1 V1 A2) as (n2 & L2 & V2); [destruct L as [L|L]; [left; exact L|right; inversion L; assumption]|].
  exists n2. split; [lia|exact V2].
Qed.
End Inv.

Lemma le_max : forall m n k, m <= n -> m + k <= Nat.max n (m + k).
Proof. lia. Qed.
Lemma eq_max : forall m n k, m = n -> m + k = Nat.max n (m + k).
Proof. lia. Qed.
Lemma eq_le : forall m n : nat, m = n -> m <= n.
Proof. lia. Qed.
Lemma comes_brought : forall w bs n, comes le w bs n -> brought w bs n.
Proof. intros w bs n H. induction H; econstructor; eauto. Qed.
Lemma comes_exact : forall w bs n, comes eq w bs n -> concat bs = firstn n w /\ n <= length w.
Proof.
  intros w bs n H. induction H as [|bs n m b H (IH & L) (x & z & E & Lx) M]; [split; [reflexivity|lia]|]. subst m.
  rewrite concat_app, IH. cbn [concat]. rewrite app_nil_r.
  assert (L2 : Nat.max n (length x + length b) = n + length b) by lia.
  rewrite L2, E, !app_length. split; [|lia].
  rewrite !firstn_app. replace (n - length x) with 0 by lia. replace (n + length b - length x) with (length b) by lia.
  cbn [firstn]. rewrite app_nil_r, (firstn_all2 x) by lia. rewrite (firstn_all2 x) by lia. f_equal.
  rewrite Nat.sub_diag, firstn_all. cbn. rewrite app_nil_r. reflexivity.
Qed.
