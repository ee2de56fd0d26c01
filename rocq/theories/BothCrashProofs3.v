(** Proofs about two applications that both crash: how often a message is accepted. *)
From Coq Require Import List ZArith NArith Bool String Lia Permutation.
From Verif Require Import Base PermTac PQueueModel PQueueSpec PQueueProofs PendingModel PendingSpec PendingProofs
  HandlerModel HandlerSpec HandlerProofs HandlerProofs2 HandlerProofs3 HandlerProofs5 CrashModel CrashProofs CrashProofs2 CrashProofs3
  SenderModel SenderSpec SenderProofs SenderProofs2 SenderProofs3
  DeliveryModel DeliverySpec DeliveryProofs DeliveryProofs2 DeliveryProofs3 DeliveryProofs4
  SCrashModel SCrashProofs SCrashProofs2 BothCrashModel BothCrashSpec BothCrashProofs BothCrashProofs2.
Import ListNotations.
Local Open Scope Z_scope.

Section World.
Context {D MA MB : Type}.
Variables (meta_a : MA) (dto_a truthy_a : D -> bool) (wait : bool) (max_a cmax : Z).
Variables (meta_b : MB) (dto_b truthy_b : D -> bool) (max_b : Z).
Notation world := (world D MA MB). Notation wev := (wev D MB). Notation conn := (conn D). Notation msg := (msg D).
Notation wstep := (@wstep D MA MB meta_a dto_a truthy_a wait max_a cmax meta_b dto_b truthy_b max_b).
Notation sstep := (@sstep D MA meta_a dto_a truthy_a wait max_a).
Notation srun := (@srun D MA meta_a dto_a truthy_a wait max_a).
Notation hstep := (@hstep D MB meta_b dto_b truthy_b max_b).
Notation s_lives := (@s_lives D MA meta_a dto_a truthy_a wait max_a).
Notation s_crash_at := (@s_crash_at D MA meta_a dto_a truthy_a wait max_a).
Notation wlives := (@wlives D MA MB meta_a dto_a truthy_a wait max_a cmax meta_b dto_b truthy_b max_b).
Notation a_life := (@a_life D MA MB meta_a dto_a truthy_a wait max_a).
Notation J := (@J D MA MB dto_b).
Notation R := (@SenderProofs.R D MA meta_a).
Implicit Types (w : world).

(** ** Connections and calls of send_data *)
Definition ncon (k : N) (cn : list conn) : Z := Z.of_nat (times k (map pair_of cn)).
Definition nsend (k : N) (o : list (sout D)) : Z := Z.of_nat (sends k o).
Definition used (x : Z * option nat) : Z := fst x + match snd x with Some _ => 1 | None => 0 end.
Definition C := Z.max 0 cmax.

Lemma nsend_app k o o' : nsend k (o ++ o') = nsend k o + nsend k o'.
Proof. unfold nsend, sends. rewrite filter_app, app_length. lia. Qed.
Lemma nsend_pos k o : 0 <= nsend k o. Proof. unfold nsend. lia. Qed.
Lemma nsend_in k d o : In (OSend k d) o -> 1 <= nsend k o.
Proof.
  intros I. unfold nsend, sends.
  match goal with |- 1 <= Z.of_nat (List.length (filter ?f o)) =>
    assert (X : In (OSend k d) (filter f o)) by (apply filter_In; split; [exact I|apply N.eqb_refl]) end.
  destruct (filter _ o); [destruct X|cbn; lia].
Qed.
Lemma ncon_set k cn c x : ncon k (set_conn cn c x) = ncon k cn.
Proof.
  unfold ncon, set_conn. do 2 f_equal. destruct (nth_error cn c) as [n|] eqn:Hn; [|reflexivity].
  revert c Hn. induction cn as [|m cn IH]; intros [|c] Hn; cbn in *; try discriminate.
  - injection Hn as ->. reflexivity.
  - f_equal. now apply IH.
Qed.
Lemma ncon_snoc k cn n : ncon k (cn ++ [n]) = ncon k cn + (if N.eqb (c_key n) k then 1 else 0).
Proof.
  unfold ncon, times. rewrite !map_app, count_occ_app. cbn [map count_occ pair_of fst].
  destruct (N.eq_dec (c_key n) k) as [Q|Ne]; destruct (N.eqb_spec (c_key n) k); try contradiction; rewrite Nat2Z.inj_add; reflexivity.
Qed.

Record K w : Prop := mkK {
  k_all : forall k, ncon k (conns w) <= C * nsend k (ao w);
  k_now : forall i e, sending w i = Some e ->
            ncon (pe_key e) (conns w) + (C - used (wcalls w i)) <= C * nsend (pe_key e) (ao w);
  k_pos : forall i, 0 <= fst (wcalls w i) }.

Definition alone (s : sstate D MA) : Prop := forall i j e e',
  nth_error (stasks s) i = Some (SSending e) -> nth_error (stasks s) j = Some (SSending e') -> i = j.

Lemma R_alone s a : R s a -> alone s.
Proof.
  intros [H _] i j e e' A B. rewrite (r_t _ _ _ H) in A, B.
  assert (X : forall i e, nth_error (repeat SDone (an a) ++ [at_ a]) i = Some (SSending e) -> i = an a).
  { intros n x Hx. destruct (Nat.eq_dec n (an a)) as [|Ne]; [auto|]. destruct (nth_old (an a) (@SDone D MA) (at_ a) n Ne) as [Q|Q]; congruence. }
  rewrite (X _ _ A), (X _ _ B). reflexivity.
Qed.

Lemma C_pos : 0 <= C. Proof. unfold C. lia. Qed.

(** A step of the sender, with its call of send_data reset if a task ran. *)
Lemma K_sstep w e s o cs cn : K w -> sstep (wa w) e = (s, o) -> (forall k, ncon k cn = ncon k (conns w)) ->
  (forall i, target e <> Some i -> cs i = wcalls w i) -> (forall i, 0 <= fst (cs i)) ->
  K (mkW s (ao w ++ o) (wb w) (bo w) cn (collectors w) cs).
Proof.
  intros [A B Pz] E Hc Hcs Hp. pose proof C_pos as Cp. constructor; cbn [conns ao wcalls wa].
  - intros k. rewrite Hc, nsend_app. pose proof (nsend_pos k o). specialize (A k). nia.
  - intros i x Hs. rewrite Hc, nsend_app. unfold sending in Hs. cbn [wa] in Hs.
    destruct (nth_error (stasks s) i) as [t|] eqn:T; [|discriminate]. destruct t; try discriminate. injection Hs as <-.
    destruct (sstep_tasks _ _ _ _ _ _ _ _ _ E) as [_ [X _]]. destruct (X i _ T) as [[Ti Old]|Sn].
    + rewrite (Hcs i Ti). assert (S0 : sending w i = Some e0) by (unfold sending; now rewrite Old).
      specialize (B i _ S0). pose proof (nsend_pos (pe_key e0) o). nia.
    + specialize (A (pe_key e0)). pose proof (nsend_in _ _ _ Sn). specialize (Hp i). unfold used.
      destruct (snd (cs i)); nia.
  - exact Hp.
Qed.

Lemma call_upd_other f i x j : Some i <> Some j -> call_upd f i x j = f j.
Proof. intros H. unfold call_upd. destruct (Nat.eqb_spec j i); [congruence|reflexivity]. Qed.
Lemma call_upd_pos f i x : (forall j, 0 <= fst (f j)) -> 0 <= fst x -> forall j, 0 <= fst (call_upd f i x j).
Proof. intros H Hx j. unfold call_upd. destruct (Nat.eqb j i); auto. Qed.

Lemma K_end w i cn r : K w -> (forall k, ncon k cn = ncon k (conns w)) -> K (end_call meta_a dto_a truthy_a wait max_a w i cn r).
Proof.
  intros Hk Hc. unfold end_call. destruct (sstep (wa w) (STask i r)) as [s o] eqn:E.
  eapply K_sstep; eauto.
  - intros j Hj. cbn [target] in Hj. now apply call_upd_other.
  - apply call_upd_pos; [apply (k_pos _ Hk)|cbn; lia].
Qed.

Lemma K_b w s o cn cl : K w -> (forall k, ncon k cn = ncon k (conns w)) -> K (set_b w s o cn cl).
Proof.
  intros [A B Pz] Hc. constructor; cbn [set_b conns ao wcalls wa].
  - intros k. rewrite Hc. apply A.
  - intros i e Hs. rewrite Hc. apply B. exact Hs.
  - exact Pz.
Qed.

Lemma K_step w ev w' l : K w -> alone (wa w) -> wstep w ev = (w', l) -> K w'.
Proof.
  intros Hk Al E. pose proof C_pos as Cp. destruct ev as [e|i|i x|i|c|c|e|k d]; cbn [DeliveryModel.wstep] in E.
  - assert (X : forall w1, (let (s, o) := sstep (wa w) e in (set_a w s o (wcalls w), @nil (wout D))) = (w1, l) -> K w1).
    { intros w1 Q. destruct (sstep (wa w) e) as [s o] eqn:S. injection Q as <- <-. unfold set_a. eapply K_sstep; eauto. apply (k_pos _ Hk). }
    destruct e; try exact (X _ E).
    + destruct (sending w i); [injection E as <- <-; exact Hk|exact (X _ E)].
    + destruct (sstep (wa w) (SCancel i)) as [s o] eqn:S. injection E as <- <-. unfold set_a. eapply K_sstep; eauto.
      * intros j Hj. now apply call_upd_other.
      * apply call_upd_pos; [apply (k_pos _ Hk)|cbn; lia].
  - destruct (sending w i) as [e|] eqn:S; [|injection E as <- <-; exact Hk].
    destruct (wcalls w i) as [n [c|]] eqn:Wc; [injection E as <- <-; exact Hk|].
    destruct (n <? cmax) eqn:L; [|injection E as <- <-; now apply K_end].
    apply Z.ltb_lt in L. injection E as <- <-. destruct Hk as [A B Pz]. pose proof (Pz i) as Pi. rewrite Wc in Pi. cbn in Pi.
    assert (CC : C = cmax) by (unfold C; lia).
    pose proof (B i e S) as Bi. rewrite Wc in Bi. unfold used in Bi. cbn [fst snd] in Bi.
    constructor; cbn [set_net conns ao wcalls wa].
    + intros k. rewrite ncon_snoc. cbn [c_key]. destruct (N.eqb_spec (pe_key e) k) as [<-|_]; [lia|rewrite Z.add_0_r; apply A].
    + intros j e' Hs. change (sending (set_net w (conns w ++ [mkConn (pe_key e) (pe_data e) CTravelling]) (call_upd (wcalls w) i (n, Some (List.length (conns w))))) j)
        with (sending w j) in Hs.
      assert (j = i) as ->.
      { unfold sending in Hs, S. destruct (nth_error (stasks (wa w)) j) as [[]|] eqn:T1; try discriminate.
        destruct (nth_error (stasks (wa w)) i) as [[]|] eqn:T2; try discriminate. eapply Al; eauto. }
      assert (e' = e) as -> by congruence. unfold call_upd. rewrite Nat.eqb_refl. unfold used. cbn [fst snd].
      rewrite ncon_snoc. cbn [c_key]. rewrite N.eqb_refl. lia.
    + apply call_upd_pos; auto.
  - destruct (sending w i) as [e|] eqn:S; [|injection E as <- <-; exact Hk].
    destruct (wcalls w i) as [n c] eqn:Wc. destruct (n <? cmax) eqn:L; [|injection E as <- <-; exact Hk].
    injection E as <- <-. destruct x as [m|]; [now apply K_end|]. destruct (cmax <=? n + 1); [now apply K_end|].
    destruct Hk as [A B Pz]. pose proof (Pz i) as Pi. rewrite Wc in Pi. cbn in Pi. constructor; cbn [set_net conns ao wcalls wa]; auto.
    + intros j e' Hs. change (sending (set_net w (conns w) (call_upd (wcalls w) i (n + 1, None))) j) with (sending w j) in Hs.
      specialize (B j e' Hs). unfold call_upd. destruct (Nat.eqb_spec j i) as [->|]; [|exact B]. rewrite Wc in B. unfold used in *. cbn [fst snd] in *.
      destruct c; lia.
    + apply call_upd_pos; [auto|cbn; lia].
  - destruct (sending w i) as [e|] eqn:S; [|injection E as <- <-; exact Hk].
    destruct (wcalls w i) as [n [c|]] eqn:Wc; [|injection E as <- <-; exact Hk].
    destruct (nth_error (conns w) c) as [m|]; [|injection E as <- <-; exact Hk].
    destruct (c_state m); try (injection E as <- <-; exact Hk). injection E as <- <-. apply K_end; [exact Hk|]. intros k. apply ncon_set.
  - destruct (nth_error (conns w) c) as [m|]; [|injection E as <- <-; exact Hk].
    destruct (c_state m); try (injection E as <- <-; exact Hk).
    destruct (dto_b (c_data m)).
    + destruct (hstep _ _) as [s o]. destruct (recv_paused (wb w)); injection E as <- <-; apply K_b; auto; intros k; apply ncon_set.
    + injection E as <- <-; apply K_b; auto; intros k; apply ncon_set.
  - assert (X : forall x, K (set_net w (set_conn (conns w) c x) (wcalls w))).
    { intros x. destruct Hk as [A B Pz]. constructor; cbn [set_net conns ao wcalls wa]; auto.
      - intros k. rewrite ncon_set. apply A.
      - intros i e Hs. rewrite ncon_set. apply B. exact Hs. }
    destruct (nth_error (conns w) c) as [m|]; [|injection E as <- <-; exact Hk].
    destruct (c_state m); try (injection E as <- <-; exact Hk); injection E as <- <-; apply X.
  - assert (An : forall i a k, ncon k (answered w i a) = ncon k (conns w)).
    { intros i a k. unfold answered. destruct (nth_error (collectors w) i) as [[c|]|]; auto. apply ncon_set. }
    destruct e; try (injection E as <- <-; exact Hk); destruct (hstep _ _) as [s o]; injection E as <- <-; apply K_b; auto.
  - destruct (dto_b d); [|injection E as <- <-; exact Hk]. destruct (hstep _ _) as [s o]. injection E as <- <-. now apply K_b.
Qed.

Lemma K_restart_a w cn o p f : K w -> (forall k, ncon k cn = ncon k (conns w)) -> K (restart_a w cn o p f).
Proof.
  intros [A B Pz] Hc. pose proof C_pos as Cp. constructor; cbn [restart_a conns ao wcalls wa].
  - intros k. rewrite Hc, nsend_app. pose proof (nsend_pos k o). specialize (A k). nia.
  - intros i e H. exfalso. unfold sending in H. cbn [restart_a wa] in H.
    destruct (nth_error _ i) as [t|] eqn:T; [|discriminate]. destruct t; try discriminate.
    unfold s_setup in T. apply s_check_sending, s_check_sending in T. cbn in T. destruct i; discriminate.
  - cbn. lia.
Qed.

Lemma a_alone na pa w : a_life na pa w -> alone (wa w).
Proof.
  intros [outs [f [evs [o [L [P [E [Cc O]]]]]]]].
  assert (So : sent_ok outs) by (eapply lives_sends; eauto).
  eassert (X : _) by (eapply run_sends; [exact L|exact P|exact So|exact E|exact Cc]).
  destruct X as [_ [a [Ra _]]]. eapply R_alone; eauto.
Qed.

Theorem wlives_K na pa nb pb ot w : wlives na pa nb pb ot w -> K w.
Proof.
  induction 1 as [pa pb Pa Pb|na pa nb pb ot w ev w' l H Hk E Ca Cb|na pa nb pb ot w e f o cn n f' p H Hk Do Cr Op P
    |na pa nb pb ot w ev w' l n f' p H Hk E Ca Cb Op P|na pa nb pb ot w e f o n f' p H Hk Cr Op P
    |na pa nb pb ot w ev w' l n f' p H Hk E Ca Cb Op P].
  - constructor; cbn [wstart conns ao wcalls wa].
    + intros k. unfold ncon, nsend. cbn. lia.
    + intros i e S. exfalso. unfold sending in S. cbn [wstart wa] in S.
      destruct (nth_error _ i) as [t|] eqn:T; [|discriminate]. destruct t; try discriminate.
      unfold s_setup in T. apply s_check_sending, s_check_sending in T. cbn in T. destruct i; discriminate.
    + cbn. lia.
  - eapply K_step; eauto. eapply a_alone. eapply wlives_a; eauto.
  - apply K_restart_a; [exact Hk|]. intros k. destruct Do; auto. apply ncon_set.
  - assert (K w') by (eapply K_step; eauto; eapply a_alone; eapply wlives_a; eauto). now apply K_restart_a.
  - destruct Hk as [A B Pz]. constructor; auto.
  - assert (K w') as [A B Pz] by (eapply K_step; eauto; eapply a_alone; eapply wlives_a; eauto). constructor; auto.
Qed.

(** ** Accepted at most as often as sent *)
Lemma times_acc k (cn : list conn) : (times k (flat_map acc_conn cn) <= times k (map pair_of cn))%nat.
Proof.
  induction cn as [|n cn IH]; [reflexivity|]. cbn [flat_map map]. rewrite times_app.
  change (times k (pair_of n :: map pair_of cn)) with (times k ([pair_of n] ++ map pair_of cn)). rewrite times_app.
  assert (times k (acc_conn n) <= times k [pair_of n])%nat; [|lia].
  unfold acc_conn. destruct (c_state n) as [| |[]|[]| |[]]; cbn [times map count_occ]; unfold times; cbn [map count_occ]; lia.
Qed.

Theorem accepted_vs_sends na pa nb pb ot w k : wlives na pa nb pb ot w -> ~ In k (map fst ot) ->
  Z.of_nat (times k (map msg_of (accepted (bo w)))) <= Z.max 0 cmax * Z.of_nat (sends k (ao w)) /\
  (times k (map msg_of (finished (bo w))) <= times k (map msg_of (accepted (bo w))))%nat.
Proof.
  intros H No. pose proof (wlives_K _ _ _ _ _ _ H) as Hk.
  pose proof (wlives_J meta_a dto_a truthy_a wait max_a cmax meta_b dto_b truthy_b max_b _ _ _ _ _ _ H) as Hj.
  destruct (wlives_a _ _ _ _ _ _ _ _ _ _ _ _ _ _ _ _ H) as [_ Hb]. split.
  - destruct (j_acc _ _ _ Hj) as [o2 [Io A]]. rewrite (times_perm _ _ _ A), times_app.
    rewrite (times_not k o2). 2:{ intros I. apply No. apply in_map_iff in I as [x [Q I]]. apply in_map_iff. exists x. auto. }
    pose proof (times_acc k (conns w)). pose proof (k_all _ Hk k) as X. unfold ncon, nsend, C in X. lia.
  - destruct (account_b meta_b dto_b truthy_b max_b _ _ _ Hb) as [lp [le [cr [_ [P _]]]]].
    apply (times_perm k) in P. rewrite P. unfold with_receiver. rewrite !map_app, !times_app. lia.
Qed.

Lemma attempts_sends k (o : list (sout D)) : forall n, (forall k', In (OReprocessed k') o -> k' <> k) -> attempts_of k n o = n + Z.of_nat (sends k o).
Proof.
  unfold attempts_of, sends. induction o as [|x o IH]; intros n H; cbn [fold_left filter List.length]; [lia|].
  rewrite IH by (intros k' I; apply H; now right). destruct x; try reflexivity.
  - destruct (N.eqb _ k); cbn [List.length]; lia.
  - destruct (N.eqb_spec k0 k) as [->|]; [|reflexivity]. exfalso. apply (H k); [now left|reflexivity].
Qed.

Theorem sends_bound na pa nb pb ot w k : wlives na pa nb pb ot w -> NoDup (map fst (enqueued (ao w))) ->
  0 <= attempts_of k 0 (ao w) <= Z.max 1 max_a.
Proof.
  intros H Nd. destruct (wlives_a _ _ _ _ _ _ _ _ _ _ _ _ _ _ _ _ H) as [[outs [f [evs [o [L [P [E [Cc O]]]]]]]] _].
  assert (L' : s_lives (ao w) (na + (4 * pa + 2)) (files_of (sq (wa w)))).
  { rewrite O. pose proof (sl_life _ _ _ _ _ outs na f pa evs (wa w) o SPause (files_of (sq (wa w))) [] L P E Cc (sc_before _ _ _ _ _ _ SPause)) as X.
    now rewrite app_nil_r in X. }
  destruct (s_crash_attempts meta_a dto_a truthy_a wait max_a _ _ _ 1 L' ltac:(lia) Nd) as [lp [le X]]. apply X.
Qed.

Theorem times_bound na pa nb pb ot w k : wlives na pa nb pb ot w -> ~ In k (map fst ot) ->
  NoDup (map fst (enqueued (ao w))) -> ~ In (OReprocessed k) (ao w) ->
  Z.of_nat (times k (map msg_of (accepted (bo w)))) <= Z.max 0 cmax * Z.max 1 max_a /\
  (times k (map msg_of (finished (bo w))) <= times k (map msg_of (accepted (bo w))))%nat.
Proof.
  intros H No Nd Nr. destruct (accepted_vs_sends _ _ _ _ _ _ _ H No) as [A B]. split; [|exact B].
  pose proof (sends_bound _ _ _ _ _ _ k H Nd) as X. rewrite attempts_sends in X by (intros k' I ->; contradiction). nia.
Qed.
End World.
