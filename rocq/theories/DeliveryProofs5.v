(** Proofs about messages between two applications: without failed attempts, and with one client, the endpoint accepts
    the messages in the order in which the client takes them for delivered. *)
From Coq Require Import List ZArith NArith Bool String Lia Permutation.
From Verif Require Import Base PermTac PQueueModel PQueueSpec PendingModel PendingSpec
  SenderModel SenderSpec SenderProofs3 HandlerModel HandlerSpec HandlerProofs HandlerProofs2
  DeliveryModel DeliverySpec DeliveryProofs DeliveryProofs2 DeliveryProofs3 DeliveryProofs4.
Import ListNotations.
Local Open Scope Z_scope.

Section World.
Context {D MA MB : Type}.
Variables (meta_a : MA) (dto_a truthy_a : D -> bool) (wait : bool) (max_a cmax : Z).
Variables (meta_b : MB) (dto_b truthy_b : D -> bool) (max_b : Z).
Notation world := (world D MA MB). Notation wev := (wev D MB). Notation wout := (wout D). Notation conn := (conn D). Notation msg := (msg D).
Notation wstep := (@wstep D MA MB meta_a dto_a truthy_a wait max_a cmax meta_b dto_b truthy_b max_b).
Notation wrun := (@wrun D MA MB meta_a dto_a truthy_a wait max_a cmax meta_b dto_b truthy_b max_b).
Notation sstep := (@sstep D MA meta_a dto_a truthy_a wait max_a).
Notation srun := (@srun D MA meta_a dto_a truthy_a wait max_a).
Notation hstep := (@hstep D MB meta_b dto_b truthy_b max_b).
Notation J := (@J D MA MB dto_b).
Notation end_call := (@end_call D MA MB meta_a dto_a truthy_a wait max_a).
Implicit Types (w : world).

Definition unfailed (l : list wout) : Prop := forall k, ~ In (LFailed k) l.
Definition One w : Prop := forall i j e e', sending w i = Some e -> sending w j = Some e' -> i = j.
Record Q w : Prop := mkQ {
  q_last : forall c n, nth_error (conns w) c = Some n -> (exists a, c_state n = CRead a) \/
             (S c = List.length (conns w) /\ exists i m, wcalls w i = (m, Some c));
  q_acc : map msg_of (accepted (bo w)) = flat_map acc_conn (conns w);
  q_del : delivered (ao w) = flat_map read_conn (conns w);
  q_col : ~ In None (collectors w) }.

Lemma set_conn_len (l : list conn) c x : List.length (set_conn l c x) = List.length l.
Proof. unfold set_conn. destruct (nth_error l c); [apply put_nth_len|auto]. Qed.
Lemma set_conn_last (l : list conn) c n x : nth_error l c = Some n -> S c = List.length l -> exists l1, l = l1 ++ [n] /\
  set_conn l c x = l1 ++ [mkConn (c_key n) (c_data n) x].
Proof.
  intros H Ln. destruct (nth_error_split _ _ H) as [l1 [l2 [E L1]]]. assert (l2 = []) as ->.
  { rewrite E, app_length in Ln. cbn in Ln. destruct l2; [auto|cbn in Ln; lia]. }
  exists l1. split; [auto|]. unfold set_conn. rewrite H, E, <- L1. clear. induction l1 as [|y l1 IH]; [reflexivity|]. cbn. now rewrite IH.
Qed.

(** A connection that is not read yet is the last one. *)
Lemma unread_last w c n : Q w -> nth_error (conns w) c = Some n -> (forall a, c_state n <> CRead a) ->
  S c = List.length (conns w) /\ exists i m, wcalls w i = (m, Some c).
Proof. intros Hq H S. destruct (q_last _ Hq _ _ H) as [[a X]|X]; [now apply S in X|auto]. Qed.

Lemma Q_same w w' : Q w -> conns w' = conns w -> wcalls w' = wcalls w -> map msg_of (accepted (bo w')) = map msg_of (accepted (bo w)) ->
  delivered (ao w') = delivered (ao w) -> ~ In None (collectors w') -> Q w'.
Proof. intros [A B C F] E1 E2 E3 E4 E5. constructor; rewrite ?E1, ?E2, ?E3, ?E4; auto. Qed.

(** The last connection changes. *)
Lemma Q_conn w w' c n x : Q w -> nth_error (conns w) c = Some n -> (forall a, c_state n <> CRead a) -> conns w' = set_conn (conns w) c x ->
  (wcalls w' = wcalls w \/ exists a, x = CRead a) ->
  (exists r, map msg_of (accepted (bo w')) = map msg_of (accepted (bo w)) ++ r /\ acc_conn (mkConn (c_key n) (c_data n) x) = acc_conn n ++ r) ->
  (exists r, delivered (ao w') = delivered (ao w) ++ r /\ read_conn (mkConn (c_key n) (c_data n) x) = read_conn n ++ r) ->
  ~ In None (collectors w') -> Q w'.
Proof.
  intros Hq Hn Un Ec Ew [r [A1 A2]] [r' [B1 B2]] Ni. destruct (unread_last _ _ _ Hq Hn Un) as [Ln Aw].
  destruct (set_conn_last _ _ _ x Hn Ln) as [l1 [E1 E2]]. constructor; auto.
  - intros c' n' H. rewrite Ec in *. rewrite set_conn_len. destruct (Nat.eq_dec c' c) as [->|Ne].
    + destruct Ew as [Ew|[a Ew]]; [rewrite Ew; auto|]. left. rewrite (set_conn_same _ _ _ _ Hn) in H. injection H as <-. eauto.
    + rewrite set_conn_other in H by auto. destruct (q_last _ Hq _ _ H) as [X|[X _]]; [auto|lia].
  - rewrite A1, (q_acc _ Hq), Ec, E2, E1, !flat_map_app. cbn [flat_map]. rewrite A2, !app_nil_r, app_assoc. reflexivity.
  - rewrite B1, (q_del _ Hq), Ec, E2, E1, !flat_map_app. cbn [flat_map]. rewrite B2, !app_nil_r, app_assoc. reflexivity.
Qed.

Lemma delivers_none w e : (forall i r, e = STask i r -> sending w i = None) -> delivers (wa w) e = [].
Proof.
  intros H. destruct e as [k d|i r|i| | | |k|k|k| |]; try reflexivity. specialize (H i r eq_refl). cbn [delivers]. destruct r; try reflexivity.
  unfold sending in H. destruct (nth_error (stasks (wa w)) i) as [[]|]; try reflexivity. discriminate.
Qed.

Lemma step_del w e s o : sstep (wa w) e = (s, o) -> delivered (ao w ++ o) = delivered (ao w) ++ delivers (wa w) e.
Proof. intros E. destruct (sstep_tasks _ _ _ _ _ _ _ _ _ E) as [_ [_ T]]. now rewrite delivered_cat, T. Qed.

Lemma wstep_Q L w ev w' l : J L w -> One w -> Q w -> calm ev = true -> other_of ev = [] -> unfailed l -> wstep w ev = (w', l) -> Q w'.
Proof.
  intros Hj Ho Hq Cm No Uf E. pose proof (q_col _ Hq) as Nc0.
  assert (Id : (w, @nil wout) = (w', l) -> Q w') by (intros X; injection X as <- <-; exact Hq).
  destruct ev as [e|i|i x|i|c|c|e|k d]; cbn [DeliveryModel.wstep calm other_of] in *; try discriminate No.
  - assert (St : forall s o, sstep (wa w) e = (s, o) -> (forall i r, e = STask i r -> sending w i = None) -> w' = set_a w s o (wcalls w) -> Q w').
    { intros s o S N ->. apply (Q_same w); auto. cbn [set_a ao]. rewrite (step_del _ _ _ _ S), (delivers_none _ _ N), app_nil_r. reflexivity. }
    destruct e as [k d|i r|i| | | |k|k|k| |]; try discriminate Cm;
      try (destruct (sstep (wa w) _) as [s o] eqn:S; injection E as <- <-; apply (St s o); auto; discriminate).
    destruct (sending w i) as [e|] eqn:Sn; [auto|]. destruct (sstep (wa w) _) as [s o] eqn:S; injection E as <- <-; apply (St s o); auto.
    intros j r' X. now injection X as <- <-.
  - destruct (sending w i) as [e|] eqn:Sn; [|auto]. destruct (wcalls w i) as [n [c|]] eqn:Wc; [auto|].
    destruct (n <? cmax); injection E as <- <-.
    + assert (All : forall c m, nth_error (conns w) c = Some m -> exists a, c_state m = CRead a).
      { intros c m H. destruct (q_last _ Hq _ _ H) as [X|[_ [j [y X]]]]; [auto|]. destruct (j_call _ _ _ Hj _ _ _ X) as [e' [k [Y _]]].
        assert (i = j) by (eapply Ho; eauto). subst j. congruence. }
      constructor; cbn [set_net conns wcalls ao bo collectors]; auto.
      * intros c m H. destruct (Nat.lt_ge_cases c (List.length (conns w))) as [Lc|Lc].
        -- rewrite nth_error_app1 in H by auto. left. eauto.
        -- rewrite nth_error_app2 in H by auto. right. destruct (c - List.length (conns w))%nat as [|[|z]] eqn:Z; try discriminate.
           rewrite app_length. cbn. split; [lia|]. exists i, n. unfold call_upd. rewrite Nat.eqb_refl. do 2 f_equal. lia.
      * rewrite flat_map_app. cbn. rewrite app_nil_r. apply Hq.
      * rewrite flat_map_app. cbn. rewrite app_nil_r. apply Hq.
    + unfold DeliveryModel.end_call. destruct (sstep (wa w) _) as [s o] eqn:S. constructor; cbn [conns wcalls ao bo collectors]; auto.
      * intros c m H. destruct (q_last _ Hq _ _ H) as [X|[X1 [j [y X]]]]; [auto|]. right. split; [auto|]. exists j, y.
        unfold call_upd. destruct (Nat.eqb j i) eqn:Ji; [apply Nat.eqb_eq in Ji as ->; congruence|auto].
      * apply Hq.
      * rewrite (step_del _ _ _ _ S). cbn [delivers]. rewrite app_nil_r. apply Hq.
  - destruct (sending w i) as [e|] eqn:Sn; [|auto]. destruct (wcalls w i) as [n c] eqn:Wc. destruct (n <? cmax); [|auto].
    injection E as <- <-. exfalso. apply (Uf (pe_key e)). now left.
  - destruct (sending w i) as [e|] eqn:Sn; [|auto]. destruct (wcalls w i) as [n [c|]] eqn:Wc; [|auto].
    destruct (nth_error (conns w) c) as [q|] eqn:Nc; [|auto]. destruct (c_state q) as [| |a|a| |a] eqn:Sk; auto. injection E as <- <-.
    destruct (j_call _ _ _ Hj _ _ _ Wc) as [e' [q' [A [B C]]]]. assert (e' = e) as -> by congruence. assert (q' = q) as -> by congruence.
    unfold DeliveryModel.end_call. destruct (sstep (wa w) _) as [s o] eqn:S.
    eapply (Q_conn w _ c q (CRead a)); cbn [conns wcalls ao bo collectors]; eauto.
    + intros a' X. congruence.
    + exists []. rewrite !app_nil_r. split; [auto|]. unfold acc_conn. cbn [c_state]. rewrite Sk. destruct a; reflexivity.
    + eexists. split; [apply (step_del _ _ _ _ S)|]. apply sending_some in Sn. unfold read_conn. cbn [delivers c_state]. rewrite Sk, Sn.
      change (pair_of (mkConn (c_key q) (c_data q) (CRead a))) with (pair_of q). rewrite C.
      destruct a; reflexivity.
  - destruct (nth_error (conns w) c) as [n|] eqn:Nc; [|auto]. destruct (c_state n) as [| |a|a| |a] eqn:Sk; auto.
    assert (Arr : forall x s o cl, accepted o = [] -> match x with CRead _ | CAnswered AAccepted | CNoAnswer _ => False | _ => True end -> ~ In None cl ->
      Q (set_b w s o (set_conn (conns w) c x) cl)).
    { intros x s o cl Ha Hx Ni. eapply (Q_conn w _ c n x); cbn [set_b conns wcalls ao bo collectors]; eauto.
      - intros a X. congruence.
      - exists []. rewrite accepted_app, Ha, !app_nil_r. split; [auto|]. unfold acc_conn. cbn [c_state]. rewrite Sk.
        destruct x as [| |[]|a| |a]; try reflexivity; destruct Hx.
      - exists []. rewrite !app_nil_r. split; [auto|]. unfold read_conn. cbn [c_state]. rewrite Sk.
        destruct x as [| |[]|a| |a]; try reflexivity; destruct Hx. }
    destruct (dto_b (c_data n)); [destruct (hstep (wb w) (ERequest (c_key n) (c_data n))) as [s o] eqn:H;
      pose proof (hstep_collecting _ _ _ _ _ _ _ _ H) as [_ Ha]; destruct (recv_paused (wb w))|]; injection E as <- <-; apply Arr; cbn; auto. intros X. apply in_app_iff in X as [X|[X|[]]]; [auto|discriminate].
  - destruct (nth_error (conns w) c) as [n|] eqn:Nc; [|auto].
    assert (Net : forall x, (forall a, c_state n <> CRead a) -> acc_conn (mkConn (c_key n) (c_data n) x) = acc_conn n ->
      read_conn (mkConn (c_key n) (c_data n) x) = read_conn n -> Q (set_net w (set_conn (conns w) c x) (wcalls w))).
    { intros x U A B. eapply (Q_conn w _ c n x); cbn [set_net conns wcalls ao bo collectors]; eauto; exists []; now rewrite !app_nil_r. }
    destruct (c_state n) as [| |a|a| |a] eqn:Sk; auto; injection E as <- <-; apply Net; try discriminate; unfold acc_conn, read_conn; cbn [c_state];
      rewrite Sk; destruct a || idtac; reflexivity.
  - assert (Plain : forall s o, hstep (wb w) e = (s, o) -> accepted o = [] -> Q (set_b w s o (conns w) (collectors w))).
    { intros s o H Ha. apply (Q_same w); auto. cbn [set_b bo]. now rewrite accepted_app, Ha, app_nil_r. }
    assert (Nd : forall i, ~ In None (del_nth i (collectors w))).
    { intros i X. apply Nc0. clear -X. revert i X. induction (collectors w) as [|y t IH]; intros [|i] X; cbn in *; auto. destruct X as [X|X]; eauto. }
    assert (Del : forall s o i a ac, accepted o = ac ->
      (forall k d, nth_error (collecting (wb w)) i = Some (k, d) -> map msg_of ac = match a with AAccepted => [(k, d)] | _ => [] end) ->
      (nth_error (collecting (wb w)) i = None -> ac = []) ->
      Q (set_b w s o (answered w i a) (del_nth i (collectors w)))).
    { intros s o i a ac Ha Hac Hno. unfold answered. destruct (nth_error (collectors w) i) as [[c|]|] eqn:Y.
      - destruct (j_col _ _ _ Hj _ _ Y) as [n [A [B C]]]. specialize (Hac _ _ B).
        eapply (Q_conn w _ c n (CAnswered a)); cbn [set_b conns wcalls ao bo collectors]; eauto.
        + intros a' X. congruence.
        + exists (map msg_of ac). rewrite accepted_app, map_app, Ha. split; [auto|]. unfold acc_conn. cbn [c_state]. rewrite C, Hac.
          destruct a; reflexivity.
        + exists []. rewrite !app_nil_r. split; [auto|]. unfold read_conn. cbn [c_state]. now rewrite C.
      - exfalso. apply Nc0. eapply nth_error_In; eauto.
      - rewrite Hno in Ha; [|apply nth_error_None; rewrite <- (j_len _ _ _ Hj); now apply nth_error_None].
        apply (Q_same w); auto; cbn [set_b bo collectors]; [now rewrite accepted_app, Ha, app_nil_r|apply Nd]. }
    destruct e; try (destruct (hstep (wb w) _) as [s o] eqn:H; injection E as <- <-; pose proof (hstep_collecting _ _ _ _ _ _ _ _ H) as [Hc Ha];
      now apply Plain); auto.
    + destruct (hstep (wb w) _) as [s o] eqn:H; injection E as <- <-; pose proof (hstep_collecting _ _ _ _ _ _ _ _ H) as [Hc Ha].
      eapply Del; eauto.
      * intros k d N. rewrite N. reflexivity.
      * intros N. now rewrite N.
    + destruct (hstep (wb w) _) as [s o] eqn:H; injection E as <- <-; pose proof (hstep_collecting _ _ _ _ _ _ _ _ H) as [Hc Ha].
      apply (Del s o _ _ []); auto.
Qed.

Lemma closed_before w ev w' l : wstep w ev = (w', l) -> (sclosed (wa w) <= sclosed (wa w'))%nat.
Proof.
  intros E. destruct (wstep_parts meta_a dto_a truthy_a wait max_a cmax meta_b dto_b truthy_b max_b _ _ _ _ E) as [ea [_ [[o [A _]] _]]].
  pose proof (SenderProofs.srun_closed meta_a dto_a truthy_a wait max_a ea (wa w)) as X. rewrite A in X. exact X.
Qed.
Lemma closed_run evs : forall w w' l, wrun w evs = (w', l) -> (sclosed (wa w) <= sclosed (wa w'))%nat.
Proof.
  induction evs as [|ev r IH]; intros w w' l E; cbn [DeliveryModel.wrun] in E; [injection E as <- <-; auto|].
  destruct (wstep w ev) as [w1 l1] eqn:E1. destruct (wrun w1 r) as [w2 l2] eqn:E2. injection E as <- <-.
  apply closed_before in E1. apply IH in E2. lia.
Qed.

Lemma wrun_Q qa (Ra : preachable meta_a qa) (Ua : usable qa) evs : forall L w w' l, J L w -> Q w ->
  (exists ea, srun (s_setup qa) ea = (wa w, ao w)) -> sclosed (wa w') = 0%nat ->
  forallb calm evs = true -> others evs = [] -> unfailed l -> wrun w evs = (w', l) -> Q w'.
Proof.
  induction evs as [|ev r IH]; intros L w w' l Hj Hq [ea Ea] C Cm No Uf E; cbn [DeliveryModel.wrun] in E; [injection E as <- <-; auto|].
  cbn [forallb] in Cm. apply andb_true_iff in Cm as [C1 C2]. cbn [others flat_map] in No. apply app_eq_nil in No as [N1 N2].
  destruct (wstep w ev) as [w1 l1] eqn:E1. destruct (wrun w1 r) as [w2 l2] eqn:E2. injection E as <- <-.
  pose proof (closed_before _ _ _ _ E1). pose proof (closed_run _ _ _ _ E2). assert (C0 : sclosed (wa w) = 0%nat) by lia.
  assert (Ho : One w).
  { destruct (s_one_at_a_time meta_a dto_a truthy_a wait max_a qa ea _ _ Ra Ua Ea C0) as [_ O]. intros i j e e' Hi Hj'.
    apply sending_some in Hi. apply sending_some in Hj'. eapply O; eauto; discriminate. }
  apply (IH (L ++ other_of ev) w1 w2 l2); auto.
  - exact (wstep_J meta_a dto_a truthy_a wait max_a cmax meta_b dto_b truthy_b max_b _ _ _ _ _ Hj E1).
  - apply (wstep_Q L w ev w1 l1); auto. intros k X. apply (Uf k), in_or_app. auto.
  - destruct (wstep_parts meta_a dto_a truthy_a wait max_a cmax meta_b dto_b truthy_b max_b _ _ _ _ E1) as [ea' [_ [[o [A B]] _]]].
    exists (ea ++ ea'). rewrite srun_app, Ea, A, B. reflexivity.
  - intros k X. apply (Uf k), in_or_app. auto.
Qed.

Theorem accepted_in_order qa qb evs w l : preachable meta_a qa -> usable qa ->
  wrun (wstart qa qb) evs = (w, l) -> sclosed (wa w) = 0%nat -> forallb calm evs = true -> others evs = [] ->
  (forall k, attempts_failed k l = 0%nat) ->
  map msg_of (accepted (bo w)) = delivered (ao w) \/
  exists e, in_hand (wa w) = [e] /\ map msg_of (accepted (bo w)) = delivered (ao w) ++ [msg_p e].
Proof.
  intros Ra Ua E C Cm No Uf. pose proof (run_J meta_a dto_a truthy_a wait max_a cmax meta_b dto_b truthy_b max_b _ _ _ _ _ E) as Hj.
  assert (Uf' : unfailed l).
  { intros k I. specialize (Uf k). unfold attempts_failed in Uf. apply length_zero_iff_nil in Uf.
    assert (X : In (LFailed k) (filter (fun x : wout => match x with LFailed k' => N.eqb k' k | _ => false end) l)).
    { apply filter_In. split; [auto|]. apply N.eqb_refl. }
    rewrite Uf in X. destruct X. }
  assert (Hq : Q w).
  { apply (wrun_Q qa Ra Ua evs [] (wstart qa qb) w l); auto; [apply J_start| |].
    - constructor; cbn [wstart conns collectors ao bo]; auto. intros [|c] n H; discriminate.
    - exists []. reflexivity. }
  destruct (wrun_start meta_a dto_a truthy_a wait max_a cmax meta_b dto_b truthy_b max_b _ _ _ _ _ E) as [ea [eb [Ea _]]].
  destruct (s_one_at_a_time meta_a dto_a truthy_a wait max_a qa ea _ _ Ra Ua Ea C) as [Le One'].
  rewrite (q_acc _ Hq), (q_del _ Hq).
  assert (Eq : forall cn : list conn, (forall c n, nth_error cn c = Some n -> exists a, c_state n = CRead a) -> flat_map acc_conn cn = flat_map read_conn cn).
  { induction cn as [|n cn IH]; intros H; [auto|]. cbn [flat_map]. rewrite IH by (intros c m X; apply (H (S c) m X)). f_equal.
    destruct (H 0%nat n eq_refl) as [a X]. unfold acc_conn, read_conn. rewrite X. destruct a; reflexivity. }
  destruct (conns w) as [|n0 r0] eqn:Ec; [left; reflexivity|].
  assert (Ne : n0 :: r0 <> []) by discriminate. destruct (exists_last Ne) as [l1 [n El]]. rewrite El in *. clear Ne El n0 r0.
  assert (R1 : flat_map acc_conn l1 = flat_map read_conn l1).
  { apply Eq. intros c m H. assert (Lt : (c < List.length l1)%nat) by (apply nth_error_Some; congruence).
    destruct (q_last _ Hq c m) as [X|[X _]]; [rewrite Ec, nth_error_app1; auto|auto|]. rewrite Ec, app_length in X. cbn in X. lia. }
  rewrite !flat_map_app, R1. cbn [flat_map]. rewrite !app_nil_r.
  assert (Hn : nth_error (conns w) (List.length l1) = Some n) by (rewrite Ec, nth_error_app2, Nat.sub_diag; auto).
  destruct (q_last _ Hq _ _ Hn) as [[a X]|[_ [i [m X]]]].
  - left. f_equal. unfold acc_conn, read_conn. rewrite X. destruct a; reflexivity.
  - destruct (j_call _ _ _ Hj _ _ _ X) as [e [q [A [B F]]]]. assert (q = n) as -> by congruence.
    destruct (c_state n) as [| |[]|[]| |[]] eqn:Sn; unfold acc_conn, read_conn; rewrite Sn; rewrite ?app_nil_r; auto; right; exists e;
      (split; [|rewrite F; reflexivity]); apply sending_some, nth_error_In in A;
      assert (I : In e (in_hand (wa w))) by (unfold in_hand; apply in_flat_map; eexists; split; [exact A|now left]);
      (destruct (in_hand (wa w)) as [|e1 [|e2 r]]; cbn in I, Le; [destruct I|destruct I as [->|[]]; reflexivity|lia]).
Qed.
End World.
