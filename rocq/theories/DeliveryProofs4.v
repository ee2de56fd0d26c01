(** Proofs about messages between two applications: nothing is lost between them, and how often a message arrives. *)
From Coq Require Import List ZArith NArith Bool String Lia Permutation.
From Verif Require Import Base PermTac PQueueModel PQueueSpec PendingModel PendingSpec
  SenderModel SenderSpec SenderProofs2 SenderProofs3 HandlerModel HandlerSpec HandlerProofs3
  DeliveryModel DeliverySpec DeliveryProofs DeliveryProofs2 DeliveryProofs3.
Import ListNotations.
Local Open Scope Z_scope.

Section World.
Context {D MA MB : Type}.
Variables (meta_a : MA) (dto_a truthy_a : D -> bool) (wait : bool) (max_a cmax : Z).
Variables (meta_b : MB) (dto_b truthy_b : D -> bool) (max_b : Z).
Notation world := (world D MA MB). Notation wev := (wev D MB). Notation wout := (wout D). Notation conn := (conn D). Notation msg := (msg D).
Notation wstep := (@wstep D MA MB meta_a dto_a truthy_a wait max_a cmax meta_b dto_b truthy_b max_b).
Notation wrun := (@wrun D MA MB meta_a dto_a truthy_a wait max_a cmax meta_b dto_b truthy_b max_b).
Notation sstep := (@sstep D MA meta_a dto_a truthy_a wait max_a).
Notation J := (@J D MA MB dto_b).
Notation end_call := (@end_call D MA MB meta_a dto_a truthy_a wait max_a).
Implicit Types (w : world).

Lemma run_J qa qb evs w l : wrun (wstart qa qb) evs = (w, l) -> J (others evs) w.
Proof. intros E. apply (wrun_J meta_a dto_a truthy_a wait max_a cmax meta_b dto_b truthy_b max_b _ [] _ _ _ (J_start dto_b qa qb) E). Qed.

Lemma read_acc (cn : list conn) : exists rest, Permutation (flat_map acc_conn cn) (flat_map read_conn cn ++ rest).
Proof.
  induction cn as [|n cn [r IH]]; [exists []; constructor|]. cbn [flat_map]. unfold acc_conn at 1, read_conn at 1.
  destruct (c_state n) as [| |[]|[]| |[]]; cbn [app]; try (exists r; exact IH); try (exists (pair_of n :: r); rewrite IH; perm).
  exists r. now rewrite IH.
Qed.

(** ** What the client took for delivered, the endpoint accepted *)
Theorem delivered_accepted qa qb evs w l : wrun (wstart qa qb) evs = (w, l) ->
  exists rest, Permutation (map msg_of (accepted (bo w))) (delivered (ao w) ++ rest).
Proof.
  intros E. destruct (run_J _ _ _ _ _ E) as [_ _ _ _ _ _ [ot [_ A]] De _ _]. destruct (read_acc (conns w)) as [r R].
  exists (r ++ ot). rewrite A, R, De. perm.
Qed.

(** ** Everything sent over a connection was enqueued *)
Lemma from_sender qa qb lpa lea evs w l x : preachable meta_a qa -> usable qa -> holds qa lpa lea ->
  wrun (wstart qa qb) evs = (w, l) -> sclosed (wa w) = 0%nat -> In x (map msg_of (accepted (bo w))) ->
  In x (enqueued (ao w) ++ msgs_p lpa ++ msgs_e lea) \/ In x (others evs).
Proof.
  intros Ra Ua Ha E C I. destruct (run_J _ _ _ _ _ E) as [_ _ _ _ _ _ [ot [Io A]] _ Sr _].
  apply (Permutation_in _ A), in_app_iff in I. destruct I as [I|I]; [left|right; auto].
  apply in_flat_map in I as [n [In1 In2]]. assert (x = pair_of n) as ->.
  { unfold acc_conn in In2. destruct (c_state n) as [| |[]|[]| |[]]; cbn in In2; intuition. }
  rewrite Forall_forall in Sr. specialize (Sr _ In1).
  destruct (wrun_start meta_a dto_a truthy_a wait max_a cmax meta_b dto_b truthy_b max_b _ _ _ _ _ E) as [ea [eb [Ea _]]].
  exact (sent_was_enqueued meta_a dto_a truthy_a wait max_a qa lpa lea ea _ _ _ _ Ra Ua Ha Ea C Sr).
Qed.

Lemma nodup_msg (l : list msg) k d d' : NoDup (map fst l) -> In (k, d) l -> In (k, d') l -> d = d'.
Proof.
  induction l as [|[a b] l IH]; cbn [map fst]; intros N H H'; [destruct H|]. inversion N; subst.
  destruct H as [H|H], H' as [H'|H']; [congruence| | |auto]; exfalso.
  - injection H as -> ->. apply (in_map fst) in H'. contradiction.
  - injection H' as -> ->. apply (in_map fst) in H. contradiction.
Qed.

(** ** At least once *)
Theorem at_least_once qa qb lpa lea lpb leb evs w l :
  preachable meta_a qa -> usable qa -> holds qa lpa lea -> preachable meta_b qb -> usable qb -> holds qb lpb leb ->
  wrun (wstart qa qb) evs = (w, l) -> sclosed (wa w) = 0%nat -> closed (wb w) = 0%nat -> forallb calm evs = true ->
  let mine := enqueued (ao w) ++ msgs_p lpa ++ msgs_e lea in
  let theirs := map msg_of (items_p lpb ++ items_e leb) ++ others evs in
  Forall (fun x => dto_a (snd x) = true) mine -> NoDup (map fst mine) ->
  Forall (fun x => dto_b (data_of x) = true) (items_p lpb ++ items_e leb) ->
  (forall x y, In x mine -> In y theirs -> fst x = fst y -> x = y) ->
  exists lp le lp' le', holds (sq (wa w)) lp le /\ holds (hq (wb w)) lp' le' /\
    forall x, In x mine -> In x (with_sender w lp le) \/ In x (with_receiver w lp' le').
Proof.
  intros Ra Ua Ha Rb Ub Hb E Ca Cb Cm mine theirs Va Nd Vb Same.
  destruct (wrun_start meta_a dto_a truthy_a wait max_a cmax meta_b dto_b truthy_b max_b _ _ _ _ _ E) as [ea [eb [Ea [Eb Cl]]]].
  destruct (Cl Cm) as [Fa Fb].
  destruct (s_one_place meta_a dto_a truthy_a wait max_a qa lpa lea ea _ _ Ra Ua Ha Ea Ca Fa Va Nd) as [lp [le [Hl [P _]]]].
  pose proof (run_J _ _ _ _ _ E) as Hj.
  destruct (receiver_keeps_a_copy meta_b dto_b truthy_b max_b qb lpb leb eb _ _ Rb Ub Hb Eb Cb Fb) as [lp' [le' [Hl' [K1 [K2 _]]]]].
  { apply Forall_app. split; [apply (j_dto _ _ _ Hj)|auto]. }
  exists lp, le, lp', le'. split; [auto|split; [auto|]]. intros x Hx.
  pose proof (Permutation_in _ P Hx) as Hp. unfold with_sender. rewrite !in_app_iff in Hp. rewrite !in_app_iff.
  destruct Hp as [Hp|[Hp|[Hp|[Hp|Hp]]]]; auto. right.
  destruct (delivered_accepted _ _ _ _ _ E) as [r A].
  assert (Acc : In x (map msg_of (accepted (bo w)))) by (apply (Permutation_in _ (Permutation_sym A)), in_app_iff; auto).
  apply in_map_iff in Acc as [it [Ei Hi]].
  specialize (K1 it (in_or_app _ _ _ (or_introl Hi))). apply in_map_iff in K1 as [it' [Ek Hi']].
  assert (msg_of it' = x) as <-; [|now apply in_map].
  pose proof (K2 _ Hi') as O. apply in_app_iff in O. symmetry.
  assert (Ef : fst x = fst (msg_of it')) by (rewrite <- Ei; cbn [msg_of fst]; congruence).
  destruct O as [O|O].
  - apply (in_map msg_of) in O. destruct (from_sender _ _ _ _ _ _ _ _ Ra Ua Ha E Ca O) as [M|M].
    + fold mine in M.
      destruct x as [k d], (msg_of it') as [k' d']. cbn [fst] in Ef. subst k'. f_equal. eapply nodup_msg; eauto.
    + apply Same; auto. unfold theirs. rewrite in_app_iff. auto.
  - apply Same; auto. unfold theirs. rewrite in_app_iff. left. now apply in_map.
Qed.

(** ** How often *)
(** The connections for [k] whose answer was not read belong to attempts that failed or are waited on. *)
Definition Kinv (k : N) (nf : nat) w : Prop := exists F, (List.length F <= nf)%nat /\
  forall c n, nth_error (conns w) c = Some n -> c_key n = k ->
    (exists a, c_state n = CRead a) \/ In c F \/ exists i m, wcalls w i = (m, Some c).

Definition fail_of (k : N) (l : list wout) : nat := attempts_failed k l.
Lemma fail_app k (l l' : list wout) : attempts_failed k (l ++ l') = (attempts_failed k l + attempts_failed k l')%nat.
Proof. unfold attempts_failed. now rewrite filter_app, app_length. Qed.

Lemma K_conns k nf w cn w' : Kinv k nf w -> wcalls w' = wcalls w -> conns w' = cn ->
  (forall c n', nth_error cn c = Some n' -> exists n, nth_error (conns w) c = Some n /\ c_key n = c_key n' /\
     (forall a, c_state n = CRead a -> c_state n' = CRead a)) -> Kinv k nf w'.
Proof.
  intros [F [A B]] E1 E2 X. exists F. split; [auto|]. intros c n Hc Hk. rewrite E2 in Hc. destruct (X _ _ Hc) as [n0 [C1 [C2 C3]]].
  destruct (B c n0 C1 ltac:(congruence)) as [[a Q]|[Q|Q]]; [left; eauto|auto|]. rewrite E1. auto.
Qed.
Lemma K_same k nf w w' : Kinv k nf w -> wcalls w' = wcalls w -> conns w' = conns w -> Kinv k nf w'.
Proof. intros A B C. eapply K_conns; eauto. Qed.
Lemma set_keeps (l : list conn) c x n : nth_error l c = Some n -> (forall a, c_state n <> CRead a) ->
  forall c' n', nth_error (set_conn l c x) c' = Some n' -> exists n0, nth_error l c' = Some n0 /\ c_key n0 = c_key n' /\
    (forall a, c_state n0 = CRead a -> c_state n' = CRead a).
Proof.
  intros H S c' n' Q. destruct (Nat.eq_dec c' c) as [->|Ne].
  - rewrite (set_conn_same _ _ _ _ H) in Q. injection Q as <-. exists n. split; [auto|split; [reflexivity|]]. intros a Ha. now apply S in Ha.
  - rewrite set_conn_other in Q by auto. eauto.
Qed.

(** A call that ends, or whose attempt failed: the connection it waited on is abandoned. *)
Lemma K_drop k nf nf' w w' i x : Kinv k nf w -> conns w' = conns w -> wcalls w' = call_upd (wcalls w) i (x, None) ->
  (nf <= nf')%nat -> (forall m c n, wcalls w i = (m, Some c) -> nth_error (conns w) c = Some n -> c_key n = k -> (nf < nf')%nat) -> Kinv k nf' w'.
Proof.
  intros [F [A B]] E1 E2 Le Lt. destruct (wcalls w i) as [m [c0|]] eqn:W.
  - destruct (nth_error (conns w) c0) as [n0|] eqn:N0; [destruct (N.eq_dec (c_key n0) k) as [Ek|Nk]|].
    + exists (c0 :: F). split; [cbn; specialize (Lt _ _ _ eq_refl N0 Ek); lia|]. intros c n Hc Hk. rewrite E1 in Hc.
      destruct (B c n Hc Hk) as [Q|[Q|[j [y Q]]]]; [auto|right; left; now right|]. destruct (Nat.eq_dec j i) as [->|Ne].
      * right. left. left. congruence.
      * right. right. exists j, y. rewrite E2. unfold call_upd. apply Nat.eqb_neq in Ne. now rewrite Ne.
    + exists F. split; [lia|]. intros c n Hc Hk. rewrite E1 in Hc. destruct (B c n Hc Hk) as [Q|[Q|[j [y Q]]]]; auto.
      right. right. exists j, y. rewrite E2. unfold call_upd. destruct (Nat.eqb j i) eqn:Ji; [|auto]. apply Nat.eqb_eq in Ji as ->. exfalso. congruence.
    + exists F. split; [lia|]. intros c n Hc Hk. rewrite E1 in Hc. destruct (B c n Hc Hk) as [Q|[Q|[j [y Q]]]]; auto.
      right. right. exists j, y. rewrite E2. unfold call_upd. destruct (Nat.eqb j i) eqn:Ji; [|auto]. apply Nat.eqb_eq in Ji as ->. exfalso. congruence.
  - exists F. split; [lia|]. intros c n Hc Hk. rewrite E1 in Hc. destruct (B c n Hc Hk) as [Q|[Q|[j [y Q]]]]; auto.
    right. right. exists j, y. rewrite E2. unfold call_upd. destruct (Nat.eqb j i) eqn:Ji; [|auto]. apply Nat.eqb_eq in Ji as ->. exfalso. congruence.
Qed.

Lemma end_call_parts w i cn r : conns (end_call w i cn r) = cn /\ wcalls (end_call w i cn r) = call_upd (wcalls w) i (0, None).
Proof. unfold DeliveryModel.end_call. destruct (sstep _ _). auto. Qed.

Lemma wstep_K k L nf w ev w' l : J L w -> calm ev = true -> Kinv k nf w -> wstep w ev = (w', l) -> Kinv k (nf + attempts_failed k l) w'.
Proof.
  intros Hj Cm K E.
  assert (Same : l = [] -> wcalls w' = wcalls w -> conns w' = conns w -> Kinv k (nf + attempts_failed k l) w').
  { intros -> A B. cbn. rewrite Nat.add_0_r. eapply K_same; eauto. }
  assert (Cn : l = [] -> wcalls w' = wcalls w -> (exists c n x, nth_error (conns w) c = Some n /\ (forall a, c_state n <> CRead a) /\
     conns w' = set_conn (conns w) c x) -> Kinv k (nf + attempts_failed k l) w').
  { intros -> A [c [n [x [B1 [B2 B3]]]]]. cbn. rewrite Nat.add_0_r. eapply K_conns; [exact K|auto|exact B3|]. eapply set_keeps; eauto. }
  destruct ev as [e|i|i x|i|c|c|e|k' d]; cbn [DeliveryModel.wstep calm] in *.
  - destruct e as [k' d|i r|i| | | |k'|k'|k'| |]; try discriminate Cm;
      try (destruct (sstep (wa w) _) as [s o]; injection E as <- <-; now apply Same).
    destruct (sending w i); [injection E as <- <-; now apply Same|].
    destruct (sstep (wa w) _) as [s o]; injection E as <- <-; now apply Same.
  - destruct (sending w i) as [e|] eqn:Sn; [|injection E as <- <-; now apply Same].
    destruct (wcalls w i) as [n [c|]] eqn:Wc; [injection E as <- <-; now apply Same|].
    destruct (n <? cmax); injection E as <- <-; cbn [attempts_failed filter List.length]; unfold attempts_failed; cbn [filter List.length]; rewrite Nat.add_0_r.
    + destruct K as [F [A B]]. exists F. split; [auto|]. cbn [set_net conns wcalls]. intros c m Hc Hk.
      destruct (Nat.lt_ge_cases c (List.length (conns w))) as [Lc|Lc].
      * rewrite nth_error_app1 in Hc by auto. destruct (B _ _ Hc Hk) as [Q|[Q|[j [y Q]]]]; auto. right. right. exists j, y.
        unfold call_upd. destruct (Nat.eqb j i) eqn:Ji; [apply Nat.eqb_eq in Ji as ->; congruence|auto].
      * rewrite nth_error_app2 in Hc by auto. right. right. exists i, n. unfold call_upd. rewrite Nat.eqb_refl.
        destruct (c - List.length (conns w))%nat as [|[|z]] eqn:Z; try discriminate. do 2 f_equal. lia.
    + destruct (end_call_parts w i (conns w) (RFails "the JSON object must be str, bytes or bytearray, not NoneType")) as [P1 P2].
      eapply K_drop; eauto; congruence.
  - destruct (sending w i) as [e|] eqn:Sn; [|injection E as <- <-; now apply Same]. destruct (wcalls w i) as [n c] eqn:Wc.
    destruct (n <? cmax); [|injection E as <- <-; now apply Same]. injection E as <- <-.
    assert (Fl : forall w2 y, conns w2 = conns w -> wcalls w2 = call_upd (wcalls w) i (y, None) -> Kinv k (nf + attempts_failed k [@LFailed D (pe_key e)]) w2).
    { intros w2 y E1 E2. eapply K_drop; eauto; [lia|]. intros m c0 n0 Q1 Q2 Q3. destruct (j_call _ _ _ Hj _ _ _ Q1) as [e' [k0 [G1 [G2 G3]]]].
      assert (e' = e) as -> by congruence. assert (k0 = n0) as -> by congruence. injection G3 as G3 _. unfold attempts_failed. cbn [filter].
      rewrite <- G3, Q3, N.eqb_refl. cbn. lia. }
    destruct x as [m|]; [destruct (end_call_parts w i (conns w) (RFails m)); eauto|].
    destruct (cmax <=? n + 1); [destruct (end_call_parts w i (conns w) RRetryable); eauto|]. eapply Fl; reflexivity.
  - destruct (sending w i) as [e|] eqn:Sn; [|injection E as <- <-; now apply Same].
    destruct (wcalls w i) as [n [c|]] eqn:Wc; [|injection E as <- <-; now apply Same].
    destruct (nth_error (conns w) c) as [q|] eqn:Nc; [|injection E as <- <-; now apply Same].
    destruct (c_state q) as [| |a|a| |a] eqn:Sk; try (injection E as <- <-; now apply Same). injection E as <- <-.
    unfold attempts_failed. cbn [filter List.length]. rewrite Nat.add_0_r.
    destruct (end_call_parts w i (set_conn (conns w) c (CRead a)) (outcome_of a)) as [P1 P2].
    destruct K as [F [A B]]. exists F. split; [auto|]. rewrite P1, P2. intros c' n' Hc Hk. destruct (Nat.eq_dec c' c) as [->|Ne].
    + rewrite (set_conn_same _ _ _ _ Nc) in Hc. injection Hc as <-. left. now exists a.
    + rewrite set_conn_other in Hc by auto. destruct (B _ _ Hc Hk) as [Q|[Q|[j [y Q]]]]; auto. right. right. exists j, y.
      unfold call_upd. destruct (Nat.eqb j i) eqn:Ji; [apply Nat.eqb_eq in Ji as ->; congruence|auto].
  - destruct (nth_error (conns w) c) as [n|] eqn:Nc; [|injection E as <- <-; now apply Same].
    destruct (c_state n) as [| |a|a| |a] eqn:Sk; try (injection E as <- <-; now apply Same).
    destruct (dto_b (c_data n)); [destruct (HandlerModel.hstep _ _ _ _ _ _) as [s o]; destruct (recv_paused (wb w))|]; injection E as <- <-;
      apply Cn; auto; do 3 eexists; (split; [exact Nc|split; [intros ? Q; congruence|reflexivity]]).
  - destruct (nth_error (conns w) c) as [n|] eqn:Nc; [|injection E as <- <-; now apply Same].
    destruct (c_state n) as [| |a|a| |a] eqn:Sk; try (injection E as <- <-; now apply Same); injection E as <- <-;
      apply Cn; auto; do 3 eexists; (split; [exact Nc|split; [intros ? Q; congruence|reflexivity]]).
  - assert (An : forall i a s o, w' = set_b w s o (answered w i a) (del_nth i (collectors w)) -> l = [] -> Kinv k (nf + attempts_failed k l) w').
    { intros i a s o Ew El. unfold answered in Ew. rewrite Ew in *. destruct (nth_error (collectors w) i) as [[c|]|] eqn:Q; try now apply Same.
      destruct (j_col _ _ _ Hj _ _ Q) as [n [A [_ C]]]. apply Cn; auto. do 3 eexists. split; [exact A|split; [intros ? Q'; congruence|reflexivity]]. }
    destruct e; try (destruct (HandlerModel.hstep _ _ _ _ _ _) as [s o]; injection E as <- <-; first [now apply Same|eapply An; reflexivity]).
    injection E as <- <-. now apply Same.
  - destruct (dto_b d); [|injection E as <- <-; now apply Same]. destruct (HandlerModel.hstep _ _ _ _ _ _) as [s o]. injection E as <- <-.
    now apply Same.
Qed.

Lemma wrun_K k evs : forall L nf w w' l, J L w -> forallb calm evs = true -> Kinv k nf w -> wrun w evs = (w', l) ->
  Kinv k (nf + attempts_failed k l) w'.
Proof.
  induction evs as [|ev r IH]; intros L nf w w' l Hj Cm K E; cbn [DeliveryModel.wrun] in E.
  - injection E as <- <-. cbn. now rewrite Nat.add_0_r.
  - cbn [forallb] in Cm. apply andb_true_iff in Cm as [C1 C2]. destruct (wstep w ev) as [w1 l1] eqn:E1. destruct (wrun w1 r) as [w2 l2] eqn:E2.
    injection E as <- <-. rewrite fail_app, Nat.add_assoc. apply (IH (L ++ other_of ev) _ w1 w2 l2); auto.
    + exact (wstep_J meta_a dto_a truthy_a wait max_a cmax meta_b dto_b truthy_b max_b _ _ _ _ _ Hj E1).
    + eapply wstep_K; eauto.
Qed.

Lemma times_app k (l l' : list msg) : times k (l ++ l') = (times k l + times k l')%nat.
Proof. unfold times. now rewrite map_app, count_occ_app. Qed.
Lemma times_perm k (l l' : list msg) : Permutation l l' -> times k l = times k l'.
Proof. intros P. unfold times. apply (proj1 (Permutation_count_occ N.eq_dec _ _)). now apply Permutation_map. Qed.
Lemma times_not k (l : list msg) : ~ In k (map fst l) -> times k l = 0%nat.
Proof. intros H. unfold times. now apply count_occ_not_In. Qed.

(** The connections of a list that are neither read nor for another key. *)
Lemma unread_count k (cn : list conn) (base : nat) (G : list nat) : NoDup G ->
  (forall c n, nth_error cn c = Some n -> c_key n = k -> (exists a, c_state n = CRead a) \/ In (base + c)%nat G) ->
  (times k (flat_map acc_conn cn) <= times k (flat_map read_conn cn) + List.length (filter (fun g => base <=? g)%nat G))%nat.
Proof.
  revert base. induction cn as [|n cn IH]; intros base Nd H; [cbn; lia|]. cbn [flat_map]. rewrite !times_app.
  assert (R : (times k (flat_map acc_conn cn) <= times k (flat_map read_conn cn) + List.length (filter (fun g => S base <=? g)%nat G))%nat).
  { apply IH; [auto|]. intros c m Hc Hk. destruct (H (S c) m Hc Hk) as [Q|Q]; [auto|]. right. replace (S base + c)%nat with (base + S c)%nat by lia. auto. }
  assert (Le : (List.length (filter (fun g => S base <=? g)%nat G) + (if in_dec Nat.eq_dec base G then 1 else 0)
                 = List.length (filter (fun g => base <=? g)%nat G))%nat).
  { clear -Nd. induction Nd as [|g G Ni Nd IH]; [reflexivity|]. cbn [filter].
    destruct (in_dec Nat.eq_dec base (g :: G)) as [I|I], (in_dec Nat.eq_dec base G) as [I'|I'], (S base <=? g)%nat eqn:E1, (base <=? g)%nat eqn:E2; cbn [List.length];
      try apply Nat.leb_le in E1; try apply Nat.leb_le in E2; try apply Nat.leb_gt in E1; try apply Nat.leb_gt in E2; cbn in I; try lia;
      try (exfalso; apply I; now right); try (assert (g = base) as -> by lia; exfalso; tauto);
      try (destruct I as [I|I]; [lia|contradiction]). }
  destruct (N.eq_dec (c_key n) k) as [Ek|Nk].
  - destruct (H 0%nat n eq_refl Ek) as [[a Q]|Q].
    + unfold acc_conn at 1, read_conn at 1. rewrite Q. destruct a; cbn [times map count_occ]; try lia.
    + rewrite Nat.add_0_r in Q. destruct (in_dec Nat.eq_dec base G); [|contradiction].
      assert (times k (acc_conn n) <= 1)%nat; [|lia]. unfold acc_conn, times. destruct (c_state n) as [| |[]|[]| |[]]; cbn [map count_occ]; try lia;
      cbn [pair_of fst]; destruct (N.eq_dec (c_key n) k); lia.
  - assert (times k (acc_conn n) = 0)%nat; [|destruct (in_dec Nat.eq_dec base G); lia].
    apply times_not. unfold acc_conn. destruct (c_state n) as [| |[]|[]| |[]]; cbn; try tauto; intros [Q|[]]; auto.
Qed.

Lemma conns_count k (cn : list conn) (G : list nat) :
  (forall c n, nth_error cn c = Some n -> c_key n = k -> (exists a, c_state n = CRead a) \/ In c G) ->
  (times k (flat_map acc_conn cn) <= times k (flat_map read_conn cn) + List.length G)%nat.
Proof.
  intros H. pose proof (unread_count k cn 0 (nodup Nat.eq_dec G) (NoDup_nodup _ _)) as U.
  assert (Ln : (List.length (nodup Nat.eq_dec G) <= List.length G)%nat).
  { clear. induction G as [|g G IH]; cbn; [lia|]. destruct (in_dec Nat.eq_dec g G); cbn; lia. }
  assert (Fl : forall l : list nat, (List.length (filter (fun g => 0 <=? g)%nat l) <= List.length l)%nat).
  { clear. induction l as [|g l IH]; [auto|]. cbn [filter]. destruct (0 <=? g)%nat; cbn [List.length]; lia. }
  specialize (Fl (nodup Nat.eq_dec G)).
  assert (X : (times k (flat_map acc_conn cn) <= times k (flat_map read_conn cn) + List.length (filter (fun g => 0 <=? g)%nat (nodup Nat.eq_dec G)))%nat).
  { apply U. intros c n Hc Hk. destruct (H _ _ Hc Hk); [auto|]. right. now apply nodup_In. }
  lia.
Qed.

(** Accepted as often as delivered, but for the attempts that failed and the one under way. *)
Theorem accepted_bound qa qb evs w l k : preachable meta_a qa -> usable qa ->
  wrun (wstart qa qb) evs = (w, l) -> sclosed (wa w) = 0%nat -> forallb calm evs = true -> ~ In k (map fst (others evs)) ->
  (times k (map msg_of (accepted (bo w))) <= times k (delivered (ao w)) + attempts_failed k l + times k (msgs_h (in_hand (wa w))))%nat.
Proof.
  intros Ra Ua E C Cm No. pose proof (run_J _ _ _ _ _ E) as Hj.
  assert (K : Kinv k (0 + attempts_failed k l) w).
  { apply (wrun_K k evs [] 0 (wstart qa qb) w l); auto; [apply J_start|]. exists []. split; [auto|]. intros [|c] n H; discriminate. }
  destruct K as [F [Lf K]]. cbn [plus] in Lf.
  destruct (wrun_start meta_a dto_a truthy_a wait max_a cmax meta_b dto_b truthy_b max_b _ _ _ _ _ E) as [ea [eb [Ea _]]].
  destruct (s_one_at_a_time meta_a dto_a truthy_a wait max_a qa ea _ _ Ra Ua Ea C) as [_ One].
  destruct (j_acc _ _ _ Hj) as [ot [Io A]]. rewrite (times_perm _ _ _ A), times_app, (times_perm _ _ _ (j_del _ _ _ Hj)).
  assert (times k ot = 0%nat).
  { apply times_not. intros I. apply No. apply in_map_iff in I as [x [Q I]]. apply in_map_iff. exists x. auto. }
  assert (Dec : (exists i m c n, wcalls w i = (m, Some c) /\ nth_error (conns w) c = Some n /\ c_key n = k) \/
     forall c n, nth_error (conns w) c = Some n -> c_key n = k -> (exists a, c_state n = CRead a) \/ In c F).
  { clear -K. 
    assert (Q : forall cn : list conn, forall base,
      (forall c n, nth_error cn c = Some n -> c_key n = k -> (exists a, c_state n = CRead a) \/ In (base + c)%nat F \/ exists i m, wcalls w i = (m, Some (base + c)%nat)) ->
      (exists i m c n, wcalls w i = (m, Some (base + c)%nat) /\ nth_error cn c = Some n /\ c_key n = k) \/
      forall c n, nth_error cn c = Some n -> c_key n = k -> (exists a, c_state n = CRead a) \/ In (base + c)%nat F).
    { induction cn as [|q cn IH]; intros base H; [right; intros [|c] n Hc; discriminate|].
      destruct (IH (S base)) as [[i [m [c [n [X1 [X2 X3]]]]]]|X].
      - intros c n Hc Hk. destruct (H (S c) n Hc Hk) as [Y|[Y|Y]]; replace (S base + c)%nat with (base + S c)%nat by lia; auto.
      - left. exists i, m, (S c), n. replace (base + S c)%nat with (S base + c)%nat by lia. auto.
      - destruct (N.eq_dec (c_key q) k) as [Ek|Nk].
        + destruct (H 0%nat q eq_refl Ek) as [Y|[Y|[i [m Y]]]].
          * right. intros [|c] n Hc Hk; [injection Hc as <-; auto|]. replace (base + S c)%nat with (S base + c)%nat by lia. auto.
          * right. intros [|c] n Hc Hk; [auto|]. replace (base + S c)%nat with (S base + c)%nat by lia. auto.
          * left. exists i, m, 0%nat, q. auto.
        + right. intros [|c] n Hc Hk; [injection Hc as <-; contradiction|]. replace (base + S c)%nat with (S base + c)%nat by lia. auto. }
    apply (Q (conns w) 0%nat). exact K. }
  destruct Dec as [[i [m [c [n [W1 [W2 W3]]]]]]|Dec].
  - destruct (j_call _ _ _ Hj _ _ _ W1) as [e [q [Q1 [Q2 Q3]]]]. assert (q = n) as -> by congruence.
    assert (Hand : (1 <= times k (msgs_h (in_hand (wa w))))%nat).
    { unfold times. apply count_occ_In. unfold msgs_h. rewrite map_map. apply in_map_iff. exists e. split; [injection Q3 as Q3 _; cbn; congruence|].
      unfold in_hand. apply in_flat_map. exists (SSending e). apply sending_some in Q1. split; [eapply nth_error_In; eauto|now left]. }
    pose proof (conns_count k (conns w) (c :: F)) as U. cbn [List.length] in U.
    assert (times k (flat_map acc_conn (conns w)) <= times k (flat_map read_conn (conns w)) + S (List.length F))%nat; [|lia].
    apply U. intros c' n' Hc Hk. destruct (K _ _ Hc Hk) as [Y|[Y|[j [y Y]]]]; [auto|right; now right|]. right. left.
    destruct (j_call _ _ _ Hj _ _ _ Y) as [e' [q' [R1 [R2 R3]]]]. apply sending_some in Q1. apply sending_some in R1.
    assert (i = j) by (eapply One; eauto; discriminate). subst j. congruence.
  - pose proof (conns_count k (conns w) F Dec). lia.
Qed.

(** Processed no more often than accepted. *)
Theorem processed_bound qa qb lpb leb evs w l k : preachable meta_b qb -> usable qb -> holds qb lpb leb ->
  wrun (wstart qa qb) evs = (w, l) -> closed (wb w) = 0%nat ->
  (times k (map msg_of (finished (bo w))) <= times k (map msg_of (accepted (bo w))) + times k (map msg_of (items_p lpb ++ items_e leb)))%nat.
Proof.
  intros Rb Ub Hb E C.
  destruct (wrun_start meta_a dto_a truthy_a wait max_a cmax meta_b dto_b truthy_b max_b _ _ _ _ _ E) as [ea [eb [_ [Eb _]]]].
  destruct (conservation meta_b dto_b truthy_b max_b qb lpb leb eb _ _ Rb Ub Hb Eb C) as [lp [le [_ P]]].
  apply (Permutation_map msg_of) in P. apply (times_perm k) in P. rewrite !map_app, !times_app in *. lia.
Qed.

(** Together, for the keys a sender uses once. *)
Theorem at_most qa qb lpa lea lpb leb evs w l k :
  preachable meta_a qa -> usable qa -> holds qa lpa lea -> preachable meta_b qb -> usable qb -> holds qb lpb leb ->
  wrun (wstart qa qb) evs = (w, l) -> sclosed (wa w) = 0%nat -> closed (wb w) = 0%nat -> forallb calm evs = true ->
  let mine := enqueued (ao w) ++ msgs_p lpa ++ msgs_e lea in
  Forall (fun x => dto_a (snd x) = true) mine -> NoDup (map fst mine) ->
  ~ In k (map fst (map msg_of (items_p lpb ++ items_e leb) ++ others evs)) ->
  (times k (map msg_of (accepted (bo w))) <= 1 + attempts_failed k l)%nat /\
  (times k (map msg_of (finished (bo w))) <= 1 + attempts_failed k l)%nat.
Proof.
  intros Ra Ua Ha Rb Ub Hb E Ca Cb Cm mine Va Nd No. rewrite map_app, in_app_iff in No.
  destruct (wrun_start meta_a dto_a truthy_a wait max_a cmax meta_b dto_b truthy_b max_b _ _ _ _ _ E) as [ea [eb [Ea [Eb Cl]]]].
  destruct (Cl Cm) as [Fa Fb].
  destruct (s_one_place meta_a dto_a truthy_a wait max_a qa lpa lea ea _ _ Ra Ua Ha Ea Ca Fa Va Nd) as [lp [le [Hl [P _]]]].
  assert (B : (times k (map msg_of (accepted (bo w))) <= 1 + attempts_failed k l)%nat).
  { pose proof (accepted_bound qa qb evs w l k Ra Ua E Ca Cm ltac:(tauto)) as B.
    apply (times_perm k) in P. fold mine in P. rewrite !times_app in P.
    assert (times k mine <= 1)%nat; [|lia]. unfold times. now apply (proj1 (NoDup_count_occ N.eq_dec _)). }
  split; [exact B|]. pose proof (processed_bound qa qb lpb leb evs w l k Rb Ub Hb E Cb) as X.
  rewrite (times_not k (map msg_of (items_p lpb ++ items_e leb))) in X by tauto. lia.
Qed.
End World.
