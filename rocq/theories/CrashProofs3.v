(** Attempts over many lives, graceful ends, and the statements of the properties. *)
From Coq Require Import List ZArith NArith Bool String Lia Permutation.
From Coq Require Import ZifyBool ZifyNat ZifyN.
From Verif Require Import Base PermTac PQueueModel PQueueSpec PQueueProofs PQueueProofs2 PendingModel PendingSpec
  PendingProofs HandlerModel HandlerSpec HandlerProofs HandlerProofs2 HandlerProofs3 CrashModel CrashProofs CrashProofs2.
Import ListNotations.
Local Open Scope Z_scope.

Section Proofs.
Context {D M : Type}.
Variable no_meta : M.
Variables dto_ok truthy : D -> bool.
Variable max_retries : Z.
Notation item := (item D M). Notation hout := (hout D M). Notation hev := (hev D M). Notation hstate := (hstate D M).
Notation tstate := (tstate D M). Notation pentry := (pentry D M). Notation eentry := (eentry D M).
Notation files := (files (D:=D) (M:=M)). Notation pqueue := (pqueue D M).
Notation hstep := (@hstep D M no_meta dto_ok truthy max_retries).
Notation hrun := (@hrun D M no_meta dto_ok truthy max_retries).
Notation micros := (@micros D M dto_ok max_retries).
Notation hinv := (@hinv D M no_meta).
Notation crash_at := (@crash_at D M no_meta dto_ok truthy max_retries).
Notation lives := (@lives D M no_meta dto_ok truthy max_retries).
Notation wf := (@wf D M).
Notation at_key := (@HandlerProofs2.at_key D M max_retries).
Implicit Types (s : hstate) (o : list hout) (q : pqueue).

Lemma calls_app k n o o' : calls k n (o ++ o') = calls k (calls k n o) o'. Proof. apply fold_left_app. Qed.
Lemma returns_app k b n o o' : returns k b n (o ++ o') = returns k b (returns k b n o) o'. Proof. apply fold_left_app. Qed.

Lemma at_key_part k c f t (a a' : ast (D:=D) (M:=M)) : at_key k c f t a -> a_push a' = [] -> a_in a' = None ->
  incl (a_pend a') (a_pend a) -> incl (a_err a') (a_err a) -> at_key k c f t a'.
Proof.
  intros [A1 A2 A3 A4 A5] H1 H2 H3 H4. constructor; auto.
  - rewrite H1. constructor.
  - eapply Forall_incl; eauto.
  - rewrite H2. exact I.
  - eapply Forall_incl; eauto.
Qed.

Definition zero (k : N) (outs : list hout) : Prop := calls k 0 outs = 0 /\ returns k false 0 outs = 0 /\ returns k true 0 outs = 0.

Record counted (k : N) (outs : list hout) (a : ast (D:=D) (M:=M)) : Prop := mkCounted {
  co_at : at_key k (calls k 0 outs) (returns k false 0 outs) (returns k true 0 outs) a;
  co_new : ~ In k (map key_of (accepted outs)) -> zero k outs;
  co_fin : In k (map key_of (finished outs)) -> returns k true 0 outs = 1 /\ calls k 0 outs = returns k false 0 outs + 1 }.

Lemma counted_part k outs a a' : counted k outs a -> a_push a' = [] -> a_in a' = None ->
  incl (a_pend a') (a_pend a) -> incl (a_err a') (a_err a) -> counted k outs a'.
Proof. intros [A B C] H1 H2 H3 H4. constructor; auto. eapply at_key_part; eauto. Qed.

Lemma finished_gone o : incl (map key_of (finished (D:=D) (M:=M) o)) (map key_of (gone o)).
Proof.
  intros k Hk. eapply Permutation_in; [apply Permutation_map; symmetry; apply gone_parts|]. rewrite map_app. apply in_app_iff. auto.
Qed.

Lemma counted_step k outs (a a' : ast (D:=D) (M:=M)) o rest : counted k outs a -> wf a -> micros a o a' ->
  Permutation (accepted outs) (a_items a ++ gone outs ++ rest) ->
  NoDup (map key_of (accepted (outs ++ o))) -> counted k (outs ++ o) a'.
Proof.
  intros [At New Fin] W Ms P ND. rewrite accepted_app, map_app in ND.
  assert (Sub : incl (map key_of (a_items a)) (map key_of (accepted outs))).
  { intros x Hx. eapply Permutation_in; [apply Permutation_map; symmetry; exact P|]. rewrite map_app. apply in_app_iff. auto. }
  assert (ND1 : NoDup (map key_of (accepted o ++ a_items a))).
  { apply (keys_perm (a_items a ++ accepted o)); [perm|]. rewrite map_app.
    assert (X : NoDup (map key_of (a_items a ++ gone outs ++ rest))).
    { apply (keys_perm (accepted outs)); [exact P|]. now apply NoDup_app_remove_r in ND. }
    rewrite map_app in X. apply NoDup_app_intro.
    - now apply NoDup_app_remove_r in X.
    - now apply NoDup_app_remove_l in ND.
    - intros x Hx Hy. apply Sub in Hx. eapply NoDup_app_disj; [exact ND|exact Hx|exact Hy]. }
  assert (Acc : In k (map key_of (accepted o)) -> zero k outs).
  { intros Hk. apply New. intros Hk'. eapply NoDup_app_disj; [exact ND|exact Hk'|exact Hk]. }
  assert (Same : no_item k a -> ~ In k (map key_of (accepted o)) ->
    calls k 0 (outs ++ o) = calls k 0 outs /\ returns k false 0 (outs ++ o) = returns k false 0 outs /\
    returns k true 0 (outs ++ o) = returns k true 0 outs).
  { intros No Na. rewrite calls_app, !returns_app.
    apply (micros_unchanged dto_ok truthy max_retries a o a' k); auto. apply (ak_max _ _ _ _ _ _ At). }
  destruct (micros_at dto_ok truthy max_retries k a o a' _ _ _ Ms W ND1 At Acc) as [At' Fin'].
  constructor.
  - rewrite calls_app, !returns_app. exact At'.
  - rewrite accepted_app, map_app, in_app_iff. intros Hk.
    destruct Same as [A [B C]].
    + apply no_item_keys. intros X. apply Sub in X. tauto.
    + tauto.
    + unfold zero. rewrite A, B, C. apply New. tauto.
  - rewrite finished_app, map_app, in_app_iff. intros [Hk|Hk].
    + assert (Hg : In k (map key_of (gone outs))) by now apply finished_gone.
      destruct Same as [A [B C]].
      * apply no_item_keys. intros X.
        assert (Y : NoDup (map key_of (a_items a ++ gone outs ++ rest))).
        { apply (keys_perm (accepted outs)); [exact P|]. now apply NoDup_app_remove_r in ND. }
        rewrite map_app in Y. eapply NoDup_app_disj; [exact Y|exact X|]. rewrite map_app. apply in_app_iff. auto.
      * intros X. eapply NoDup_app_disj; [exact ND| |exact X].
        eapply Permutation_in; [apply Permutation_map; symmetry; exact P|]. rewrite !map_app, !in_app_iff. auto.
      * rewrite A, B, C. auto.
    + rewrite calls_app, !returns_app. auto.
Qed.

Theorem lives_counted outs n f k : lives outs n f -> NoDup (map key_of (accepted outs)) -> counted k outs (f_ast f).
Proof.
  induction 1 as [|outs n f ps evs s o ev f' o' L IH Hp E C Ca|outs n f ps evs s o ev s' o' L IH Hp E C Es Cs|outs n f ps f' L IH Hp Hi]; intros ND.
  - constructor; cbn.
    + constructor; cbn; auto. unfold Max. lia.
    + intros _. now split.
    + intros [].
  - assert (ND0 : NoDup (map key_of (accepted outs))).
    { rewrite accepted_app, map_app in ND. now apply NoDup_app_remove_r in ND. }
    specialize (IH ND0). destruct (lives_ok no_meta dto_ok truthy max_retries outs n f L) as [Pf [_ [cr [P _]]]].
    destruct (start_facts no_meta ps f Pf Hp) as [R [U [Z1 [P1 P2]]]]. set (q := pq_open ps (fst f) (snd f)) in *.
    destruct (run_facts no_meta dto_ok truthy max_retries q evs s o R U E C) as [H [Ms [W I]]].
    assert (Z2 : sizes (hq s) = (ps, ps)).
    { rewrite (hrun_sizes _ _ _ _ _ _ _ _ E), setup_sizes. exact Z1. }
    destruct (crash_ok no_meta dto_ok truthy max_retries s ev f' o' ps H Z2 Hp Ca) as [_ [a [Ms' [G1 G2 G3 _]]]].
    pose proof (micros_app dto_ok max_retries _ _ _ _ _ Ms Ms') as Mt.
    assert (C0 : counted k outs (mkA [] (pc q) None (ec q))).
    { eapply counted_part; [exact IH|reflexivity|reflexivity| |]; cbn [a_pend a_err f_ast]; intros x Hx;
        eapply Permutation_in; eauto. }
    assert (Ct : counted k (outs ++ o ++ o') a).
    { eapply (counted_step k outs _ a (o ++ o') cr C0 W Mt); auto.
      rewrite P. unfold f_ast, a_items. cbn [a_push a_pend a_in a_err in_items app].
      rewrite (items_p_perm _ _ P1), (items_e_perm _ _ P2). reflexivity. }
    eapply counted_part; eauto.
  - assert (ND0 : NoDup (map key_of (accepted outs))).
    { rewrite accepted_app, map_app in ND. now apply NoDup_app_remove_r in ND. }
    specialize (IH ND0). destruct (lives_ok no_meta dto_ok truthy max_retries outs n f L) as [Pf [_ [cr [P _]]]].
    destruct (start_facts no_meta ps f Pf Hp) as [R [U [Z1 [P1 P2]]]]. set (q := pq_open ps (fst f) (snd f)) in *.
    destruct (run_facts no_meta dto_ok truthy max_retries q evs s o R U E C) as [H [Ms [W I]]].
    destruct (close_ok no_meta dto_ok truthy max_retries s ev s' o' H Es ltac:(congruence))
      as [q1 [o1 [o2 [-> [O2 [Pf' [Hq [Ms' [K1 K2]]]]]]]]].
    pose proof (micros_app dto_ok max_retries _ _ _ _ _ Ms Ms') as Mt.
    assert (C0 : counted k outs (mkA [] (pc q) None (ec q))).
    { eapply counted_part; [exact IH|reflexivity|reflexivity| |]; cbn [a_pend a_err f_ast]; intros x Hx;
        eapply Permutation_in; eauto. }
    replace (outs ++ o ++ o1 ++ o2) with ((outs ++ o ++ o1) ++ o2) in * by (now rewrite <- !app_assoc).
    assert (X : accepted (outs ++ o ++ o1) = accepted ((outs ++ o ++ o1) ++ o2)).
    { rewrite (accepted_app _ o2). destruct O2 as [->|[e ->]]; cbn; now rewrite app_nil_r. }
    rewrite <- X in ND.
    assert (Ct : counted k (outs ++ o ++ o1) (mkA (pushing s') (pc q1) None (ec q1))).
    { eapply (counted_step k outs _ _ (o ++ o1) cr C0 W Mt); auto.
      rewrite P. unfold f_ast, a_items. cbn [a_push a_pend a_in a_err in_items app].
      rewrite (items_p_perm _ _ P1), (items_e_perm _ _ P2). reflexivity. }
    assert (Ct' : counted k ((outs ++ o ++ o1) ++ o2) (mkA (pushing s') (pc q1) None (ec q1))).
    { destruct Ct as [Q1 Q2 Q3]. constructor; unfold zero in *; rewrite ?calls_app, ?(returns_app _ _ _ (outs ++ o ++ o1)), <- ?X, ?finished_app in *.
      - destruct O2 as [->|[e ->]]; exact Q1.
      - destruct O2 as [->|[e ->]]; exact Q2.
      - destruct O2 as [->|[e ->]]; cbn [finished flat_map] in *; rewrite ?app_nil_r in *; exact Q3. }
    eapply counted_part; [exact Ct'|reflexivity|reflexivity| |]; cbn [f_ast a_pend a_err files_of fst snd]; rewrite ?K1, ?K2; apply incl_refl.
  - specialize (IH ND). destruct (lives_ok no_meta dto_ok truthy max_retries outs n f L) as [Pf _].
    pose proof (pfiles_good no_meta f Pf) as [G1 [G2 _]].
    apply in_app_or in Hi as [Hi|Hi]; apply in_map_iff in Hi as [t [<- Ht]].
    + destruct (crash_open_ok ps _ _ G1 Ht) as [_ X]. eapply counted_part; eauto. apply incl_refl.
    + destruct (crash_open_ok ps _ _ G2 Ht) as [_ X].
      assert (Hd : In (db (open_queue ps (fst f))) (crash_tables_open ps (fst f))) by (right; right; now left).
      destruct (crash_open_ok ps _ _ G1 Hd) as [_ X']. eapply counted_part; eauto.
Qed.

(** ** In terms of the endpoint after the next start-up *)
Theorem crash_accounting outs n f ps : lives outs n f -> 1 <= ps ->
  exists lp le crashed, holds (pq_open ps (fst f) (snd f)) lp le /\
    Permutation (accepted outs)
      (items_p lp ++ items_e le ++ finished outs ++ removed outs ++ dropped outs ++ lost outs ++ crashed) /\
    Z.of_nat (List.length crashed) <= n.
Proof.
  intros L Hp. destruct (lives_ok no_meta dto_ok truthy max_retries outs n f L) as [Pf [_ [cr [P Lc]]]].
  destruct (start_facts no_meta ps f Pf Hp) as [R [U [Z1 [P1 P2]]]]. set (q := pq_open ps (fst f) (snd f)) in *.
  exists (pc q), (ec q), cr. split; [apply holds_contents; auto; eapply preachable_inv; eauto|]. split; [|exact Lc].
  rewrite P, gone_parts. unfold f_ast, a_items. cbn [a_push a_pend a_in a_err in_items app].
  rewrite <- (items_p_perm _ _ P1), <- (items_e_perm _ _ P2). perm.
Qed.

Theorem crash_attempts outs n f ps k : lives outs n f -> 1 <= ps ->
  NoDup (map key_of (accepted outs)) -> In k (map key_of (accepted outs)) ->
  exists lp le, holds (pq_open ps (fst f) (snd f)) lp le /\
    NoDup (map key_of (items_p lp ++ items_e le ++ finished outs ++ removed outs)) /\
    0 <= calls k 0 outs <= Z.max 1 max_retries /\
    (forall x, In x (finished outs) -> key_of x = k ->
       returns k true 0 outs = 1 /\ calls k 0 outs = returns k false 0 outs + 1) /\
    (forall e, In (k, e) lp -> pe_retries e = calls k 0 outs /\ returns k false 0 outs = calls k 0 outs /\
       returns k true 0 outs = 0 /\ calls k 0 outs < Z.max 1 max_retries /\ In (k, pe_data e, pe_meta e) (accepted outs)) /\
    (forall e, In (k, e) le -> calls k 0 outs = Z.max 1 max_retries /\ returns k false 0 outs = Z.max 1 max_retries /\
       ee_reason e = "Max retries reached."%string /\ In (k, ee_data e, ee_meta e) (accepted outs)).
Proof.
  intros L Hp ND Ik. destruct (lives_ok no_meta dto_ok truthy max_retries outs n f L) as [Pf [_ [cr [P Lc]]]].
  destruct (start_facts no_meta ps f Pf Hp) as [R [U [Z1 [P1 P2]]]]. set (q := pq_open ps (fst f) (snd f)) in *.
  pose proof (preachable_inv no_meta q R) as Hq.
  destruct (lives_counted outs n f k L ND) as [[A1 A2 A3 A4 A5] _ Fin]. cbn [f_ast a_push a_pend a_in a_err] in *. unfold Max in *.
  assert (P' : Permutation (accepted outs) (items_p (pc q) ++ items_e (ec q) ++ finished outs ++ removed outs ++ (dropped outs ++ lost outs ++ cr))).
  { rewrite P, gone_parts. unfold f_ast, a_items. cbn [a_push a_pend a_in a_err in_items app].
    rewrite <- (items_p_perm _ _ P1), <- (items_e_perm _ _ P2). perm. }
  exists (pc q), (ec q). split; [now apply holds_contents|]. split; [|split; [exact A5|split; [|split]]].
  - apply (keys_perm _ _ P') in ND.
    replace (items_p (pc q) ++ items_e (ec q) ++ finished outs ++ removed outs ++ dropped outs ++ lost outs ++ cr)
      with ((items_p (pc q) ++ items_e (ec q) ++ finished outs ++ removed outs) ++ dropped outs ++ lost outs ++ cr) in ND
      by (now rewrite <- !app_assoc).
    rewrite map_app in ND. now apply NoDup_app_remove_r in ND.
  - intros x Hx Kx. apply Fin. rewrite <- Kx. now apply in_map.
  - intros e He. assert (He' : In (k, e) (map kv (fst f))) by (eapply Permutation_in; eauto).
    rewrite Forall_forall in A2. specialize (A2 _ He' eq_refl). cbn [snd] in A2. unfold at_pend, Max in A2.
    assert (Ek : pe_key e = k) by (pose proof (pi_pk _ Hq) as X; rewrite Forall_forall in X; apply (X _ He)).
    assert (X : In (item_p e) (accepted outs)).
    { eapply Permutation_in; [symmetry; exact P'|]. apply in_app_iff. left. apply in_map_iff. exists (k, e). auto. }
    unfold item_p in X. rewrite Ek in X. intuition lia.
  - intros e He. assert (He' : In (k, e) (map kv (snd f))) by (eapply Permutation_in; eauto).
    rewrite Forall_forall in A4. destruct (A4 _ He' eq_refl) as [B1 [B2 [B3 B4]]]. unfold Max in *. cbn [snd] in *.
    assert (Ek : ee_key e = k) by (pose proof (pi_ek _ Hq) as X; rewrite Forall_forall in X; apply (X _ He)).
    assert (X : In (item_e e) (accepted outs)).
    { eapply Permutation_in; [symmetry; exact P'|]. apply in_app_iff. right. apply in_app_iff. left. apply in_map_iff. exists (k, e). auto. }
    unfold item_e in X. rewrite Ek in X. auto.
Qed.

End Proofs.
