(** Proofs about clients: retry loops and responses. *)
From Coq Require Import List ZArith NArith Bool String Lia Arith ZifyBool ZifyNat.
From Verif Require Import RouterModel ClientModel ClientSpec.
Import ListNotations.
Local Open Scope Z_scope.

Lemma fupd_same {A} (f : nat -> A) i x : fupd f i x i = x.
Proof. unfold fupd. now rewrite Nat.eqb_refl. Qed.
Lemma fupd_other {A} (f : nat -> A) i j x : j <> i -> fupd f i x j = f j.
Proof. unfold fupd. intros H. apply Nat.eqb_neq in H. now rewrite H. Qed.

Section Response.
Context {D : Type} (loads : string -> option json) (as_int : json -> option Z) (span_ok : json -> bool) (str_of : json -> string)
        (build : list (string * json) -> option D).
Theorem documented_exception status data : status <> 0 -> status <> 200 ->
  generate_response_exception str_of status data = documented status (str_of data).
Proof.
  intros H0 H2. unfold generate_response_exception.
  repeat match goal with |- context [Z.eqb status ?k] => destruct (Z.eqb_spec status k) as [->|]; [try reflexivity; congruence|] end.
  unfold documented. repeat (match goal with |- context [match ?x with _ => _ end] => destruct x; try reflexivity; try congruence end).
Qed.
End Response.

Section Retry.
Context {R : Type} (max : Z) (retries : texn -> bool) (flagged : bool).
Context (Hmax : 1 <= max).
Notation step := (step (R := R) max retries flagged).
Notation fr := (failed_retryably (R := R) retries).

Definition Good (c : tcall R) : Prop :=
  match tst c with
  | TAttempt n => Forall fr (tlog c) /\ n = Z.of_nat (List.length (tlog c)) /\ n < max
  | TSleep n => Forall fr (tlog c) /\ n = Z.of_nat (List.length (tlog c)) /\ n < max
  | TDone (OText r) => exists l, tlog c = l ++ [AGot r] /\ Forall fr l /\ Z.of_nat (List.length l) < max
  | TDone OMax => Forall fr (tlog c) /\ Z.of_nat (List.length (tlog c)) = max
  | TDone (ONonRetry x) => x <> XCancel /\ retries x = false /\ exists l, tlog c = l ++ [AFail x] /\ Forall fr l /\ Z.of_nat (List.length l) < max
  | TDone (ORaw x) => x = XCancel /\ Z.of_nat (List.length (tlog c)) <= max /\
       (Forall fr (tlog c) /\ Z.of_nat (List.length (tlog c)) < max \/ exists l, tlog c = l ++ [AFail XCancel] /\ Forall fr l)
  | TDone ONone => flagged = true /\ Forall fr (tlog c) /\ Z.of_nat (List.length (tlog c)) < max
  end.
Lemma loop_test_good s n log : n = Z.of_nat (List.length log) -> n < max -> Forall fr log ->
  Good (mkCall (loop_test max flagged s n) log).
Proof.
  intros -> L F. unfold Good, loop_test. cbn [tst tlog]. apply Z.ltb_lt in L as L'. rewrite L'. cbn [andb].
  destruct flagged, (success s); cbn [andb negb tst]; auto.
Qed.
Lemma step_good s e : (forall i, (i < ncalls s)%nat -> Good (calls s i)) ->
  forall i, (i < ncalls (step s e))%nat -> Good (calls (step s e) i).
Proof.
  intros H. destruct e as [|j o|j|j]; cbn [ClientModel.step].
  - intros i Hi. cbn [set_call ncalls calls Nat.pred] in *. destruct (Nat.eq_dec i (ncalls s)) as [->|Hn].
    + rewrite fupd_same. apply loop_test_good; auto. cbn. lia.
    + rewrite fupd_other by auto. apply H. lia.
  - unfold live. destruct (Nat.ltb_spec j (ncalls s)) as [Hj|Hj]; [|exact H]. specialize (H j Hj) as Hg.
    destruct (tst (calls s j)) as [n|n|o'] eqn:Es; try exact H. unfold Good in Hg. rewrite Es in Hg. destruct Hg as [F [-> L]].
    assert (Set' : forall s' c, ncalls s' = ncalls s -> (forall k, k <> j -> calls s' k = calls s k) -> Good c ->
       forall i, (i < ncalls (set_call s' j c))%nat -> Good (calls (set_call s' j c) i)).
    { intros s' c E1 E2 G i Hi. cbn [set_call ncalls calls] in *. rewrite E1 in Hi. destruct (Nat.eq_dec i j) as [->|Hn].
      - now rewrite fupd_same. - rewrite fupd_other, E2 by auto. now apply H. }
    assert (Lg : forall a : attempt R, List.length (tlog (calls s j) ++ [a]) = S (List.length (tlog (calls s j)))) by (intros a; rewrite app_length; cbn; lia).
    destruct o as [r|x].
    + apply Set'; auto. cbn. exists (tlog (calls s j)). auto.
    + pose (nx x := if retries x then if max <=? Z.of_nat (List.length (tlog (calls s j))) + 1
           then set_call s j (mkCall (TDone OMax) (tlog (calls s j) ++ [AFail x])) else set_call s j (mkCall (TSleep (Z.of_nat (List.length (tlog (calls s j))) + 1)) (tlog (calls s j) ++ [AFail x]))
           else set_call s j (mkCall (TDone (ONonRetry x)) (tlog (calls s j) ++ [AFail x]))).
      assert (NC : x <> XCancel -> forall i, (i < ncalls (nx x))%nat -> Good (calls (nx x) i)).
      { unfold nx. intros NC. destruct (retries x) eqn:Er.
        - assert (F' : Forall fr (tlog (calls s j) ++ [AFail x])) by (apply Forall_app; split; [auto|]; constructor; [exists x; auto|constructor]).
          destruct (Z.leb_spec max (Z.of_nat (List.length (tlog (calls s j))) + 1)); apply Set'; auto; cbn [Good tst tlog]; split; auto; rewrite Lg; lia.
        - apply Set'; auto. cbn. repeat split; auto. exists (tlog (calls s j)). auto. }
      destruct x; try (apply NC; discriminate). clear NC nx. apply Set'; auto. cbn. split; auto. rewrite Lg. split; [lia|]. right. exists (tlog (calls s j)). auto.
  - unfold live. destruct (Nat.ltb_spec j (ncalls s)) as [Hj|Hj]; [|exact H]. specialize (H j Hj) as Hg.
    destruct (tst (calls s j)) as [n|n|o'] eqn:Es; try exact H. unfold Good in Hg. rewrite Es in Hg. destruct Hg as [F [-> L]].
    intros i Hi. cbn [set_call ncalls calls] in *. destruct (Nat.eq_dec i j) as [->|Hn]; [|rewrite fupd_other; auto].
    rewrite fupd_same. now apply loop_test_good.
  - unfold live. destruct (Nat.ltb_spec j (ncalls s)) as [Hj|Hj]; [|exact H]. specialize (H j Hj) as Hg.
    destruct (tst (calls s j)) as [n|n|o'] eqn:Es; try exact H. unfold Good in Hg. rewrite Es in Hg. destruct Hg as [F [-> L]].
    intros i Hi. cbn [set_call ncalls calls] in *. destruct (Nat.eq_dec i j) as [->|Hn]; [|rewrite fupd_other; auto].
    rewrite fupd_same. cbn. split; auto. split; [lia|]. left. split; auto.
Qed.
Lemma fold_good evs : forall s, (forall i, (i < ncalls s)%nat -> Good (calls s i)) ->
  forall i, (i < ncalls (fold_left step evs s))%nat -> Good (calls (fold_left step evs s) i).
Proof. induction evs as [|e evs IH]; intros s H; [exact H|]. cbn [fold_left]. apply IH. now apply step_good. Qed.
Theorem run_good evs i : (i < ncalls (run (R:=R) max retries flagged evs))%nat -> Good (calls (run max retries flagged evs) i).
Proof. apply fold_good. cbn. lia. Qed.

Lemma snoc_split {A} (l : list A) a l1 b l2 : l ++ [a] = l1 ++ b :: l2 -> (l2 = [] /\ b = a /\ l1 = l) \/ (In b l).
Proof.
  intros E. destruct l2 as [|c l2 _] using rev_ind.
  - left. apply app_inj_tail in E as [-> ->]. auto.
  - right. rewrite app_comm_cons, app_assoc in E. apply app_inj_tail in E as [-> _]. rewrite in_app_iff. right. now left.
Qed.
Lemma fr_not_got r : ~ fr (AGot r). Proof. intros [x [E _]]. discriminate. Qed.
Lemma good_reliable c : Good c -> (tst c = TDone ONone -> False) -> reliable max retries (tst c) (tlog c).
Proof.
  intros G NN. destruct c as [st log]. unfold Good in G. cbn [tst tlog] in *.
  assert (Fin : forall l b l', Forall fr log -> log = l ++ b :: l' -> fr b).
  { intros l b l' F ->. apply Forall_app in F as [_ F]. now inversion F. }
  assert (FinS : forall l0 a l b l', Forall fr l0 -> l0 ++ [a] = l ++ b :: l' -> l' <> [] -> fr b).
  { intros l0 a l b l' F E N. apply snoc_split in E as [[-> _]|E]; [congruence|]. rewrite Forall_forall in F. auto. }
  destruct st as [n|n|[r| | |x|x]]; cbn [in_attempt].
  - destruct G as [F [-> L]]. constructor; cbn [in_attempt]; try discriminate; try lia.
    + intros l a l' E _. eapply Fin; eauto.
    + split; [discriminate|]. intros [E _]. lia.
    + intros l x E Hr Hc. elimtype False. destruct (Fin l _ _ F E) as [y [Ey [Hy _]]]. congruence.
  - destruct G as [F [-> L]]. constructor; cbn [in_attempt]; try discriminate; try lia.
    + intros l a l' E _. eapply Fin; eauto.
    + split; [discriminate|]. intros [E _]. lia.
    + intros l x E Hr Hc. elimtype False. destruct (Fin l _ _ F E) as [y [Ey [Hy _]]]. congruence.
  - destruct G as [l0 [-> [F L]]]. constructor; cbn [in_attempt]; try discriminate.
    + rewrite app_length. cbn. lia.
    + intros l a l' E [N|N]; [eapply FinS; eauto|discriminate].
    + intros r' E. injection E as <-. eauto.
    + split; [discriminate|]. intros [_ F']. apply Forall_app in F' as [_ F']. inversion F'; subst. now apply fr_not_got in H1.
    + intros l x E. apply app_inj_tail in E as [_ E]. discriminate.
  - elim NN. reflexivity.
  - destruct G as [F L]. constructor; cbn [in_attempt]; try discriminate.
    + lia.
    + intros l a l' E _. eapply Fin; eauto.
    + tauto.
    + intros l x E Hr Hc. elimtype False. destruct (Fin l _ _ F E) as [y [Ey [Hy _]]]. congruence.
  - destruct G as [Hc [Hr [l0 [-> [F L]]]]]. constructor; cbn [in_attempt]; try discriminate.
    + rewrite app_length. cbn. lia.
    + intros l a l' E [N|N]; [eapply FinS; eauto|discriminate].
    + split; [discriminate|]. intros [_ F']. apply Forall_app in F' as [_ F']. inversion F' as [|? ? [y [Ey [Hy _]]]]; subst. congruence.
    + intros y E. injection E as <-. eauto.
    + intros l y E. apply app_inj_tail in E as [_ E]. congruence.
  - destruct G as [-> [L [[F L2]|[l0 [-> F]]]]]; constructor; cbn [in_attempt]; try discriminate; try lia; try congruence.
    + intros l a l' E _. eapply Fin; eauto.
    + split; [discriminate|]. intros [E _]. lia.
    + intros l x E Hr Hc. elimtype False. destruct (Fin l _ _ F E) as [y [Ey [Hy _]]]. congruence.
    + intros l a l' E [N|N]; [eapply FinS; eauto|discriminate].
    + split; [discriminate|]. intros [_ F']. apply Forall_app in F' as [_ F']. inversion F' as [|? ? [y [Ey [_ Hy]]]]; subst. congruence.
    + intros l x E. apply app_inj_tail in E as [_ E]. congruence.
Qed.

(** With no other call succeeding after its start, a call never falls out of the loop. *)
Definition Mine (i : nat) (s : client R) : Prop :=
  (i < ncalls s)%nat /\ tst (calls s i) <> TDone ONone /\ (success s = true -> exists o, tst (calls s i) = TDone o).
Lemma mine_step i s e : (forall k, (k < ncalls s)%nat -> Good (calls s k)) ->
  (forall j r, e = EOut j (AGot r) -> j = i) -> Mine i s -> Mine i (step s e).
Proof.
  intros G Hj [Hi [HN HS]]. specialize (G i Hi) as Gi.
  destruct e as [|j o|j|j]; cbn [ClientModel.step].
  - split; [cbn; lia|]. cbn [set_call calls success Nat.pred ncalls]. rewrite fupd_other by lia. split; auto. discriminate.
  - unfold live. destruct (Nat.ltb_spec j (ncalls s)); [|now repeat split].
    destruct (tst (calls s j)) as [n|n|o'] eqn:Es; try now repeat split.
    assert (Oth : forall b c, tst c <> TDone ONone -> (b = success s \/ i = j) -> (i = j -> b = true -> exists o, tst c = TDone o) ->
      Mine i (set_call (mkClient b (ncalls s) (calls s)) j c)).
    { intros b c N B Hd. split; [exact Hi|]. cbn [set_call calls success]. destruct (Nat.eq_dec i j) as [->|Hn].
      - rewrite fupd_same. auto. - rewrite fupd_other by auto. destruct B as [->|B]; [auto|congruence]. }
    assert (Oth' : forall c, tst c <> TDone ONone -> (i = j -> exists o, tst c = TDone o) \/ (i = j -> success s = false) -> Mine i (set_call s j c)).
    { intros c N Hd. destruct s as [b nc cs]. apply (Oth b c N); [now left|]. intros E Hb. cbn [success] in *. destruct Hd as [Hd|Hd]; [auto|]. specialize (Hd E). congruence. }
    assert (Act : i = j -> success s = false).
    { intros ->. destruct (success s); auto. destruct (HS eq_refl) as [o' E]. congruence. }
    destruct o as [r|x].
    + specialize (Hj _ _ eq_refl). subst j. apply Oth; [discriminate|now right|]. intros _ _. eexists; reflexivity.
    + destruct x; try (apply Oth'; [discriminate|left; intros _; eexists; reflexivity]);
      destruct (retries _); try (apply Oth'; [discriminate|left; intros _; eexists; reflexivity]);
      destruct (max <=? n + 1); try (apply Oth'; [discriminate|left; intros _; eexists; reflexivity]);
      (apply Oth'; [discriminate|right; exact Act]).
  - unfold live. destruct (Nat.ltb_spec j (ncalls s)); [|now repeat split].
    destruct (tst (calls s j)) as [n|n|o'] eqn:Es; try now repeat split.
    split; [exact Hi|]. cbn [set_call calls success]. destruct (Nat.eq_dec i j) as [->|Hn].
    + rewrite fupd_same. cbn [tst]. destruct (success s) eqn:Eb; [destruct (HS eq_refl); congruence|].
      unfold Good in Gi. rewrite Es in Gi. destruct Gi as [_ [_ L]]. unfold loop_test. apply Z.ltb_lt in L. rewrite L, Eb, andb_false_r. cbn.
      split; discriminate.
    + rewrite fupd_other by auto. auto.
  - unfold live. destruct (Nat.ltb_spec j (ncalls s)); [|now repeat split].
    destruct (tst (calls s j)) as [n|n|o'] eqn:Es; try now repeat split.
    split; [exact Hi|]. cbn [set_call calls success]. destruct (Nat.eq_dec i j) as [->|Hn].
    + rewrite fupd_same. cbn [tst]. split; [discriminate|]. eauto.
    + rewrite fupd_other by auto. auto.
Qed.
Lemma mine_fold i evs : forall s, (forall k, (k < ncalls s)%nat -> Good (calls s k)) ->
  (forall j r, In (EOut j (AGot r)) evs -> j = i) -> Mine i s -> Mine i (fold_left step evs s).
Proof.
  induction evs as [|e evs IH]; intros s G H M; [exact M|]. cbn [fold_left]. apply IH.
  - now apply step_good.
  - intros j r Hin. apply (H j r). now right.
  - apply mine_step; auto. intros j r ->. apply (H j r). now left.
Qed.
Theorem alone_reliable before after i : i = ncalls (run (R:=R) max retries flagged before) ->
  (forall j r, In (EOut j (AGot r)) after -> j = i) ->
  let c := calls (run max retries flagged (before ++ EStart :: after)) i in reliable max retries (tst c) (tlog c).
Proof.
  intros Ei H c. set (s := run max retries flagged before) in *.
  assert (Gs : forall k, (k < ncalls s)%nat -> Good (calls s k)) by (intros k Hk; now apply run_good).
  assert (E : run max retries flagged (before ++ EStart :: after) = fold_left step after (step s (EStart))) by (unfold run; now rewrite fold_left_app).
  assert (M : Mine i (fold_left step after (step s (EStart)))).
  { apply mine_fold; auto. { now apply step_good. }
    cbn [ClientModel.step]. split; [cbn; lia|]. cbn [set_call calls success Nat.pred ncalls]. rewrite Ei, fupd_same. cbn [tst].
    unfold loop_test. assert (Z.ltb 0 max = true) as -> by lia. cbn [success andb]. rewrite andb_false_r. split; discriminate. }
  unfold c. rewrite E. apply good_reliable.
  - apply fold_good; [|apply M]. now apply step_good.
  - destruct M as [_ [M _]]. congruence.
Qed.
Theorem unflagged_reliable evs i : flagged = false -> (i < ncalls (run (R:=R) max retries flagged evs))%nat ->
  let c := calls (run max retries flagged evs) i in reliable max retries (tst c) (tlog c).
Proof.
  intros Hf Hi c. apply run_good in Hi as G. apply good_reliable; [exact G|]. intros E. unfold Good in G. fold c in G. rewrite E in G. destruct G. congruence.
Qed.
Theorem alone_not_none before after i : i = ncalls (run (R:=R) max retries flagged before) ->
  (forall j r, In (EOut j (AGot r)) after -> j = i) ->
  tst (calls (run max retries flagged (before ++ EStart :: after)) i) <> TDone ONone.
Proof.
  intros Ei H. set (s := run max retries flagged before) in *.
  assert (Gs : forall k, (k < ncalls s)%nat -> Good (calls s k)) by (intros k Hk; now apply run_good).
  assert (E : run max retries flagged (before ++ EStart :: after) = fold_left step after (step s EStart)) by (unfold run; now rewrite fold_left_app).
  assert (M : Mine i (fold_left step after (step s EStart))).
  { apply mine_fold; auto. { now apply step_good. }
    cbn [ClientModel.step]. split; [cbn; lia|]. cbn [set_call calls success Nat.pred ncalls]. rewrite Ei, fupd_same. cbn [tst].
    unfold loop_test. assert (Z.ltb 0 max = true) as -> by lia. cbn [success andb]. rewrite andb_false_r. split; discriminate. }
  rewrite E. apply M.
Qed.
Theorem good_at_most c : Good c -> Z.of_nat (List.length (tlog c) + in_attempt (tst c)) <= max.
Proof.
  unfold Good. destruct (tst c) as [n|n|[r| | |x|x]]; cbn [in_attempt].
  - lia. - lia.
  - intros [l [-> [_ L]]]. rewrite app_length. cbn. lia.
  - lia. - lia.
  - intros [_ [_ [l [-> [_ L]]]]]. rewrite app_length. cbn. lia.
  - lia.
Qed.
End Retry.
Theorem stream_at_most (R : Type) max evs i : 1 <= max -> (i < ncalls (stream_run (R := R) max evs))%nat ->
  let c := calls (stream_run max evs) i in Z.of_nat (List.length (tlog c) + in_attempt (tst c)) <= max.
Proof. intros Hm Hi c. apply (good_at_most _ stream_retries true). now apply run_good. Qed.
