(** Which connections a transient client closes. *)
From Coq Require Import List ZArith NArith Bool String Lia Arith.
From Verif Require Import Base SpanKeyModel RouterModel JsonModel JsonSpec StreamModel ClientModel WireModel AskModel AskSpec AskProofs AskProofs2 LeakSpec.
Import ListNotations.

Section Leak.
Context {D V : Type} (utf8 : list N -> bool) (dump : V -> json) (limit : nat) (max : Z) (accepted_resp : span_key -> V) (app : nat -> code D V).
Notation step := (AskModel.step utf8 dump limit max accepted_resp app).
Notation run := (AskModel.run utf8 dump limit max accepted_resp app).
Notation net := (net D V).
Notation Inv := (AskProofs2.Inv utf8 dump limit max accepted_resp app).
Notation log s i := (tlog (calls (cl s) i)).
Notation closed := (closed run).

Lemma failures_app {R} (a b : list (attempt R)) : failures (a ++ b) = failures a + failures b.
Proof. unfold failures. now rewrite filter_app, app_length. Qed.
(** What a step does to call [i]. *)
Inductive Track (i : nat) (s d : net) : Prop :=
| t_same : phases d i = phases s i -> nlinks d = nlinks s \/ (nlinks d = S (nlinks s) /\ l_call (links d (nlinks s)) <> i) -> failures (log s i) <= failures (log d i) -> Track i s d
| t_leave : (phases d i = POpen \/ phases d i = PIdle) -> nlinks d = nlinks s -> failures (log s i) <= failures (log d i) ->
    (forall c, phases s i = PRead c -> failures (log d i) = S (failures (log s i))) -> Track i s d
| t_open : phases s i = POpen -> phases d i = PRead (nlinks s) -> nlinks d = S (nlinks s) -> l_call (links d (nlinks s)) = i -> log d i = log s i -> Track i s d
| t_close c t : phases s i = PRead c -> phases d i = PClose c t -> nlinks d = nlinks s -> log d i = log s i -> Track i s d.

Lemma rephase_cases (c : client string) i : rephase c i = POpen \/ rephase c i = PIdle.
Proof. unfold rephase. destruct (tst _); auto. Qed.
Lemma out_log s j o i : Inv s -> phases s j <> PIdle -> log (tell max s j (EOut j o)) i = if Nat.eqb i j then log s i ++ [o] else log s i.
Proof.
  intros I P. pose proof (live_call _ _ _ _ _ _ s j I P) as H. destruct (busy_attempt _ _ _ _ _ _ s j I P) as (n & T & _).
  unfold tell, cstep1. cbn [cl ClientModel.step]. unfold live. apply Nat.ltb_lt in H as HL. rewrite HL, T. cbv zeta.
  destruct (Nat.eqb_spec i j) as [->|Ne].
  - destruct o as [r|x]; [cbn [set_call calls]; now rewrite fupd_same|].
    destruct x; cbn [stream_retries]; try destruct (Z.leb max (n + 1)); cbn [set_call calls]; now rewrite fupd_same.
  - destruct o as [r|x]; [cbn [set_call calls]; now rewrite fupd_other|].
    destruct x; cbn [stream_retries]; try destruct (Z.leb max (n + 1)); cbn [set_call calls]; now rewrite fupd_other.
Qed.
Lemma idle_log (s : net) j e i : e = EWake j \/ e = ECancel j -> log (tell max s j e) i = log s i.
Proof.
  intros [->| ->]; unfold tell, cstep1; cbn [cl ClientModel.step]; (destruct (live (cl s) j); [|reflexivity]); destruct (tst (calls (cl s) j)); try reflexivity;
    cbn [set_call calls]; (destruct (Nat.eq_dec i j) as [->|Ne]; [now rewrite fupd_same|now rewrite fupd_other]).
Qed.
Lemma tell_phase (s : net) j e i : (i <> j /\ phases (tell max s j e) i = phases s i) \/ (i = j /\ (phases (tell max s j e) i = POpen \/ phases (tell max s j e) i = PIdle)).
Proof.
  unfold tell. cbn [phases]. destruct (Nat.eq_dec i j) as [->|Ne]; [right; split; [reflexivity|]; rewrite fupd_same; apply rephase_cases|left; split; [exact Ne|now rewrite fupd_other]].
Qed.
Lemma step_track s e i : Inv s -> (i < ncalls (cl s))%nat -> Track i s (step s e).
Proof.
  intros I Hi. assert (R : Track i s s) by (apply t_same; auto).
  assert (OUT : forall j o, phases s j <> PIdle -> (forall c, phases s j = PRead c -> exists x, o = AFail x) -> Track i s (tell max s j (EOut j o))).
  { intros j o P Q. pose proof (out_log s j o i I P) as L. destruct (tell_phase s j (EOut j o) i) as [[Ne Ph]|[-> Ph]].
    - apply Nat.eqb_neq in Ne. rewrite Ne in L. apply t_same; [exact Ph|now left|rewrite L; lia].
    - rewrite Nat.eqb_refl in L. apply t_leave; [exact Ph|reflexivity|rewrite L, failures_app; lia|]. intros c E. destruct (Q c E) as [x ->]. rewrite L, failures_app. cbn. lia. }
  assert (IDLE : forall j e, phases s j = PIdle -> e = EWake j \/ e = ECancel j -> Track i s (tell max s j e)).
  { intros j x P E. pose proof (idle_log s j x i E) as L. destruct (tell_phase s j x i) as [[Ne Ph]|[-> Ph]].
    - apply t_same; [exact Ph|now left|rewrite L; lia].
    - apply t_leave; [exact Ph|reflexivity|rewrite L; lia|]. intros c X. rewrite P in X. discriminate. }
  assert (LINK : forall c l, Track i s (set_link s c l)) by (intros c l; apply t_same; auto).
  assert (SE : forall c e, Track i s (server_event utf8 dump limit accepted_resp app s c e)) by (intros c x; unfold server_event; destruct (l_conn (links s c)); auto).
  destruct e as [r|j b|j x|c n|c|c|c|c n|c|c x|j b|j|j x|j|j]; cbn [AskModel.step].
  - unfold tell, cstep1. apply t_same; cbn [phases nlinks cl ClientModel.step set_call calls ncalls Nat.pred]; [now rewrite fupd_other by lia|now left|rewrite fupd_other by lia; lia].
  - destruct (phases s j) eqn:P; try exact R. destruct (Nat.eq_dec i j) as [->|Ne].
    + apply t_open; cbn [phases nlinks links cl]; rewrite ?fupd_same; auto.
    + apply t_same; cbn [phases nlinks links cl]; [now rewrite fupd_other|right; rewrite fupd_same; cbn [l_call]; auto|lia].
  - destruct (phases s j) eqn:P; try exact R. apply OUT; rewrite P; discriminate.
  - destruct (Nat.ltb c (nlinks s)); [|exact R]. destruct (l_conn (links s c)); [|exact R]. destruct (ceof _); auto.
  - destruct (Nat.ltb c (nlinks s)); auto.
  - destruct (Nat.ltb c (nlinks s)); auto.
  - destruct (Nat.ltb c (nlinks s)); [|exact R]. destruct (l_conn (links s c)); [|exact R]. destruct (cst _); auto.
  - destruct (_ && _); auto.
  - destruct (Nat.ltb c (nlinks s)); auto.
  - destruct (Nat.ltb c (nlinks s)); auto.
  - destruct (phases s j) as [|c|c t|] eqn:P; try exact R. assert (PN : phases s j <> PIdle) by (rewrite P; discriminate).
    assert (F : forall x, Track i s (tell max s j (EOut j (AFail x)))) by (intros x; apply OUT; [exact PN|eauto]).
    destruct (read_result _ _ _) as [[[|d0 d]|x]|]; auto. destruct (decode _ _) as [t|]; [|apply F]. destruct (Nat.eq_dec i j) as [->|Ne].
    + apply (t_close _ _ _ c t); cbn [set_phase phases nlinks cl]; rewrite ?fupd_same; auto.
    + apply t_same; cbn [set_phase phases nlinks cl]; [now rewrite fupd_other|now left|lia].
  - destruct (phases s j) eqn:P; try exact R. apply OUT; [rewrite P; discriminate|eauto].
  - destruct (phases s j) eqn:P; try exact R. apply OUT; [rewrite P; discriminate|]. rewrite P. discriminate.
  - destruct (phases s j) eqn:P; try (apply OUT; [rewrite P; discriminate|eauto]; fail). apply IDLE; auto.
  - destruct (phases s j) eqn:P; try exact R. apply IDLE; auto.
Qed.
Lemma step_call s e c : Inv s -> (c < nlinks s)%nat -> l_call (links (step s e) c) = l_call (links s c).
Proof.
  intros I H. assert (LINK : forall c' l, l_call l = l_call (links s c') -> l_call (links (set_link s c' l) c) = l_call (links s c)).
  { intros c' l E. cbn [set_link links]. destruct (Nat.eq_dec c c') as [->|Ne]; [now rewrite fupd_same|now rewrite fupd_other]. }
  assert (SE : forall c' e, l_call (links (server_event utf8 dump limit accepted_resp app s c' e) c) = l_call (links s c)).
  { intros c' x. unfold server_event. destruct (l_conn (links s c')); [|reflexivity]. now apply LINK. }
  destruct e as [r|j b|j x|c' n|c'|c'|c'|c' n|c'|c' x|j b|j|j x|j|j]; cbn [AskModel.step]; try reflexivity.
  - destruct (phases s j); try reflexivity. cbn [links]. now rewrite fupd_other by lia.
  - destruct (phases s j); reflexivity.
  - destruct (Nat.ltb c' (nlinks s)); [|reflexivity]. destruct (l_conn (links s c')); [|reflexivity]. destruct (ceof _); [reflexivity|]. now apply LINK.
  - destruct (Nat.ltb c' (nlinks s)); auto.
  - destruct (Nat.ltb c' (nlinks s)); auto.
  - destruct (Nat.ltb c' (nlinks s)); [|reflexivity]. destruct (l_conn (links s c')); [|reflexivity]. destruct (cst _); try reflexivity. now apply LINK.
  - destruct (_ && _); [|reflexivity]. now apply LINK.
  - destruct (Nat.ltb c' (nlinks s)); [|reflexivity]. now apply LINK.
  - destruct (Nat.ltb c' (nlinks s)); [|reflexivity]. now apply LINK.
  - destruct (phases s j) as [|c0|c0 t|]; try reflexivity. destruct (read_result _ _ _) as [[[|d0 d]|x]|]; try reflexivity. destruct (decode _ _); reflexivity.
  - destruct (phases s j); reflexivity.
  - destruct (phases s j); reflexivity.
  - destruct (phases s j); reflexivity.
  - destruct (phases s j); reflexivity.
Qed.
Lemma run_snoc es e : run (es ++ [e]) = step (run es) e.
Proof. unfold AskModel.run. now rewrite fold_left_app. Qed.
Lemma closed_more es e c : closed es c -> closed (es ++ [e]) c.
Proof. intros (a & b & i & t & -> & P). exists a, (b ++ [e]), i, t. split; [now rewrite app_assoc|exact P]. Qed.
Lemma closed_now es i c t : phases (run es) i = PClose c t -> closed es c.
Proof. intros P. exists es, [], i, t. split; [now rewrite app_nil_r|exact P]. Qed.
Lemma closed_last es e c : closed (es ++ [e]) c -> closed es c \/ exists i t, phases (run (es ++ [e])) i = PClose c t.
Proof.
  intros (a & b & i & t & E & P). destruct b as [|x b] using rev_ind; [rewrite app_nil_r in E; subst a; eauto|].
  clear IHb. rewrite app_assoc in E. apply app_inj_tail in E as [-> ->]. left. exists a, b, i, t. auto.
Qed.
Lemma opened_in (s : net) i c : In c (opened_by s i) <-> (c < nlinks s)%nat /\ l_call (links s c) = i.
Proof. unfold opened_by. rewrite filter_In, in_seq, Nat.eqb_eq. split; [intros [A B]; split; [lia|exact B]|intros [A B]; split; [lia|exact B]]. Qed.
Definition reading (p : phase) : nat := match p with PRead _ => 1 | _ => 0 end.
(** The connections of [i] that may still be open. *)
Definition Left (es : list event) (i : nat) : Prop :=
  exists L : list nat, List.length L <= failures (log (run es) i) + reading (phases (run es) i) /\ (forall c, phases (run es) i = PRead c -> In c L) /\
    forall c, In c (opened_by (run es) i) -> closed es c \/ In c L.
Lemma left_ok es i : Left es i.
Proof.
  induction es as [|e es IH] using rev_ind.
  { exists []. cbn. split; [lia|]. split; [discriminate|contradiction]. }
  pose proof (run_inv utf8 dump limit max accepted_resp app es) as I. pose proof (run_inv utf8 dump limit max accepted_resp app (es ++ [e])) as I'.
  destruct (le_lt_dec (ncalls (cl (run (es ++ [e])))) i) as [G|G].
  { exists []. cbn [List.length]. split; [lia|]. split; [intros c X; rewrite (proj1 (v_rest _ _ _ _ _ _ _ I' i G)) in X; discriminate|].
    intros c H. apply opened_in in H as [H H']. destruct (v_links _ _ _ _ _ _ _ I' c H) as [H'' _]. lia. }
  assert (OP : forall c, In c (opened_by (run (es ++ [e])) i) -> In c (opened_by (run es) i) \/ (c = nlinks (run es) /\ nlinks (run (es ++ [e])) <> nlinks (run es) /\ l_call (links (run (es ++ [e])) c) = i)).
  { intros c H. apply opened_in in H as [H H']. destruct (lt_dec c (nlinks (run es))) as [X|X].
    - left. apply opened_in. split; [exact X|]. rewrite run_snoc in H'. rewrite step_call in H' by auto. exact H'.
    - right. split; [|split; [lia|exact H']]. assert (nlinks (run (es ++ [e])) <= S (nlinks (run es)))%nat; [|lia].
      rewrite run_snoc. clear. set (s := run es). assert (SE : forall c x, nlinks (server_event utf8 dump limit accepted_resp app s c x) = nlinks s) by (intros c x; unfold server_event; destruct (l_conn (links s c)); reflexivity).
      destruct e as [r|j b|j x|c n|c|c|c|c n|c|c x|j b|j|j x|j|j]; cbn [AskModel.step]; try (cbn; lia).
      + destruct (phases s j); cbn; lia.
      + destruct (phases s j); cbn; lia.
      + destruct (Nat.ltb c (nlinks s)); [|lia]. destruct (l_conn (links s c)); [|lia]. destruct (ceof _); cbn; lia.
      + destruct (Nat.ltb c (nlinks s)); [rewrite SE|]; lia.
      + destruct (Nat.ltb c (nlinks s)); [rewrite SE|]; lia.
      + destruct (Nat.ltb c (nlinks s)); [|lia]. destruct (l_conn (links s c)); [|lia]. destruct (cst _); cbn; lia.
      + destruct (_ && _); cbn; lia.
      + destruct (Nat.ltb c (nlinks s)); cbn; lia.
      + destruct (Nat.ltb c (nlinks s)); cbn; lia.
      + destruct (phases s j) as [|c0|c0 t|]; try lia. destruct (read_result _ _ _) as [[[|d0 d]|x]|]; try (cbn; lia). destruct (decode _ _); cbn; lia.
      + destruct (phases s j); cbn; lia.
      + destruct (phases s j); cbn; lia.
      + destruct (phases s j); cbn; lia.
      + destruct (phases s j); cbn; lia. }
  destruct IH as (L & B & C & A).
  destruct (le_lt_dec (ncalls (cl (run es))) i) as [G'|G'].
  { (* the call has just begun *)
    exists []. assert (NO : forall c, ~ In c (opened_by (run es) i)) by (intros c H; apply opened_in in H as [H H']; destruct (v_links _ _ _ _ _ _ _ I c H) as [H'' _]; lia).
    rewrite run_snoc in *. set (s := run es) in *. pose proof (v_rest _ _ _ _ _ _ _ I i G') as [PI TI]. fold s in PI, TI.
    assert (ST : exists r, e = NStart r /\ i = ncalls (cl s)).
    { assert (CS : forall x, x <> EStart -> ncalls (ClientModel.step max stream_retries true (cl s) x) = ncalls (cl s)).
      { intros x X. destruct x as [|j o|j|j]; [congruence|..]; cbn [ClientModel.step]; destruct (live (cl s) j); auto; destruct (tst (calls (cl s) j)); auto. cbv zeta.
        destruct o as [r|x]; auto. destruct x; cbn [stream_retries]; try destruct (Z.leb max (n + 1)); auto. }
      assert (TL : forall j x, x <> EStart -> ncalls (cl (tell max s j x)) = ncalls (cl s)) by (intros j x X; now apply CS).
      assert (SE : forall c x, ncalls (cl (server_event utf8 dump limit accepted_resp app s c x)) = ncalls (cl s)) by (intros c x; unfold server_event; destruct (l_conn (links s c)); reflexivity).
      assert (Y : ncalls (cl (step s e)) = ncalls (cl s) \/ exists r, e = NStart r).
      { destruct e as [r|j b|j x|c n|c|c|c|c n|c|c x|j b|j|j x|j|j]; [right; eauto|left..]; cbn [AskModel.step].
        - destruct (phases s j); reflexivity.
        - destruct (phases s j); try reflexivity. now apply TL.
        - destruct (Nat.ltb c (nlinks s)); [|reflexivity]. destruct (l_conn (links s c)); [|reflexivity]. destruct (ceof _); reflexivity.
        - destruct (Nat.ltb c (nlinks s)); [apply SE|reflexivity].
        - destruct (Nat.ltb c (nlinks s)); [apply SE|reflexivity].
        - destruct (Nat.ltb c (nlinks s)); [|reflexivity]. destruct (l_conn (links s c)); [|reflexivity]. destruct (cst _); reflexivity.
        - destruct (_ && _); reflexivity.
        - destruct (Nat.ltb c (nlinks s)); reflexivity.
        - destruct (Nat.ltb c (nlinks s)); reflexivity.
        - destruct (phases s j) as [|c0|c0 t|]; try reflexivity. destruct (read_result _ _ _) as [[[|d0 d]|x]|]; try reflexivity; try (now apply TL). destruct (decode _ _); [reflexivity|now apply TL].
        - destruct (phases s j); try reflexivity. now apply TL.
        - destruct (phases s j); try reflexivity. now apply TL.
        - destruct (phases s j); now apply TL.
        - destruct (phases s j); try reflexivity. now apply TL. }
      destruct Y as [Y|[r ->]]; [lia|]. exists r. split; [reflexivity|].
      unfold AskModel.step, tell, cstep1 in G. cbn [cl ClientModel.step set_call ncalls] in G. lia. }
    destruct ST as (r & -> & E). split; [cbn; lia|]. split.
    - intros c X. exfalso. revert X. cbn [AskModel.step]. rewrite <- E. destruct (tell_phase (mkNet (cl s) (fupd (asked s) i r) (phases s) (nlinks s) (links s)) i EStart i) as [[Ne _]|[_ [Y|Y]]]; [congruence|..]; rewrite Y; discriminate.
    - intros c H. destruct (OP c H) as [H'|(_ & H' & _)]; [now apply NO in H'|]. now destruct H'. }
  pose proof (step_track (run es) e i I G') as T. rewrite <- run_snoc in T.
  assert (KEEP : forall L', (forall c, closed es c \/ In c L -> closed (es ++ [e]) c \/ In c L') -> nlinks (run (es ++ [e])) = nlinks (run es) \/ l_call (links (run (es ++ [e])) (nlinks (run es))) <> i ->
     forall c, In c (opened_by (run (es ++ [e])) i) -> closed (es ++ [e]) c \/ In c L').
  { intros L' X Y c H. destruct (OP c H) as [H'|(-> & N1 & N2)]; [apply X, A; exact H'|]. destruct Y; contradiction. }
  destruct T as [P N F|P N F R|P P' N K F|c t P P' N F].
  - exists L. rewrite P. split; [lia|]. split; [exact C|]. apply KEEP; [intros c [X|X]; [left; now apply closed_more|now right]|tauto].
  - exists L. split; [|split; [intros c X; destruct P as [P|P]; rewrite P in X; discriminate|apply KEEP; [intros c [X|X]; [left; now apply closed_more|now right]|auto]]].
    destruct (phases (run es) i) eqn:Q; cbn [reading] in B; try lia. rewrite (R c eq_refl). lia.
  - exists (nlinks (run es) :: L). rewrite P', F. rewrite P in B. cbn [reading List.length] in *. split; [lia|]. split; [intros c [= <-]; now left|].
    intros c H. destruct (OP c H) as [H'|(-> & _)]; [|right; now left]. destruct (A c H') as [X|X]; [left; now apply closed_more|right; now right].
  - exists (remove Nat.eq_dec c L). rewrite P', F. rewrite P in B. cbn [reading] in *. pose proof (remove_length_lt Nat.eq_dec L c (C c P)). split; [lia|]. split; [discriminate|].
    apply KEEP; [|auto]. intros d [X|X]; [left; now apply closed_more|]. destruct (Nat.eq_dec d c) as [->|Ne]; [left; eapply closed_now; exact P'|]. right. now apply in_in_remove.
Qed.
(** ** Connections that are never closed *)
Lemma step_phase s e i : phases (step s e) i = phases s i \/ phases (step s e) i = POpen \/ phases (step s e) i = PIdle \/
  (phases (step s e) i = PRead (nlinks s) /\ nlinks (step s e) = S (nlinks s)) \/ exists c t, phases s i = PRead c /\ phases (step s e) i = PClose c t.
Proof.
  assert (TELL : forall (s' : net) j x, phases s' = phases s -> phases (tell max s' j x) i = phases s i \/ phases (tell max s' j x) i = POpen \/ phases (tell max s' j x) i = PIdle).
  { intros s' j x E. destruct (tell_phase s' j x i) as [[_ H]|[_ H]]; [left; now rewrite H, E|tauto]. }
  assert (T : forall j x, phases (tell max s j x) i = phases s i \/ phases (tell max s j x) i = POpen \/ phases (tell max s j x) i = PIdle \/
    (phases (tell max s j x) i = PRead (nlinks s) /\ nlinks (tell max s j x) = S (nlinks s)) \/ exists c t, phases s i = PRead c /\ phases (tell max s j x) i = PClose c t).
  { intros j x. destruct (TELL s j x eq_refl) as [H|[H|H]]; auto. }
  assert (SE : forall c x, phases (server_event utf8 dump limit accepted_resp app s c x) = phases s) by (intros c x; unfold server_event; destruct (l_conn (links s c)); reflexivity).
  destruct e as [r|j b|j x|c n|c|c|c|c n|c|c x|j b|j|j x|j|j]; cbn [AskModel.step].
  - destruct (TELL (mkNet (cl s) (fupd (asked s) (ncalls (cl s)) r) (phases s) (nlinks s) (links s)) (ncalls (cl s)) EStart eq_refl) as [H|[H|H]]; auto.
  - destruct (phases s j) eqn:P; auto. cbn [phases nlinks]. destruct (Nat.eq_dec i j) as [->|Ne]; [rewrite fupd_same; right; right; right; left; auto|rewrite fupd_other; auto].
  - destruct (phases s j); auto.
  - left. destruct (Nat.ltb c (nlinks s)); [|reflexivity]. destruct (l_conn (links s c)); [|reflexivity]. destruct (ceof _); reflexivity.
  - left. destruct (Nat.ltb c (nlinks s)); [now rewrite SE|reflexivity].
  - left. destruct (Nat.ltb c (nlinks s)); [now rewrite SE|reflexivity].
  - left. destruct (Nat.ltb c (nlinks s)); [|reflexivity]. destruct (l_conn (links s c)); [|reflexivity]. destruct (cst _); reflexivity.
  - left. destruct (_ && _); reflexivity.
  - left. destruct (Nat.ltb c (nlinks s)); reflexivity.
  - left. destruct (Nat.ltb c (nlinks s)); reflexivity.
  - destruct (phases s j) as [|c|c t|] eqn:P; auto. destruct (read_result _ _ _) as [[[|d0 d]|x]|]; auto. destruct (decode _ _) as [t|]; auto.
    cbn [set_phase phases]. destruct (Nat.eq_dec i j) as [->|Ne]; [rewrite fupd_same; right; right; right; right; eauto|rewrite fupd_other; auto].
  - destruct (phases s j); auto.
  - destruct (phases s j); auto.
  - destruct (phases s j); auto.
  - destruct (phases s j); auto.
Qed.
Lemma step_nlinks s e : (nlinks s <= nlinks (step s e))%nat.
Proof.
  assert (SE : forall c x, nlinks (server_event utf8 dump limit accepted_resp app s c x) = nlinks s) by (intros c x; unfold server_event; destruct (l_conn (links s c)); reflexivity).
  destruct e as [r|j b|j x|c n|c|c|c|c n|c|c x|j b|j|j x|j|j]; cbn [AskModel.step]; try (cbn; lia).
  - destruct (phases s j); cbn; lia.
  - destruct (phases s j); cbn; lia.
  - destruct (Nat.ltb c (nlinks s)); [|lia]. destruct (l_conn (links s c)); [|lia]. destruct (ceof _); cbn; lia.
  - destruct (Nat.ltb c (nlinks s)); [rewrite SE|]; lia.
  - destruct (Nat.ltb c (nlinks s)); [rewrite SE|]; lia.
  - destruct (Nat.ltb c (nlinks s)); [|lia]. destruct (l_conn (links s c)); [|lia]. destruct (cst _); cbn; lia.
  - destruct (_ && _); cbn; lia.
  - destruct (Nat.ltb c (nlinks s)); cbn; lia.
  - destruct (Nat.ltb c (nlinks s)); cbn; lia.
  - destruct (phases s j) as [|c0|c0 t|]; try lia. destruct (read_result _ _ _) as [[[|d0 d]|x]|]; try (cbn; lia). destruct (decode _ _); cbn; lia.
  - destruct (phases s j); cbn; lia.
  - destruct (phases s j); cbn; lia.
  - destruct (phases s j); cbn; lia.
  - destruct (phases s j); cbn; lia.
Qed.
Lemma held_by s i c : Inv s -> (phases s i = PRead c \/ exists t, phases s i = PClose c t) -> (c < nlinks s)%nat /\ l_call (links s c) = i.
Proof.
  intros I P. assert (PN : phases s i <> PIdle) by (destruct P as [P|[t P]]; rewrite P; discriminate). destruct (busy_attempt _ _ _ _ _ _ s i I PN) as (n & _ & _ & _ & M).
  destruct P as [P|[t P]]; rewrite P in M; [exact M|exact (proj1 M)].
Qed.
Lemma closed_known es c : closed es c -> (c < nlinks (run es))%nat.
Proof.
  induction es as [|e es IH] using rev_ind; intros H.
  - destruct H as (a & b & i & t & E & P). symmetry in E. apply app_eq_nil in E as [-> ->]. discriminate P.
  - destruct (closed_last _ _ _ H) as [H'|(i & t & P)]; [rewrite run_snoc; pose proof (step_nlinks (run es) e); specialize (IH H'); lia|].
    apply (held_by _ i c (run_inv utf8 dump limit max accepted_resp app (es ++ [e]))). eauto.
Qed.
Lemma read_not_closed es : forall i c, phases (run es) i = PRead c -> ~ closed es c.
Proof.
  induction es as [|e es IH] using rev_ind; intros i c P H; [discriminate P|].
  pose proof (run_inv utf8 dump limit max accepted_resp app (es ++ [e])) as I'. destruct (held_by _ i c I' (or_introl P)) as [_ Ci].
  destruct (closed_last _ _ _ H) as [H'|(j & t & P')].
  - rewrite run_snoc in P. destruct (step_phase (run es) e i) as [E|[E|[E|[[E N]|(d & t & E & E')]]]]; rewrite ?P in *; try discriminate.
    + symmetry in E. exact (IH i c E H').
    + injection E as ->. apply closed_known in H'. lia.
  - destruct (held_by _ j c I') as [_ Cj]; [eauto|]. assert (i = j) by congruence. subst j. congruence.
Qed.
(** Connection [c] is in nobody's hands. *)
Definition Lost (s : net) (c : nat) : Prop := (c < nlinks s)%nat /\ forall i, phases s i <> PRead c /\ forall t, phases s i <> PClose c t.
Lemma lost_step s e c : Lost s c -> Lost (step s e) c.
Proof.
  intros [N L]. split; [pose proof (step_nlinks s e); lia|]. intros i. destruct (L i) as [L1 L2].
  destruct (step_phase s e i) as [E|[E|[E|[[E M]|(d & t & E & E')]]]]; rewrite ?E; split; try discriminate; auto.
  - intros [= H]. lia.
  - rewrite E'. discriminate.
  - rewrite E'. intros u [= <- <-]. contradiction.
Qed.
Lemma lost_never es : forall c es', Lost (run es) c -> ~ closed es c -> ~ closed (es ++ es') c.
Proof.
  intros c es'. induction es' as [|e es' IH] using rev_ind; intros L N; [now rewrite app_nil_r|].
  rewrite app_assoc. intros H. destruct (closed_last _ _ _ H) as [H'|(i & t & P)]; [exact (IH L N H')|].
  assert (G : Lost (run ((es ++ es') ++ [e])) c).
  { clear -L. rewrite run_snoc. apply lost_step. unfold AskModel.run. rewrite fold_left_app. fold (run es). revert L. generalize (run es). induction es' as [|x l IH]; intros s L; [exact L|]. cbn [fold_left]. apply IH. now apply lost_step. }
  destruct G as [_ G]. destruct (G i) as [_ G']. exact (G' t P).
Qed.
Lemma given_up es i c e : phases (run es) i = PRead c -> e = NTimeout i \/ e = NCancel i -> forall es', ~ closed ((es ++ [e]) ++ es') c.
Proof.
  intros P E es'. pose proof (run_inv utf8 dump limit max accepted_resp app es) as I. destruct (held_by _ i c I (or_introl P)) as [N C].
  apply lost_never.
  - rewrite run_snoc. assert (T : exists x, step (run es) e = tell max (run es) i (EOut i (AFail x))) by (destruct E as [->| ->]; cbn [AskModel.step]; rewrite P; eauto).
    destruct T as [x T]. split; [pose proof (step_nlinks (run es) e); lia|]. intros j. rewrite T. destruct (tell_phase (run es) i (EOut i (AFail x)) j) as [[Ne H]|[_ [H|H]]]; rewrite H; try (split; discriminate).
    split; [intros H'|intros t H']; destruct (held_by _ j c I) as [_ Cj]; eauto; congruence.
  - intros H. destruct (closed_last _ _ _ H) as [H'|(j & t & P')]; [exact (read_not_closed es i c P H')|].
    rewrite run_snoc in P'. assert (T : exists x, step (run es) e = tell max (run es) i (EOut i (AFail x))) by (destruct E as [->| ->]; cbn [AskModel.step]; rewrite P; eauto).
    destruct T as [x T]. rewrite T in P'. destruct (tell_phase (run es) i (EOut i (AFail x)) j) as [[Ne H']|[_ [H'|H']]]; rewrite H' in P'; try discriminate.
    destruct (held_by _ j c I) as [_ Cj]; [eauto|]. congruence.
Qed.
End Leak.
