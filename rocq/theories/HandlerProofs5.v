(** Theorems about runs from start-up, in terms of the specification only. *)
From Coq Require Import List ZArith NArith Bool String Lia Permutation.
From Coq Require Import ZifyBool ZifyNat ZifyN.
From Verif Require Import Base PermTac PQueueModel PQueueSpec PQueueProofs PQueueProofs2 PendingModel PendingSpec
  PendingProofs HandlerModel HandlerSpec HandlerProofs HandlerProofs2 HandlerProofs3 HandlerProofs4.
Import ListNotations.
Local Open Scope Z_scope.

Section Proofs.
Context {D M : Type}.
Variable no_meta : M.
Variables dto_ok truthy : D -> bool.
Variable max_retries : Z.
Notation item := (item D M). Notation hout := (hout D M). Notation hev := (hev D M). Notation hstate := (hstate D M).
Notation tstate := (tstate D M). Notation pentry := (pentry D M). Notation eentry := (eentry D M).
Notation hstep := (@hstep D M no_meta dto_ok truthy max_retries).
Notation hrun := (@hrun D M no_meta dto_ok truthy max_retries).
Notation hinv := (@hinv D M no_meta).
Implicit Types (s : hstate) (o : list hout).

Lemma NoDup_map_inj {A B} (f : A -> B) (l : list A) x y : NoDup (map f l) -> In x l -> In y l -> f x = f y -> x = y.
Proof.
  induction l as [|z l IH]; cbn [map]; intros ND; [intros []|]. inversion ND as [|? ? Hn Hd]; subst.
  intros [->|Hx] [->|Hy] E; auto; exfalso; apply Hn; [rewrite E|rewrite <- E]; now apply in_map.
Qed.

Lemma hrun_app evs1 evs2 s : hrun s (evs1 ++ evs2) =
  let (s1, o1) := hrun s evs1 in let (s2, o2) := hrun s1 evs2 in (s2, o1 ++ o2).
Proof.
  revert s. induction evs1 as [|ev r IH]; intros s; cbn [app HandlerModel.hrun].
  - destruct (hrun s evs2). reflexivity.
  - destruct (hstep s ev) as [s1 o1]. rewrite IH. destruct (hrun s1 r) as [s2 o2]. destruct (hrun s2 evs2) as [s3 o3].
    now rewrite app_assoc.
Qed.

Lemma run_inv q0 evs s o : preachable no_meta q0 -> usable q0 -> hrun (setup q0) evs = (s, o) -> closed s = 0%nat -> hinv s.
Proof. intros R U E C. destruct (run_facts no_meta dto_ok truthy max_retries q0 evs s o R U E C) as [H _]. exact H. Qed.

Lemma run_contents s lp le : hinv s -> holds (hq s) lp le -> lp = pc (hq s) /\ le = ec (hq s).
Proof. intros H. apply holds_unique; apply H. Qed.

(** ** Attempts *)
Theorem attempts q0 lp0 le0 evs s o k : preachable no_meta q0 -> usable q0 -> holds q0 lp0 le0 ->
  hrun (setup q0) evs = (s, o) -> closed s = 0%nat ->
  NoDup (map key_of (accepted o ++ items_p lp0 ++ items_e le0)) -> In k (map key_of (accepted o)) ->
  exists lp le, holds (hq s) lp le /\
    0 <= calls k 0 o <= Z.max 1 max_retries /\
    (forall x, In x (finished o) -> key_of x = k -> returns k true 0 o = 1 /\ calls k 0 o = returns k false 0 o + 1) /\
    (forall e, In (k, e) lp -> pe_retries e = calls k 0 o /\ returns k false 0 o = calls k 0 o /\ returns k true 0 o = 0 /\
       calls k 0 o < Z.max 1 max_retries) /\
    (forall e, In (k, e) le -> calls k 0 o = Z.max 1 max_retries /\ returns k false 0 o = Z.max 1 max_retries /\
       ee_reason e = "Max retries reached."%string /\ In (k, ee_data e, ee_meta e) (accepted o)).
Proof.
  intros R U Hh E C ND Ik. destruct (holds_unique q0 lp0 le0 (preachable_inv no_meta q0 R) U Hh) as [-> ->].
  destruct (run_facts no_meta dto_ok truthy max_retries q0 evs s o R U E C) as [H [Ms [W I]]].
  rewrite <- I in ND.
  assert (No : no_item k (mkA [] (pc q0) None (ec q0))).
  { apply no_item_keys. rewrite map_app in ND. intros X. eapply NoDup_app_disj; eauto. }
  destruct (micros_at dto_ok truthy max_retries k _ _ _ 0 0 0 Ms W ND) as [At Fi]; auto.
  { apply at_key_none; auto. unfold Max. lia. }
  exists (pc (hq s)), (ec (hq s)). split; [now apply (run_holds no_meta)|].
  destruct At as [A1 A2 A3 A4 A5]. cbn [abs abs_with a_push a_pend a_in a_err] in *. unfold Max in *.
  split; [exact A5|]. split; [|split].
  - intros x Hx Kx. apply Fi. rewrite <- Kx. now apply in_map.
  - intros e He. rewrite Forall_forall in A2. specialize (A2 _ He eq_refl). cbn [snd] in A2. unfold at_pend, Max in A2. lia.
  - intros e He. rewrite Forall_forall in A4. destruct (A4 _ He eq_refl) as [B1 [B2 [B3 B4]]]. cbn [snd] in *.
    unfold Max in *. ands.
    assert (Ek : ee_key e = k) by (pose proof (pi_ek _ (hi_q _ _ H)) as X; rewrite Forall_forall in X; apply (X _ He)).
    assert (X : In (item_e e) (accepted o ++ items_p (pc q0) ++ items_e (ec q0))).
    { rewrite <- I. eapply Permutation_in; [symmetry; apply (micros_conserve dto_ok max_retries _ _ _ Ms W)|].
      apply in_app_iff. left. unfold a_items, items_e. rewrite !in_app_iff. cbn [abs abs_with a_err]. right. right. right.
      apply in_map_iff. exists (k, e). auto. }
    apply in_app_iff in X as [X|X]; [unfold item_e in X; now rewrite Ek in X|].
    exfalso. apply no_item_keys in No. apply No. rewrite I. apply in_map_iff. exists (item_e e). auto.
Qed.

(** A request whose attempts are used up is in the error queue (or on its way there, or removed by an operator). *)
Theorem exhausted q0 lp0 le0 evs s o k : preachable no_meta q0 -> usable q0 -> holds q0 lp0 le0 ->
  hrun (setup q0) evs = (s, o) -> closed s = 0%nat ->
  forallb (fun e => negb (failure e)) evs = true ->
  Forall (fun x => dto_ok (data_of x) = true) (accepted o ++ items_p lp0 ++ items_e le0) ->
  NoDup (map key_of (accepted o ++ items_p lp0 ++ items_e le0)) -> In k (map key_of (accepted o)) ->
  returns k false 0 o = Z.max 1 max_retries ->
  In k (map key_of (in_process s)) \/ In k (map key_of (removed o)) \/
  exists lp le e, holds (hq s) lp le /\ In (k, e) le.
Proof.
  intros R U Hh E C F Ok ND Ik Rf.
  destruct (attempts q0 lp0 le0 evs s o k R U Hh E C ND Ik) as [lp [le [Hl [B1 [B2 [B3 B4]]]]]].
  destruct (exactly_one_place no_meta dto_ok truthy max_retries q0 lp0 le0 evs s o R U Hh E C F Ok ND)
    as [lp1 [le1 [Hl1 [P _]]]].
  pose proof (run_inv q0 evs s o R U E C) as H.
  destruct (run_contents s lp le H Hl) as [-> ->]. destruct (run_contents s lp1 le1 H Hl1) as [-> ->].
  assert (X : In k (map key_of (pushing s ++ items_p (pc (hq s)) ++ in_process s ++ items_e (ec (hq s)) ++ finished o ++ removed o))).
  { eapply Permutation_in; [apply Permutation_map; exact P|]. rewrite map_app. apply in_app_iff. auto. }
  rewrite !map_app, !in_app_iff in X. destruct X as [X|[X|[X|[X|[X|X]]]]]; auto.
  - (* a request still to be pushed has not been called *)
    exfalso.
    destruct (run_facts no_meta dto_ok truthy max_retries q0 evs s o R U E C) as [_ [Ms [W I]]].
    destruct (holds_unique q0 lp0 le0 (preachable_inv no_meta q0 R) U Hh) as [-> ->]. rewrite <- I in ND.
    assert (No : no_item k (mkA [] (pc q0) None (ec q0))).
    { apply no_item_keys. rewrite map_app in ND. intros Y. eapply NoDup_app_disj; eauto. }
    destruct (micros_at dto_ok truthy max_retries k _ _ _ 0 0 0 Ms W ND) as [[A1 _ _ _ _] _]; auto.
    { apply at_key_none; auto. unfold Max. lia. }
    apply in_map_iff in X as [x [Kx Hx]]. cbn [abs abs_with a_push] in A1. rewrite Forall_forall in A1.
    destruct (A1 x Hx Kx) as [? [Y ?]]. lia.
  - exfalso. rewrite items_p_keys in X by apply H. apply in_map_iff in X as [[k' e] [Ek He]]. cbn in Ek. subst k'.
    destruct (B3 e He) as [? [? [? ?]]]. lia.
  - right. right. exists (pc (hq s)), (ec (hq s)). rewrite items_e_keys in X by apply H.
    apply in_map_iff in X as [[k' e] [Ek He]]. cbn in Ek. subst k'. exists e. auto.
  - exfalso. apply in_map_iff in X as [x [Kx Hx]]. destruct (B2 x Hx Kx) as [? ?]. lia.
Qed.

(** Requests that were pending at start-up keep their count. *)
Theorem attempts_kept q0 lp0 le0 evs s o k e0 : preachable no_meta q0 -> usable q0 -> holds q0 lp0 le0 ->
  hrun (setup q0) evs = (s, o) -> closed s = 0%nat ->
  NoDup (map key_of (accepted o ++ items_p lp0 ++ items_e le0)) -> In (k, e0) lp0 ->
  0 <= pe_retries e0 < Z.max 1 max_retries ->
  exists lp le, holds (hq s) lp le /\
    calls k (pe_retries e0) o <= Z.max 1 max_retries /\
    (forall e, In (k, e) lp -> pe_retries e = calls k (pe_retries e0) o) /\
    (forall e, In (k, e) le -> calls k (pe_retries e0) o = Z.max 1 max_retries /\ ee_data e = pe_data e0 /\ ee_meta e = pe_meta e0).
Proof.
  intros R U Hh E C ND Ik Rt. destruct (holds_unique q0 lp0 le0 (preachable_inv no_meta q0 R) U Hh) as [-> ->].
  destruct (run_facts no_meta dto_ok truthy max_retries q0 evs s o R U E C) as [H [Ms [W I]]].
  rewrite <- I in ND. set (r := pe_retries e0) in *.
  assert (Ke : pe_key e0 = k) by (pose proof (wf_p _ W) as X; cbn [a_pend] in X; rewrite Forall_forall in X; apply (X _ Ik)).
  assert (Kn : ~ In k (map key_of (accepted o)) /\ forall x, In x (items_p (pc q0) ++ items_e (ec q0)) -> key_of x = k -> x = item_p e0).
  { rewrite map_app in ND. assert (In k (map key_of (items_p (pc q0) ++ items_e (ec q0)))).
    { apply in_map_iff. exists (item_p e0). split; [exact Ke|]. apply in_app_iff. left. apply in_map_iff. exists (k, e0). auto. }
    split; [intros X; eapply NoDup_app_disj; [exact ND|exact X|rewrite I; auto]|].
    assert (ND2 : NoDup (map key_of (items_p (pc q0) ++ items_e (ec q0)))) by (rewrite <- I; eapply NoDup_app_remove_l; eauto).
    intros x Hx Kx. eapply (NoDup_map_inj key_of); eauto.
    - apply in_app_iff. left. apply in_map_iff. exists (k, e0). auto.
    - rewrite Kx. symmetry. exact Ke. }
  destruct Kn as [Kn Ku].
  destruct (micros_at dto_ok truthy max_retries k _ _ _ r r 0 Ms W ND) as [At Fi]; [|tauto|].
  { constructor; cbn [a_push a_pend a_in a_err]; auto.
    - apply Forall_forall. intros [k' e'] He Ek. cbn [fst snd] in *. subst k'.
      assert (e' = e0).
      { pose proof (wf_np _ W) as Nd. cbn [a_pend] in Nd.
        assert ((k, e') = (k, e0)) by (eapply (NoDup_map_inj fst); eauto). congruence. }
      subst e'. unfold at_pend, Max. lia.
    - apply Forall_forall. intros [k' e'] He Ek. cbn [fst snd] in *. subst k'. exfalso.
      rewrite I, map_app in ND. apply NoDup_app_remove_l in ND. rewrite map_app in ND.
      eapply NoDup_app_disj; [exact ND| |].
      + apply in_map_iff. exists (item_p e0). split; [exact Ke|]. apply in_map_iff. exists (k, e0). auto.
      + apply in_map_iff. exists (item_e e'). split; [|apply in_map_iff; exists (k, e'); auto].
        pose proof (wf_e _ W) as X. cbn [a_err] in X. rewrite Forall_forall in X. apply (X _ He).
    - unfold Max. lia. }
  exists (pc (hq s)), (ec (hq s)). split; [now apply (run_holds no_meta)|].
  destruct At as [A1 A2 A3 A4 A5]. cbn [abs abs_with a_push a_pend a_in a_err] in *. unfold Max in *.
  split; [lia|]. split.
  - intros e He. rewrite Forall_forall in A2. specialize (A2 _ He eq_refl). cbn [snd] in A2. unfold at_pend in A2. lia.
  - intros e He. rewrite Forall_forall in A4. destruct (A4 _ He eq_refl) as [B1 _]. unfold Max in B1. split; [exact B1|].
    assert (Ek : ee_key e = k) by (pose proof (pi_ek _ (hi_q _ _ H)) as X; rewrite Forall_forall in X; apply (X _ He)).
    assert (X : In (item_e e) (accepted o ++ items_p (pc q0) ++ items_e (ec q0))).
    { rewrite <- I. eapply Permutation_in; [symmetry; apply (micros_conserve dto_ok max_retries _ _ _ Ms W)|].
      apply in_app_iff. left. unfold a_items, items_e. rewrite !in_app_iff. cbn [abs abs_with a_err]. right. right. right.
      apply in_map_iff. exists (k, e). auto. }
    apply in_app_iff in X as [X|X].
    + exfalso. apply Kn. apply in_map_iff. exists (item_e e). auto.
    + apply Ku in X; [|exact Ek]. unfold item_e, item_p in X. injection X as _ -> ->. auto.
Qed.

(** ** Order *)
Theorem order q0 lp0 le0 evs s o : preachable no_meta q0 -> usable q0 -> holds q0 lp0 le0 ->
  hrun (setup q0) evs = (s, o) -> closed s = 0%nat ->
  Forall (fun x => dto_ok (data_of x) = true) (accepted o ++ items_p lp0 ++ items_e le0) ->
  exists lp le, holds (hq s) lp le /\ map fst lp0 ++ queued o = started o ++ map fst lp.
Proof.
  intros R U Hh E C Ok. destruct (holds_unique q0 lp0 le0 (preachable_inv no_meta q0 R) U Hh) as [-> ->].
  destruct (run_facts no_meta dto_ok truthy max_retries q0 evs s o R U E C) as [H [Ms [W I]]].
  exists (pc (hq s)), (ec (hq s)). split; [now apply (run_holds no_meta)|].
  rewrite <- I in Ok. apply (micros_order dto_ok max_retries _ _ _ Ms W Ok).
Qed.

Theorem one_task q0 evs s o i j t t' : preachable no_meta q0 -> usable q0 ->
  hrun (setup q0) evs = (s, o) -> closed s = 0%nat ->
  nth_error (tasks s) i = Some t -> live t -> nth_error (tasks s) j = Some t' -> live t' -> i = j.
Proof.
  intros R U E C N1 L1 N2 L2. pose proof (run_inv q0 evs s o R U E C) as H.
  pose proof (hi_live _ _ H _ _ N1 L1). pose proof (hi_live _ _ H _ _ N2 L2). congruence.
Qed.

(** What is started is what was accepted (or queued at start-up), with its data and metadata. *)
Theorem started_data q0 lp0 le0 evs s o k d m r : preachable no_meta q0 -> usable q0 -> holds q0 lp0 le0 ->
  hrun (setup q0) evs = (s, o) -> closed s = 0%nat -> In (HStarted k d m r) o ->
  In (k, d, m) (accepted o ++ items_p lp0 ++ items_e le0).
Proof.
  intros R U Hh E C Hi. destruct (holds_unique q0 lp0 le0 (preachable_inv no_meta q0 R) U Hh) as [-> ->].
  destruct (run_facts no_meta dto_ok truthy max_retries q0 evs s o R U E C) as [H [Ms [W I]]].
  rewrite <- I. eapply micros_started; eauto.
Qed.

(** ** Losses *)
Theorem loses_only_failed s ev s' o x : hinv s -> hstep s ev = (s', o) -> closed s' = closed s ->
  In x (lost o) -> In x (in_process s) \/ In x (pushing s) \/ dto_ok (data_of x) = false.
Proof.
  intros H E C Hx. destruct (failure ev) eqn:F.
  - destruct ev; try discriminate F; cbn [HandlerModel.hstep] in E.
    + destruct (nth_error (pushing s) i) as [y|] eqn:N; injection E as <- <-; [|destruct Hx].
      destruct Hx as [<-|[]]. right. left. eapply nth_error_In; eauto.
    + assert (G : forall e t l s1 o1, nth_error (tasks s) i = Some t -> In (item_p e) (held t) ->
        finish_task s i = (s1, o1) -> In x (lost (HLost (item_p e) :: l ++ o1)) -> lost l = [] -> In x (in_process s)).
      { intros e t l s1 o1 N Hi Ef Hl Ll. cbn [lost flat_map app] in Hl. fold (lost (l ++ o1)) in Hl. rewrite lost_app, Ll in Hl.
        rewrite (lost_finish _ _ _ _ Ef) in Hl.
        destruct Hl as [<-|[]]. unfold in_process. apply in_flat_map. exists t. split; auto. eapply nth_error_In; eauto. }
      destruct r; try discriminate F. unfold task_step in E. destruct (nth_error (tasks s) i) as [t|] eqn:N; [|injection E as <- <-; destruct Hx].
      destruct t as [|e|e|e b|].
      * right. right. pose proof (lost_loop dto_ok _ _ _ _ E) as L. rewrite Forall_forall in L. apply (L _ Hx).
      * destruct (finish_task s i) as [s1 o1] eqn:Ef. injection E as <- <-. left. eapply (G e _ [HExn "user"]); eauto. now left.
      * destruct (finish_task s i) as [s1 o1] eqn:Ef. injection E as <- <-. left. eapply (G e _ [HExn "user"]); eauto. now left.
      * destruct (finish_task s i) as [s1 o1] eqn:Ef. injection E as <- <-. left. eapply (G e _ [HExn "user"]); eauto. now left.
      * injection E as <- <-. destruct Hx.
    + left. assert (G : forall e t s1 o1, nth_error (tasks s) i = Some t -> In (item_p e) (held t) ->
        finish_task s i = (s1, o1) -> In x (lost (HLost (item_p e) :: o1)) -> In x (in_process s)).
      { intros e t s1 o1 N Hi Ef Hl. cbn [lost flat_map app] in Hl. fold (lost o1) in Hl. rewrite (lost_finish _ _ _ _ Ef) in Hl.
        destruct Hl as [<-|[]]. unfold in_process. apply in_flat_map. exists t. split; auto. eapply nth_error_In; eauto. }
      unfold cancel_task in E. destruct (nth_error (tasks s) i) as [t|] eqn:N; [|injection E as <- <-; destruct Hx].
      destruct t as [|e|e|e b|]; try (injection E as <- <-; destruct Hx; fail);
        (destruct (finish_task s i) as [s1 o1] eqn:Ef; injection E as <- <-; eapply (G e); eauto; now left).
  - right. right. pose proof (hstep_lost no_meta dto_ok truthy max_retries s ev s' o H E F) as L.
    rewrite Forall_forall in L. apply (L _ Hx).
Qed.

(** ** Closing *)
Theorem closes_once q0 lp0 le0 evs s o ev s' o' ps : preachable no_meta q0 -> usable q0 -> holds q0 lp0 le0 ->
  hrun (setup q0) evs = (s, o) -> closed s = 0%nat -> hstep s ev = (s', o') -> closed s' <> 0%nat -> ps <> 0 ->
  closed s' = 1%nat /\ in_process s' = [] /\
  exists lp le, preachable no_meta (restarted ps s') /\ holds (restarted ps s') lp le /\
    Permutation (accepted (o ++ o') ++ items_p lp0 ++ items_e le0)
      (pushing s' ++ items_p lp ++ items_e le ++ finished (o ++ o') ++ removed (o ++ o') ++ dropped (o ++ o') ++ lost (o ++ o')).
Proof.
  intros R U Hh E C E1 C1 Hp.
  destruct (conservation no_meta dto_ok truthy max_retries q0 lp0 le0 evs s o R U Hh E C) as [lp [le [Hl P]]].
  pose proof (run_inv q0 evs s o R U E C) as H. destruct (run_contents s lp le H Hl) as [-> ->].
  destruct (close_step no_meta dto_ok truthy max_retries s ev s' o' H E1) as [q [Q1 [Q2 [Q3 [Q4 [Q5 [Q6 Q7]]]]]]]; [congruence|].
  split; [congruence|]. split; [auto|].
  destruct (restart_thm no_meta q (pc q) (ec q) ps Q2 Q3 (holds_contents q Q1 Q3) Hp) as [q' [lp' [le' [A [B [C' [Pp Pe]]]]]]].
  unfold pq_reopen in A. rewrite Q4 in A. cbn [bind] in A. injection A as <-. exists lp', le'. split; [auto|]. split; [auto|].
  rewrite !accepted_app, !finished_app, !removed_app, !dropped_app, !lost_app.
  assert (P2 : Permutation (items_p (pc q)) (items_p lp')) by (apply Permutation_map; auto).
  assert (P3 : Permutation (items_e (ec q)) (items_e le')) by (apply Permutation_map; auto).
  rewrite (abs_items no_meta) in Q7 by auto. rewrite gone_parts in Q7.
  transitivity (accepted o' ++ (accepted o ++ items_p lp0 ++ items_e le0)); [perm|]. rewrite P.
  transitivity ((accepted o' ++ pushing s ++ items_p (pc (hq s)) ++ in_process s ++ items_e (ec (hq s))) ++
    finished o ++ removed o ++ dropped o ++ lost o); [perm|]. rewrite Q7, P2, P3. perm.
Qed.

End Proofs.
