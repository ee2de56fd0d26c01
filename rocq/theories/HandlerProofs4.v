(** Wake-ups, operator commands, attempts and shutting down. *)
From Coq Require Import List ZArith NArith Bool String Lia Permutation.
From Coq Require Import ZifyBool ZifyNat ZifyN.
From Verif Require Import Base PermTac PQueueModel PQueueSpec PQueueProofs PQueueProofs2 PendingModel PendingSpec
  PendingProofs HandlerModel HandlerSpec HandlerProofs HandlerProofs2 HandlerProofs3.
Import ListNotations.
Local Open Scope Z_scope.

Section Proofs.
Context {D M : Type}.
Variable no_meta : M.
Variables dto_ok truthy : D -> bool.
Variable max_retries : Z.
Notation item := (item D M). Notation hout := (hout D M). Notation hev := (hev D M). Notation hstate := (hstate D M).
Notation tstate := (tstate D M). Notation pentry := (pentry D M). Notation eentry := (eentry D M).
Notation hstep := (@hstep D M no_meta dto_ok truthy max_retries).
Notation hrun := (@hrun D M no_meta dto_ok truthy max_retries).
Notation hinv := (@hinv D M no_meta).
Implicit Types (s : hstate) (o : list hout).

(** ** Wake-ups *)
Definition no_stranded s : Prop := proc_paused s = false -> pc (hq s) <> [] -> awake s.

Lemma check_awake s : hinv s -> awake (check_process s).
Proof.
  intros H. unfold check_process, awake.
  assert (G : exists j t, nth_error (tasks s ++ [TCreated]) j = Some t /\ @live D M t).
  { exists (List.length (tasks s)), TCreated. rewrite nth_error_app2, Nat.sub_diag by lia. split; [reflexivity|discriminate]. }
  destruct (cur s) as [i|] eqn:C; [|exact G].
  destruct (nth_error (tasks s) i) as [t|] eqn:N; [|exact G].
  destruct t; try exact G; exists i; eexists; (split; [exact N|discriminate]).
Qed.

Lemma finish_stays s i s' o : hmid no_meta s i -> finish_task s i = (s', o) -> closed s' = closed s ->
  hq s' = hq s /\ proc_paused s' = proc_paused s.
Proof.
  intros H E C. destruct (finish_ok no_meta s i s' o H E) as [A _]. destruct (shut s) eqn:S.
  { specialize (A eq_refl). lia. }
  unfold finish_task in E. rewrite shut_down_check_idle in E by (right; exact S). injection E as <- <-. auto.
Qed.

Lemma loop_wake s i s' o : hmid no_meta s i -> loop dto_ok s i = (s', o) -> closed s' = closed s ->
  items_ok dto_ok (items_p (pc (hq s))) -> no_stranded s'.
Proof.
  intros H E C Ok. unfold loop in E.
  destruct (proc_paused s) eqn:P; cbn [negb andb] in E.
  { apply finish_stays in E as [A B]; auto. intros X. congruence. }
  rewrite has_pending_ok in E by apply H.
  destruct (pc (hq s)) as [|[k e] rest] eqn:Pc.
  { apply finish_stays in E as [A B]; auto. intros _ X. rewrite A in X. contradiction. }
  destruct (pop_pending_ok (hq s) (hm_q _ _ _ H) (proj1 (hm_u _ _ _ H))) as [q [A [B [F [G I]]]]].
  rewrite A, Pc in E. cbn [hd_error option_map snd] in E.
  inversion Ok as [|x y Ok1 Ok2]; subst. cbn in Ok1. rewrite Ok1 in E. injection E as <- <-.
  intros _ _. exists i, (TBefore e). split; [|discriminate]. unfold set_task, set_tasks. cbn [tasks set_hq].
  apply nth_set_same, H.
Qed.

Lemma settle_items s i e b s' o : hmid no_meta s i -> settle no_meta max_retries s e b = (s', o) ->
  items_ok dto_ok (items_p (pc (hq s)) ++ [item_p e]) -> items_ok dto_ok (items_p (pc (hq s'))).
Proof.
  intros H E Ok. apply Forall_app in Ok as [Ok1 Ok2]. unfold settle in E. destruct b; [injection E as <- <-; auto|].
  destruct (_ <=? _).
  - destruct (h_push_error_ok no_meta s (pe_key e) (pe_data e) (pe_meta e) (hm_q _ _ _ H) (hm_u _ _ _ H) (hm_reach _ _ _ H))
      as [q [A [_ [_ [_ [F _]]]]]]. unfold item_p in E. rewrite A in E. injection E as <- <-. cbn [set_hq hq]. now rewrite F.
  - destruct (h_push_pending_ok no_meta s (pe_key e) (pe_data e) (pe_meta e) (pe_retries e + 1)
      (hm_q _ _ _ H) (hm_u _ _ _ H) (hm_reach _ _ _ H)) as [q [A [_ [_ [_ [F _]]]]]].
    unfold item_p in E. rewrite A in E. injection E as <- <-. cbn [set_hq hq]. rewrite F. unfold add.
    destruct (has _ _); auto. rewrite items_p_app. apply Forall_app. split; auto.
Qed.

Lemma hstep_wake s ev s' o : hinv s -> no_stranded s -> hstep s ev = (s', o) -> closed s' = closed s ->
  failure ev = false -> items_ok dto_ok (a_items (abs s)) -> (forall i, ev = EPush i -> awake s) -> no_stranded s'.
Proof.
  intros H W E C F Ok Aw.
  assert (Keep : forall s1, hq s1 = hq s -> proc_paused s1 = proc_paused s -> tasks s1 = tasks s -> no_stranded s1).
  { intros s1 A1 A2 A3. unfold no_stranded, awake. rewrite A1, A2, A3. exact W. }
  assert (Live : forall s1, tasks s1 = tasks s -> awake s -> no_stranded s1).
  { intros s1 A1 A2 _ _. unfold awake. now rewrite A1. }
  rewrite (abs_items no_meta) in Ok by auto. unfold items_ok in Ok. rewrite !Forall_app in Ok. destruct Ok as [Okp [Okq [Oki Oke]]].
  destruct ev; cbn [HandlerModel.hstep] in E; try discriminate F.
  - destruct (recv_paused s); injection E as <- <-; [exact W|apply Keep; auto].
  - destruct (nth_error (collecting s) i) as [[k d]|]; injection E as <- <-; [|exact W].
    intros _ _. apply check_awake. eapply hinv_flags; eauto; cbn; apply H.
  - destruct (nth_error (collecting s) i) as [[k d]|]; injection E as <- <-; [apply Keep; auto|exact W].
  - destruct (nth_error (pushing s) i) as [[[k d] m]|] eqn:N; [|injection E as <- <-; exact W].
    unfold h_push_pending in E. destruct (push_pending _ _ _ _ _ _); injection E as <- <-; (apply Live; [reflexivity|]); eauto.
  - unfold task_step in E. destruct (nth_error (tasks s) i) as [t|] eqn:N; [|injection E as <- <-; exact W].
    destruct t as [|e|e|e b|].
    + assert (HM : hmid no_meta (set_running s true) i).
      { pose proof (hinv_mid no_meta s i _ H N ltac:(discriminate)) as [A1 A2 A3 A4 A5 A6]. constructor; auto. }
      eapply loop_wake; eauto.
    + destruct r; try discriminate F; injection E as <- <-; intros _ _; exists i, (TCall e);
        (split; [apply nth_set_same, nth_error_Some; congruence|discriminate]).
    + destruct r; try discriminate F; injection E as <- <-; intros _ _; [exists i, (TCall e)|exists i, (TAfter e b)];
        (split; [|discriminate]); [exact N|apply nth_set_same, nth_error_Some; congruence].
    + assert (G : (let (s1, o1) := settle no_meta max_retries s e b in
                               let (s2, o2) := loop dto_ok s1 i in (s2, o1 ++ o2)) = (s', o)) by (destruct r; try discriminate F; auto).
      clear E. pose proof (hinv_mid no_meta s i _ H N ltac:(discriminate)) as HM.
      destruct (settle no_meta max_retries s e b) as [s1 o1] eqn:Es.
      destruct (settle_ok no_meta dto_ok max_retries s i e b s1 o1 HM Es) as [HM1 [R1 [C1 _]]].
      destruct (loop dto_ok s1 i) as [s2 o2] eqn:El. injection G as <- <-.
      apply (loop_wake s1 i s2 o2); auto; [congruence|]. apply (settle_items s i e b s1 o1); auto. apply Forall_app. split; [auto|].
      assert (X : In (item_p e) (in_process s)).
      { unfold in_process. apply in_flat_map. exists (TAfter e b). split; [eapply nth_error_In; eauto|now left]. }
      rewrite Forall_forall in Oki. constructor; auto.
    + injection E as <- <-; exact W.
  - injection E as <- <-; apply Keep; auto.
  - injection E as <- <-. intros _ _. apply check_awake. eapply hinv_flags; eauto; cbn; apply H.
  - injection E as <- <-. intros X. discriminate.
  - injection E as <- <-. intros _ _. apply check_awake. eapply hinv_flags; eauto; cbn; apply H.
  - destruct (move_all no_meta (hq s)) as [q|] eqn:Em; injection E as <- <-; [|intros X; discriminate].
    intros _ _. apply check_awake. destruct (move_all_ok no_meta (hq s) (hi_q _ _ H) (proj2 (hi_u _ _ H)))
      as [q' [A [B [_ [_ [I J]]]]]].
    assert (q' = q) by congruence. subst q'.
    eapply (hinv_flags no_meta (set_hq s q)); auto; [|cbn; apply H].
    apply hinv_set_hq; auto; [split; [rewrite J|rewrite I]; apply (hi_u _ _ H)|].
    eapply preach_step with (c := MoveAll); [apply (hi_reach _ _ H)|]. cbn [pstep]. exact Em.
  - destruct (move_one no_meta (hq s) k) as [[q x]|] eqn:Em; injection E as <- <-; [|intros X; discriminate].
    intros _ _. apply check_awake. destruct (move_one_ok no_meta (hq s) k (hi_q _ _ H)) as [q' [A [B [_ [_ [I J]]]]]].
    assert (q' = q) by congruence. subst q'.
    eapply (hinv_flags no_meta (set_hq s q)); auto; [|cbn; apply H].
    apply hinv_set_hq; auto; [split; [rewrite J|rewrite I]; apply (hi_u _ _ H)|].
    eapply preach_step with (c := MoveOne k); [apply (hi_reach _ _ H)|]. cbn [pstep]. rewrite Em. reflexivity.
  - destruct (pop_error_key_ok (hq s) k (hi_q _ _ H)) as [q [A [B [_ [P _]]]]].
    rewrite A in E. injection E as <- <-. intros X Y. cbn [set_hq hq proc_paused] in X, Y. unfold pc in Y. rewrite P in Y.
    destruct (W X Y) as [j [t T]]. exists j, t. exact T.
  - destruct (inspect_error_key _ _); injection E as <- <-; exact W.
  - injection E as <- <-. destruct (clear_error_ok (hq s) (hi_q _ _ H)) as [B [_ [P _]]].
    intros X Y. cbn [set_hq hq proc_paused] in X, Y. unfold pc in Y. rewrite P in Y.
    destruct (W X Y) as [j [t T]]. exists j, t. exact T.
  - assert (X : proc_paused s' = true); [|intros Y; congruence].
    unfold shut_down_check in E. destruct (_ && _); [|injection E as <- <-; auto].
    destruct (q_shut_down _); [|injection E as <- <-; auto].
    destruct (q_shut_down _); [|injection E as <- <-; auto].
    destruct (fut_done _); injection E as <- <-; auto.
Qed.

Lemma hstep_items s ev s' o : hinv s -> hstep s ev = (s', o) -> closed s' = closed s ->
  Permutation (accepted o ++ a_items (abs s)) (a_items (abs s') ++ gone o).
Proof.
  intros H E C. destruct (hstep_ok no_meta dto_ok truthy max_retries s ev s' o H E C) as [_ Ms].
  apply (micros_conserve dto_ok max_retries _ _ _ Ms). eapply abs_wf; eauto.
Qed.

Theorem no_stranded_run evs : forall s s' o, hinv s -> no_stranded s -> hrun s evs = (s', o) -> closed s' = closed s ->
  forallb (fun e => negb (failure e)) evs = true -> items_ok dto_ok (accepted o ++ a_items (abs s)) ->
  pushes_awake no_meta dto_ok truthy max_retries s evs -> no_stranded s'.
Proof.
  induction evs as [|ev r IH]; intros s s' o H W E C F Ok Pa; cbn [HandlerModel.hrun] in E; [injection E as <- <-; auto|].
  cbn [forallb] in F. apply andb_prop in F as [F1 F2]. cbn [pushes_awake] in Pa. destruct Pa as [P1 P2].
  pose proof (hstep_closed no_meta dto_ok truthy max_retries s ev) as X.
  destruct (hstep s ev) as [s1 o1] eqn:E1.
  pose proof (hrun_closed no_meta dto_ok truthy max_retries r s1) as Y. destruct (hrun s1 r) as [s2 o2] eqn:E2.
  injection E as <- <-. cbn [fst] in *.
  destruct (hstep_ok no_meta dto_ok truthy max_retries s ev s1 o1 H E1) as [A B]; [lia|].
  rewrite accepted_app in Ok. unfold items_ok in Ok. rewrite !Forall_app in Ok. destruct Ok as [[Ok1 Ok2] Ok3].
  apply (IH s1 s2 o2); auto; [|lia|].
  - apply (hstep_wake s ev s1 o1); auto; try lia; try (now apply negb_true_iff).
    intros i ->. exact P1.
  - apply Forall_app. split; [auto|].
    assert (Z : Forall (fun x => dto_ok (data_of x) = true) (a_items (abs s1) ++ gone o1)).
    { eapply Forall_perm; [apply (hstep_items s ev s1 o1 H E1); lia|]. apply Forall_app. auto. }
    apply Forall_app in Z. apply Z.
Qed.

Lemma setup_awake (q0 : pqueue D M) : awake (setup q0).
Proof. exists 0%nat, TCreated. split; [reflexivity|discriminate]. Qed.

(** ** Closing *)
Definition rel (b : bool) (r1 r : hstate * list hout) : Prop :=
  r = (set_shut (fst r1) b, snd r1) \/
  exists s' o2, shut_down_check (set_shut (fst r1) b) = (s', o2) /\ r = (s', snd r1 ++ o2).

Lemma rel_same b s1 o1 s : set_shut s1 b = s -> rel b (s1, o1) (s, o1).
Proof. intros <-. left. reflexivity. Qed.
Lemma rel_prefix b l r1 r : rel b r1 r ->
  rel b (let (s1, o1) := r1 in (s1, l ++ o1)) (let (s1, o1) := r in (s1, l ++ o1)).
Proof.
  destruct r1 as [s1 o1]. intros [-> | [s' [o2 [A ->]]]]; cbn [fst snd].
  - left. reflexivity.
  - right. exists s', o2. split; [exact A|]. cbn [fst snd]. now rewrite app_assoc.
Qed.
Lemma unset s b : set_shut (set_shut s b) (shut s) = s.
Proof. destruct s; reflexivity. Qed.

Lemma rel_finish s i : rel (shut s) (finish_task (set_shut s false) i) (finish_task s i).
Proof.
  right. destruct (finish_task s i) as [s' o'] eqn:E. exists s', o'.
  assert (X : finish_task (set_shut s false) i = (set_task (set_running (set_shut s false) false) i TDone, [])).
  { unfold finish_task. apply shut_down_check_idle. right. reflexivity. }
  rewrite X. cbn [fst snd app]. split; [|reflexivity]. rewrite <- E. reflexivity.
Qed.

Lemma rel_loop s i : rel (shut s) (loop dto_ok (set_shut s false) i) (loop dto_ok s i).
Proof.
  unfold loop. cbn [set_shut proc_paused hq].
  destruct (_ && _); [|apply rel_finish].
  destruct (pop_pending (hq s)) as [[q [e|]]|x].
  - destruct (dto_ok (pe_data e)); [apply rel_same; reflexivity|].
    apply (rel_prefix _ [HLost (item_p e); HExn "ValidationError"] _ _ (rel_finish (set_hq s q) i)).
  - apply (rel_prefix _ [HExn "AttributeError"] _ _ (rel_finish (set_hq s q) i)).
  - apply (rel_prefix _ [HExn x] _ _ (rel_finish s i)).
Qed.

Lemma settle_shut s e v : settle no_meta max_retries (set_shut s false) e v =
  (set_shut (fst (settle no_meta max_retries s e v)) false, snd (settle no_meta max_retries s e v)) /\
  shut (fst (settle no_meta max_retries s e v)) = shut s.
Proof.
  unfold settle, h_push_error, h_push_pending, item_p. destruct v; [auto|].
  destruct (_ <=? _); cbn [set_shut hq].
  - destruct (push_error _ _ _ _ _ _); auto.
  - destruct (push_pending _ _ _ _ _ _); auto.
Qed.

Lemma check_shut s : check_process (set_shut s false) = set_shut (check_process s) false /\
  shut (check_process s) = shut s.
Proof.
  unfold check_process. cbn [set_shut cur tasks]. destruct (cur s) as [i|]; [|auto].
  destruct (nth_error (tasks s) i) as [t|]; [|auto]. destruct t; auto.
Qed.
Lemma check_unset s : set_shut (check_process (set_shut s false)) (shut s) = check_process s.
Proof. destruct (check_shut s) as [-> X]. rewrite <- X. apply unset. Qed.

Lemma rel_step s ev : ev <> EShutDown -> rel (shut s) (hstep (set_shut s false) ev) (hstep s ev).
Proof.
  intros Ne. destruct ev; cbn [HandlerModel.hstep]; try contradiction.
  - cbn [set_shut recv_paused]. destruct (recv_paused s); apply rel_same; [apply unset|reflexivity].
  - cbn [set_shut collecting]. destruct (nth_error (collecting s) i) as [[k d]|]; apply rel_same; [|apply unset].
    apply (check_unset (set_pushing (set_collecting s (del_nth i (collecting s))) (pushing s ++ [(k, d, m)]))).
  - cbn [set_shut collecting]. destruct (nth_error (collecting s) i) as [[k d]|]; apply rel_same; [reflexivity|apply unset].
  - cbn [set_shut pushing]. destruct (nth_error (pushing s) i) as [[[k d] m]|]; [|apply rel_same; apply unset].
    unfold h_push_pending. cbn [set_pushing hq set_shut].
    destruct (push_pending _ _ _ _ _ _); apply rel_same; reflexivity.
  - cbn [set_shut pushing]. destruct (nth_error (pushing s) i) as [[[k d] m]|]; apply rel_same; [reflexivity|apply unset].
  - unfold task_step. cbn [set_shut tasks]. destruct (nth_error (tasks s) i) as [t|]; [|apply rel_same; apply unset].
    destruct t as [|e|e|e b|].
    + apply (rel_loop (set_running s true)).
    + destruct r; try (apply rel_same; reflexivity).
      apply (rel_prefix _ [HLost (item_p e); HExn "user"] _ _ (rel_finish s i)).
    + destruct r; [apply rel_same; apply unset|apply rel_same; reflexivity|].
      apply (rel_prefix _ [HLost (item_p e); HExn "user"] _ _ (rel_finish s i)).
    + assert (G : rel (shut s)
        (let (s1, o1) := settle no_meta max_retries (set_shut s false) e b in
         let (s2, o2) := loop dto_ok s1 i in (s2, o1 ++ o2))
        (let (s1, o1) := settle no_meta max_retries s e b in let (s2, o2) := loop dto_ok s1 i in (s2, o1 ++ o2))).
      { destruct (settle_shut s e b) as [-> X]. destruct (settle no_meta max_retries s e b) as [s1 o1]. cbn [fst snd] in *.
        rewrite <- X. apply rel_prefix, rel_loop. }
      destruct r; [exact G|exact G|].
      apply (rel_prefix _ [HLost (item_p e); HExn "user"] _ _ (rel_finish s i)).
    + apply rel_same, unset.
  - unfold cancel_task. cbn [set_shut tasks]. destruct (nth_error (tasks s) i) as [t|]; [|apply rel_same; apply unset].
    destruct t as [|e|e|e b|]; try (apply (rel_prefix _ [HLost (item_p e)] _ _ (rel_finish s i))).
    + apply rel_same; reflexivity.
    + apply rel_same, unset.
  - apply rel_same; reflexivity.
  - apply rel_same, (check_unset (set_recv s false)).
  - apply rel_same; reflexivity.
  - apply rel_same, (check_unset (set_proc s false)).
  - cbn [set_shut hq]. destruct (move_all no_meta (hq s)) as [q|]; apply rel_same; [|reflexivity].
    apply (check_unset (set_proc (set_hq s q) false)).
  - cbn [set_shut hq]. destruct (move_one no_meta (hq s) k) as [[q x]|]; apply rel_same; [|reflexivity].
    apply (check_unset (set_proc (set_hq s q) false)).
  - cbn [set_shut hq]. destruct (pop_error_key (hq s) k) as [[q x]|]; apply rel_same; [reflexivity|apply unset].
  - cbn [set_shut hq]. destruct (inspect_error_key (hq s) k); apply rel_same; apply unset.
  - apply rel_same; reflexivity.
Qed.

Lemma shut_down_check_exact s s' o : pinv (hq s) -> shut_down_check s = (s', o) -> closed s' <> closed s ->
  running s = false /\ pq_shut_down (hq s) = Ok (hq s') /\ closed s' = S (closed s) /\ tasks s' = tasks s /\
  cur s' = cur s /\ pushing s' = pushing s /\ collecting s' = collecting s /\ recv_paused s' = recv_paused s /\
  proc_paused s' = proc_paused s /\
  o = HClosed :: (if fut_done s then [HExn "InvalidStateError"] else []).
Proof.
  intros Hq E C. unfold shut_down_check in E. destruct (running s); cbn [negb andb] in E; [injection E as <- <-; congruence|].
  destruct (shut s); [|injection E as <- <-; congruence]. split; [reflexivity|]. unfold pq_shut_down.
  destruct (shut_down_ok _ (pi_p _ Hq)) as [p [A _]]. destruct (shut_down_ok _ (pi_e _ Hq)) as [e [A' _]].
  rewrite A, A' in *. cbn [bind]. cbn [set_closed set_hq fut_done] in E. destruct (fut_done s); injection E as <- <-; cbn; ands.
Qed.

(** A step of an endpoint that is not shutting down does not close it. *)
Lemma finish_open s i s' o : shut s = false -> finish_task s i = (s', o) -> closed s' = closed s /\ shut s' = false.
Proof.
  intros H E. unfold finish_task in E. rewrite shut_down_check_idle in E by (right; exact H). injection E as <- <-. auto.
Qed.
Lemma loop_open s i s' o : shut s = false -> loop dto_ok s i = (s', o) -> closed s' = closed s /\ shut s' = false.
Proof.
  intros H E. unfold loop in E. destruct (_ && _); [|now apply finish_open in E].
  assert (Fin : forall s0 l, closed s0 = closed s -> shut s0 = false -> (let (s1, o1) := finish_task s0 i in (s1, l ++ o1)) = (s', o) ->
    closed s' = closed s /\ shut s' = false).
  { intros s0 l H1 H2 E1. destruct (finish_task s0 i) as [s1 o1] eqn:Ef. injection E1 as <- <-.
    apply finish_open in Ef as [A B]; auto. split; congruence. }
  destruct (pop_pending (hq s)) as [[q [e|]]|x].
  - destruct (dto_ok (pe_data e)); [injection E as <- <-; auto|].
    apply (Fin (set_hq s q) [HLost (item_p e); HExn "ValidationError"]) in E; auto.
  - apply (Fin (set_hq s q) [HExn "AttributeError"]) in E; auto.
  - apply (Fin s [HExn x]) in E; auto.
Qed.
Lemma check_closed' s : closed (check_process s) = closed s.
Proof. apply check_closed. Qed.

Lemma step_open s ev s' o : shut s = false -> ev <> EShutDown -> hstep s ev = (s', o) -> closed s' = closed s /\ shut s' = false.
Proof.
  intros H Ne E.
  assert (Fin : forall i l, (let (s1, o1) := finish_task s i in (s1, l ++ o1)) = (s', o) -> closed s' = closed s /\ shut s' = false).
  { intros i l E1. destruct (finish_task s i) as [s1 o1] eqn:Ef. injection E1 as <- <-. now apply finish_open in Ef. }
  assert (Chk : forall s0, closed s0 = closed s -> shut s0 = false ->
    closed (check_process s0) = closed s /\ shut (check_process s0) = false).
  { intros s0 A B. rewrite check_closed. destruct (check_shut s0) as [_ ->]. auto. }
  destruct ev; cbn [HandlerModel.hstep] in E; try contradiction.
  - destruct (recv_paused s); injection E as <- <-; auto.
  - destruct (nth_error _ _) as [[k d]|]; injection E as <- <-; auto.
  - destruct (nth_error _ _) as [[k d]|]; injection E as <- <-; auto.
  - destruct (nth_error _ _) as [[[k d] m]|]; [|injection E as <- <-; auto].
    unfold h_push_pending in E. destruct (push_pending _ _ _ _ _ _); injection E as <- <-; auto.
  - destruct (nth_error _ _) as [[[k d] m]|]; injection E as <- <-; auto.
  - unfold task_step in E. destruct (nth_error (tasks s) i) as [t|]; [|injection E as <- <-; auto].
    destruct t as [|e|e|e b|].
    + apply loop_open in E; auto.
    + destruct r; try (injection E as <- <-; auto; fail). apply (Fin i [HLost (item_p e); HExn "user"] E).
    + destruct r; try (injection E as <- <-; auto; fail). apply (Fin i [HLost (item_p e); HExn "user"] E).
    + assert (G : (let (s1, o1) := settle no_meta max_retries s e b in
                               let (s2, o2) := loop dto_ok s1 i in (s2, o1 ++ o2)) = (s', o) -> closed s' = closed s /\ shut s' = false).
      { intros G. pose proof (settle_closed no_meta max_retries s e b) as X. destruct (settle_shut s e b) as [_ Y].
        destruct (settle no_meta max_retries s e b) as [s1 o1]. cbn [fst] in *.
        destruct (loop dto_ok s1 i) as [s2 o2] eqn:El. injection G as <- <-. apply loop_open in El as [A B]; [|congruence].
        split; congruence. }
      destruct r; [apply G, E|apply G, E|]. apply (Fin i [HLost (item_p e); HExn "user"] E).
    + injection E as <- <-; auto.
  - unfold cancel_task in E. destruct (nth_error (tasks s) i) as [t|]; [|injection E as <- <-; auto].
    destruct t as [|e|e|e b|]; try (apply (Fin i [HLost (item_p e)] E)); injection E as <- <-; auto.
  - injection E as <- <-; auto.
  - injection E as <- <-; auto.
  - injection E as <- <-; auto.
  - injection E as <- <-; auto.
  - destruct (move_all _ _); injection E as <- <-; auto.
  - destruct (move_one _ _ _) as [[q x]|]; injection E as <- <-; auto.
  - destruct (pop_error_key _ _) as [[q x]|]; injection E as <- <-; auto.
  - destruct (inspect_error_key _ _); injection E as <- <-; auto.
  - injection E as <- <-; auto.
Qed.

Lemma no_in_process s : hinv s -> running s = false -> in_process s = [].
Proof.
  intros H R. rewrite (in_process_abs no_meta) by auto. destruct (cur_in s) eqn:X; [|reflexivity].
  assert (running s = true) by (apply (hi_run _ _ H); congruence). congruence.
Qed.

(** The step that closes: before it everything was as the abstract machine says, nothing is in process, and the
    files hold what was queued. *)
Theorem close_step s ev s' o : hinv s -> hstep s ev = (s', o) -> closed s' <> closed s ->
  exists q, pinv q /\ preachable no_meta q /\ usable q /\ pq_shut_down q = Ok (hq s') /\ in_process s' = [] /\
    closed s' = S (closed s) /\
    Permutation (accepted o ++ a_items (abs s)) (pushing s' ++ items_p (pc q) ++ items_e (ec q) ++ gone o).
Proof.
  intros H E C.
  assert (Dec : ev = EShutDown \/ ev <> EShutDown) by (destruct ev; (left; reflexivity) || (right; discriminate)).
  destruct Dec as [->|Ne].
  - cbn [HandlerModel.hstep] in E.
    apply shut_down_check_exact in E as [R [Q [Cl [T [Cu [P [_ [_ [_ O]]]]]]]]]; auto; [|apply H].
    cbn [set_shut set_proc set_recv hq closed tasks cur pushing running] in *.
    pose proof (no_in_process s H R) as In.
    exists (hq s). split; [apply H|]. split; [apply H|]. split; [apply H|]. split; [auto|].
    split; [unfold in_process in *; now rewrite T|]. split; [auto|].
    rewrite (abs_items no_meta) by auto. rewrite In, P, O. destruct (fut_done _); cbn; perm.
  - assert (H0 : hinv (set_shut s false)).
    { destruct H as [A1 A2 A3 A4 A5 A6 A7]. constructor; auto. cbn. discriminate. }
    pose proof (rel_step s ev Ne) as Rl. destruct (hstep (set_shut s false) ev) as [s1 o1] eqn:E1.
    cbn [fst snd] in Rl. rewrite E in Rl.
    destruct (step_open (set_shut s false) ev s1 o1 eq_refl Ne E1) as [C1 _]. cbn [set_shut closed] in C1.
    destruct (hstep_ok no_meta dto_ok truthy max_retries _ ev s1 o1 H0 E1 C1) as [H1 Ms].
    destruct Rl as [Rl|[s2 [o2 [A Rl]]]]; injection Rl as -> ->; [cbn in C; congruence|].
    apply shut_down_check_exact in A as [R [Q [Cl [T [Cu [P [_ [_ [_ O]]]]]]]]]; [|apply H1|cbn; congruence].
    cbn [fst set_shut hq closed tasks cur pushing running] in *.
    pose proof (no_in_process s1 H1 R) as In.
    exists (hq s1). split; [apply H1|]. split; [apply H1|]. split; [apply H1|]. split; [auto|].
    split; [unfold in_process in *; now rewrite T|]. split; [rewrite Cl, C1; reflexivity|].
    destruct (micros_conserve dto_ok max_retries _ _ _ Ms (abs_wf no_meta _ H0)) as [_ Pm].
    change (a_items (abs (set_shut s false))) with (a_items (abs s)) in Pm.
    rewrite accepted_app, gone_app. rewrite (abs_items no_meta s1) in Pm by auto. rewrite In in Pm.
    assert (X : accepted o2 = [] /\ gone o2 = []) by (subst o2; destruct (fut_done _); auto).
    destruct X as [-> ->]. rewrite !app_nil_r, P. rewrite Pm. perm.
Qed.

End Proofs.
