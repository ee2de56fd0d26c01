(** Many lives of an endpoint. *)
From Coq Require Import List ZArith NArith Bool String Lia Permutation.
From Coq Require Import ZifyBool ZifyNat ZifyN.
From Verif Require Import Base PermTac PQueueModel PQueueSpec PQueueProofs PQueueProofs2 PendingModel PendingSpec
  PendingProofs HandlerModel HandlerSpec HandlerProofs HandlerProofs2 HandlerProofs3 HandlerProofs4 CrashModel CrashProofs.
Import ListNotations.
Local Open Scope Z_scope.

Section Proofs.
Context {D M : Type}.
Variable no_meta : M.
Variables dto_ok truthy : D -> bool.
Variable max_retries : Z.
Notation item := (item D M). Notation hout := (hout D M). Notation hev := (hev D M). Notation hstate := (hstate D M).
Notation tstate := (tstate D M). Notation pentry := (pentry D M). Notation eentry := (eentry D M).
Notation files := (files (D:=D) (M:=M)). Notation pqueue := (pqueue D M).
Notation hstep := (@hstep D M no_meta dto_ok truthy max_retries).
Notation hrun := (@hrun D M no_meta dto_ok truthy max_retries).
Notation micros := (@micros D M dto_ok max_retries).
Notation hinv := (@hinv D M no_meta).
Notation crash_at := (@crash_at D M no_meta dto_ok truthy max_retries).
Notation lives := (@lives D M no_meta dto_ok truthy max_retries).
Notation wf := (@wf D M).
Implicit Types (s : hstate) (o : list hout) (q : pqueue).

Lemma running_check s : running (check_process s) = running s.
Proof. unfold check_process. repeat match goal with |- context [match ?x with _ => _ end] => destruct x end; reflexivity. Qed.

Lemma hpush_pushing s x r : pushing (fst (h_push_pending no_meta s x r)) = pushing s /\
  running (fst (h_push_pending no_meta s x r)) = running s.
Proof. unfold h_push_pending. destruct x as [[k d] m]. destruct (push_pending _ _ _ _ _ _); auto. Qed.
Lemma shut_check_pushing s : pushing (fst (shut_down_check s)) = pushing s.
Proof. unfold shut_down_check. repeat match goal with |- context [match ?x with _ => _ end] => destruct x end; reflexivity. Qed.
Lemma finish_pushing s i : pushing (fst (finish_task s i)) = pushing s.
Proof. unfold finish_task. rewrite shut_check_pushing. reflexivity. Qed.
Lemma loop_pushing s i : pushing (fst (loop dto_ok s i)) = pushing s.
Proof.
  unfold loop. destruct (_ && _); [|apply finish_pushing].
  destruct (pop_pending (hq s)) as [[q [e|]]|e]; [destruct (dto_ok _)| |].
  - reflexivity.
  - pose proof (finish_pushing (set_hq s q) i) as X. destruct (finish_task (set_hq s q) i). exact X.
  - pose proof (finish_pushing (set_hq s q) i) as X. destruct (finish_task (set_hq s q) i). exact X.
  - pose proof (finish_pushing s i) as X. destruct (finish_task s i). exact X.
Qed.
Lemma settle_pushing s e b : pushing (fst (settle no_meta max_retries s e b)) = pushing s.
Proof.
  unfold settle. destruct b; [reflexivity|]. destruct (_ <=? _); [|apply hpush_pushing].
  unfold h_push_error, item_p. destruct (push_error _ _ _ _ _ _); reflexivity.
Qed.

(** Only a task's own step ends it, and it does not touch the push tasks. *)
Lemma ends_pushing s ev s1 o : hstep s ev = (s1, o) -> running s = true -> running s1 = false -> pushing s1 = pushing s.
Proof.
  intros E R R1.
  assert (Fin : forall i (f : list hout -> list hout), (let (s', o) := finish_task s i in (s', f o)) = (s1, o) -> pushing s1 = pushing s).
  { intros i f E1. pose proof (finish_pushing s i) as X. destruct (finish_task s i). injection E1 as <- _. exact X. }
  destruct ev; cbn [HandlerModel.hstep] in E.
  - destruct (recv_paused s); injection E as <- <-; reflexivity.
  - destruct (nth_error _ _) as [[k d]|]; injection E as <- <-; [|reflexivity]. rewrite running_check in R1. cbn in R1. congruence.
  - destruct (nth_error _ _) as [[k d]|]; injection E as <- <-; reflexivity.
  - destruct (nth_error _ _) as [x|]; [|injection E as <- <-; reflexivity].
    pose proof (hpush_pushing (set_pushing s (del_nth i (pushing s))) x 0) as [_ X]. rewrite E in X. cbn in X. congruence.
  - destruct (nth_error _ _) as [x|]; injection E as <- <-; [cbn in R1; congruence|reflexivity].
  - unfold task_step in E. destruct (nth_error _ _) as [t|]; [|injection E as <- <-; reflexivity]. destruct t as [|e|e|e b|].
    + pose proof (loop_pushing (set_running s true) i) as X. rewrite E in X. exact X.
    + destruct r; try (injection E as <- <-; reflexivity). eapply (Fin i (fun o => _ :: _ :: o)); exact E.
    + destruct r; try (injection E as <- <-; reflexivity). eapply (Fin i (fun o => _ :: _ :: o)); exact E.
    + assert (G : (let (s1, o1) := settle no_meta max_retries s e b in
                  let (s2, o2) := loop dto_ok s1 i in (s2, o1 ++ o2)) = (s1, o) -> pushing s1 = pushing s).
      { pose proof (settle_pushing s e b) as X. destruct (settle no_meta max_retries s e b) as [s2 o2].
        pose proof (loop_pushing s2 i) as Y. destruct (loop dto_ok s2 i). intros E1; injection E1 as <- _. cbn in *. congruence. }
      destruct r; [now apply G|now apply G|]. eapply (Fin i (fun o => _ :: _ :: o)); exact E.
    + injection E as <- <-; reflexivity.
  - unfold cancel_task in E. destruct (nth_error _ _) as [t|]; [|injection E as <- <-; reflexivity].
    destruct t; try (injection E as <- <-; reflexivity); eapply (Fin i (fun o => _ :: o)); exact E.
  - injection E as <- <-; reflexivity.
  - injection E as <- <-. rewrite running_check in R1. cbn in R1. congruence.
  - injection E as <- <-; reflexivity.
  - injection E as <- <-. rewrite running_check in R1. cbn in R1. congruence.
  - destruct (move_all _ _); injection E as <- <-; rewrite ?running_check in R1; cbn in R1; congruence.
  - destruct (move_one _ _ _) as [[q x]|]; injection E as <- <-; rewrite ?running_check in R1; cbn in R1; congruence.
  - destruct (pop_error_key _ _) as [[q x]|]; injection E as <- <-; cbn in R1; congruence.
  - destruct (inspect_error_key _ _); injection E as <- <-; cbn in R1; congruence.
  - injection E as <- <-. cbn in R1. congruence.
  - rewrite shut_down_check_idle in E by (left; exact R). injection E as <- <-. reflexivity.
Qed.

Lemma shut_off s : hinv s -> hinv (set_shut s false) /\ abs (set_shut s false) = abs s.
Proof. intros H. split; [|reflexivity]. eapply hinv_flags; eauto. discriminate. Qed.

Lemma crash_ok s ev f o ps : hinv s -> sizes (hq s) = (ps, ps) -> 1 <= ps -> crash_at s ev f o ->
  pfiles no_meta f /\ exists a, micros (abs s) o a /\ leaves f a (4 * ps + 2 + Z.of_nat (List.length (pushing s))).
Proof.
  intros H S Hp C. pose proof (hi_q _ _ H) as P. pose proof (hi_reach _ _ H) as R.
  pose proof (preachable_both no_meta _ R) as B.
  destruct C as [ev|i r e b s1 o1 N Nr E|k e x E|f moved Hi|f Hr Hi|ev s1 o f Sh E Hr Hi].
  - split; [apply (pf_call no_meta (hq s) ClearError); [auto|now left]|].
    exists (abs s). split; [constructor|]. eapply leaves_mono; [apply (leaves_db (hq s) ps); auto|lia].
  - pose proof (hinv_mid no_meta s i _ H N ltac:(discriminate)) as HM.
    pose proof (sizes_settle no_meta max_retries s e b) as Z1. rewrite E in Z1. cbn [fst] in Z1.
    pose proof (settle_pushing s e b) as L1. rewrite E in L1. cbn [fst] in L1.
    apply (settle_ok no_meta dto_ok max_retries s i) in E as [A [_ [_ Ms]]]; auto.
    split; [apply (pf_call no_meta (hq s1) ClearError); [apply (hm_reach _ _ _ A)|now left]|].
    exists (abs_with s1 None). rewrite (abs_tin no_meta _ _ _ H N) by discriminate. split; [exact Ms|].
    unfold abs_with. rewrite L1. eapply leaves_mono; [apply (leaves_db (hq s1) ps); auto; try congruence|lia].
    + apply A.
    + eapply preachable_both, A.
  - split.
    { apply (pf_call no_meta (hq s) (MoveOne k)); [auto|]. right. apply in_or_app. left. rewrite E. now left. }
    exists (abs s). split; [constructor|].
    destruct (pop_error_raw (hq s) k P) as [e1 [E1 [P1 [C1 Z1]]]]. rewrite E in E1. injection E1 as <- ->.
    destruct (leaves_db (set_err (hq s) e) ps (pushing s) (cur_in s)) as [L1 L2 L3 L4]; auto.
    { split; [apply B|]. eapply reach_pop_key; [apply B|exact E]. }
    { rewrite sizes_err; auto. }
    rewrite C1 in *. constructor; auto.
    + intros y Hy. apply L3 in Hy. cbn [a_err abs abs_with] in *. unfold without in Hy. apply filter_In in Hy. tauto.
    + rewrite items_len in *. cbn [a_push a_pend a_in a_err abs abs_with] in *.
      assert (Hl : (List.length (ec (hq s)) <= 1 + List.length (without k (ec (hq s))))%nat).
      { pose proof (inv_nodup _ (pi_e _ P)) as Nd. fold (ec (hq s)) in Nd. revert Nd. generalize (ec (hq s)) as l. clear.
        induction l as [|[k' y] l IH]; cbn [map fst]; intros Nd; [cbn; lia|]. inversion Nd as [|? ? N1 N2]; subst.
        unfold without. cbn [filter fst]. destruct (N.eqb_spec k' k) as [->|Hk]; cbn [negb List.length].
        - fold (without k l). rewrite without_fresh by auto. lia.
        - fold (without k l). specialize (IH N2). lia. }
      unfold pc in *. cbn [set_err pend files_of fst snd errq] in *. lia.
  - split.
    { apply (pf_call no_meta (hq s) MoveAll); [auto|]. right. apply in_or_app. left.
      apply (in_map fst) in Hi. exact Hi. }
    destruct (points_ok no_meta dto_ok max_retries ps (pushing s) (cur_in s) _ (hq s) f moved P B S Hp Hi) as [a [Ms L]].
    exists a. split; [exact Ms|exact L].
  - split; [apply (pf_shut no_meta (hq s)); auto|]. exists (abs s). split; [constructor|].
    eapply leaves_mono; [apply (leaves_shut (hq s) ps); auto|lia].
  - destruct (shut_off s H) as [H0 A0].
    assert (Rn : running s = true) by (apply (hi_shut _ _ H); auto).
    assert (Cl : closed s1 = closed (set_shut s false)).
    { assert (Dec : ev = EShutDown \/ ev <> EShutDown) by (destruct ev; (left; reflexivity) || (right; discriminate)).
      destruct Dec as [->|Ne].
      - cbn [HandlerModel.hstep] in E. rewrite shut_down_check_idle in E by (left; exact Rn). injection E as <- <-. reflexivity.
      - now destruct (step_open no_meta dto_ok truthy max_retries (set_shut s false) ev s1 o eq_refl Ne E). }
    pose proof (hstep_sizes no_meta dto_ok truthy max_retries (set_shut s false) ev) as Z1. rewrite E in Z1. cbn [fst] in Z1.
    pose proof (ends_pushing _ _ _ _ E Rn Hr) as L1.
    destruct (hstep_ok no_meta dto_ok truthy max_retries _ _ _ _ H0 E Cl) as [H1 Ms]. rewrite A0 in Ms.
    split; [apply (pf_shut no_meta (hq s1)); [apply H1|auto]|].
    exists (abs s1). split; [exact Ms|]. unfold abs, abs_with. rewrite L1.
    eapply leaves_mono; [apply (leaves_shut (hq s1) ps); auto|cbn [pushing set_shut]; lia].
    + apply H1.
    + eapply preachable_both, H1.
    + cbn [hq set_shut] in Z1. congruence.
Qed.

(** ** Lives *)
Definition f_ast (f : files) : ast (D:=D) (M:=M) := mkA [] (map kv (fst f)) None (map kv (snd f)).

Lemma nodup_rest {A} (l l' : list (N * A)) : NoDup (map fst l) -> NoDup (map fst l') -> incl l' l ->
  exists rest, Permutation l (l' ++ rest).
Proof.
  revert l. induction l' as [|x l' IH]; intros l N1 N2 Hi; [exists l; reflexivity|].
  destruct (in_split x l) as [l1 [l2 ->]]; [apply Hi; now left|].
  cbn [map] in N2. inversion N2 as [|? ? N3 N4]; subst.
  destruct (IH (l1 ++ l2)) as [rest P].
  - rewrite map_app in *. cbn [map] in N1. now apply NoDup_remove_1 in N1.
  - auto.
  - intros y Hy. assert (Hx : In y (l1 ++ x :: l2)) by (apply Hi; now right).
    apply in_app_or in Hx as [Hx|[Hx|Hx]]; [apply in_or_app; now left| |apply in_or_app; now right].
    subst y. exfalso. apply N3. now apply in_map.
  - exists rest. rewrite <- Permutation_middle, P. reflexivity.
Qed.

Lemma fgood_wf f : fgood f -> wf (f_ast f).
Proof. intros [[_ G1] [[_ G2] [G3 G4]]]. constructor; auto. Qed.

Lemma items_p_perm l l' : Permutation l l' -> Permutation (items_p (D:=D) (M:=M) l) (items_p l').
Proof. apply Permutation_map. Qed.

Lemma leaves_rest f a n : wf a -> leaves f a n ->
  exists crashed, Permutation (a_items a) (a_items (f_ast f) ++ crashed) /\ Z.of_nat (List.length crashed) <= n.
Proof.
  intros W [G P E L].
  destruct (nodup_rest (a_pend a) (map kv (fst f)) (wf_np _ W)) as [r1 P1]; auto; [apply G|].
  destruct (nodup_rest (a_err a) (map kv (snd f)) (wf_ne _ W)) as [r2 P2]; auto; [apply G|].
  assert (X : Permutation (a_items a) (a_items (f_ast f) ++ (a_push a ++ items_p r1 ++ in_items (a_in a) ++ items_e r2))).
  { unfold a_items at 1, f_ast, a_items. cbn [a_push a_pend a_in a_err in_items app].
    rewrite (items_p_perm _ _ P1), (items_e_perm _ _ P2), items_p_app, items_e_app. perm. }
  eexists. split; [exact X|]. apply Permutation_length in X. rewrite app_length in X.
  assert (Y : List.length (a_items (f_ast f)) = (List.length (fst f) + List.length (snd f))%nat).
  { rewrite items_len. cbn [f_ast a_push a_pend a_in a_err List.length]. rewrite !map_length. lia. }
  lia.
Qed.

Lemma open_len (V : Type) ps (t t' : table V) : 1 <= ps -> good t -> In t' (crash_tables_open ps t) ->
  Z.of_nat (List.length t) <= Z.of_nat (List.length t') + 2 * ps.
Proof.
  intros Hp [Hs Hn] Hin. unfold crash_tables_open in Hin.
  destruct (open_queue_ok ps t Hs Hn) as [A [B [C E]]]. destruct E as [E1 E2]; [lia|].
  destruct Hin as [<-|[<-|[<-|[]]]].
  - lia.
  - set (q0 := mkQueue ps new_page None t). destruct (0 <? db_size q0) eqn:Ed; [|unfold q0; cbn [db]; lia].
    destruct (load_front_ok q0) as [k [Hk1 Hk2]]; auto. cbn zeta in Hk2. rewrite Hk2. unfold q0 in *. cbn [db psz] in *.
    assert (X : Z.of_nat (List.length (firstn k t)) <= ps).
    { rewrite <- Hk1. unfold sql_limit. destruct (ps <? 0) eqn:Ep; [lia|]. rewrite firstn_length. lia. }
    rewrite firstn_length in X. rewrite skipn_length. lia.
  - apply (f_equal (@List.length _)) in B. unfold contents in B. rewrite !app_length in B.
    pose proof (Permutation_length (reopened_order_perm ps (map kv t))) as X. rewrite map_length in B. rewrite map_length in X. lia.
Qed.

Lemma start_facts ps (f : files) : pfiles no_meta f -> 1 <= ps ->
  let q := pq_open ps (fst f) (snd f) in
  preachable no_meta q /\ usable q /\ sizes q = (ps, ps) /\
  Permutation (pc q) (map kv (fst f)) /\ Permutation (ec q) (map kv (snd f)).
Proof.
  intros Hf Hp q. pose proof (pfiles_good no_meta f Hf) as G.
  split; [now apply preach_open|]. pose proof (open_sizes ps f G) as Z1.
  destruct G as [G1 [G2 [G3 G4]]]. destruct (open_pinv ps (fst f) (snd f) G1 G2 G3 G4) as [_ [A [B [E F]]]].
  split; [split; unfold q; lia|]. auto.
Qed.

(** A graceful end: the queues are closed with nothing in process, and the files hold all that was queued. *)
Lemma close_ok s ev s' o : hinv s -> hstep s ev = (s', o) -> closed s' <> closed s ->
  exists q o1 o2, o = o1 ++ o2 /\ (o2 = [HClosed] \/ exists e, o2 = [HClosed; HExn e]) /\
    pfiles no_meta (files_of (hq s')) /\ pinv q /\
    micros (abs s) o1 (mkA (pushing s') (pc q) None (ec q)) /\
    map kv (db (pend (hq s'))) = pc q /\ map kv (db (errq (hq s'))) = ec q.
Proof.
  intros H E C.
  assert (Ex : forall q q', preachable no_meta q -> pinv q -> pq_shut_down q = Ok q' ->
     pfiles no_meta (files_of q') /\ map kv (db (pend q')) = pc q /\ map kv (db (errq q')) = ec q).
  { intros q q' R P Q. destruct (pq_shut_down_ok q P) as [q2 [A [B [F _]]]]. rewrite Q in A. injection A as <-.
    split; [|auto]. apply (pf_shut no_meta q); [auto|]. unfold pq_shut_down in Q. unfold crash_files_shut.
    destruct (q_shut_down (pend q)) as [p|] eqn:Ep; [|discriminate]. cbn [bind] in Q.
    destruct (q_shut_down (errq q)) as [e|] eqn:Ee; [|discriminate]. cbn [bind] in Q. injection Q as <-.
    apply in_or_app. right. apply (in_map (fun t => (db p, t))). unfold crash_tables_shut_down. rewrite Ee.
    right. apply in_or_app. right. now left. }
  assert (Cin : forall s0, hinv s0 -> running s0 = false -> cur_in s0 = None).
  { intros s0 H0 R0. destruct (cur_in s0) eqn:Ec; [|auto]. exfalso.
    assert (running s0 = true) by (apply (hi_run _ _ H0); congruence). congruence. }
  assert (Dec : ev = EShutDown \/ ev <> EShutDown) by (destruct ev; (left; reflexivity) || (right; discriminate)).
  destruct Dec as [->|Ne].
  - cbn [HandlerModel.hstep] in E.
    apply shut_down_check_exact in E as [R [Q [Cl [T [Cu [P [_ [_ [_ O]]]]]]]]]; auto; [|apply H].
    cbn [set_shut set_proc set_recv hq closed tasks cur pushing running] in *.
    destruct (Ex _ _ (hi_reach _ _ H) (hi_q _ _ H) Q) as [X [Y Z0]].
    exists (hq s), [], o. split; [reflexivity|]. split; [rewrite O; destruct (fut_done _); [right; eexists|left]; reflexivity|].
    split; [exact X|]. split; [apply H|]. split; [|auto]. rewrite P. unfold abs, abs_with. rewrite Cin by auto. constructor.
  - destruct (shut_off s H) as [H0 A0].
    pose proof (rel_step no_meta dto_ok truthy max_retries s ev Ne) as Rl. destruct (hstep (set_shut s false) ev) as [s1 o1] eqn:E1.
    cbn [fst snd] in Rl. rewrite E in Rl.
    destruct (step_open no_meta dto_ok truthy max_retries (set_shut s false) ev s1 o1 eq_refl Ne E1) as [C1 _]. cbn [set_shut closed] in C1.
    destruct (hstep_ok no_meta dto_ok truthy max_retries _ ev s1 o1 H0 E1 C1) as [H1 Ms]. rewrite A0 in Ms.
    destruct Rl as [Rl|[s2 [o2 [A Rl]]]]; injection Rl as -> ->; [cbn in C; congruence|].
    apply shut_down_check_exact in A as [R [Q [Cl [T [Cu [P [_ [_ [_ O]]]]]]]]]; [|apply H1|cbn; congruence].
    cbn [fst set_shut hq closed tasks cur pushing running] in *.
    destruct (Ex _ _ (hi_reach _ _ H1) (hi_q _ _ H1) Q) as [X [Y Z0]].
    exists (hq s1), o1, o2. split; [reflexivity|]. split; [rewrite O; destruct (fut_done _); [right; eexists|left]; reflexivity|].
    split; [exact X|]. split; [apply H1|]. split; [|auto].
    rewrite P. unfold abs, abs_with in Ms. rewrite (Cin s1) in Ms by auto. exact Ms.
Qed.

(** The state of the files as the end of the last life, with what crashes took. *)
Theorem lives_ok outs n f : lives outs n f -> pfiles no_meta f /\ 0 <= n /\
  exists crashed, Permutation (accepted outs) (a_items (f_ast f) ++ gone outs ++ crashed) /\
    Z.of_nat (List.length crashed) <= n.
Proof.
  induction 1 as [|outs n f ps evs s o ev f' o' L [Pf [Hn [cr [P Lc]]]] Hp E C Ca
    |outs n f ps evs s o ev s' o' L [Pf [Hn [cr [P Lc]]]] Hp E C Es Cs|outs n f ps f' L [Pf [Hn [cr [P Lc]]]] Hp Hi].
  - split; [constructor|]. split; [lia|]. exists []. split; [reflexivity|cbn; lia].
  - destruct (start_facts ps f Pf Hp) as [R [U [Z1 [P1 P2]]]]. set (q := pq_open ps (fst f) (snd f)) in *.
    destruct (run_facts no_meta dto_ok truthy max_retries q evs s o R U E C) as [H [Ms [W I]]].
    assert (Z2 : sizes (hq s) = (ps, ps)).
    { rewrite (hrun_sizes _ _ _ _ _ _ _ _ E), setup_sizes. exact Z1. }
    destruct (crash_ok s ev f' o' ps H Z2 Hp Ca) as [Pf' [a [Ms' Lv]]].
    split; [exact Pf'|]. split; [lia|].
    pose proof (micros_app dto_ok max_retries _ _ _ _ _ Ms Ms') as Mt.
    destruct (micros_conserve dto_ok max_retries _ _ _ Mt W) as [Wa Pa].
    destruct (leaves_rest f' a _ Wa Lv) as [cr' [P' L']].
    exists (cr ++ cr'). split.
    + rewrite accepted_app, P, !gone_app. rewrite I, (items_p_perm _ _ P1), (items_e_perm _ _ P2), P' in Pa.
      rewrite gone_app in Pa. unfold f_ast at 1, a_items at 1. cbn [a_push a_pend a_in a_err in_items app].
      transitivity ((accepted (o ++ o') ++ items_p (map kv (fst f)) ++ items_e (map kv (snd f))) ++ gone outs ++ cr); [perm|].
      rewrite Pa. perm.
    + rewrite app_length. lia.
  - destruct (start_facts ps f Pf Hp) as [R [U [Z1 [P1 P2]]]]. set (q := pq_open ps (fst f) (snd f)) in *.
    destruct (run_facts no_meta dto_ok truthy max_retries q evs s o R U E C) as [H [Ms [W I]]].
    destruct (close_ok s ev s' o' H Es ltac:(congruence)) as [q1 [o1 [o2 [-> [O2 [Pf' [Hq [Ms' [K1 K2]]]]]]]]].
    split; [exact Pf'|]. split; [lia|].
    pose proof (micros_app dto_ok max_retries _ _ _ _ _ Ms Ms') as Mt.
    destruct (micros_conserve dto_ok max_retries _ _ _ Mt W) as [_ Pa].
    assert (X : accepted o2 = [] /\ gone o2 = []) by (destruct O2 as [->|[e ->]]; auto). destruct X as [X1 X2].
    exists (cr ++ pushing s'). split; [|rewrite app_length; lia].
    rewrite !accepted_app, P, !gone_app, X1, X2, !app_nil_r.
    rewrite I, (items_p_perm _ _ P1), (items_e_perm _ _ P2), accepted_app, gone_app in Pa.
    unfold f_ast, a_items in *. cbn [a_push a_pend a_in a_err in_items app files_of fst snd] in *. rewrite K1, K2.
    transitivity (((accepted o ++ accepted o1) ++ items_p (map kv (fst f)) ++ items_e (map kv (snd f))) ++ gone outs ++ cr); [perm|].
    rewrite Pa. perm.
  - split; [eapply pf_open; eauto|]. split; [lia|].
    pose proof (pfiles_good no_meta f Pf) as G.
    assert (Lv : leaves f' (f_ast f) (4 * ps)).
    { pose proof (crash_open_good ps f f' G Hi) as G'. destruct G as [G1 [G2 [G3 G4]]].
      apply in_app_or in Hi as [Hi|Hi]; apply in_map_iff in Hi as [t [<- Ht]].
      - destruct (crash_open_ok ps _ _ G1 Ht) as [_ X]. pose proof (open_len _ ps _ _ Hp G1 Ht) as Y.
        constructor; auto; cbn [fst snd f_ast a_pend a_err]; [apply incl_refl|].
        rewrite items_len. cbn [f_ast a_push a_pend a_in a_err List.length]. rewrite !map_length. lia.
      - destruct (crash_open_ok ps _ _ G2 Ht) as [_ X]. pose proof (open_len _ ps _ _ Hp G2 Ht) as Y.
        assert (Hd : In (db (open_queue ps (fst f))) (crash_tables_open ps (fst f))) by (right; right; now left).
        destruct (crash_open_ok ps _ _ G1 Hd) as [_ X']. pose proof (open_len _ ps _ _ Hp G1 Hd) as Y'.
        constructor; auto; cbn [fst snd f_ast a_pend a_err]; auto.
        rewrite items_len. cbn [f_ast a_push a_pend a_in a_err List.length]. rewrite !map_length. lia. }
    destruct (leaves_rest f' (f_ast f) _ (fgood_wf f G) Lv) as [cr' [P' L']].
    exists (cr ++ cr'). split; [rewrite P, P'; perm|rewrite app_length; lia].
Qed.

End Proofs.
