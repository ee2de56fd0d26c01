(** Properties of single events, pausing, wake-ups and shutting down. *)
From Coq Require Import List ZArith NArith Bool String Lia Permutation.
From Coq Require Import ZifyBool ZifyNat ZifyN.
From Verif Require Import Base PermTac PQueueModel PQueueSpec PQueueProofs PQueueProofs2 PendingModel PendingSpec
  PendingProofs HandlerModel HandlerSpec HandlerProofs HandlerProofs2.
Import ListNotations.
Local Open Scope Z_scope.

Section Proofs.
Context {D M : Type}.
Variable no_meta : M.
Variables dto_ok truthy : D -> bool.
Variable max_retries : Z.
Notation item := (item D M). Notation hout := (hout D M). Notation hev := (hev D M). Notation hstate := (hstate D M).
Notation tstate := (tstate D M). Notation pentry := (pentry D M). Notation eentry := (eentry D M).
Notation hstep := (@hstep D M no_meta dto_ok truthy max_retries).
Notation hrun := (@hrun D M no_meta dto_ok truthy max_retries).
Notation hinv := (@hinv D M no_meta).
Implicit Types (s : hstate) (o : list hout).

(** ** What is in process *)
Lemma held_tin (t : tstate) : held t = in_items (tin t).
Proof. destruct t; reflexivity. Qed.

Lemma only_task (l : list tstate) i t : nth_error l i = Some t ->
  (forall j t', nth_error l j = Some t' -> t' <> TDone -> j = i) -> flat_map held l = held t.
Proof.
  revert i. induction l as [|u l IH]; intros [|i] N H; try discriminate; cbn [flat_map].
  - cbn in N. injection N as ->.
    assert (G : flat_map held l = []).
    { clear IH. assert (H' : forall j t', nth_error l j = Some t' -> t' = TDone).
      { intros j t' Hj. destruct t'; auto; exfalso; assert (S j = 0%nat) by (eapply (H (S j)); [exact Hj|discriminate]); lia. }
      clear H. induction l as [|u l IH]; [reflexivity|]. cbn [flat_map]. rewrite (H' 0%nat u eq_refl). cbn.
      apply IH. intros j t' Hj. apply (H' (S j) t' Hj). }
    rewrite G. apply app_nil_r.
  - assert (U : held u = []).
    { destruct u; auto; exfalso; assert (0%nat = S i) by (eapply (H 0%nat); [reflexivity|discriminate]); lia. }
    rewrite U. cbn [app]. apply (IH i); auto. intros j t' Hj Ht. assert (S j = S i) by (eapply H; eauto). lia.
Qed.

Lemma no_live (l : list tstate) : (forall j t', nth_error l j = Some t' -> t' = TDone) -> flat_map held l = [].
Proof.
  induction l as [|u l IH]; intros H; [reflexivity|]. cbn [flat_map]. rewrite (H 0%nat u eq_refl). cbn.
  apply IH. intros j t' Hj. apply (H (S j) t' Hj).
Qed.

Lemma tdone_dec (t : tstate) : t = TDone \/ t <> TDone.
Proof. destruct t; (left; reflexivity) || (right; discriminate). Qed.

Lemma in_process_abs s : hinv s -> in_process s = in_items (cur_in s).
Proof.
  intros H. unfold in_process, cur_in. destruct (cur s) as [i|] eqn:C.
  - destruct (nth_error (tasks s) i) as [t|] eqn:N.
    + rewrite <- held_tin. apply (only_task _ i); auto. intros j t' Hj Ht.
      pose proof (hi_live _ _ H _ _ Hj Ht). congruence.
    + apply nth_error_None in N. pose proof (hi_cur _ _ H _ C). lia.
  - apply no_live. intros j t' Hj. destruct (tdone_dec t') as [E|E]; [auto|].
    pose proof (hi_live _ _ H _ _ Hj E). congruence.
Qed.

Lemma abs_items s : hinv s ->
  a_items (abs s) = pushing s ++ items_p (pc (hq s)) ++ in_process s ++ items_e (ec (hq s)).
Proof. intros H. rewrite in_process_abs by auto. reflexivity. Qed.

Lemma abs_wf s : hinv s -> wf (abs s).
Proof.
  intros H. constructor; cbn [abs abs_with a_pend a_err].
  - apply (hi_q _ _ H).
  - apply (hi_q _ _ H).
  - apply inv_nodup, (hi_q _ _ H).
  - apply inv_nodup, (hi_q _ _ H).
Qed.

(** ** Runs from start-up *)
Lemma run_facts q0 evs s o : preachable no_meta q0 -> usable q0 -> hrun (setup q0) evs = (s, o) -> closed s = 0%nat ->
  hinv s /\ micros dto_ok max_retries (mkA [] (pc q0) None (ec q0)) o (abs s) /\
  wf (mkA [] (pc q0) None (ec q0)) /\ a_items (mkA [] (pc q0) None (ec q0)) = items_p (pc q0) ++ items_e (ec q0).
Proof.
  intros R U E C. destruct (setup_ok no_meta q0 R U) as [H0 [A0 C0]].
  destruct (hrun_ok no_meta dto_ok truthy max_retries evs _ _ _ H0 E) as [H1 Ms]; [congruence|].
  rewrite A0 in Ms. split; [auto|]. split; [auto|]. split; [|reflexivity]. rewrite <- A0. now apply abs_wf.
Qed.

Lemma run_holds s : hinv s -> holds (hq s) (pc (hq s)) (ec (hq s)).
Proof. intros H. apply holds_contents; apply H. Qed.

Theorem conservation q0 lp0 le0 evs s o : preachable no_meta q0 -> usable q0 -> holds q0 lp0 le0 ->
  hrun (setup q0) evs = (s, o) -> closed s = 0%nat ->
  exists lp le, holds (hq s) lp le /\
    Permutation (accepted o ++ items_p lp0 ++ items_e le0)
      (pushing s ++ items_p lp ++ in_process s ++ items_e le ++ finished o ++ removed o ++ dropped o ++ lost o).
Proof.
  intros R U Hh E C. destruct (holds_unique q0 lp0 le0 (preachable_inv no_meta q0 R) U Hh) as [-> ->].
  destruct (run_facts q0 evs s o R U E C) as [H [Ms [W I]]].
  exists (pc (hq s)), (ec (hq s)). split; [now apply run_holds|].
  destruct (micros_conserve dto_ok max_retries _ _ _ Ms W) as [_ P]. rewrite I in P. rewrite P, abs_items by auto.
  rewrite gone_parts. perm.
Qed.

(** ** Losses *)
Lemma lost_finish s i s' o : finish_task s i = (s', o) -> lost o = [].
Proof.
  unfold finish_task, shut_down_check.
  destruct (_ && _); [|intros E; injection E as <- <-; reflexivity].
  destruct (q_shut_down _); [|intros E; injection E as <- <-; reflexivity].
  destruct (q_shut_down _); [|intros E; injection E as <- <-; reflexivity].
  destruct (fut_done _); intros E; injection E as <- <-; reflexivity.
Qed.

Definition bad (x : item) : Prop := dto_ok (data_of x) = false.

Lemma lost_loop s i s' o : loop dto_ok s i = (s', o) -> Forall bad (lost o).
Proof.
  unfold loop. intros E. destruct (_ && _).
  2:{ apply lost_finish in E. rewrite E. constructor. }
  destruct (pop_pending (hq s)) as [[q [e|]]|x].
  - destruct (dto_ok (pe_data e)) eqn:Dt.
    + injection E as <- <-. constructor.
    + destruct (finish_task (set_hq s q) i) as [s1 o1] eqn:F. injection E as <- <-.
      cbn. fold (lost o1). rewrite (lost_finish _ _ _ _ F). constructor; [exact Dt|constructor].
  - destruct (finish_task (set_hq s q) i) as [s1 o1] eqn:F. injection E as <- <-. cbn. fold (lost o1).
    rewrite (lost_finish _ _ _ _ F). constructor.
  - destruct (finish_task s i) as [s1 o1] eqn:F. injection E as <- <-. cbn. fold (lost o1).
    rewrite (lost_finish _ _ _ _ F). constructor.
Qed.

Lemma lost_reply x : lost (reply (M:=M) dto_ok truthy x) = [].
Proof. unfold reply. destruct x as [d|]; [|reflexivity]. destruct (truthy d), (dto_ok d); reflexivity. Qed.

Lemma lost_push s k d m r : hinv s -> lost (snd (h_push_pending no_meta s (k, d, m) r)) = [].
Proof.
  intros H. destruct (h_push_pending_ok no_meta s k d m r (hi_q _ _ H) (hi_u _ _ H) (hi_reach _ _ H)) as [q [A _]].
  rewrite A. cbn. destruct (has _ _); reflexivity.
Qed.

Lemma lost_settle s i e b s' o : hmid no_meta s i -> settle no_meta max_retries s e b = (s', o) -> lost o = [].
Proof.
  intros H. unfold settle. destruct b; [intros E; injection E as <- <-; reflexivity|].
  destruct (_ <=? _); intros E.
  - destruct (h_push_error_ok no_meta s (pe_key e) (pe_data e) (pe_meta e) (hm_q _ _ _ H) (hm_u _ _ _ H) (hm_reach _ _ _ H))
      as [q [A _]]. unfold item_p in E. rewrite A in E. injection E as <- <-. destruct (has _ _); reflexivity.
  - destruct (h_push_pending_ok no_meta s (pe_key e) (pe_data e) (pe_meta e) (pe_retries e + 1)
      (hm_q _ _ _ H) (hm_u _ _ _ H) (hm_reach _ _ _ H)) as [q [A _]].
    unfold item_p in E. rewrite A in E. injection E as <- <-. destruct (has _ _); reflexivity.
Qed.

Lemma hstep_lost s ev s' o : hinv s -> hstep s ev = (s', o) -> failure ev = false -> Forall bad (lost o).
Proof.
  intros H E F. destruct ev; cbn [HandlerModel.hstep] in E; try discriminate F.
  - destruct (recv_paused s); injection E as <- <-; constructor.
  - destruct (nth_error _ _) as [[k d]|]; injection E as <- <-; constructor.
  - destruct (nth_error _ _) as [[k d]|]; injection E as <- <-; constructor.
  - destruct (nth_error _ _) as [[[k d] m]|] eqn:N; [|injection E as <- <-; constructor].
    assert (X : hinv (set_pushing s (del_nth i (pushing s)))) by (eapply hinv_flags; eauto; cbn; apply H).
    pose proof (lost_push _ k d m 0 X) as L. rewrite E in L. cbn [snd] in L. rewrite L. constructor.
  - unfold task_step in E. destruct (nth_error (tasks s) i) as [t|] eqn:N; [|injection E as <- <-; constructor].
    destruct t as [|e|e|e b|].
    + eapply lost_loop; eauto.
    + destruct r; try discriminate F; injection E as <- <-; constructor.
    + destruct r; try discriminate F; injection E as <- <-; constructor.
    + assert (G : (let (s1, o1) := settle no_meta max_retries s e b in
                               let (s2, o2) := loop dto_ok s1 i in (s2, o1 ++ o2)) = (s', o)) by (destruct r; try discriminate F; auto).
      destruct (settle no_meta max_retries s e b) as [s1 o1] eqn:Es.
      destruct (loop dto_ok s1 i) as [s2 o2] eqn:El. injection G as <- <-.
      rewrite lost_app, (lost_settle s i e b s1 o1); auto; [|eapply hinv_mid; eauto; discriminate].
      eapply lost_loop; eauto.
    + injection E as <- <-; constructor.
  - injection E as <- <-; constructor.
  - injection E as <- <-; constructor.
  - injection E as <- <-; constructor.
  - injection E as <- <-; constructor.
  - destruct (move_all _ _); injection E as <- <-; [|constructor].
    match goal with |- Forall bad (lost ?l) => replace (lost l) with (@nil item) end; [constructor|]. symmetry.
    induction (entries (errq (hq s))) as [|e le IH]; [reflexivity|]. cbn [flat_map]. rewrite lost_app, IH.
    destruct (has _ _); reflexivity.
  - destruct (move_one _ _ _) as [[q x]|]; injection E as <- <-; [|constructor].
    rewrite lost_app, lost_reply, app_nil_r. destruct (lookup _ _); [destruct (has _ _)|]; constructor.
  - destruct (pop_error_key _ _) as [[q x]|]; injection E as <- <-; [|constructor].
    rewrite lost_app, lost_reply, app_nil_r. destruct (lookup _ _); constructor.
  - destruct (inspect_error_key _ _); injection E as <- <-; [rewrite lost_reply|]; constructor.
  - injection E as <- <-.
    match goal with |- Forall bad (lost ?l) => replace (lost l) with (@nil item) end; [constructor|]. symmetry.
    induction (entries (errq (hq s))); auto.
  - unfold shut_down_check in E. destruct (_ && _); [|injection E as <- <-; constructor].
    destruct (q_shut_down _); [|injection E as <- <-; constructor].
    destruct (q_shut_down _); [|injection E as <- <-; constructor].
    destruct (fut_done _); injection E as <- <-; constructor.
Qed.

Lemma hrun_lost evs : forall s s' o, hinv s -> hrun s evs = (s', o) -> closed s' = closed s ->
  forallb (fun e => negb (failure e)) evs = true -> Forall bad (lost o).
Proof.
  induction evs as [|ev r IH]; intros s s' o H E C F; cbn [HandlerModel.hrun] in E; [injection E as <- <-; constructor|].
  cbn [forallb] in F. apply andb_prop in F as [F1 F2].
  pose proof (hstep_closed no_meta dto_ok truthy max_retries s ev) as X.
  destruct (hstep s ev) as [s1 o1] eqn:E1.
  pose proof (hrun_closed no_meta dto_ok truthy max_retries r s1) as Y. destruct (hrun s1 r) as [s2 o2] eqn:E2.
  injection E as <- <-. cbn [fst] in *.
  destruct (hstep_ok no_meta dto_ok truthy max_retries s ev s1 o1 H E1) as [A B]; [lia|].
  rewrite lost_app. apply Forall_app. split.
  - apply (hstep_lost s ev s1 o1); auto. now apply negb_true_iff.
  - apply (IH s1 s2 o2); auto. lia.
Qed.

(** *** Exactly one place *)
Theorem exactly_one_place q0 lp0 le0 evs s o : preachable no_meta q0 -> usable q0 -> holds q0 lp0 le0 ->
  hrun (setup q0) evs = (s, o) -> closed s = 0%nat ->
  forallb (fun e => negb (failure e)) evs = true ->
  Forall (fun x => dto_ok (data_of x) = true) (accepted o ++ items_p lp0 ++ items_e le0) ->
  NoDup (map key_of (accepted o ++ items_p lp0 ++ items_e le0)) ->
  exists lp le, holds (hq s) lp le /\
    Permutation (accepted o ++ items_p lp0 ++ items_e le0)
      (pushing s ++ items_p lp ++ in_process s ++ items_e le ++ finished o ++ removed o) /\
    NoDup (map key_of (pushing s ++ items_p lp ++ in_process s ++ items_e le ++ finished o ++ removed o)).
Proof.
  intros R U Hh E C F Ok ND.
  destruct (conservation q0 lp0 le0 evs s o R U Hh E C) as [lp [le [Hl P]]].
  exists lp, le. split; [auto|].
  destruct (holds_unique q0 lp0 le0 (preachable_inv no_meta q0 R) U Hh) as [-> ->].
  destruct (run_facts q0 evs s o R U E C) as [H [Ms [W I]]].
  assert (Dr : dropped o = []) by (eapply micros_no_drop; eauto; rewrite I; exact ND).
  assert (Lo : lost o = []).
  { destruct (setup_ok no_meta q0 R U) as [H0 [A0 C0]].
    assert (B : Forall bad (lost o)) by (eapply hrun_lost; eauto; congruence).
    destruct (lost o) as [|x l] eqn:L; [reflexivity|]. inversion B; subst. exfalso.
    assert (X : In x (accepted o ++ items_p (pc q0) ++ items_e (ec q0))).
    { eapply Permutation_in; [symmetry; exact P|]. rewrite !in_app_iff. cbn. tauto. }
    rewrite Forall_forall in Ok. specialize (Ok _ X). unfold bad in *. congruence. }
  rewrite Dr, Lo, !app_nil_r in P. split; [exact P|]. eapply keys_perm; eauto.
Qed.

(** ** Pausing *)
Lemma started_finish s i s' o : finish_task s i = (s', o) -> started o = [] /\ proc_paused s' = proc_paused s.
Proof.
  unfold finish_task, shut_down_check.
  destruct (_ && _); [|intros E; injection E as <- <-; auto].
  destruct (q_shut_down _); [|intros E; injection E as <- <-; auto].
  destruct (q_shut_down _); [|intros E; injection E as <- <-; auto].
  destruct (fut_done _); intros E; injection E as <- <-; auto.
Qed.

Lemma settle_paused s e b s' o : settle no_meta max_retries s e b = (s', o) ->
  started o = [] /\ proc_paused s' = proc_paused s /\ tasks s' = tasks s.
Proof.
  unfold settle, h_push_error, h_push_pending, item_p. destruct b; [intros E; injection E as <- <-; auto|].
  destruct (_ <=? _).
  - destruct (push_error _ _ _ _ _ _); intros E; injection E as <- <-; [destruct (has _ _)|]; auto.
  - destruct (push_pending _ _ _ _ _ _); intros E; injection E as <- <-; [destruct (has _ _)|]; auto.
Qed.

Lemma check_paused s : proc_paused (check_process s) = proc_paused s.
Proof.
  unfold check_process. destruct (cur s) as [i|]; [|reflexivity].
  destruct (nth_error (tasks s) i) as [t|]; [|reflexivity]. destruct t; reflexivity.
Qed.

Theorem paused_step s ev s' o : proc_paused s = true -> unpauses ev = false -> hstep s ev = (s', o) ->
  proc_paused s' = true /\ started o = [].
Proof.
  intros P U E. destruct ev; cbn [HandlerModel.hstep] in E; try discriminate U.
  - destruct (recv_paused s); injection E as <- <-; auto.
  - destruct (nth_error _ _) as [[k d]|]; injection E as <- <-; rewrite ?check_paused; auto.
  - destruct (nth_error _ _) as [[k d]|]; injection E as <- <-; auto.
  - destruct (nth_error _ _) as [[[k d] m]|]; [|injection E as <- <-; auto]. unfold h_push_pending in E.
    destruct (push_pending _ _ _ _ _ _); injection E as <- <-; [destruct (has _ _)|]; auto.
  - destruct (nth_error _ _); injection E as <- <-; auto.
  - unfold task_step in E. destruct (nth_error (tasks s) i) as [t|] eqn:N; [|injection E as <- <-; auto].
    assert (Fin : forall e, (let (s', o) := finish_task s i in (s', HLost (item_p e) :: HExn "user" :: o)) = (s', o) ->
      proc_paused s' = true /\ started o = []).
    { intros e E1. destruct (finish_task s i) as [s1 o1] eqn:Ef. injection E1 as <- <-.
      apply started_finish in Ef as [A B]. split; [congruence|exact A]. }
    assert (Lp : forall s1 s2 o2, proc_paused s1 = true -> loop dto_ok s1 i = (s2, o2) -> proc_paused s2 = true /\ started o2 = []).
    { intros s1 s2 o2 P1 E1. unfold loop in E1. rewrite P1 in E1. cbn [negb andb] in E1. apply started_finish in E1 as [A B].
      split; [congruence|auto]. }
    destruct t as [|e|e|e b|].
    + eapply (Lp (set_running s true)); eauto.
    + destruct r; [injection E as <- <-; auto|injection E as <- <-; auto|eapply Fin; eauto].
    + destruct r; [injection E as <- <-; auto|injection E as <- <-; auto|eapply Fin; eauto].
    + assert (G : (let (s1, o1) := settle no_meta max_retries s e b in
                               let (s2, o2) := loop dto_ok s1 i in (s2, o1 ++ o2)) = (s', o) -> proc_paused s' = true /\ started o = []).
      { intros G. destruct (settle no_meta max_retries s e b) as [s1 o1] eqn:Es. apply settle_paused in Es as [A [B _]].
        destruct (loop dto_ok s1 i) as [s2 o2] eqn:El. injection G as <- <-.
        apply Lp in El as [A2 B2]; [|congruence]. rewrite started_app, A, B2. auto. }
      destruct r; [apply G, E|apply G, E|eapply Fin; eauto].
    + injection E as <- <-; auto.
  - unfold cancel_task in E. destruct (nth_error (tasks s) i) as [t|] eqn:N; [|injection E as <- <-; auto].
    assert (Fin : forall e, (let (s', o) := finish_task s i in (s', HLost (item_p e) :: o)) = (s', o) ->
      proc_paused s' = true /\ started o = []).
    { intros e E1. destruct (finish_task s i) as [s1 o1] eqn:Ef. injection E1 as <- <-.
      apply started_finish in Ef as [A B]. split; [congruence|exact A]. }
    destruct t; try (injection E as <- <-; auto; fail); eapply Fin; eauto.
  - injection E as <- <-; auto.
  - injection E as <- <-; rewrite check_paused; auto.
  - injection E as <- <-; auto.
  - destruct (pop_error_key _ _) as [[q x]|]; injection E as <- <-; [|auto]. split; [auto|].
    rewrite started_app. destruct (lookup _ _); cbn; unfold reply; (destruct x as [d|]; [|reflexivity]);
      destruct (truthy d), (dto_ok d); reflexivity.
  - destruct (inspect_error_key _ _) as [x|]; injection E as <- <-; [|auto]. split; [auto|].
    unfold reply; (destruct x as [d|]; [|reflexivity]); destruct (truthy d), (dto_ok d); reflexivity.
  - injection E as <- <-. split; [auto|]. induction (entries (errq (hq s))); auto.
  - unfold shut_down_check in E. destruct (_ && _); [|injection E as <- <-; auto].
    destruct (q_shut_down _); [|injection E as <- <-; auto].
    destruct (q_shut_down _); [|injection E as <- <-; auto].
    destruct (fut_done _); injection E as <- <-; auto.
Qed.

Theorem paused_run evs : forall s s' o, proc_paused s = true -> forallb (fun e => negb (unpauses e)) evs = true ->
  hrun s evs = (s', o) -> proc_paused s' = true /\ started o = [].
Proof.
  induction evs as [|ev r IH]; intros s s' o P U E; cbn [HandlerModel.hrun] in E; [injection E as <- <-; auto|].
  cbn [forallb] in U. apply andb_prop in U as [U1 U2].
  destruct (hstep s ev) as [s1 o1] eqn:E1. destruct (hrun s1 r) as [s2 o2] eqn:E2. injection E as <- <-.
  apply paused_step in E1 as [A B]; auto; [|now apply negb_true_iff].
  apply IH in E2 as [A2 B2]; auto. rewrite started_app, B, B2. auto.
Qed.

(** Calls of the endpoint's function never exceed the requests that were waiting for it. *)
Definition is_before (t : tstate) : nat := match t with TBefore _ => 1 | _ => 0 end.
Definition before s : nat := list_sum (map is_before (tasks s)).
Arguments list_sum : simpl never.
Lemma called_app o o' : called (o ++ o') = called o ++ called o'. Proof. apply flat_map_app. Qed.

Lemma before_set (l : list tstate) i t u : nth_error l i = Some u ->
  (list_sum (map is_before (set_nth i t l)) + is_before u = list_sum (map is_before l) + is_before t)%nat.
Proof.
  revert i. induction l as [|v l IH]; intros [|i] N; try discriminate.
  - injection N as ->. unfold list_sum; cbn. lia.
  - specialize (IH i N). unfold list_sum in *. cbn [set_nth map fold_right] in *. lia.
Qed.

Lemma set_nth_oob {A} i (x : A) l : nth_error l i = None -> set_nth i x l = l.
Proof.
  revert i. induction l as [|y l IH]; intros [|i] N; try discriminate; auto. cbn. f_equal. now apply IH.
Qed.

Lemma before_finish s i s' o : finish_task s i = (s', o) ->
  called o = [] /\ tasks s' = set_nth i TDone (tasks s).
Proof.
  unfold finish_task, shut_down_check.
  destruct (_ && _); [|intros E; injection E as <- <-; auto].
  destruct (q_shut_down _); [|intros E; injection E as <- <-; auto].
  destruct (q_shut_down _); [|intros E; injection E as <- <-; auto].
  destruct (fut_done _); intros E; injection E as <- <-; auto.
Qed.

Lemma before_done (l : list tstate) i : (list_sum (map is_before (set_nth i TDone l)) <= list_sum (map is_before l))%nat.
Proof.
  destruct (nth_error l i) as [u|] eqn:N.
  - pose proof (before_set l i TDone u N) as X. cbn in X. lia.
  - rewrite set_nth_oob; auto.
Qed.

Lemma before_loop s i s' o : loop dto_ok s i = (s', o) ->
  called o = [] /\ (before s' <= before s + List.length (started o))%nat.
Proof.
  unfold loop. intros E.
  assert (Fin : forall s0 s1 o1, tasks s0 = tasks s -> finish_task s0 i = (s1, o1) -> called o1 = [] /\ (before s1 <= before s)%nat).
  { intros s0 s1 o1 T F. apply before_finish in F as [A B]. split; [auto|]. unfold before. rewrite B, T. apply before_done. }
  destruct (_ && _).
  2:{ apply Fin in E as [A B]; auto. split; [auto|lia]. }
  destruct (pop_pending (hq s)) as [[q [e|]]|x].
  - destruct (dto_ok (pe_data e)) eqn:Dt.
    + injection E as <- <-. split; [reflexivity|]. cbn [started flat_map List.length app].
      unfold before, set_task, set_tasks. cbn [tasks set_hq].
      destruct (nth_error (tasks s) i) as [u|] eqn:N.
      * pose proof (before_set _ i (TBefore e) u N) as X. cbn in X. lia.
      * rewrite set_nth_oob by auto. lia.
    + destruct (finish_task (set_hq s q) i) as [s1 o1] eqn:F. injection E as <- <-.
      apply Fin in F as [A B]; auto. cbn. fold (called o1). rewrite A. split; [auto|]. lia.
  - destruct (finish_task (set_hq s q) i) as [s1 o1] eqn:F. injection E as <- <-. apply Fin in F as [A B]; auto.
    cbn. fold (called o1). rewrite A. split; [auto|]. lia.
  - destruct (finish_task s i) as [s1 o1] eqn:F. injection E as <- <-. apply Fin in F as [A B]; auto.
    cbn. fold (called o1). rewrite A. split; [auto|]. lia.
Qed.

Lemma check_before s : before (check_process s) = before s.
Proof.
  unfold check_process, before.
  assert (G : list_sum (map is_before (tasks s ++ [TCreated])) = list_sum (map is_before (tasks s))).
  { rewrite map_app, list_sum_app. unfold list_sum at 2. cbn. lia. }
  destruct (cur s) as [i|]; [|exact G]. destruct (nth_error (tasks s) i) as [t|]; [|exact G].
  destruct t; auto.
Qed.

Theorem calls_step s ev s' o : hstep s ev = (s', o) ->
  (List.length (called o) + before s' <= before s + List.length (started o))%nat.
Proof.
  intros E. destruct ev; cbn [HandlerModel.hstep] in E.
  - destruct (recv_paused s); injection E as <- <-; unfold before; cbn; lia.
  - destruct (nth_error _ _) as [[k d]|]; injection E as <- <-; rewrite ?check_before; unfold before; cbn; lia.
  - destruct (nth_error _ _) as [[k d]|]; injection E as <- <-; unfold before; cbn; lia.
  - destruct (nth_error _ _) as [[[k d] m]|]; [|injection E as <- <-; unfold before; cbn; lia]. unfold h_push_pending in E.
    destruct (push_pending _ _ _ _ _ _); injection E as <- <-; [destruct (has _ _)|]; unfold before; cbn; lia.
  - destruct (nth_error _ _); injection E as <- <-; unfold before; cbn; lia.
  - unfold task_step in E. destruct (nth_error (tasks s) i) as [t|] eqn:N; [|injection E as <- <-; unfold before; cbn; lia].
    assert (Fin : forall e, (let (s', o) := finish_task s i in (s', HLost (item_p e) :: HExn "user" :: o)) = (s', o) ->
      (List.length (called o) + before s' <= before s + List.length (started o))%nat).
    { intros e E1. destruct (finish_task s i) as [s1 o1] eqn:Ef. injection E1 as <- <-.
      apply before_finish in Ef as [A B]. cbn. fold (called o1). rewrite A. unfold before. rewrite B.
      pose proof (before_done (tasks s) i). cbn. lia. }
    destruct t as [|e|e|e b|].
    + apply before_loop in E as [A B]. rewrite A. cbn [List.length]. unfold before in *. cbn [tasks set_running] in B. lia.
    + assert (G : (set_task s i (TCall e), [@HCalled D M (pe_key e) (pe_data e)]) = (s', o) ->
        (List.length (called o) + before s' <= before s + List.length (started o))%nat).
      { intros G. injection G as <- <-. unfold before, set_task, set_tasks. cbn [tasks].
        pose proof (before_set _ i (TCall e) _ N) as X. cbn in *. lia. }
      destruct r; [apply G, E|apply G, E|eapply Fin; eauto].
    + destruct r; [injection E as <- <-; unfold before; cbn; lia| |eapply Fin; eauto].
      injection E as <- <-. unfold before, set_task, set_tasks. cbn [tasks].
      pose proof (before_set _ i (TAfter e b) _ N) as X. cbn in *. lia.
    + assert (G : (let (s1, o1) := settle no_meta max_retries s e b in
                               let (s2, o2) := loop dto_ok s1 i in (s2, o1 ++ o2)) = (s', o) ->
        (List.length (called o) + before s' <= before s + List.length (started o))%nat).
      { intros G. destruct (settle no_meta max_retries s e b) as [s1 o1] eqn:Es.
        assert (Cs : called o1 = []).
        { revert Es. unfold settle, h_push_error, h_push_pending, item_p.
          destruct b; [intros X; injection X as <- <-; reflexivity|]. destruct (_ <=? _).
          - destruct (push_error _ _ _ _ _ _); intros X; injection X as <- <-; [destruct (has _ _)|]; reflexivity.
          - destruct (push_pending _ _ _ _ _ _); intros X; injection X as <- <-; [destruct (has _ _)|]; reflexivity. }
        apply settle_paused in Es as [A [_ T]].
        destruct (loop dto_ok s1 i) as [s2 o2] eqn:El. injection G as <- <-.
        apply before_loop in El as [A2 B2]. rewrite called_app, started_app, Cs, A2, A. cbn [app List.length].
        unfold before in *. rewrite T in B2. lia. }
      destruct r; [apply G, E|apply G, E|eapply Fin; eauto].
    + injection E as <- <-; unfold before; cbn; lia.
  - unfold cancel_task in E. destruct (nth_error (tasks s) i) as [t|] eqn:N; [|injection E as <- <-; unfold before; cbn; lia].
    assert (Fin : forall e, (let (s', o) := finish_task s i in (s', HLost (item_p e) :: o)) = (s', o) ->
      (List.length (called o) + before s' <= before s + List.length (started o))%nat).
    { intros e E1. destruct (finish_task s i) as [s1 o1] eqn:Ef. injection E1 as <- <-.
      apply before_finish in Ef as [A B]. cbn. fold (called o1). rewrite A. unfold before. rewrite B.
      pose proof (before_done (tasks s) i). cbn. lia. }
    destruct t; try (eapply Fin; eassumption).
    + injection E as <- <-. unfold before, set_task, set_tasks. cbn [tasks]. pose proof (before_done (tasks s) i). cbn. lia.
    + injection E as <- <-. unfold before; cbn; lia.
  - injection E as <- <-; unfold before; cbn; lia.
  - injection E as <- <-; rewrite check_before; unfold before; cbn; lia.
  - injection E as <- <-; unfold before; cbn; lia.
  - injection E as <- <-; rewrite check_before; unfold before; cbn; lia.
  - destruct (move_all _ _); injection E as <- <-; rewrite ?check_before; [|unfold before; cbn; lia].
    match goal with |- (List.length (called ?l) + _ <= _)%nat => replace (called l) with (@nil N) end; [unfold before; cbn; lia|].
    symmetry. induction (entries (errq (hq s))) as [|e le IH]; [reflexivity|]. cbn [flat_map]. rewrite called_app, IH.
    destruct (has _ _); reflexivity.
  - destruct (move_one _ _ _) as [[q x]|]; injection E as <- <-; rewrite ?check_before; [|unfold before; cbn; lia].
    match goal with |- (List.length (called ?l) + _ <= _)%nat => replace (called l) with (@nil N) end; [unfold before; cbn; lia|].
    symmetry. rewrite called_app. destruct (lookup _ _); [destruct (has _ _)|]; cbn; unfold reply;
      (destruct x as [d|]; [|reflexivity]); destruct (truthy d), (dto_ok d); reflexivity.
  - destruct (pop_error_key _ _) as [[q x]|]; injection E as <- <-; [|unfold before; cbn; lia].
    match goal with |- (List.length (called ?l) + _ <= _)%nat => replace (called l) with (@nil N) end; [unfold before; cbn; lia|].
    symmetry. rewrite called_app. destruct (lookup _ _); cbn; unfold reply;
      (destruct x as [d|]; [|reflexivity]); destruct (truthy d), (dto_ok d); reflexivity.
  - destruct (inspect_error_key _ _) as [x|]; injection E as <- <-; [|unfold before; cbn; lia].
    match goal with |- (List.length (called ?l) + _ <= _)%nat => replace (called l) with (@nil N) end; [unfold before; cbn; lia|].
    symmetry. unfold reply; (destruct x as [d|]; [|reflexivity]); destruct (truthy d), (dto_ok d); reflexivity.
  - injection E as <- <-.
    match goal with |- (List.length (called ?l) + _ <= _)%nat => replace (called l) with (@nil N) end; [unfold before; cbn; lia|].
    symmetry. induction (entries (errq (hq s))); auto.
  - unfold shut_down_check in E. destruct (_ && _); [|injection E as <- <-; unfold before; cbn; lia].
    destruct (q_shut_down _); [|injection E as <- <-; unfold before; cbn; lia].
    destruct (q_shut_down _); [|injection E as <- <-; unfold before; cbn; lia].
    destruct (fut_done _); injection E as <- <-; unfold before; cbn; lia.
Qed.

Theorem calls_run evs : forall s s' o, hrun s evs = (s', o) ->
  (List.length (called o) + before s' <= before s + List.length (started o))%nat.
Proof.
  induction evs as [|ev r IH]; intros s s' o E; cbn [HandlerModel.hrun] in E; [injection E as <- <-; unfold before; cbn; lia|].
  destruct (hstep s ev) as [s1 o1] eqn:E1. destruct (hrun s1 r) as [s2 o2] eqn:E2. injection E as <- <-.
  apply calls_step in E1. apply IH in E2. rewrite called_app, started_app, !app_length. lia.
Qed.

Lemma before_one s : hinv s -> (before s <= 1)%nat.
Proof.
  intros H. pose proof (in_process_abs s H) as X.
  assert (L : (before s <= List.length (in_process s))%nat).
  { unfold before, in_process. induction (tasks s) as [|t l IH]; [apply le_n|]. cbn [map flat_map]. rewrite app_length.
    unfold list_sum in *. cbn [fold_right]. destruct t; cbn [held is_before List.length]; lia. }
  rewrite X in L. destruct (cur_in s) as [[e ph]|]; cbn in L; lia.
Qed.

End Proofs.
