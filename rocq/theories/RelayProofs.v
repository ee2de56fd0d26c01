(** Proofs about an application that passes requests on. *)
From Coq Require Import List ZArith NArith Bool String Lia Permutation.
From Verif Require Import Base PermTac PQueueModel PQueueSpec PQueueProofs PendingModel PendingSpec PendingProofs
  SenderModel SenderSpec SenderProofs SenderProofs2 SenderProofs3 HandlerModel HandlerSpec HandlerProofs HandlerProofs2 HandlerProofs3 HandlerProofs5
  DeliveryModel DeliverySpec DeliveryProofs DeliveryProofs3 DeliveryProofs4 RelayModel RelaySpec.
Import ListNotations.
Local Open Scope Z_scope.

(** ** What a step of the sender enqueues *)
Section SenderSide.
Context {D M : Type}.
Variable no_meta : M.
Variables dto_ok truthy : D -> bool.
Variable wait : bool.
Variable max_retries : Z.
Notation sstate := (sstate D M). Notation sout := (sout D). Notation sev := (sev D).
Notation sstep := (sstep (M:=M) no_meta dto_ok truthy wait max_retries).
Implicit Types (s : sstate) (o : list sout) (ev : sev).

Definition enq_of ev : list (msg D) := match ev with SEnqueue k d => [(k, d)] | _ => [] end.
Lemma enq_shut s : enqueued (snd (s_shut_check s)) = [].
Proof. unfold s_shut_check. destruct (_ && _); [|auto]. destruct (q_shut_down _); [|auto]. destruct (q_shut_down _); [|auto]. destruct (sfut _); auto. Qed.
Lemma enq_finish s i : enqueued (snd (s_finish s i)) = [].
Proof. apply enq_shut. Qed.
Lemma enq_loop s i : enqueued (snd (s_loop dto_ok wait s i)) = [].
Proof.
  unfold s_loop. destruct (_ && _); [|apply enq_finish].
  destruct (pop_pending (sq s)) as [[q [e|]]|x].
  - destruct (dto_ok _); [destruct wait; reflexivity|]. pose proof (enq_finish (set_sq s q) i) as F. destruct (s_finish _ i). exact F.
  - pose proof (enq_finish (set_sq s q) i) as F. destruct (s_finish _ i). exact F.
  - pose proof (enq_finish s i) as F. destruct (s_finish _ i). exact F.
Qed.
Lemma enq_settle s e r : enqueued (snd (s_settle no_meta max_retries s e r)) = [].
Proof.
  unfold s_settle, s_push_error, s_push_pending. destruct r; [reflexivity| |].
  - destruct (_ <=? _).
    + destruct (push_error _ _ _ _ _ _); [destruct (has _ _)|]; reflexivity.
    + destruct (push_pending _ _ _ _ _ _); [destruct (has _ _)|]; reflexivity.
  - destruct (push_error _ _ _ _ _ _); [destruct (has _ _)|]; reflexivity.
Qed.
Lemma enq_reply r : enqueued (s_reply dto_ok truthy r) = [].
Proof. unfold s_reply. destruct r as [d|]; [|auto]. destruct (truthy d), (dto_ok d); auto. Qed.

Lemma sstep_enq s ev : enqueued (snd (sstep s ev)) = enq_of ev.
Proof.
  destruct ev as [k d|i r|i| | | |k|k|k| |]; cbn [SenderModel.sstep enq_of]; try reflexivity.
  - unfold s_push_pending. destruct (push_pending _ _ _ _ _ _); [destruct (has _ _)|]; reflexivity.
  - unfold s_task. destruct (nth_error (stasks s) i) as [[|e|e|]|]; try reflexivity.
    + apply enq_loop.
    + pose proof (enq_settle s e r) as A. destruct (s_settle no_meta max_retries s e r) as [s1 o1].
      pose proof (enq_loop s1 i) as B. destruct (s_loop dto_ok wait s1 i) as [s2 o2]. cbn [snd] in *. now rewrite enq_app, A, B.
  - unfold s_cancel. destruct (nth_error (stasks s) i) as [[|e|e|]|]; try reflexivity;
      (pose proof (enq_finish s i) as F; destruct (s_finish s i); exact F).
  - destruct (move_all no_meta (sq s)) as [q|x]; [|reflexivity]. cbn [snd].
    induction (all_entries (errq (sq s))) as [|e l IH]; [reflexivity|]. cbn [flat_map]. rewrite enq_app, IH. destruct (has _ _); reflexivity.
  - destruct (move_one no_meta (sq s) k) as [[q r]|x]; [|reflexivity]. cbn [snd]. rewrite enq_app, enq_reply.
    destruct (lookup _ _); [destruct (has _ _)|]; reflexivity.
  - destruct (pop_error_key (sq s) k) as [[q r]|x]; [|reflexivity]. cbn [snd]. rewrite enq_app, enq_reply. destruct (lookup _ _); reflexivity.
  - destruct (inspect_error_key (sq s) k) as [r|x]; [|reflexivity]. apply enq_reply.
  - cbn [snd]. induction (all_entries (errq (sq s))) as [|e l IH]; [reflexivity|]. exact IH.
  - apply enq_shut.
Qed.
End SenderSide.

(** ** What a step of the endpoint does to its tasks *)
Section HandlerSide.
Context {D M : Type}.
Variable no_meta : M.
Variables dto_ok truthy : D -> bool.
Variable max_retries : Z.
Notation item := (item D M). Notation hout := (hout D M). Notation hev := (hev D M). Notation hstate := (hstate D M).
Notation tstate := (tstate D M).
Notation hstep := (@hstep D M no_meta dto_ok truthy max_retries).
Implicit Types (s : hstate) (o : list hout) (ev : hev).

Lemma shut_check_tasks s s' o : shut_down_check s = (s', o) -> tasks s' = tasks s /\ finished o = [] /\ lost o = [].
Proof.
  unfold shut_down_check. destruct (_ && _); [|intros E; injection E as <- <-; auto].
  destruct (q_shut_down _); [|intros E; injection E as <- <-; auto].
  destruct (q_shut_down _); [|intros E; injection E as <- <-; auto].
  match goal with |- context [if ?b then _ else _] => destruct b end; intros E; injection E as <- <-; auto.
Qed.
Lemma finish_tasks s i s' o : finish_task s i = (s', o) -> tasks s' = set_nth i TDone (tasks s) /\ finished o = [] /\ lost o = [].
Proof. intros E. destruct (shut_check_tasks _ _ _ E) as [A [B C]]. auto. Qed.

(** A task that is not in or after a call of the function. *)
Definition idle (t : tstate) : Prop := match t with TCall _ | TAfter _ _ => False | _ => True end.

Lemma loop_tasks s i s' o : loop dto_ok s i = (s', o) -> finished o = [] /\ exists t, idle t /\ tasks s' = set_nth i t (tasks s).
Proof.
  unfold loop. destruct (_ && _).
  2:{ intros E. destruct (finish_tasks _ _ _ _ E) as [A [B _]]. split; [auto|]. exists TDone. split; [exact I|auto]. }
  destruct (pop_pending (hq s)) as [[q [e|]]|x].
  - destruct (dto_ok (pe_data e)).
    + intros E. injection E as <- <-. split; [reflexivity|]. exists (TBefore e). split; [exact I|reflexivity].
    + destruct (finish_task (set_hq s q) i) as [s1 o1] eqn:F. intros E. injection E as <- <-.
      destruct (finish_tasks _ _ _ _ F) as [A [B _]]. split; [exact B|]. exists TDone. split; [exact I|auto].
  - destruct (finish_task (set_hq s q) i) as [s1 o1] eqn:F. intros E. injection E as <- <-.
    destruct (finish_tasks _ _ _ _ F) as [A [B _]]. split; [exact B|]. exists TDone. split; [exact I|auto].
  - destruct (finish_task s i) as [s1 o1] eqn:F. intros E. injection E as <- <-.
    destruct (finish_tasks _ _ _ _ F) as [A [B _]]. split; [exact B|]. exists TDone. split; [exact I|auto].
Qed.

Lemma settle_tasks s e b s' o : settle no_meta max_retries s e b = (s', o) ->
  tasks s' = tasks s /\ finished o = if b then [item_p e] else [].
Proof.
  unfold settle, h_push_error, h_push_pending, item_p. destruct b.
  - intros E. injection E as <- <-. auto.
  - destruct (_ <=? _).
    + destruct (push_error _ _ _ _ _ _); intros E; injection E as <- <-; [destruct (has _ _)|]; auto.
    + destruct (push_pending _ _ _ _ _ _); intros E; injection E as <- <-; [destruct (has _ _)|]; auto.
Qed.

Lemma check_tasks s : tasks (check_process s) = tasks s \/ tasks (check_process s) = tasks s ++ [TCreated].
Proof.
  unfold check_process. destruct (cur s) as [i|]; [|auto]. destruct (nth_error (tasks s) i) as [t|]; [|auto]. destruct t; auto.
Qed.

(** The ways a step can change what the tasks hold. *)
Inductive change s ev o (ts : list tstate) : Prop :=
| ch_same : finished o = [] -> (forall i r e, ev = ETask i r -> nth_error (tasks s) i = Some (TBefore e) -> False) ->
    (forall i b e, ev = ETask i (RRet b) -> nth_error (tasks s) i = Some (TCall e) -> False) ->
    (ts = tasks s \/ ts = tasks s ++ [TCreated]) -> change s ev o ts
| ch_quiet i t t' : finished o = [] -> nth_error (tasks s) i = Some t -> idle t -> idle t' -> ts = set_nth i t' (tasks s) ->
    (forall j r e, ev = ETask j r -> nth_error (tasks s) j = Some (TBefore e) -> j = i) ->
    (forall j b e, ev = ETask j (RRet b) -> nth_error (tasks s) j = Some (TCall e) -> False) -> change s ev o ts
| ch_call i r e : ev = ETask i r -> finished o = [] -> nth_error (tasks s) i = Some (TBefore e) -> ts = set_nth i (TCall e) (tasks s) -> change s ev o ts
| ch_return i b e : ev = ETask i (RRet b) -> finished o = [] -> nth_error (tasks s) i = Some (TCall e) ->
    ts = set_nth i (TAfter e b) (tasks s) -> change s ev o ts
| ch_fail i e t : (ev = ETask i RExn \/ ev = ECancel i) -> finished o = [] -> nth_error (tasks s) i = Some t -> (t = TCall e \/ exists b, t = TAfter e b) ->
    lost o = [item_p e] -> ts = set_nth i TDone (tasks s) -> change s ev o ts
| ch_settle i r e b t' : ev = ETask i r -> nth_error (tasks s) i = Some (TAfter e b) -> idle t' -> finished o = (if b then [item_p e] else []) ->
    ts = set_nth i t' (tasks s) -> change s ev o ts.

Lemma hstep_change s ev s' o : hstep s ev = (s', o) -> change s ev o (tasks s').
Proof.
  assert (Chk : forall s1, tasks s1 = tasks s -> finished o = [] -> s' = check_process s1 -> (forall i r, ev <> ETask i r) -> change s ev o (tasks s')).
  { intros s1 T F -> Ne. apply ch_same; [auto|intros i r e X; now apply Ne in X|intros i b e X; now apply Ne in X|].
    destruct (check_tasks s1) as [->| ->]; rewrite T; auto. }
  assert (Same : tasks s' = tasks s -> finished o = [] -> (forall i r, ev <> ETask i r) -> change s ev o (tasks s')).
  { intros T F Ne. apply ch_same; [auto|intros i r e X; now apply Ne in X|intros i b e X; now apply Ne in X|auto]. }
  assert (Rp : forall x, finished (reply (M:=M) dto_ok truthy x) = []).
  { intros x. unfold reply. destruct x as [d|]; [|auto]. destruct (truthy d); [destruct (dto_ok d)|]; auto. }
  intros E. destruct ev as [k d|i m|i|i|i|i r|i| | | | | |k|k|k| |]; cbn [HandlerModel.hstep] in E.
  - destruct (recv_paused s); injection E as <- <-; apply Same; auto; discriminate.
  - destruct (nth_error (collecting s) i) as [[k d]|]; injection E as <- <-.
    + eapply Chk; [| | reflexivity|discriminate]; reflexivity.
    + apply Same; auto; discriminate.
  - destruct (nth_error (collecting s) i) as [[k d]|]; injection E as <- <-; apply Same; auto; discriminate.
  - destruct (nth_error (pushing s) i) as [[[k d] m]|]; [|injection E as <- <-; apply Same; auto; discriminate].
    unfold h_push_pending in E. destruct (push_pending _ _ _ _ _ _); injection E as <- <-; apply Same; auto; try discriminate.
    destruct (has _ _); reflexivity.
  - destruct (nth_error (pushing s) i) as [x|]; injection E as <- <-; apply Same; auto; discriminate.
  - unfold task_step in E. destruct (nth_error (tasks s) i) as [t|] eqn:T.
    2:{ injection E as <- <-. apply ch_same; auto; intros j; intros; congruence. }
    destruct t as [|e|e|e b|].
    + destruct (loop_tasks _ _ _ _ E) as [F [t' [It Et]]]. eapply (ch_quiet _ _ _ _ i); eauto; [exact I| |]; intros j ? ? X; injection X as -> ->; congruence.
    + destruct r as [|b|].
      * injection E as <- <-. eapply ch_call; eauto.
      * injection E as <- <-. eapply ch_call; eauto.
      * destruct (finish_task s i) as [s1 o1] eqn:F. injection E as <- <-. destruct (finish_tasks _ _ _ _ F) as [A [B _]].
        eapply (ch_quiet _ _ _ _ i (TBefore e) TDone); eauto; try exact I; intros j ? ? X; injection X; intros; congruence.
    + destruct r as [|b|].
      * injection E as <- <-. apply ch_same; auto; intros j; intros; congruence.
      * injection E as <- <-. eapply ch_return; eauto.
      * destruct (finish_task s i) as [s1 o1] eqn:F. injection E as <- <-. destruct (finish_tasks _ _ _ _ F) as [A [B C]].
        eapply ch_fail; eauto. cbn. unfold lost in C. now rewrite C.
    + destruct r as [|b'|].
      1,2: destruct (settle no_meta max_retries s e b) as [s1 o1] eqn:S; destruct (loop dto_ok s1 i) as [s2 o2] eqn:L; injection E as <- <-;
        destruct (settle_tasks _ _ _ _ _ S) as [A B]; destruct (loop_tasks _ _ _ _ L) as [F [t' [It Et]]]; rewrite A in Et;
        eapply ch_settle; eauto; now rewrite finished_app, B, F, app_nil_r.
      destruct (finish_task s i) as [s1 o1] eqn:F. injection E as <- <-. destruct (finish_tasks _ _ _ _ F) as [A [B C]].
      eapply ch_fail; eauto. cbn. unfold lost in C. now rewrite C.
    + injection E as <- <-. apply ch_same; auto; intros j; intros; congruence.
  - unfold cancel_task in E. destruct (nth_error (tasks s) i) as [t|] eqn:T; [|injection E as <- <-; apply Same; auto; discriminate].
    destruct t as [|e|e|e b|].
    + injection E as <- <-. eapply (ch_quiet _ _ _ _ i TCreated TDone); eauto; try exact I; try reflexivity; discriminate.
    + destruct (finish_task s i) as [s1 o1] eqn:F. injection E as <- <-. destruct (finish_tasks _ _ _ _ F) as [A [B _]].
      eapply (ch_quiet _ _ _ _ i (TBefore e) TDone); eauto; try exact I; discriminate.
    + destruct (finish_task s i) as [s1 o1] eqn:F. injection E as <- <-. destruct (finish_tasks _ _ _ _ F) as [A [B C]].
      eapply ch_fail; eauto. cbn. unfold lost in C. now rewrite C.
    + destruct (finish_task s i) as [s1 o1] eqn:F. injection E as <- <-. destruct (finish_tasks _ _ _ _ F) as [A [B C]].
      eapply ch_fail; eauto. cbn. unfold lost in C. now rewrite C.
    + injection E as <- <-. apply Same; auto; discriminate.
  - injection E as <- <-. apply Same; auto; discriminate.
  - injection E as <- <-. eapply Chk; [| |reflexivity|discriminate]; reflexivity.
  - injection E as <- <-. apply Same; auto; discriminate.
  - injection E as <- <-. eapply Chk; [| |reflexivity|discriminate]; reflexivity.
  - destruct (move_all no_meta (hq s)) as [q|x]; injection E as <- <-; [|apply Same; auto; discriminate].
    eapply Chk; [| |reflexivity|discriminate]; [reflexivity|].
    clear. induction (entries (errq (hq s))) as [|e l IH]; [reflexivity|]. cbn [flat_map]. rewrite finished_app, IH. destruct (has _ _); reflexivity.
  - destruct (move_one no_meta (hq s) k) as [[q r]|x]; injection E as <- <-; [|apply Same; auto; discriminate].
    eapply Chk; [| |reflexivity|discriminate]; [reflexivity|]. rewrite finished_app, Rp. destruct (lookup _ _); [destruct (has _ _)|]; reflexivity.
  - destruct (pop_error_key (hq s) k) as [[q r]|x]; injection E as <- <-; apply Same; auto; try discriminate.
    rewrite finished_app, Rp. destruct (lookup _ _); reflexivity.
  - destruct (inspect_error_key (hq s) k) as [r|x]; injection E as <- <-; apply Same; auto; try discriminate.
  - injection E as <- <-. apply Same; auto; try discriminate.
    clear. induction (entries (errq (hq s))) as [|e l IH]; [reflexivity|]. exact IH.
  - destruct (shut_check_tasks _ _ _ E) as [A [B _]]. apply Same; auto; discriminate.
Qed.
End HandlerSide.
