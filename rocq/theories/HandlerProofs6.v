(** Tear-down, operator commands and refused requests. *)
From Coq Require Import List ZArith NArith Bool String Lia Permutation.
From Coq Require Import ZifyBool ZifyNat ZifyN.
From Verif Require Import Base PermTac PQueueModel PQueueSpec PQueueProofs PQueueProofs2 PendingModel PendingSpec
  PendingProofs HandlerModel HandlerSpec HandlerProofs HandlerProofs2 HandlerProofs3 HandlerProofs4 HandlerProofs5.
Import ListNotations.
Local Open Scope Z_scope.

Section Proofs.
Context {D M : Type}.
Variable no_meta : M.
Variables dto_ok truthy : D -> bool.
Variable max_retries : Z.
Notation item := (item D M). Notation hout := (hout D M). Notation hev := (hev D M). Notation hstate := (hstate D M).
Notation tstate := (tstate D M). Notation pentry := (pentry D M). Notation eentry := (eentry D M).
Notation hstep := (@hstep D M no_meta dto_ok truthy max_retries).
Notation hrun := (@hrun D M no_meta dto_ok truthy max_retries).
Notation hinv := (@hinv D M no_meta).
Implicit Types (s : hstate) (o : list hout).

(** ** Tear-down *)
Definition same s s' : Prop :=
  hq s' = hq s /\ shut s' = shut s /\ closed s' = closed s /\ fut_done s' = fut_done s.

Lemma set_nth_same_val {A} i (x : A) l : nth_error l i = Some x -> set_nth i x l = l.
Proof. revert i. induction l as [|y l IH]; intros [|i] N; try discriminate; cbn in *; [congruence|]. f_equal. auto. Qed.

Definition held_at s i : list item := match nth_error (tasks s) i with Some t => held t | None => [] end.

Lemma cancel_step s i s' o : shut s = false -> hstep s (ECancel i) = (s', o) ->
  same s s' /\ pushing s' = pushing s /\ collecting s' = collecting s /\ tasks s' = set_nth i TDone (tasks s) /\ lost o = held_at s i.
Proof.
  intros S E. cbn [HandlerModel.hstep] in E. unfold cancel_task in E. unfold same, held_at.
  destruct (nth_error (tasks s) i) as [t|] eqn:N.
  2:{ injection E as <- <-. rewrite set_nth_oob by auto. ands. }
  assert (Fin : forall e, held t = [item_p e] -> (let (s', o) := finish_task s i in (s', HLost (item_p e) :: o)) = (s', o) ->
    (hq s' = hq s /\ shut s' = shut s /\ closed s' = closed s /\ fut_done s' = fut_done s) /\
    pushing s' = pushing s /\ collecting s' = collecting s /\ tasks s' = set_nth i TDone (tasks s) /\ lost o = held t).
  { intros e He E1. unfold finish_task in E1. rewrite shut_down_check_idle in E1 by (right; exact S).
    injection E1 as <- <-. rewrite He. cbn. ands. }
  destruct t as [|e|e|e b|]; try (eapply Fin; [reflexivity|exact E]).
  - injection E as <- <-. cbn. ands.
  - injection E as <- <-. rewrite set_nth_same_val by auto. cbn. ands.
Qed.

Lemma flat_map_ext_in {A B} (f g : A -> list B) l : (forall x, In x l -> f x = g x) -> flat_map f l = flat_map g l.
Proof. induction l as [|x l IH]; intros H; [reflexivity|]. cbn. rewrite (H x), IH; auto; [intros; apply H; now right|now left]. Qed.

Lemma cancel_all l : forall s s' o, shut s = false -> NoDup l -> hrun s (map ECancel l) = (s', o) ->
  same s s' /\ pushing s' = pushing s /\ collecting s' = collecting s /\
  List.length (tasks s') = List.length (tasks s) /\
  (forall j t, nth_error (tasks s') j = Some t -> In j l -> t = TDone) /\ lost o = flat_map (held_at s) l.
Proof.
  induction l as [|i l IH]; intros s s' o S ND E; cbn [map HandlerModel.hrun] in E.
  { injection E as <- <-. unfold same. ands. split; [intros j t _ []|auto]. }
  destruct (hstep s (ECancel i)) as [s1 o1] eqn:E1. destruct (hrun s1 (map ECancel l)) as [s2 o2] eqn:E2. injection E as <- <-.
  apply cancel_step in E1 as [[A1 [A2 [A3 A4]]] [A5 [A6 [A7 A8]]]]; auto. inversion ND as [|? ? Hn Hd]; subst.
  pose proof E2 as E2'.
  apply IH in E2 as [[B1 [B2 [B3 B4]]] [B5 [B6 [B7 [B8 B9]]]]]; auto; [|congruence].
  assert (Tk : forall j t, nth_error (tasks s2) j = Some t -> nth_error (tasks s1) j = Some TDone -> t = TDone).
  { clear - E2' A2 S. assert (S1 : shut s1 = false) by congruence. clear A2 S. revert s1 s2 o2 S1 E2'.
    induction l as [|i l IH]; intros s1 s2 o2 S1 E j t N1 N2; cbn [map HandlerModel.hrun] in E.
    - injection E as <- <-. congruence.
    - destruct (hstep s1 (ECancel i)) as [s3 o3] eqn:E3. destruct (hrun s3 (map ECancel l)) as [s4 o4] eqn:E4. injection E as <- <-.
      apply cancel_step in E3 as [[_ [C2 _]] [_ [_ [C7 _]]]]; auto. apply (IH s3 s4 o4 ltac:(congruence) E4 j t N1). rewrite C7.
      destruct (Nat.eq_dec j i) as [->|Hj]; [apply nth_set_same, nth_error_Some; congruence|now rewrite nth_set_other]. }
  unfold same. split; [repeat (split; [congruence|]); congruence|]. split; [congruence|]. split; [congruence|].
  split; [rewrite B7, A7; apply len_set|]. split.
  - intros j t N [->|Hj]; [|eauto]. apply (Tk j t N). rewrite A7. apply nth_set_same.
    assert (X : nth_error (tasks s2) j <> None) by congruence. apply nth_error_Some in X. rewrite B7, A7, len_set in X. exact X.
  - rewrite lost_app, A8, B9. cbn [flat_map]. f_equal. apply flat_map_ext_in. intros j Hj.
    unfold held_at. rewrite A7. rewrite nth_set_other; [reflexivity|]. intros ->. contradiction.
Qed.

Lemma held_all s : flat_map (held_at s) (seq 0 (List.length (tasks s))) = in_process s.
Proof.
  unfold held_at, in_process. generalize (tasks s) as l. intros l.
  assert (G : forall (l pre : list tstate), flat_map (fun i => match nth_error (pre ++ l) i with Some t => held t | None => [] end)
    (seq (List.length pre) (List.length l)) = flat_map held l).
  { clear. induction l as [|t l IH]; intros pre; [reflexivity|]. cbn [List.length seq flat_map].
    rewrite nth_error_app2, Nat.sub_diag by lia. cbn [nth_error]. f_equal.
    specialize (IH (pre ++ [t])). rewrite app_length, <- app_assoc in IH. cbn [List.length app] in IH.
    rewrite Nat.add_1_r in IH. exact IH. }
  apply (G l []).
Qed.

Lemma cancel_pushes n : forall s s' o, n = List.length (pushing s) -> hrun s (repeat (ECancelPush 0) n) = (s', o) ->
  same s s' /\ tasks s' = tasks s /\ cur s' = cur s /\ running s' = running s /\ pushing s' = [] /\
  collecting s' = collecting s /\ lost o = pushing s.
Proof.
  unfold same. induction n as [|n IH]; intros s s' o L E; cbn [repeat HandlerModel.hrun] in E.
  - injection E as <- <-. destruct (pushing s); [|discriminate]. ands.
  - cbn [HandlerModel.hstep] in E. destruct (pushing s) as [|x l] eqn:P; [discriminate|]. cbn [nth_error del_nth] in E.
    destruct (hrun (set_pushing s l) (repeat (ECancelPush 0) n)) as [s2 o2] eqn:E2. injection E as <- <-.
    apply IH in E2 as [[A1 [A2 [A3 A4]]] [A5 [A6 [A7 [A8 [A9 A10]]]]]]; [|cbn in *; lia].
    cbn [set_pushing hq shut closed fut_done tasks cur running collecting pushing] in *. ands.
    cbn [app]. unfold lost in *. cbn [flat_map app]. now rewrite A10.
Qed.

Lemma fail_collects n : forall s s' o, n = List.length (collecting s) -> hrun s (repeat (ECollectFails 0) n) = (s', o) ->
  same s s' /\ tasks s' = tasks s /\ cur s' = cur s /\ running s' = running s /\ pushing s' = pushing s /\
  collecting s' = [] /\ lost o = [].
Proof.
  unfold same. induction n as [|n IH]; intros s s' o L E; cbn [repeat HandlerModel.hrun] in E.
  - injection E as <- <-. destruct (collecting s); [|discriminate]. ands.
  - cbn [HandlerModel.hstep] in E. destruct (collecting s) as [|[k d] l] eqn:P; [discriminate|]. cbn [nth_error del_nth] in E.
    destruct (hrun (set_collecting s l) (repeat (ECollectFails 0) n)) as [s2 o2] eqn:E2. injection E as <- <-.
    apply IH in E2 as [[A1 [A2 [A3 A4]]] [A5 [A6 [A7 [A8 [A9 A10]]]]]]; [|cbn in *; lia].
    cbn [set_collecting hq shut closed fut_done tasks cur running collecting pushing] in *. ands.
Qed.

Theorem teardown_closes q0 evs s o s' o' lp le ps : preachable no_meta q0 -> usable q0 ->
  hrun (setup q0) evs = (s, o) -> closed s = 0%nat -> shut s = false -> holds (hq s) lp le ->
  hrun s (teardown s) = (s', o') -> ps <> 0 ->
  closed s' = 1%nat /\ pushing s' = [] /\ collecting s' = [] /\ (forall j t, nth_error (tasks s') j = Some t -> ~ live t) /\
  lost o' = in_process s ++ pushing s /\
  exists lp' le', preachable no_meta (restarted ps s') /\ holds (restarted ps s') lp' le' /\
    Permutation lp lp' /\ Permutation le le'.
Proof.
  intros R U E C S Hh E' Hp. pose proof (run_inv no_meta dto_ok truthy max_retries q0 evs s o R U E C) as H.
  destruct (run_contents no_meta s lp le H Hh) as [-> ->].
  unfold teardown in E'. rewrite hrun_app in E'.
  destruct (hrun s (map ECancel (seq 0 (List.length (tasks s))))) as [s1 o1] eqn:E1. rewrite hrun_app in E'.
  destruct (hrun s1 (repeat (ECancelPush 0) (List.length (pushing s)))) as [s2 o2] eqn:E2. rewrite hrun_app in E'.
  destruct (hrun s2 (repeat (ECollectFails 0) (List.length (collecting s)))) as [s3 o3] eqn:E3.
  cbn [HandlerModel.hrun] in E'. destruct (hstep s3 EShutDown) as [s4 o4] eqn:E4. injection E' as <- <-.
  destruct (cancel_all _ _ _ _ S (seq_NoDup _ _) E1) as [[A1 [A2 [A3 A4]]] [A5 [A6 [A7 [A8 A9]]]]].
  rewrite held_all in A9.
  destruct (cancel_pushes _ _ _ _ (f_equal _ (eq_sym A5)) E2) as [[B1 [B2 [B3 B4]]] [B5 [B6 [B7 [B8 [B9 B10]]]]]].
  destruct (fail_collects (List.length (collecting s)) s2 s3 o3) as [[C1 [C2 [C3 C4]]] [C5 [C6 [C7 [C8 [C9 C10]]]]]]; [congruence|auto|].
  destruct (hrun_ok no_meta dto_ok truthy max_retries _ _ _ _ H E1 A3) as [H1 _].
  assert (Dn : forall j t, nth_error (tasks s1) j = Some t -> t = TDone).
  { intros j t N. apply (A8 j t N). apply in_seq. assert (X : nth_error (tasks s1) j <> None) by congruence.
    apply nth_error_Some in X. lia. }
  assert (R1 : running s1 = false).
  { destruct (running s1) eqn:X; [|reflexivity]. exfalso. apply (hi_run _ _ H1) in X. apply X. unfold cur_in.
    destruct (cur s1) as [i|]; [|reflexivity]. destruct (nth_error (tasks s1) i) as [t|] eqn:N; [|reflexivity].
    rewrite (Dn i t N). reflexivity. }
  cbn [HandlerModel.hstep] in E4.
  assert (Hq3 : hq s3 = hq s) by congruence.
  assert (Cl : closed s4 <> closed s3).
  { destruct (shut_down_check_closes (set_shut (set_proc (set_recv s3 true) true) true)) as [s5 [o5 [X1 [X2 _]]]].
    - cbn. rewrite Hq3. apply H.
    - cbn. congruence.
    - reflexivity.
    - rewrite X1 in E4. injection E4 as <- <-. rewrite X2. cbn. lia. }
  apply shut_down_check_exact in E4 as [_ [F1 [F2 [F3 [_ [F4 [F5 [_ [_ O]]]]]]]]]; [|cbn; rewrite Hq3; apply H|exact Cl].
  cbn [set_shut set_proc set_recv hq closed tasks pushing collecting fut_done] in *.
  split; [congruence|]. split; [congruence|]. split; [congruence|].
  split. { intros j t N L. apply L, (Dn j). congruence. }
  split.
  { rewrite !lost_app, A9, B10, C10, A5, O. destruct (fut_done s3); cbn; now rewrite app_nil_r. }
  destruct (restart_thm no_meta (hq s) (pc (hq s)) (ec (hq s)) ps (hi_reach _ _ H) (hi_u _ _ H) Hh Hp) as [q' [lp' [le' [A [B [C' [Pp Pe]]]]]]].
  unfold pq_reopen in A. rewrite <- Hq3, F1 in A. cbn [bind] in A. injection A as <-. exists lp', le'.
  split; [exact B|]. split; [exact C'|]. auto.
Qed.

(** After a shut-down request the request in process is at most three steps from the end, and then the queues are
    closed. *)
Theorem shut_down_completes q0 evs s o s1 o1 : preachable no_meta q0 -> usable q0 ->
  hrun (setup q0) evs = (s, o) -> closed s = 0%nat -> hstep s EShutDown = (s1, o1) ->
  closed s1 = 1%nat \/
  exists i, forall b, closed (fst (hrun s1 [ETask i ROk; ETask i (RRet b); ETask i ROk])) = 1%nat.
Proof.
  intros R U E C E1. pose proof (run_inv no_meta dto_ok truthy max_retries q0 evs s o R U E C) as H.
  destruct (Nat.eq_dec (closed s1) (closed s)) as [X|X].
  2:{ left. destruct (close_step no_meta dto_ok truthy max_retries s EShutDown s1 o1 H E1 X) as [q [_ [_ [_ [_ [_ [Y _]]]]]]]. congruence. }
  right. destruct (hstep_ok no_meta dto_ok truthy max_retries s EShutDown s1 o1 H E1 X) as [H1 _].
  assert (Sh : shut s1 = true /\ proc_paused s1 = true).
  { cbn [HandlerModel.hstep] in E1. unfold shut_down_check in E1. destruct (_ && _); [|injection E1 as <- <-; auto].
    destruct (q_shut_down _); [|injection E1 as <- <-; auto].
    destruct (q_shut_down _); [|injection E1 as <- <-; auto].
    destruct (fut_done _); injection E1 as <- <-; auto. }
  destruct Sh as [Sh Pp]. pose proof (hi_shut _ _ H1 Sh) as Rn. apply (hi_run _ _ H1) in Rn.
  unfold cur_in in Rn. destruct (cur s1) as [i|] eqn:Cu; [|congruence].
  destruct (nth_error (tasks s1) i) as [t|] eqn:N; [|congruence].
  assert (C1 : closed s1 = 0%nat) by congruence.
  (* a task step in TAfter closes and leaves the task done *)
  assert (Aft : forall s2 e b r, hinv s2 -> closed s2 = 0%nat -> shut s2 = true -> proc_paused s2 = true ->
    nth_error (tasks s2) i = Some (TAfter e b) -> r <> RExn ->
    closed (fst (hstep s2 (ETask i r))) = 1%nat /\ nth_error (tasks (fst (hstep s2 (ETask i r)))) i = Some TDone).
  { intros s2 e b r H2 C2 S2 P2 N2 Nr. destruct (hstep s2 (ETask i r)) as [s3 o3] eqn:E3. cbn [fst].
    pose proof E3 as E3'. cbn [HandlerModel.hstep] in E3. unfold task_step in E3. rewrite N2 in E3.
    pose proof (hinv_mid no_meta s2 i _ H2 N2 ltac:(discriminate)) as HM.
    destruct (settle no_meta max_retries s2 e b) as [s4 o4] eqn:Es.
    destruct (settle_ok no_meta dto_ok max_retries s2 i e b s4 o4 HM Es) as [HM4 [R4 [C4 _]]].
    destruct (settle_paused no_meta max_retries _ _ _ _ _ Es) as [_ [P4 T4]].
    destruct (settle_shut no_meta max_retries s2 e b) as [_ S4]. rewrite Es in S4. cbn [fst] in S4.
    assert (Lp : loop dto_ok s4 i = finish_task s4 i).
    { unfold loop. now rewrite P4, P2. }
    rewrite Lp in E3. destruct (finish_task s4 i) as [s5 o5] eqn:Ef.
    assert (G : s3 = s5) by (destruct r; try contradiction; injection E3 as <- <-; auto). subst s5. clear E3.
    destruct (finish_ok no_meta s4 i s3 o5 HM4 Ef) as [F1 _]. specialize (F1 ltac:(congruence)).
    destruct (close_step no_meta dto_ok truthy max_retries s2 (ETask i r) s3 o3 H2 E3') as [q [_ [_ [_ [_ [_ [Y _]]]]]]]; [lia|].
    split; [congruence|]. destruct (before_finish s4 i s3 o5 Ef) as [_ ->]. apply nth_set_same. apply HM4. }
  assert (Idle : forall s2 r, nth_error (tasks s2) i = Some TDone -> hstep s2 (ETask i r) = (s2, [])).
  { intros s2 r N2. cbn [HandlerModel.hstep]. unfold task_step. now rewrite N2. }
  assert (Len : (i < List.length (tasks s1))%nat) by (apply nth_error_Some; congruence).
  exists i. intros b. destruct t as [|e|e|e v|]; cbn [tin] in Rn; try congruence.
  - (* TBefore *)
    cbn [HandlerModel.hrun].
    destruct (hstep s1 (ETask i ROk)) as [s2 o2] eqn:E2. pose proof E2 as E2'. cbn [HandlerModel.hstep] in E2. unfold task_step in E2. rewrite N in E2. injection E2 as <- <-.
    destruct (hstep_ok no_meta dto_ok truthy max_retries _ _ _ _ H1 E2' eq_refl) as [H2 _].
    assert (N2 : nth_error (tasks (set_task s1 i (TCall e))) i = Some (TCall e)) by now apply nth_set_same.
    destruct (hstep (set_task s1 i (TCall e)) (ETask i (RRet b))) as [s3 o3] eqn:E3. pose proof E3 as E3'. cbn [HandlerModel.hstep] in E3. unfold task_step in E3.
    rewrite N2 in E3. injection E3 as <- <-.
    destruct (hstep_ok no_meta dto_ok truthy max_retries _ _ _ _ H2 E3' eq_refl) as [H3 _].
    match type of H3 with HandlerProofs.hinv _ ?x => set (s3 := x) in * end.
    assert (N3 : nth_error (tasks s3) i = Some (TAfter e b)).
    { apply nth_set_same. cbn. rewrite len_set. exact Len. }
    destruct (Aft s3 e b ROk H3 C1 Sh Pp N3 ltac:(discriminate)) as [G _].
    destruct (hstep s3 (ETask i ROk)) as [s4 o4]. exact G.
  - (* TCall *)
    cbn [HandlerModel.hrun].
    assert (E2 : hstep s1 (ETask i ROk) = (s1, [])) by (cbn [HandlerModel.hstep]; unfold task_step; now rewrite N).
    rewrite E2.
    destruct (hstep s1 (ETask i (RRet b))) as [s3 o3] eqn:E3. pose proof E3 as E3'. cbn [HandlerModel.hstep] in E3. unfold task_step in E3.
    rewrite N in E3. injection E3 as <- <-.
    destruct (hstep_ok no_meta dto_ok truthy max_retries _ _ _ _ H1 E3' eq_refl) as [H3 _].
    match type of H3 with HandlerProofs.hinv _ ?x => set (s3 := x) in * end.
    assert (N3 : nth_error (tasks s3) i = Some (TAfter e b)) by now apply nth_set_same.
    destruct (Aft s3 e b ROk H3 C1 Sh Pp N3 ltac:(discriminate)) as [G _].
    destruct (hstep s3 (ETask i ROk)) as [s4 o4]. exact G.
  - (* TAfter *)
    destruct (Aft s1 e v ROk H1 C1 Sh Pp N ltac:(discriminate)) as [G1 G2].
    cbn [HandlerModel.hrun]. destruct (hstep s1 (ETask i ROk)) as [s2 o2]. cbn [fst] in *.
    rewrite (Idle s2 (RRet b) G2), (Idle s2 ROk G2). exact G1.
Qed.

(** ** Operator commands on the error queue *)
Lemma replies_app o o' : replies (o ++ o') = replies o ++ replies o'. Proof. apply flat_map_app. Qed.
Definition answer (r : option D) : list (option D) := replies (reply (M:=M) dto_ok truthy r).

Theorem operator_commands q0 evs s o lp le k : preachable no_meta q0 -> usable q0 ->
  hrun (setup q0) evs = (s, o) -> closed s = 0%nat -> holds (hq s) lp le ->
  (exists s1 o1, hstep s (EPopError k) = (s1, o1) /\ replies o1 = answer (option_map ee_data (lookup k le)) /\
     holds (hq s1) lp (without k le)) /\
  (exists o1, hstep s (EInspectError k) = (s, o1) /\ replies o1 = answer (option_map ee_data (lookup k le))) /\
  (exists s1 o1, hstep s (EReprocessOne k) = (s1, o1) /\ replies o1 = answer (option_map ee_data (lookup k le)) /\
     holds (hq s1) (match lookup k le with Some x => if has k lp then lp else lp ++ [retried (k, x)] | None => lp end)
       (without k le)).
Proof.
  intros R U E C Hh. pose proof (run_inv no_meta dto_ok truthy max_retries q0 evs s o R U E C) as H.
  destruct (run_contents no_meta s lp le H Hh) as [-> ->].
  split; [|split].
  - destruct (pop_error_key_ok (hq s) k (hi_q _ _ H)) as [q [A [B [F [G I]]]]].
    cbn [HandlerModel.hstep]. rewrite A. eexists. eexists. split; [reflexivity|]. split.
    + rewrite replies_app. destruct (lookup k (entries (errq (hq s)))); reflexivity.
    + cbn [set_hq hq]. replace (pc (hq s)) with (pc q) by (unfold pc; now rewrite G). rewrite <- F. apply holds_contents; auto.
      destruct (hi_u _ _ H). split; congruence.
  - cbn [HandlerModel.hstep]. rewrite inspect_error_ok by apply H. eexists. split; [reflexivity|]. reflexivity.
  - destruct (move_one_ok no_meta (hq s) k (hi_q _ _ H)) as [q [A [B [F [G [I J]]]]]].
    cbn [HandlerModel.hstep]. rewrite A. eexists. eexists. split; [reflexivity|]. split.
    + rewrite replies_app. destruct (lookup k (entries (errq (hq s)))); [destruct (has _ _)|]; reflexivity.
    + replace (hq (check_process (set_proc (set_hq s q) false))) with q.
      2:{ unfold check_process. destruct (cur _) as [i|]; [|reflexivity]. destruct (nth_error _ i) as [t|]; [|reflexivity]. destruct t; reflexivity. }
      pose proof (holds_contents q B) as X. rewrite F, G in X. apply X. destruct (hi_u _ _ H). split; congruence.
Qed.

(** ** Refused requests *)
Lemma accepted_finish s i s' o : finish_task s i = (s', o) ->
  accepted o = [] /\ refused o = [] /\ recv_paused s' = recv_paused s /\ collecting s' = collecting s.
Proof.
  unfold finish_task, shut_down_check.
  destruct (_ && _); [|intros E; injection E as <- <-; ands].
  destruct (q_shut_down _); [|intros E; injection E as <- <-; ands].
  destruct (q_shut_down _); [|intros E; injection E as <- <-; ands].
  destruct (fut_done _); intros E; injection E as <- <-; ands.
Qed.

Lemma check_recv s : recv_paused (check_process s) = recv_paused s /\ collecting (check_process s) = collecting s.
Proof.
  unfold check_process. destruct (cur s) as [i|]; [|auto].
  destruct (nth_error (tasks s) i) as [t|]; [|auto]. destruct t; auto.
Qed.

Lemma accepted_loop s i s' o : loop dto_ok s i = (s', o) ->
  accepted o = [] /\ refused o = [] /\ recv_paused s' = recv_paused s /\ collecting s' = collecting s.
Proof.
  unfold loop. intros E. destruct (_ && _); [|now apply accepted_finish in E].
  destruct (pop_pending (hq s)) as [[q [e|]]|x].
  - destruct (dto_ok (pe_data e)); [injection E as <- <-; ands|].
    destruct (finish_task (set_hq s q) i) as [s1 o1] eqn:F. injection E as <- <-. now apply accepted_finish in F.
  - destruct (finish_task (set_hq s q) i) as [s1 o1] eqn:F. injection E as <- <-. now apply accepted_finish in F.
  - destruct (finish_task s i) as [s1 o1] eqn:F. injection E as <- <-. now apply accepted_finish in F.
Qed.

Lemma accepted_settle s e b s' o : settle no_meta max_retries s e b = (s', o) ->
  accepted o = [] /\ refused o = [] /\ recv_paused s' = recv_paused s /\ collecting s' = collecting s.
Proof.
  unfold settle, h_push_error, h_push_pending, item_p. destruct b; [intros E; injection E as <- <-; ands|].
  destruct (_ <=? _).
  - destruct (push_error _ _ _ _ _ _); intros E; injection E as <- <-; [destruct (has _ _)|]; ands.
  - destruct (push_pending _ _ _ _ _ _); intros E; injection E as <- <-; [destruct (has _ _)|]; ands.
Qed.

Lemma reply_quiet r : accepted (reply (M:=M) dto_ok truthy r) = [] /\ refused (reply (M:=M) dto_ok truthy r) = [].
Proof. unfold reply. destruct r as [d|]; [|auto]. destruct (truthy d), (dto_ok d); auto. Qed.
Lemma refused_app o o' : refused (o ++ o') = refused o ++ refused o'. Proof. apply flat_map_app. Qed.

(** While receiving is paused every new request is refused; only calls that had already passed the check are
    accepted. *)
Theorem refused_step s ev s' o : recv_paused s = true -> ev <> EUnpauseReceiving -> hstep s ev = (s', o) ->
  recv_paused s' = true /\ refused o = request ev /\
  (List.length (accepted o) + List.length (collecting s') <= List.length (collecting s))%nat.
Proof.
  intros P Ne E.
  assert (G : accepted o = [] /\ refused o = [] /\ recv_paused s' = recv_paused s /\ collecting s' = collecting s -> request ev = [] ->
    recv_paused s' = true /\ refused o = request ev /\
    (List.length (accepted o) + List.length (collecting s') <= List.length (collecting s))%nat).
  { intros [-> [-> [-> ->]]] ->. cbn. auto. }
  destruct ev; cbn [HandlerModel.hstep] in E; try contradiction.
  - rewrite P in E. injection E as <- <-. cbn. auto.
  - destruct (nth_error (collecting s) i) as [[k d]|] eqn:N; injection E as <- <-; [|cbn; auto].
    destruct (del_nth_split _ _ _ N) as [l1 [l2 [A B]]].
    match goal with |- context [check_process ?x] => destruct (check_recv x) as [-> ->] end. cbn. rewrite B. split; [auto|]. split; [auto|].
    rewrite A, !app_length. cbn. lia.
  - destruct (nth_error (collecting s) i) as [[k d]|] eqn:N; injection E as <- <-; [|cbn; auto].
    destruct (del_nth_split _ _ _ N) as [l1 [l2 [A B]]]. cbn. rewrite B. split; [auto|]. split; [auto|].
    rewrite A, !app_length. cbn. lia.
  - apply G; [|reflexivity]. destruct (nth_error _ _) as [[[k d] m]|]; [|injection E as <- <-; ands]. unfold h_push_pending in E.
    destruct (push_pending _ _ _ _ _ _); injection E as <- <-; [destruct (has _ _)|]; ands.
  - apply G; [|reflexivity]. destruct (nth_error _ _); injection E as <- <-; ands.
  - apply G; [|reflexivity]. unfold task_step in E. destruct (nth_error (tasks s) i) as [t|] eqn:N; [|injection E as <- <-; ands].
    assert (Fin : forall e, (let (s', o) := finish_task s i in (s', HLost (item_p e) :: HExn "user" :: o)) = (s', o) ->
      accepted o = [] /\ refused o = [] /\ recv_paused s' = recv_paused s /\ collecting s' = collecting s).
    { intros e E1. destruct (finish_task s i) as [s1 o1] eqn:Ef. injection E1 as <- <-. now apply accepted_finish in Ef. }
    destruct t as [|e|e|e b|].
    + apply accepted_loop in E. exact E.
    + destruct r; [injection E as <- <-; ands|injection E as <- <-; ands|eapply Fin; eauto].
    + destruct r; [injection E as <- <-; ands|injection E as <- <-; ands|eapply Fin; eauto].
    + assert (Gs : (let (s1, o1) := settle no_meta max_retries s e b in
                               let (s2, o2) := loop dto_ok s1 i in (s2, o1 ++ o2)) = (s', o) ->
        accepted o = [] /\ refused o = [] /\ recv_paused s' = recv_paused s /\ collecting s' = collecting s).
      { intros Gs. destruct (settle no_meta max_retries s e b) as [s1 o1] eqn:Es. apply accepted_settle in Es as [A [B [F I]]].
        destruct (loop dto_ok s1 i) as [s2 o2] eqn:El. injection Gs as <- <-. apply accepted_loop in El as [A' [B' [F' I']]].
        rewrite accepted_app, refused_app, A, A', B, B'. split; [reflexivity|]. split; [reflexivity|]. repeat (split; [congruence|]); congruence. }
      destruct r; [apply Gs, E|apply Gs, E|eapply Fin; eauto].
    + injection E as <- <-; ands.
  - apply G; [|reflexivity]. unfold cancel_task in E. destruct (nth_error (tasks s) i) as [t|] eqn:N; [|injection E as <- <-; ands].
    destruct t; try (injection E as <- <-; ands; fail);
      (destruct (finish_task s i) as [s1 o1] eqn:Ef; injection E as <- <-; now apply accepted_finish in Ef).
  - injection E as <- <-. cbn. auto.
  - apply G; [|reflexivity]. injection E as <- <-. ands.
  - apply G; [|reflexivity]. injection E as <- <-. destruct (check_recv (set_proc s false)) as [-> ->]. ands.
  - apply G; [|reflexivity]. destruct (move_all _ _); injection E as <- <-; [|ands].
    match goal with |- context [check_process ?x] => destruct (check_recv x) as [-> ->] end.
    match goal with |- accepted ?l = _ /\ _ => assert (X : accepted l = [] /\ refused l = []) end; [|destruct X as [-> ->]; ands].
    clear G. induction (entries (errq (hq s))) as [|e le IH]; [split; reflexivity|]. cbn [flat_map]. destruct IH as [IH1 IH2].
    rewrite accepted_app, refused_app, IH1, IH2. destruct (has _ _); split; reflexivity.
  - apply G; [|reflexivity]. destruct (move_one _ _ _) as [[q x]|]; injection E as <- <-; [|ands].
    match goal with |- context [check_process ?x] => destruct (check_recv x) as [-> ->] end.
    rewrite accepted_app, refused_app. destruct (reply_quiet x) as [-> ->]. destruct (lookup _ _); [destruct (has _ _)|]; ands.
  - apply G; [|reflexivity]. destruct (pop_error_key _ _) as [[q x]|]; injection E as <- <-; [|ands].
    rewrite accepted_app, refused_app. destruct (reply_quiet x) as [-> ->]. destruct (lookup _ _); ands.
  - apply G; [|reflexivity]. destruct (inspect_error_key _ _) as [x|]; injection E as <- <-; [|ands].
    destruct (reply_quiet x) as [-> ->]. ands.
  - apply G; [|reflexivity]. injection E as <- <-.
    match goal with |- accepted ?l = _ /\ _ => assert (X : accepted l = [] /\ refused l = []) end; [|destruct X as [-> ->]; ands].
    clear G. induction (entries (errq (hq s))); [split; reflexivity|]. auto.
  - unfold shut_down_check in E. destruct (_ && _); [|injection E as <- <-; cbn; ands].
    destruct (q_shut_down _); [|injection E as <- <-; cbn; ands].
    destruct (q_shut_down _); [|injection E as <- <-; cbn; ands].
    destruct (fut_done _); injection E as <- <-; cbn; ands.
Qed.

Theorem refused_run evs : forall s s' o, recv_paused s = true -> ~ In EUnpauseReceiving evs -> hrun s evs = (s', o) ->
  recv_paused s' = true /\ refused o = flat_map request evs /\
  (List.length (accepted o) + List.length (collecting s') <= List.length (collecting s))%nat.
Proof.
  induction evs as [|ev r IH]; intros s s' o P U E; cbn [HandlerModel.hrun] in E; [injection E as <- <-; cbn; auto|].
  destruct (hstep s ev) as [s1 o1] eqn:E1. destruct (hrun s1 r) as [s2 o2] eqn:E2. injection E as <- <-.
  apply refused_step in E1 as [A [B C]]; auto; [|intros ->; apply U; now left].
  apply IH in E2 as [A2 [B2 C2]]; auto; [|intros X; apply U; now right].
  rewrite accepted_app, refused_app, app_length, B, B2. cbn [flat_map]. ands. lia.
Qed.

(** ** Events that restart processing *)
Theorem wakes q0 evs s o ev s' o' : preachable no_meta q0 -> usable q0 ->
  hrun (setup q0) evs = (s, o) -> closed s = 0%nat -> hstep s ev = (s', o') -> closed s' = 0%nat ->
  match ev with
  | ECollected i _ => (i < List.length (collecting s))%nat
  | EUnpauseProcessing | EUnpauseReceiving | EReprocessAll | EReprocessOne _ => True
  | _ => False
  end -> awake s'.
Proof.
  intros R U E C E1 C1 X. pose proof (run_inv no_meta dto_ok truthy max_retries q0 evs s o R U E C) as H.
  assert (Q : forall q, pinv q -> usable q -> preachable no_meta q -> awake (check_process (set_proc (set_hq s q) false))).
  { intros q Q1 Q2 Q3. apply (check_awake no_meta). eapply (hinv_flags no_meta (set_hq s q)); auto; [|cbn; apply H].
    apply hinv_set_hq; auto. }
  destruct ev; try contradiction; cbn [HandlerModel.hstep] in E1.
  - destruct (nth_error (collecting s) i) as [[k d]|] eqn:N; [|apply nth_error_None in N; lia].
    injection E1 as <- <-. apply (check_awake no_meta). eapply hinv_flags; eauto; cbn; apply H.
  - injection E1 as <- <-. apply (check_awake no_meta). eapply hinv_flags; eauto; cbn; apply H.
  - injection E1 as <- <-. apply (check_awake no_meta). eapply hinv_flags; eauto; cbn; apply H.
  - destruct (move_all_ok no_meta (hq s) (hi_q _ _ H) (proj2 (hi_u _ _ H))) as [q' [A [B [_ [_ [I J]]]]]].
    rewrite A in E1. injection E1 as <- <-. apply Q; auto; [split; [rewrite J|rewrite I]; apply (hi_u _ _ H)|].
    eapply preach_step with (c := MoveAll); [apply (hi_reach _ _ H)|]. cbn [pstep]. exact A.
  - destruct (move_one_ok no_meta (hq s) k (hi_q _ _ H)) as [q' [A [B [_ [_ [I J]]]]]].
    rewrite A in E1. injection E1 as <- <-. apply Q; auto; [split; [rewrite J|rewrite I]; apply (hi_u _ _ H)|].
    eapply preach_step with (c := MoveOne k); [apply (hi_reach _ _ H)|]. cbn [pstep]. rewrite A. reflexivity.
Qed.

(** ** One task, in every run *)
Definition single s : Prop := (forall j t, nth_error (tasks s) j = Some t -> live t -> cur s = Some j) /\
  (forall j, cur s = Some j -> (j < List.length (tasks s))%nat).

Lemma single_set s s' i t u : single s -> nth_error (tasks s) i = Some u -> live u -> tasks s' = set_nth i t (tasks s) ->
  cur s' = cur s -> single s'.
Proof.
  intros [A B] N L T C. split.
  - intros j t' N' L'. rewrite C. rewrite T in N'. destruct (Nat.eq_dec j i) as [->|Hj]; [eauto|].
    rewrite nth_set_other in N' by auto. eauto.
  - intros j. rewrite C, T, len_set. auto.
Qed.
Lemma single_same s s' : single s -> tasks s' = tasks s -> cur s' = cur s -> single s'.
Proof. intros [A B] T C. split; [intros j t|intros j]; rewrite ?C, ?T; eauto. Qed.

Lemma single_check s : single s -> single (check_process s).
Proof.
  intros [A B]. unfold check_process.
  assert (G : (forall j t, nth_error (tasks s) j = Some t -> t = TDone) ->
    single (set_tasks s (tasks s ++ [TCreated]) (Some (List.length (tasks s))))).
  { intros Dn. split; cbn.
    - intros j t N L. destruct (Nat.lt_ge_cases j (List.length (tasks s))) as [X|X].
      + rewrite nth_error_app1 in N by auto. exfalso. apply L. eauto.
      + rewrite nth_error_app2 in N by auto. assert (Y : (j - List.length (tasks s) < 1)%nat).
        { apply nth_error_Some with (l := [TCreated (D:=D) (M:=M)]). congruence. }
        f_equal. lia.
    - intros j Hj. injection Hj as <-. rewrite app_length. cbn. lia. }
  destruct (cur s) as [i|] eqn:C.
  - destruct (nth_error (tasks s) i) as [t|] eqn:N.
    2:{ apply nth_error_None in N. specialize (B i eq_refl). lia. }
    assert (X : t = TDone -> single (set_tasks s (tasks s ++ [TCreated]) (Some (List.length (tasks s))))).
    { intros ->. apply G. intros j t Nj. destruct (tdone_dec t) as [?|L]; [auto|]. pose proof (A j t Nj L) as Y. congruence. }
    destruct t; auto; split; rewrite ?C; auto.
  - apply G. intros j t Nj. destruct (tdone_dec t) as [?|L]; [auto|]. pose proof (A j t Nj L). congruence.
Qed.

Lemma tasks_check s s' o : shut_down_check s = (s', o) -> tasks s' = tasks s /\ cur s' = cur s.
Proof.
  unfold shut_down_check.
  destruct (_ && _); [|intros E; injection E as <- <-; auto].
  destruct (q_shut_down _); [|intros E; injection E as <- <-; auto].
  destruct (q_shut_down _); [|intros E; injection E as <- <-; auto].
  destruct (fut_done _); intros E; injection E as <- <-; auto.
Qed.
Lemma single_finish s i u s' o : single s -> nth_error (tasks s) i = Some u -> live u -> finish_task s i = (s', o) -> single s'.
Proof. intros H N L E. unfold finish_task in E. apply tasks_check in E as [A B]. apply (single_set s s' i TDone u); auto. Qed.
Lemma single_loop s i u s' o : single s -> nth_error (tasks s) i = Some u -> live u -> loop dto_ok s i = (s', o) -> single s'.
Proof.
  intros H N L E. unfold loop in E. destruct (_ && _); [|eapply single_finish; eauto].
  assert (Fin : forall s0 l, tasks s0 = tasks s -> cur s0 = cur s -> (let (s1, o1) := finish_task s0 i in (s1, l ++ o1)) = (s', o) -> single s').
  { intros s0 l T C E1. destruct (finish_task s0 i) as [s1 o1] eqn:F. injection E1 as <- <-.
    apply (single_finish s0 i u s1 o1); auto; [eapply single_same; eauto|congruence]. }
  destruct (pop_pending (hq s)) as [[q [e|]]|x].
  - destruct (dto_ok (pe_data e)).
    + injection E as <- <-. apply (single_set s _ i (TBefore e) u); auto.
    + apply (Fin (set_hq s q) [HLost (item_p e); HExn "ValidationError"]); auto.
  - apply (Fin (set_hq s q) [HExn "AttributeError"]); auto.
  - apply (Fin s [HExn x]); auto.
Qed.
Lemma settle_cur s e b s' o : settle no_meta max_retries s e b = (s', o) -> tasks s' = tasks s /\ cur s' = cur s.
Proof.
  unfold settle, h_push_error, h_push_pending, item_p. destruct b; [intros E; injection E as <- <-; auto|].
  destruct (_ <=? _).
  - destruct (push_error _ _ _ _ _ _); intros E; injection E as <- <-; auto.
  - destruct (push_pending _ _ _ _ _ _); intros E; injection E as <- <-; auto.
Qed.

Lemma single_step s ev s' o : single s -> hstep s ev = (s', o) -> single s'.
Proof.
  intros H E.
  assert (Ks : forall s1, tasks s1 = tasks s -> cur s1 = cur s -> single s1) by (intros; eapply single_same; eauto).
  assert (Kc : forall s1, tasks s1 = tasks s -> cur s1 = cur s -> single (check_process s1)) by (intros; apply single_check; eauto).
  assert (Fin : forall i u l, nth_error (tasks s) i = Some u -> live u ->
    (let (s1, o1) := finish_task s i in (s1, l ++ o1)) = (s', o) -> single s').
  { intros i u l N L E1. destruct (finish_task s i) as [s1 o1] eqn:F. injection E1 as <- <-. eapply single_finish; eauto. }
  destruct ev; cbn [HandlerModel.hstep] in E.
  - destruct (recv_paused s); injection E as <- <-; auto.
  - destruct (nth_error _ _) as [[k d]|]; injection E as <- <-; auto.
  - destruct (nth_error _ _) as [[k d]|]; injection E as <- <-; auto.
  - destruct (nth_error _ _) as [[[k d] m]|]; [|injection E as <- <-; auto].
    unfold h_push_pending in E. destruct (push_pending _ _ _ _ _ _); injection E as <- <-; auto.
  - destruct (nth_error _ _) as [[[k d] m]|]; injection E as <- <-; auto.
  - unfold task_step in E. destruct (nth_error (tasks s) i) as [t|] eqn:N; [|injection E as <- <-; auto].
    destruct t as [|e|e|e b|].
    + apply (single_loop (set_running s true) i TCreated s' o); auto; discriminate.
    + destruct r; [| |apply (Fin i (TBefore e) [HLost (item_p e); HExn "user"] N ltac:(discriminate) E)];
        (injection E as <- <-; apply (single_set s _ i (TCall e) (TBefore e)); auto; discriminate).
    + destruct r; [injection E as <- <-; auto| |apply (Fin i (TCall e) [HLost (item_p e); HExn "user"] N ltac:(discriminate) E)].
      injection E as <- <-; apply (single_set s _ i (TAfter e b) (TCall e)); auto; discriminate.
    + assert (G : (let (s1, o1) := settle no_meta max_retries s e b in
                               let (s2, o2) := loop dto_ok s1 i in (s2, o1 ++ o2)) = (s', o) -> single s').
      { intros G. destruct (settle no_meta max_retries s e b) as [s1 o1] eqn:Es. apply settle_cur in Es as [T C].
        destruct (loop dto_ok s1 i) as [s2 o2] eqn:El. injection G as <- <-.
        apply (single_loop s1 i (TAfter e b) s2 o2); auto; [congruence|discriminate]. }
      destruct r; [apply G, E|apply G, E|]. apply (Fin i (TAfter e b) [HLost (item_p e); HExn "user"] N ltac:(discriminate) E).
    + injection E as <- <-; auto.
  - unfold cancel_task in E. destruct (nth_error (tasks s) i) as [t|] eqn:N; [|injection E as <- <-; auto].
    destruct t as [|e|e|e b|]; try (apply (Fin i _ [HLost (item_p e)] N ltac:(discriminate) E)); injection E as <- <-; auto.
    apply (single_set s _ i TDone TCreated); auto; discriminate.
  - injection E as <- <-; auto.
  - injection E as <- <-; auto.
  - injection E as <- <-; auto.
  - injection E as <- <-; auto.
  - destruct (move_all _ _); injection E as <- <-; auto.
  - destruct (move_one _ _ _) as [[q x]|]; injection E as <- <-; auto.
  - destruct (pop_error_key _ _) as [[q x]|]; injection E as <- <-; auto.
  - destruct (inspect_error_key _ _); injection E as <- <-; auto.
  - injection E as <- <-; auto.
  - apply tasks_check in E as [T C]. apply Ks; auto.
Qed.

Lemma single_run evs : forall s s' o, single s -> hrun s evs = (s', o) -> single s'.
Proof.
  induction evs as [|ev r IH]; intros s s' o H E; cbn [HandlerModel.hrun] in E; [injection E as <- <-; auto|].
  destruct (hstep s ev) as [s1 o1] eqn:E1. destruct (hrun s1 r) as [s2 o2] eqn:E2. injection E as <- <-.
  eapply IH; [|exact E2]. eapply single_step; eauto.
Qed.

Lemma single_setup (q0 : pqueue D M) : single (setup q0).
Proof.
  split; cbn.
  - intros [|[|j]] t N L; cbn in N; try discriminate; auto.
  - intros j E. injection E as <-. lia.
Qed.

Theorem one_live_task q0 evs s o i j t t' : hrun (setup q0) evs = (s, o) ->
  nth_error (tasks s) i = Some t -> live t -> nth_error (tasks s) j = Some t' -> live t' -> i = j.
Proof.
  intros E N1 L1 N2 L2. destruct (single_run evs _ _ _ (single_setup q0) E) as [A _].
  pose proof (A _ _ N1 L1). pose proof (A _ _ N2 L2). congruence.
Qed.

Lemma single_before s : single s -> (before s <= 1)%nat.
Proof.
  intros [A _]. unfold before.
  assert (G : forall (l : list tstate) n, (forall j t, nth_error l j = Some t -> live t -> (n + j)%nat = match cur s with Some i => i | None => 0%nat end) ->
    (list_sum (map is_before l) <= 1)%nat).
  { induction l as [|t l IH]; intros n H; [unfold list_sum; cbn; lia|].
    assert (IH' := IH (S n)). unfold list_sum in *. cbn [map fold_right].
    destruct t; cbn [is_before]; try (apply IH'; intros j t0 N L; rewrite <- (H (S j) t0 N L); lia).
    assert (Z : fold_right Nat.add 0%nat (map is_before l) = 0%nat); [|lia].
    assert (Dn : forall j t, nth_error l j = Some t -> t = TDone).
    { intros j t N. destruct (tdone_dec t) as [?|L]; [auto|]. exfalso.
      pose proof (H 0%nat _ eq_refl ltac:(discriminate)). pose proof (H (S j) t N L). lia. }
    clear - Dn. induction l as [|t l IH]; [reflexivity|]. cbn. rewrite (Dn 0%nat t eq_refl). cbn. apply IH. intros j t' N. apply (Dn (S j) t' N). }
  apply (G (tasks s) 0%nat). intros j t N L. rewrite (A j t N L). lia.
Qed.

End Proofs.
