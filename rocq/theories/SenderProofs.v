(** The buffered sender refines a machine on plain lists. *)
From Coq Require Import List ZArith NArith Bool String Lia Permutation.
From Coq Require Import ZifyBool ZifyNat ZifyN.
From Verif Require Import Base PermTac PQueueModel PQueueSpec PQueueProofs PQueueProofs2 PendingModel PendingSpec
  PendingProofs SenderModel SenderSpec.
Import ListNotations.
Local Open Scope Z_scope.

Section Proofs.
Context {D M : Type}.
Variable no_meta : M.
Variables dto_ok truthy : D -> bool.
Variable wait : bool.
Variable max_retries : Z.
Notation msg := (msg D). Notation sout := (sout D). Notation sev := (sev D). Notation sstate := (sstate D M).
Notation ststate := (ststate D M). Notation pentry := (pentry D M). Notation eentry := (eentry D M).
Notation sstep := (@sstep D M no_meta dto_ok truthy wait max_retries).
Notation srun := (@srun D M no_meta dto_ok truthy wait max_retries).
Implicit Types (s : sstate) (o : list sout).

(** ** The machine: number of tasks that ended before the current one, pending list, current task, error list,
    paused, shut down *)
Record ast := mkA { an : nat; al : list (N * pentry); at_ : ststate; ae : list (N * eentry); ap : bool; ash : bool }.
Implicit Types a : ast.

Definition busy (t : ststate) : bool := match t with SWaiting _ | SSending _ => true | _ => false end.
Definition with_t a t := mkA (an a) (al a) t (ae a) (ap a) (ash a).
Definition with_l a l := mkA (an a) l (at_ a) (ae a) (ap a) (ash a).
Definition with_e a l := mkA (an a) (al a) (at_ a) l (ap a) (ash a).
Definition with_p a b := mkA (an a) (al a) (at_ a) (ae a) b (ash a).
Definition with_sh a := mkA (an a) (al a) (at_ a) (ae a) true true.
Definition a_wake a := match at_ a with
  | SDone => mkA (S (an a)) (al a) SCreated (ae a) (ap a) (ash a)
  | _ => a end.

Definition a_loop a : ast * list sout :=
  if ap a then (with_t a SDone, []) else
  match al a with
  | [] => (with_t a SDone, [])
  | (k, e) :: r =>
      if dto_ok (pe_data e) then
        if wait then (with_t (with_l a r) (SWaiting e), [OStarted (pe_key e)])
        else (with_t (with_l a r) (SSending e), [OStarted (pe_key e); OSend (pe_key e) (pe_data e)])
      else (with_t (with_l a r) SDone, [OLost (msg_p e); OExn "ValidationError"])
  end.

Definition a_err a k d r : ast * list sout :=
  (with_e a (add (ae a) k (mkE k d r no_meta)), [if has k (ae a) then ODropped (k, d) else OErrored (k, d)]).
Definition a_pend a k d r : ast * list sout :=
  (with_l a (add (al a) k (mkP k r d no_meta)), [if has k (al a) then ODropped (k, d) else OQueued k]).

Definition a_settle a (e : pentry) (r : sres) : ast * list sout :=
  match r with
  | ROk => (a, [OSent (msg_p e)])
  | RRetryable =>
      let x := if max_retries <=? pe_retries e + 1 then a_err a (pe_key e) (pe_data e) "Max retries reached."
               else a_pend a (pe_key e) (pe_data e) (pe_retries e + 1) in
      (fst x, ORetryable (pe_key e) :: snd x)
  | RFails m => let x := a_err a (pe_key e) (pe_data e) m in (fst x, OFailed (pe_key e) m :: snd x)
  end.

Definition a_all_outs (lp : list (N * pentry)) (le : list (N * eentry)) : list sout :=
  flat_map (fun e => OReprocessed (fst e) :: [if has (fst e) lp then ODropped (msg_e (snd e)) else OQueued (fst e)]) le.

Definition astep a (ev : sev) : ast * list sout :=
  match ev with
  | SEnqueue k d => let x := a_pend a k d 0 in (a_wake (fst x), snd x ++ [OEnqueued (k, d)])
  | STask i r =>
      if Nat.eqb i (an a) then
        match at_ a with
        | SCreated => a_loop a
        | SWaiting e => (with_t a (SSending e), [OSend (pe_key e) (pe_data e)])
        | SSending e => let x := a_settle a e r in let y := a_loop (fst x) in (fst y, snd x ++ snd y)
        | SDone => (a, [])
        end
      else (a, [])
  | SCancel i =>
      if Nat.eqb i (an a) then
        match at_ a with
        | SCreated => (with_t a SDone, [])
        | SWaiting e | SSending e => (with_t a SDone, [OLost (msg_p e)])
        | SDone => (a, [])
        end
      else (a, [])
  | SPause => (with_p a true, [])
  | SUnpause => (a_wake (with_p a false), [])
  | SReprocessAll =>
      (a_wake (with_p (with_e (with_l a (al a ++ map retried (filter (fun e => negb (has (fst e) (al a))) (ae a)))) []) false),
       a_all_outs (al a) (ae a))
  | SReprocessOne k =>
      match lookup k (ae a) with
      | Some x => (a_wake (with_p (with_e (with_l a (add (al a) k (snd (retried (k, x))))) (without k (ae a))) false),
                   [OReprocessed k; if has k (al a) then ODropped (msg_e x) else OQueued k] ++
                   s_reply dto_ok truthy (Some (ee_data x)))
      | None => (a_wake (with_p a false), [OReply None])
      end
  | SPopError k =>
      match lookup k (ae a) with
      | Some x => (with_e a (without k (ae a)), ORemoved (msg_e x) :: s_reply dto_ok truthy (Some (ee_data x)))
      | None => (a, [OReply None])
      end
  | SInspectError k => (a, s_reply dto_ok truthy (option_map ee_data (lookup k (ae a))))
  | SClearError => (with_e a [], map (fun e => ORemoved (msg_e (snd e))) (ae a))
  | SShutDown => (with_sh a, [])
  end.

Fixpoint arun a (evs : list sev) : ast * list sout :=
  match evs with
  | [] => (a, [])
  | ev :: r => let (a1, o1) := astep a ev in let (a2, o2) := arun a1 r in (a2, o1 ++ o2)
  end.

(** A step after which the queues are closed. *)
Definition closes a : bool := ash a && negb (busy (at_ a)).

(** ** The refinement *)
Record Rm s a : Prop := mkRm {
  r_q : pinv (sq s); r_u : usable (sq s); r_reach : preachable no_meta (sq s);
  r_l : pc (sq s) = al a; r_e : ec (sq s) = ae a;
  r_t : stasks s = repeat SDone (an a) ++ [at_ a]; r_c : scur s = Some (an a);
  r_p : spaused s = ap a; r_s : sshut s = ash a; r_f : sfut s = false; r_n : sclosed s = 0%nat }.
Definition R s a : Prop := Rm s a /\ srunning s = busy (at_ a) /\ closes a = false.

(** The queues have been written, holding the two lists. *)
Definition Cl s a : Prop :=
  sclosed s = 1%nat /\ stasks s = repeat SDone (an a) ++ [at_ a] /\
  exists q, preachable no_meta q /\ usable q /\ pc q = al a /\ ec q = ae a /\ pq_shut_down q = Ok (sq s).

Definition After s o a o' : Prop :=
  if closes a then o = o' ++ [OClosed] /\ Cl s a else o = o' /\ R s a.

Lemma nth_cur {A} n (x y : A) : nth_error (repeat x n ++ [y]) n = Some y.
Proof. induction n; cbn; auto. Qed.
Lemma nth_old {A} n (x y : A) i : (i <> n)%nat -> nth_error (repeat x n ++ [y]) i = Some x \/ nth_error (repeat x n ++ [y]) i = None.
Proof.
  revert i. induction n as [|n IH]; intros [|i] H; cbn; try congruence; auto.
  - right. now destruct i.
Qed.
Lemma put_cur {A} n (x y z : A) : put_nth n z (repeat x n ++ [y]) = repeat x n ++ [z].
Proof. induction n; cbn; congruence. Qed.
Lemma repeat_snoc {A} n (x : A) l : repeat x n ++ x :: l = repeat x (S n) ++ l.
Proof. induction n as [|n IH]; cbn; [reflexivity|]. f_equal. exact IH. Qed.

Lemma rm_with_t s a t : Rm s a -> Rm (set_stask s (an a) t) (with_t a t).
Proof.
  intros [Q1 Q2 Q3 Q4 Q5 Q6 Q7 Q8 Q9 Q10 Q11]. constructor; auto.
  cbn [set_stask set_stasks stasks with_t an at_]. rewrite Q6. apply put_cur.
Qed.
Lemma rm_running s a b : Rm s a -> Rm (set_srunning s b) a.
Proof. intros [Q1 Q2 Q3 Q4 Q5 Q6 Q7 Q8 Q9 Q10 Q11]. constructor; auto. Qed.
Lemma rm_sq s a q lp le : Rm s a -> pinv q -> usable q -> preachable no_meta q -> pc q = lp -> ec q = le ->
  Rm (set_sq s q) (with_e (with_l a lp) le).
Proof. intros [Q1 Q2 Q3 Q4 Q5 Q6 Q7 Q8 Q9 Q10 Q11] ? ? ? ? ?. constructor; auto. Qed.

Lemma pq_shut (q : pqueue D M) : pinv q -> exists p e, q_shut_down (pend q) = Ok p /\ q_shut_down (errq q) = Ok e /\
  pq_shut_down q = Ok (mkPQ p e).
Proof.
  intros H. unfold pq_shut_down. destruct (shut_down_ok _ (pi_p _ H)) as [p [A _]]. destruct (shut_down_ok _ (pi_e _ H)) as [e [B _]].
  rewrite A, B. cbn [bind]. eauto.
Qed.

Lemma shut_check_ok s a : Rm s a -> srunning s = busy (at_ a) ->
  After (fst (s_shut_check s)) (snd (s_shut_check s)) a [].
Proof.
  intros H Hr. unfold s_shut_check, After, closes. rewrite Hr, (r_s _ _ H).
  destruct (ash a) eqn:Sh; destruct (busy (at_ a)) eqn:B; cbn [negb andb fst snd]; try (split; [reflexivity|]; split; [auto|];
    split; [congruence|]; unfold closes; rewrite Sh, B; reflexivity).
  destruct (pq_shut _ (r_q _ _ H)) as [p [e [A1 [A2 A3]]]]. rewrite A1, A2. cbn [sfut set_sclosed set_sq].
  rewrite (r_f _ _ H). cbn [fst snd]. split; [reflexivity|]. unfold Cl. cbn [sclosed set_sfut set_sclosed stasks set_sq sq].
  rewrite (r_n _ _ H), (r_t _ _ H). split; [auto|]. split; [auto|]. exists (sq s).
  split; [apply H|]. split; [apply H|]. split; [apply H|]. split; [apply H|]. exact A3.
Qed.

Lemma finish_ok s a : Rm s a ->
  After (fst (s_finish s (an a))) (snd (s_finish s (an a))) (with_t a SDone) [].
Proof.
  intros H. unfold s_finish. apply (shut_check_ok _ (with_t a SDone)).
  - apply (rm_with_t (set_srunning s false)). now apply rm_running.
  - reflexivity.
Qed.

Lemma after_pre s o a o' pre : After s o a o' -> After s (pre ++ o) a (pre ++ o').
Proof. unfold After. destruct (closes a); intros [-> H]; [rewrite app_assoc|]; auto. Qed.

Lemma size_zero (q : pqueue D M) : pinv q -> (pending_size q =? 0) = match pc q with [] => true | _ => false end.
Proof. intros H. unfold pending_size. rewrite size_ok by apply H. fold (pc q). destruct (pc q); cbn [List.length]; lia. Qed.

Lemma loop_ok s a : Rm s a -> srunning s = true ->
  After (fst (s_loop dto_ok wait s (an a))) (snd (s_loop dto_ok wait s (an a))) (fst (a_loop a)) (snd (a_loop a)).
Proof.
  intros H Hr. unfold s_loop, a_loop. rewrite (r_p _ _ H). destruct (ap a) eqn:P; cbn [negb andb].
  { now apply finish_ok. }
  rewrite size_zero by apply H. rewrite (r_l _ _ H). destruct (al a) as [|[k e] r] eqn:L; cbn [negb].
  { now apply finish_ok. }
  destruct (pop_pending_ok (sq s) (r_q _ _ H) (proj1 (r_u _ _ H))) as [q [A [B [F [G I]]]]].
  rewrite A. rewrite (r_l _ _ H), L in *. cbn [hd_error option_map snd tl] in *.
  assert (HM : Rm (set_sq s q) (with_l a r)).
  { change (with_l a r) with (with_e (with_l a r) (ae a)). apply rm_sq; auto.
    - split; [rewrite I|rewrite G]; apply (r_u _ _ H).
    - eapply preach_step with (c := PopPending); [apply (r_reach _ _ H)|]. cbn [pstep]. rewrite A. reflexivity.
    - unfold ec. rewrite G. apply (r_e _ _ H). }
  destruct (dto_ok (pe_data e)).
  - assert (X : forall t, busy t = true -> After (set_stask (set_sq s q) (an a) t) [] (with_t (with_l a r) t) []).
    { intros t Bt. unfold After, closes. cbn [with_t with_l ash at_]. rewrite Bt, andb_false_r. split; [auto|].
      split; [apply (rm_with_t _ (with_l a r) t HM)|]. split; [cbn; congruence|].
      unfold closes. cbn [with_t at_]. rewrite Bt. apply andb_false_r. }
    destruct wait; cbn [fst snd].
    + apply (after_pre _ [] _ [] [OStarted (pe_key e)]). now apply X.
    + apply (after_pre _ [] _ [] [OStarted (pe_key e); OSend (pe_key e) (pe_data e)]). now apply X.
  - pose proof (finish_ok _ _ HM) as X. cbn [with_l an] in X.
    destruct (s_finish (set_sq s q) (an a)) as [s1 o1] eqn:Ef. cbn [fst snd] in *.
    apply (after_pre _ _ _ [] [OLost (msg_p e); OExn "ValidationError"]) in X. exact X.
Qed.

Lemma push_p_ok s a k d r : Rm s a ->
  Rm (fst (s_push_pending no_meta s k d r)) (fst (a_pend a k d r)) /\
  snd (s_push_pending no_meta s k d r) = snd (a_pend a k d r) /\
  srunning (fst (s_push_pending no_meta s k d r)) = srunning s.
Proof.
  intros H. unfold s_push_pending, a_pend.
  destruct (push_pending_ok no_meta (sq s) k d r None (r_q _ _ H)) as [q [A [B [C [E F]]]]].
  rewrite A. cbn [fst snd set_sq srunning]. split; [|split; [|reflexivity]].
  - change (with_l a (add (al a) k (mkP k r d no_meta))) with (with_e (with_l a (add (al a) k (mkP k r d no_meta))) (ae a)).
    apply rm_sq; auto.
    + split; [rewrite F|rewrite E]; apply (r_u _ _ H).
    + eapply preach_step with (c := PushPending k d r None); [apply (r_reach _ _ H)|exact A].
    + rewrite C, (r_l _ _ H). reflexivity.
    + unfold ec. rewrite E. apply (r_e _ _ H).
  - change (all_entries (pend (sq s))) with (pc (sq s)). rewrite (r_l _ _ H). reflexivity.
Qed.
Lemma push_e_ok s a k d r : Rm s a ->
  Rm (fst (s_push_error no_meta s k d r)) (fst (a_err a k d r)) /\
  snd (s_push_error no_meta s k d r) = snd (a_err a k d r) /\
  srunning (fst (s_push_error no_meta s k d r)) = srunning s.
Proof.
  intros H. unfold s_push_error, a_err.
  destruct (push_error_ok no_meta (sq s) k d r None (r_q _ _ H)) as [q [A [B [C [E F]]]]].
  rewrite A. cbn [fst snd set_sq srunning]. split; [|split; [|reflexivity]].
  - replace (with_e a (add (ae a) k (mkE k d r no_meta))) with (with_e (with_l a (al a)) (add (ae a) k (mkE k d r no_meta))) by (destruct a; reflexivity).
    apply rm_sq; auto.
    + split; [rewrite E|rewrite F]; apply (r_u _ _ H).
    + eapply preach_step with (c := PushError k d r None); [apply (r_reach _ _ H)|exact A].
    + unfold pc. rewrite E. apply (r_l _ _ H).
    + rewrite C, (r_e _ _ H). reflexivity.
  - change (all_entries (errq (sq s))) with (ec (sq s)). rewrite (r_e _ _ H). reflexivity.
Qed.

Lemma settle_ok s a e r : Rm s a ->
  Rm (fst (s_settle no_meta max_retries s e r)) (fst (a_settle a e r)) /\
  snd (s_settle no_meta max_retries s e r) = snd (a_settle a e r) /\
  srunning (fst (s_settle no_meta max_retries s e r)) = srunning s.
Proof.
  intros H. destruct r as [| |x]; cbn [s_settle a_settle].
  - auto.
  - destruct (max_retries <=? pe_retries e + 1).
    + destruct (push_e_ok s a (pe_key e) (pe_data e) "Max retries reached." H) as [A [B C]].
      destruct (s_push_error no_meta s (pe_key e) (pe_data e) "Max retries reached.") as [s1 o1]. cbn [fst snd] in *. subst o1. auto.
    + destruct (push_p_ok s a (pe_key e) (pe_data e) (pe_retries e + 1) H) as [A [B C]].
      destruct (s_push_pending no_meta s (pe_key e) (pe_data e) (pe_retries e + 1)) as [s1 o1]. cbn [fst snd] in *. subst o1. auto.
  - destruct (push_e_ok s a (pe_key e) (pe_data e) x H) as [A [B C]].
    destruct (s_push_error no_meta s (pe_key e) (pe_data e) x) as [s1 o1]. cbn [fst snd] in *. subst o1. auto.
Qed.

Lemma a_settle_n a e r : an (fst (a_settle a e r)) = an a /\ ash (fst (a_settle a e r)) = ash a /\ at_ (fst (a_settle a e r)) = at_ a /\ ap (fst (a_settle a e r)) = ap a.
Proof. destruct r; cbn [a_settle]; [auto| |auto]. destruct (max_retries <=? pe_retries e + 1); auto. Qed.

Lemma stay_ok s a : R s a -> After s [] a [].
Proof. intros H. unfold After. destruct H as [A [B C]]. rewrite C. split; [auto|]. split; auto. Qed.

Lemma flags_ok s a s' a' : R s a -> Rm s' a' -> srunning s' = srunning s -> at_ a' = at_ a -> ash a' = ash a -> After s' [] a' [].
Proof.
  intros [A [B C]] H E1 E2 E3. unfold closes in C. apply stay_ok. split; [auto|]. split; [congruence|].
  unfold closes. now rewrite E2, E3.
Qed.

Lemma check_ok s a : R s a -> R (s_check s) (a_wake a).
Proof.
  intros [H [Hr Hc]]. unfold s_check, a_wake. rewrite (r_c _ _ H), (r_t _ _ H), nth_cur.
  destruct (at_ a) eqn:T; try (split; [auto|]; split; [congruence|auto]).
  assert (X : closes a = true \/ ash a = false) by (unfold closes; rewrite T; destruct (ash a); auto).
  destruct X as [X|X]; [congruence|].
  split; [|split; [exact Hr|unfold closes; cbn; rewrite X; reflexivity]].
  destruct H as [Q1 Q2 Q3 Q4 Q5 Q6 Q7 Q8 Q9 Q10 Q11]. constructor; auto.
  - cbn [set_stasks stasks an at_]. rewrite <- app_assoc. cbn [app]. apply repeat_snoc.
  - cbn [set_stasks scur an]. f_equal. rewrite app_length, repeat_length. cbn. lia.
Qed.

Lemma check_after s a : After s [] a [] -> closes a = false -> After (s_check s) [] (a_wake a) [].
Proof.
  intros H C. unfold After in H. rewrite C in H. apply stay_ok, check_ok, H.
Qed.

Lemma wake_closes a : closes a = false -> closes (a_wake a) = false.
Proof. unfold closes, a_wake. destruct (at_ a) eqn:T; rewrite ?T; auto. Qed.

Theorem sstep_ok s a ev : R s a ->
  After (fst (sstep s ev)) (snd (sstep s ev)) (fst (astep a ev)) (snd (astep a ev)).
Proof.
  intros HR. pose proof HR as [H [Hr Hc]]. destruct ev; cbn [SenderModel.sstep astep].
  - (* enqueue *)
    destruct (push_p_ok s a k d 0 H) as [A [B C]].
    destruct (s_push_pending no_meta s k d 0) as [s1 o1]. cbn [fst snd] in *. subst o1.
    apply after_pre. apply (after_pre _ [] _ [] [OEnqueued (k, d)]).
    apply check_after; [|exact Hc]. eapply flags_ok; eauto.
  - (* task *)
    unfold s_task. destruct (Nat.eqb i (an a)) eqn:I.
    + apply Nat.eqb_eq in I. subst i. rewrite (r_t _ _ H), nth_cur. destruct (at_ a) as [|e|e|] eqn:T.
      * apply loop_ok; [now apply rm_running|reflexivity].
      * cbn [fst snd]. apply (after_pre _ [] _ [] [OSend (pe_key e) (pe_data e)]).
        apply stay_ok. split; [apply rm_with_t, H|]. split; [cbn; rewrite Hr; reflexivity|].
        unfold closes. cbn. apply andb_false_r.
      * destruct (settle_ok s a e r H) as [A [B C]]. destruct (a_settle_n a e r) as [N _].
        destruct (s_settle no_meta max_retries s e r) as [s1 o1]. cbn [fst snd] in *. subst o1.
        pose proof (loop_ok s1 (fst (a_settle a e r)) A ltac:(rewrite C, Hr; reflexivity)) as X. rewrite N in X.
        destruct (s_loop dto_ok wait s1 (an a)) as [s2 o2]. cbn [fst snd] in *. now apply after_pre.
      * now apply stay_ok.
    + apply Nat.eqb_neq in I. rewrite (r_t _ _ H).
      destruct (nth_old (an a) SDone (at_ a) i I) as [-> | ->]; now apply stay_ok.
  - (* cancel *)
    unfold s_cancel. destruct (Nat.eqb i (an a)) eqn:I.
    + apply Nat.eqb_eq in I. subst i. rewrite (r_t _ _ H), nth_cur. pose proof (finish_ok s a H) as X.
      destruct (at_ a) as [|e|e|] eqn:T.
      * assert (S0 : ash a = false) by (unfold closes in Hc; rewrite T in Hc; cbn in Hc; now rewrite andb_true_r in Hc).
        apply stay_ok. split; [apply rm_with_t, H|]. split; [cbn; now rewrite Hr|].
        unfold closes. cbn. now rewrite S0.
      * destruct (s_finish s (an a)) as [s1 o1]. cbn [fst snd] in *.
        now apply (after_pre _ _ _ [] [OLost (msg_p e)]).
      * destruct (s_finish s (an a)) as [s1 o1]. cbn [fst snd] in *.
        now apply (after_pre _ _ _ [] [OLost (msg_p e)]).
      * now apply stay_ok.
    + apply Nat.eqb_neq in I. rewrite (r_t _ _ H).
      destruct (nth_old (an a) SDone (at_ a) i I) as [-> | ->]; now apply stay_ok.
  - (* pause *)
    cbn [fst snd]. eapply flags_ok; [exact HR| | | |]; auto.
    destruct H as [Q1 Q2 Q3 Q4 Q5 Q6 Q7 Q8 Q9 Q10 Q11]. constructor; auto.
  - cbn [fst snd]. apply check_after; [|exact Hc]. eapply flags_ok; [exact HR| | | |]; auto.
    destruct H as [Q1 Q2 Q3 Q4 Q5 Q6 Q7 Q8 Q9 Q10 Q11]. constructor; auto.
  - (* reprocess all *)
    destruct (move_all_ok no_meta (sq s) (r_q _ _ H) (proj2 (r_u _ _ H))) as [q [A [B [F [G [I J]]]]]].
    rewrite A. cbn [fst snd].
    match goal with |- After _ ?x _ ?y => replace x with (y ++ []); [rewrite <- (app_nil_r y) at 2|] end.
    2:{ rewrite app_nil_r. unfold a_all_outs. change (all_entries (errq (sq s))) with (ec (sq s)).
        change (all_entries (pend (sq s))) with (pc (sq s)). rewrite (r_l _ _ H), (r_e _ _ H). reflexivity. }
    apply after_pre. apply check_after; [|exact Hc]. eapply flags_ok; [exact HR| | | |]; auto.
    assert (X : Rm (set_sq s q) (with_e (with_l a (al a ++ map retried (filter (fun e => negb (has (fst e) (al a))) (ae a)))) [])).
    { apply rm_sq; auto.
      - split; [rewrite J|rewrite I]; apply (r_u _ _ H).
      - eapply preach_step with (c := MoveAll); [apply (r_reach _ _ H)|exact A].
      - rewrite G. unfold moved. rewrite (r_l _ _ H), (r_e _ _ H). reflexivity. }
    destruct X as [Q1 Q2 Q3 Q4 Q5 Q6 Q7 Q8 Q9 Q10 Q11]. constructor; auto.
  - (* reprocess one *)
    destruct (move_one_ok no_meta (sq s) k (r_q _ _ H)) as [q [A [B [F [G [I J]]]]]].
    rewrite A. cbn [fst snd].
    change (all_entries (errq (sq s))) with (ec (sq s)). change (all_entries (pend (sq s))) with (pc (sq s)).
    rewrite (r_l _ _ H), (r_e _ _ H) in *.
    destruct (lookup k (ae a)) as [x|] eqn:L; cbn [option_map].
    + cbn [fst snd].
      match goal with |- After _ ?x _ ?y => change x with y; rewrite <- (app_nil_r y) end.
      apply after_pre. apply check_after; [|exact Hc]. eapply flags_ok; [exact HR| | | |]; auto.
      assert (X : Rm (set_sq s q) (with_e (with_l a (add (al a) k (snd (retried (k, x))))) (without k (ae a)))).
      { apply rm_sq; auto.
        - split; [rewrite J|rewrite I]; apply (r_u _ _ H).
        - eapply preach_step with (c := MoveOne k); [apply (r_reach _ _ H)|]. cbn [pstep]. rewrite A. reflexivity. }
      destruct X as [Q1 Q2 Q3 Q4 Q5 Q6 Q7 Q8 Q9 Q10 Q11]. constructor; auto.
    + cbn [fst snd app]. apply (after_pre _ [] _ [] [OReply None]). apply check_after; [|exact Hc].
      eapply flags_ok; [exact HR| | | |]; auto.
      assert (W : without k (ae a) = ae a).
      { apply without_fresh. rewrite lookup_dget in L. now apply dget_None. }
      assert (X : Rm (set_sq s q) (with_e (with_l a (al a)) (ae a))).
      { apply rm_sq; auto.
        - split; [rewrite J|rewrite I]; apply (r_u _ _ H).
        - eapply preach_step with (c := MoveOne k); [apply (r_reach _ _ H)|]. cbn [pstep]. rewrite A. reflexivity.
        - congruence. }
      destruct X as [Q1 Q2 Q3 Q4 Q5 Q6 Q7 Q8 Q9 Q10 Q11]. constructor; auto.
  - (* pop *)
    destruct (pop_error_key_ok (sq s) k (r_q _ _ H)) as [q [A [B [F [G I]]]]].
    rewrite A. cbn [fst snd]. change (all_entries (errq (sq s))) with (ec (sq s)).
    assert (X : Rm (set_sq s q) (with_e (with_l a (al a)) (without k (ae a)))).
    { apply rm_sq; auto.
      - split; [rewrite G|rewrite I]; apply (r_u _ _ H).
      - eapply preach_step with (c := PopErrorKey k); [apply (r_reach _ _ H)|]. cbn [pstep]. rewrite A. reflexivity.
      - unfold pc. rewrite G. apply (r_l _ _ H).
      - rewrite F, (r_e _ _ H). reflexivity. }
    rewrite (r_e _ _ H) in *. destruct (lookup k (ae a)) as [x|] eqn:L; cbn [option_map fst snd].
    + match goal with |- After _ ?x _ ?y => change x with y; rewrite <- (app_nil_r y) end.
      apply after_pre. eapply flags_ok; [exact HR| | | |]; auto.
    + apply (after_pre _ [] _ [] [OReply None]). eapply flags_ok; [exact HR| | | |]; auto.
      assert (W : without k (ae a) = ae a).
      { apply without_fresh. rewrite lookup_dget in L. now apply dget_None. }
      rewrite W in X. destruct a. exact X.
  - rewrite inspect_error_ok by apply H. rewrite (r_e _ _ H). cbn [fst snd].
    match goal with |- After _ ?x _ ?y => rewrite <- (app_nil_r x) end. apply after_pre. now apply stay_ok.
  - (* clear *)
    cbn [fst snd]. destruct (clear_error_ok (sq s) (r_q _ _ H)) as [A [B [F G]]].
    change (all_entries (errq (sq s))) with (ec (sq s)). rewrite (r_e _ _ H).
    match goal with |- After _ ?x _ ?y => rewrite <- (app_nil_r x) end. apply after_pre.
    eapply flags_ok; [exact HR| | | |]; auto.
    replace (with_e a []) with (with_e (with_l a (al a)) []) by (destruct a; reflexivity). apply rm_sq; auto.
    + split; [rewrite F|rewrite G]; apply (r_u _ _ H).
    + eapply preach_step with (c := ClearError); [apply (r_reach _ _ H)|reflexivity].
    + unfold pc. rewrite F. apply (r_l _ _ H).
  - (* shut down *)
    apply (shut_check_ok _ (with_sh a)).
    + destruct H as [Q1 Q2 Q3 Q4 Q5 Q6 Q7 Q8 Q9 Q10 Q11]. constructor; auto.
    + exact Hr.
Qed.

(** ** Closing is final *)
Lemma closed_shut s : (sclosed s <= sclosed (fst (s_shut_check s)))%nat.
Proof.
  unfold s_shut_check. destruct (_ && _); [|cbn; lia].
  destruct (q_shut_down _); [|cbn; lia]. destruct (q_shut_down _); [|cbn; lia].
  match goal with |- context [if ?x then _ else _] => destruct x end; cbn; lia.
Qed.
Lemma closed_finish s i : (sclosed s <= sclosed (fst (s_finish s i)))%nat.
Proof. unfold s_finish. pose proof (closed_shut (set_stask (set_srunning s false) i SDone)). exact H. Qed.
Lemma closed_loop s i : (sclosed s <= sclosed (fst (s_loop dto_ok wait s i)))%nat.
Proof.
  unfold s_loop. destruct (_ && _); [|apply closed_finish].
  destruct (pop_pending (sq s)) as [[q [e|]]|e]; [destruct (dto_ok _); [destruct wait|]| |].
  - cbn. lia.
  - cbn. lia.
  - pose proof (closed_finish (set_sq s q) i) as X. destruct (s_finish (set_sq s q) i). exact X.
  - pose proof (closed_finish (set_sq s q) i) as X. destruct (s_finish (set_sq s q) i). exact X.
  - pose proof (closed_finish s i) as X. destruct (s_finish s i). exact X.
Qed.
Lemma closed_pp s k d r : sclosed (fst (s_push_pending no_meta s k d r)) = sclosed s.
Proof. unfold s_push_pending. destruct (push_pending _ _ _ _ _ _); reflexivity. Qed.
Lemma closed_pe s k d r : sclosed (fst (s_push_error no_meta s k d r)) = sclosed s.
Proof. unfold s_push_error. destruct (push_error _ _ _ _ _ _); reflexivity. Qed.
Lemma closed_settle s e r : sclosed (fst (s_settle no_meta max_retries s e r)) = sclosed s.
Proof.
  destruct r as [| |x]; cbn [s_settle]; [reflexivity| |].
  - destruct (_ <=? _).
    + pose proof (closed_pe s (pe_key e) (pe_data e) "Max retries reached."). destruct (s_push_error _ _ _ _ _). auto.
    + pose proof (closed_pp s (pe_key e) (pe_data e) (pe_retries e + 1)). destruct (s_push_pending _ _ _ _ _). auto.
  - pose proof (closed_pe s (pe_key e) (pe_data e) x). destruct (s_push_error _ _ _ _ _). auto.
Qed.
Lemma closed_check s : sclosed (s_check s) = sclosed s.
Proof.
  unfold s_check. destruct (scur s) as [i|]; [|reflexivity].
  destruct (nth_error (stasks s) i) as [t|]; [|reflexivity]. destruct t; reflexivity.
Qed.
Lemma sstep_closed s ev : (sclosed s <= sclosed (fst (sstep s ev)))%nat.
Proof.
  destruct ev; cbn [SenderModel.sstep].
  - pose proof (closed_pp s k d 0) as X. destruct (s_push_pending no_meta s k d 0). cbn [fst] in *. rewrite closed_check. lia.
  - unfold s_task. destruct (nth_error _ _) as [[|e|e|]|]; try (cbn; lia).
    + apply (closed_loop (set_srunning s true) i).
    + pose proof (closed_settle s e r) as X. destruct (s_settle _ _ _ _ _) as [s1 o1].
      pose proof (closed_loop s1 i) as Y. destruct (s_loop _ _ _ _). cbn [fst] in *. lia.
  - unfold s_cancel. pose proof (closed_finish s i) as X. destruct (s_finish s i).
    destruct (nth_error _ _) as [[|e|e|]|]; cbn [fst] in *; try exact X; cbn; lia.
  - cbn; lia.
  - cbn [fst]. rewrite closed_check. cbn; lia.
  - destruct (move_all _ _); cbn [fst]; rewrite ?closed_check; cbn; lia.
  - destruct (move_one _ _ _) as [[q o]|]; cbn [fst]; rewrite ?closed_check; cbn; lia.
  - destruct (pop_error_key _ _) as [[q o]|]; cbn; lia.
  - destruct (inspect_error_key _ _); cbn; lia.
  - cbn; lia.
  - apply (closed_shut (set_sshut (set_spaused s true) true)).
Qed.
Lemma srun_closed evs : forall s, (sclosed s <= sclosed (fst (srun s evs)))%nat.
Proof.
  induction evs as [|ev r IH]; intros s; cbn [SenderModel.srun]; [cbn; lia|].
  pose proof (sstep_closed s ev) as X. destruct (sstep s ev) as [s1 o1].
  specialize (IH s1). destruct (srun s1 r) as [s2 o2]. cbn [fst] in *. lia.
Qed.

(** ** Runs *)
Theorem srun_ok evs : forall s a s' o, R s a -> srun s evs = (s', o) -> sclosed s' = 0%nat ->
  R s' (fst (arun a evs)) /\ o = snd (arun a evs).
Proof.
  induction evs as [|ev r IH]; intros s a s' o H E C; cbn [SenderModel.srun arun] in *; [injection E as <- <-; auto|].
  pose proof (sstep_ok s a ev H) as X. pose proof (sstep_closed s ev) as Y.
  destruct (sstep s ev) as [s1 o1]. pose proof (srun_closed r s1) as Z. destruct (srun s1 r) as [s2 o2] eqn:E2.
  injection E as <- <-. destruct (astep a ev) as [a1 o1']. cbn [fst snd] in *.
  unfold After in X. destruct (closes a1) eqn:Cl1.
  { destruct X as [_ [X _]]. lia. }
  destruct X as [-> X]. specialize (IH s1 a1 s2 o2 X E2 C). destruct (arun a1 r) as [a2 o2']. cbn [fst snd] in *.
  destruct IH as [IH1 ->]. auto.
Qed.

Lemma setup_ok (q : pqueue D M) : preachable no_meta q -> usable q ->
  R (s_setup q) (mkA 0 (pc q) SCreated (ec q) false false).
Proof.
  intros H U. split; [|split; reflexivity]. constructor; auto; try reflexivity. eapply preachable_inv; eauto.
Qed.

(** The in-hand entries, and the queues as seen from outside. *)
Definition hand_of (t : ststate) : list pentry := match t with SWaiting e | SSending e => [e] | _ => [] end.
Lemma in_hand_shape (l : list ststate) n t : l = repeat SDone n ++ [t] ->
  flat_map (fun t => match t with SWaiting e | SSending e => [e] | SCreated | SDone => [] end) l = hand_of t.
Proof. intros ->. induction n; cbn; [rewrite app_nil_r|]; auto. Qed.
Lemma in_hand_R s a : Rm s a -> in_hand s = hand_of (at_ a).
Proof. intros H. eapply in_hand_shape, H. Qed.

Lemma R_holds s a : R s a -> holds (sq s) (al a) (ae a).
Proof. intros [H _]. rewrite <- (r_l _ _ H), <- (r_e _ _ H). apply holds_contents; apply H. Qed.
Lemma R_unique s a lp le : R s a -> holds (sq s) lp le -> lp = al a /\ le = ae a.
Proof.
  intros [H _] Hh. rewrite <- (r_l _ _ H), <- (r_e _ _ H). apply holds_unique; auto; apply H.
Qed.
Lemma R_closed s a : R s a -> sclosed s = 0%nat. Proof. intros [H _]. apply H. Qed.

End Proofs.
