(** Consequences for whole runs of a buffered sender. *)
From Coq Require Import List ZArith NArith Bool String Lia Permutation.
From Coq Require Import ZifyBool ZifyNat ZifyN.
From Verif Require Import Base PermTac PQueueModel PQueueSpec PQueueProofs PQueueProofs2 PendingModel PendingSpec
  PendingProofs SenderModel SenderSpec SenderProofs.
From Verif Require HandlerProofs2.
Import ListNotations.
Local Open Scope Z_scope.

Section Proofs.
Context {D M : Type}.
Variable no_meta : M.
Variables dto_ok truthy : D -> bool.
Variable wait : bool.
Variable max_retries : Z.
Notation msg := (msg D). Notation sout := (sout D). Notation sev := (sev D). Notation sstate := (sstate D M).
Notation ststate := (ststate D M). Notation pentry := (pentry D M). Notation eentry := (eentry D M).
Notation sstep := (@sstep D M no_meta dto_ok truthy wait max_retries).
Notation srun := (@srun D M no_meta dto_ok truthy wait max_retries).
Notation ast := (@ast D M).
Notation astep := (@astep D M no_meta dto_ok truthy wait max_retries).
Notation a_loop := (@a_loop D M dto_ok wait).
Notation a_settle := (@a_settle D M no_meta max_retries).
Notation R := (@R D M no_meta).
Implicit Types (s : sstate) (o : list sout) (a : ast).

Record wf a : Prop := mkWf {
  wf_p : Forall (fun e => pe_key (snd e) = fst e) (al a);
  wf_e : Forall (fun e => ee_key (snd e) = fst e) (ae a);
  wf_np : NoDup (map fst (al a));
  wf_ne : NoDup (map fst (ae a)) }.

Lemma R_wf s a : R s a -> wf a.
Proof.
  intros [H _]. constructor; [rewrite <- (r_l _ _ _ H)|rewrite <- (r_e _ _ _ H)|rewrite <- (r_l _ _ _ H)|rewrite <- (r_e _ _ _ H)].
  - apply (r_q _ _ _ H).
  - apply (r_q _ _ _ H).
  - apply inv_nodup, (r_q _ _ _ H).
  - apply inv_nodup, (r_q _ _ _ H).
Qed.

(** An invariant of the machine over the outputs so far holds at the end of every run that has not closed the queues. *)
Theorem run_invariant (I : ast -> list sout -> Prop) (evs : list sev) :
  (forall a o ev, In ev evs -> wf a -> I a o -> I (fst (astep a ev)) (o ++ snd (astep a ev))) ->
  forall s0 a0 o0 s o, R s0 a0 -> I a0 o0 -> srun s0 evs = (s, o) -> sclosed s = 0%nat ->
  exists a, R s a /\ wf a /\ I a (o0 ++ o).
Proof.
  induction evs as [|ev r IH]; intros St s0 a0 o0 s o H I0 E C; cbn [SenderModel.srun] in E.
  - injection E as <- <-. rewrite app_nil_r. exists a0. split; [auto|]. split; [eapply R_wf; eauto|auto].
  - pose proof (sstep_ok no_meta dto_ok truthy wait max_retries s0 a0 ev H) as X.
    pose proof (sstep_closed no_meta dto_ok truthy wait max_retries s0 ev) as Y.
    destruct (sstep s0 ev) as [s1 o1]. pose proof (srun_closed no_meta dto_ok truthy wait max_retries r s1) as Z.
    destruct (srun s1 r) as [s2 o2] eqn:E2. injection E as <- <-. cbn [fst snd] in *.
    unfold After in X. destruct (closes _) eqn:Cl1.
    { destruct X as [_ [X _]]. lia. }
    destruct X as [-> X]. rewrite app_assoc. apply (IH (fun a o e Hi => St a o e (or_intror Hi)) s1 (fst (astep a0 ev))); auto.
    apply St; [now left|eapply R_wf; eauto|auto].
Qed.

(** ** Conservation *)
Definition gone o : list msg := delivered o ++ s_removed o ++ s_dropped o ++ s_lost o.
Definition g1 o : list msg :=
  flat_map (fun x => match x with OSent y | ORemoved y | ODropped y | OLost y => [y] | _ => [] end) o.
Lemma g1_gone o : Permutation (g1 o) (gone o).
Proof.
  unfold g1, gone, delivered, s_removed, s_dropped, s_lost.
  induction o as [|x o IH]; [constructor|]. cbn [flat_map]. destruct x; cbn [app]; auto; rewrite IH; perm.
Qed.
Lemma g1_app o o' : g1 (o ++ o') = g1 o ++ g1 o'. Proof. apply flat_map_app. Qed.
Lemma enq_app o o' : enqueued (o ++ o') = enqueued o ++ enqueued o'. Proof. apply flat_map_app. Qed.

Definition a_msgs a : list msg := msgs_p (al a) ++ msgs_h (hand_of (at_ a)) ++ msgs_e (ae a).

Lemma msgs_p_app l l' : msgs_p (D:=D) (M:=M) (l ++ l') = msgs_p l ++ msgs_p l'. Proof. apply map_app. Qed.
Lemma msgs_e_app l l' : msgs_e (D:=D) (M:=M) (l ++ l') = msgs_e l ++ msgs_e l'. Proof. apply map_app. Qed.

Lemma reply_quiet r : enqueued (s_reply dto_ok truthy r) = [] /\ g1 (s_reply dto_ok truthy r) = [].
Proof. unfold s_reply. destruct r as [d|]; [|auto]. destruct (truthy d), (dto_ok d); auto. Qed.

Lemma loop_conserve a : enqueued (snd (a_loop a)) = [] /\
  Permutation (msgs_p (al a) ++ msgs_e (ae a)) (a_msgs (fst (a_loop a)) ++ g1 (snd (a_loop a))).
Proof.
  unfold SenderProofs.a_loop. destruct (ap a); [split; [reflexivity|]; cbn; perm|].
  destruct (al a) as [|[k e] r] eqn:L.
  - split; [reflexivity|]. unfold a_msgs. cbn [fst snd with_t al at_ ae hand_of msgs_h map g1 flat_map]. rewrite L. perm.
  - destruct (dto_ok (pe_data e)); [destruct wait|]; (split; [reflexivity|]); unfold a_msgs;
      cbn [fst snd with_t with_l al at_ ae hand_of msgs_h map g1 flat_map app]; change (msgs_p ((k, e) :: r)) with (msg_p e :: msgs_p r); perm.
Qed.

Lemma err_conserve a k d r : enqueued (snd (a_err no_meta a k d r)) = [] /\
  Permutation ((k, d) :: msgs_e (ae a)) (msgs_e (ae (fst (a_err no_meta a k d r))) ++ g1 (snd (a_err no_meta a k d r))).
Proof.
  unfold a_err, add. cbn [fst snd with_e ae]. destruct (has k (ae a)); (split; [reflexivity|]).
  - cbn. perm.
  - rewrite msgs_e_app. cbn. perm.
Qed.
Lemma pend_conserve a k d r : enqueued (snd (a_pend no_meta a k d r)) = [] /\
  Permutation ((k, d) :: msgs_p (al a)) (msgs_p (al (fst (a_pend no_meta a k d r))) ++ g1 (snd (a_pend no_meta a k d r))).
Proof.
  unfold a_pend, add. cbn [fst snd with_l al]. destruct (has k (al a)); (split; [reflexivity|]).
  - cbn. perm.
  - rewrite msgs_p_app. cbn. perm.
Qed.

Lemma settle_conserve a e r : enqueued (snd (a_settle a e r)) = [] /\
  Permutation (msg_p e :: msgs_p (al a) ++ msgs_e (ae a))
    (msgs_p (al (fst (a_settle a e r))) ++ msgs_e (ae (fst (a_settle a e r))) ++ g1 (snd (a_settle a e r))).
Proof.
  destruct r as [| |x]; cbn [SenderProofs.a_settle].
  - split; [reflexivity|]. cbn. perm.
  - destruct (max_retries <=? pe_retries e + 1).
    + destruct (err_conserve a (pe_key e) (pe_data e) "Max retries reached.") as [A B].
      cbn [fst snd]. split; [exact A|]. change (msg_p e) with (pe_key e, pe_data e). 
      change (g1 (ORetryable (pe_key e) :: ?l)) with (g1 l). rewrite Permutation_middle, B. cbn [a_err fst with_e al]. perm.
    + destruct (pend_conserve a (pe_key e) (pe_data e) (pe_retries e + 1)) as [A B].
      cbn [fst snd]. split; [exact A|]. change (msg_p e) with (pe_key e, pe_data e).
      change (g1 (ORetryable (pe_key e) :: ?l)) with (g1 l). rewrite app_comm_cons, B. cbn [a_pend fst with_l ae]. perm.
  - destruct (err_conserve a (pe_key e) (pe_data e) x) as [A B].
    cbn [fst snd]. split; [exact A|]. change (msg_p e) with (pe_key e, pe_data e). 
    change (g1 (OFailed (pe_key e) x :: ?l)) with (g1 l). rewrite Permutation_middle, B. cbn [a_err fst with_e al]. perm.
Qed.

Lemma wake_msgs a : a_msgs (a_wake a) = a_msgs a.
Proof. unfold a_wake, a_msgs. destruct (at_ a) eqn:T; rewrite ?T; reflexivity. Qed.

Lemma all_outs_quiet (lp : list (N * pentry)) (le : list (N * eentry)) : enqueued (a_all_outs lp le) = [] /\
  g1 (a_all_outs lp le) = msgs_e (filter (fun e => has (fst e) lp) le).
Proof.
  induction le as [|e le [IH1 IH2]]; [auto|]. unfold a_all_outs in *. cbn [flat_map]. rewrite enq_app, g1_app, IH1, IH2. cbn [filter].
  destruct (has (fst e) lp); auto.
Qed.
Lemma msgs_retried (l : list (N * eentry)) : Forall (fun e => ee_key (snd e) = fst e) l -> msgs_p (map (retried (D:=D) (M:=M)) l) = msgs_e l.
Proof.
  unfold msgs_p, msgs_e. induction 1 as [|[k e] l H H1 IH]; [reflexivity|]. cbn [map]. rewrite IH. f_equal.
  cbn in *. unfold msg_p, msg_e. cbn. congruence.
Qed.
Lemma msgs_e_perm l l' : Permutation l l' -> Permutation (msgs_e (D:=D) (M:=M) l) (msgs_e l').
Proof. apply Permutation_map. Qed.

Lemma lookup_key a k x : wf a -> lookup k (ae a) = Some x -> ee_key x = k.
Proof. intros H L. apply lookup_In in L. pose proof (wf_e _ H) as W. rewrite Forall_forall in W. now apply (W (k, x)). Qed.

Local Ltac quiet := unfold a_msgs; cbn [fst snd with_p with_l with_e with_t with_sh al at_ ae enqueued g1 flat_map app]; rewrite app_nil_r; reflexivity.

Theorem astep_conserve a ev : wf a ->
  Permutation (enqueued (snd (astep a ev)) ++ a_msgs a) (a_msgs (fst (astep a ev)) ++ g1 (snd (astep a ev))).
Proof.
  intros W. destruct ev; cbn [SenderProofs.astep].
  - destruct (pend_conserve a k d 0) as [A B]. cbn [fst snd]. rewrite enq_app, g1_app, A, wake_msgs. cbn [app].
    change (enqueued [OEnqueued (k, d)]) with [(k, d)]. change (g1 [OEnqueued (k, d)]) with (@nil msg).
    unfold a_msgs. cbn [app]. rewrite app_comm_cons, B. cbn [a_pend fst with_l at_ ae]. perm.
  - destruct (Nat.eqb i (an a)); [|cbn [fst snd enqueued g1 flat_map app]; rewrite app_nil_r; reflexivity]. destruct (at_ a) as [|e|e|] eqn:T.
    + destruct (loop_conserve a) as [A B]. rewrite A. unfold a_msgs at 1. rewrite T. cbn [hand_of msgs_h map app]. exact B.
    + unfold a_msgs. rewrite T. cbn. perm.
    + destruct (settle_conserve a e r) as [A B]. destruct (loop_conserve (fst (a_settle a e r))) as [A' B'].
      cbn [fst snd]. rewrite enq_app, g1_app, A, A'. unfold a_msgs at 1. rewrite T. cbn [hand_of msgs_h map app].
      rewrite <- Permutation_middle, B, !app_assoc, B'. perm.
    + cbn [fst snd enqueued g1 flat_map app]. rewrite app_nil_r. reflexivity.
  - destruct (Nat.eqb i (an a)); [|cbn [fst snd enqueued g1 flat_map app]; rewrite app_nil_r; reflexivity]. unfold a_msgs. destruct (at_ a) as [|e|e|] eqn:T; cbn [fst snd with_t al at_ ae]; rewrite ?T; cbn [hand_of msgs_h map enqueued g1 flat_map app]; perm.
  - quiet.
  - cbn [fst snd]. rewrite wake_msgs. quiet.
  - destruct (all_outs_quiet (al a) (ae a)) as [A B]. cbn [fst snd]. rewrite A, B, wake_msgs. unfold a_msgs.
    cbn [with_p with_e with_l al at_ ae]. rewrite msgs_p_app, msgs_retried by (apply HandlerProofs2.Forall_filter, W).
    rewrite (msgs_e_perm _ _ (HandlerProofs2.filter_split (fun e => has (fst e) (al a)) (ae a))) at 1.
    rewrite msgs_e_app. cbn [msgs_e map app]. unfold msgs_e at 4. cbn [map]. perm.
  - destruct (lookup k (ae a)) as [x|] eqn:L.
    + destruct (reply_quiet (Some (ee_data x))) as [A B]. cbn [fst snd]. rewrite enq_app, g1_app, A, B, wake_msgs.
      pose proof (lookup_key a k x W L) as K. pose proof (HandlerProofs2.without_perm _ _ _ (wf_ne _ W) L) as P.
      unfold a_msgs. cbn [with_p with_e with_l al at_ ae]. rewrite (msgs_e_perm _ _ P).
      change (msgs_e ((k, x) :: without k (ae a))) with (msg_e x :: msgs_e (without k (ae a))).
      unfold add. destruct (has k (al a)); cbn [enqueued g1 flat_map app].
      * perm.
      * rewrite msgs_p_app. replace (msgs_p [(k, snd (retried (k, x)))]) with [msg_e x] by (cbn; unfold msg_e, msg_p; cbn; now rewrite K). perm.
    + cbn [fst snd]. rewrite wake_msgs. quiet.
  - destruct (lookup k (ae a)) as [x|] eqn:L.
    + destruct (reply_quiet (Some (ee_data x))) as [A B]. cbn [fst snd].
      change (?x :: s_reply dto_ok truthy (Some (ee_data ?y))) with ([x] ++ s_reply dto_ok truthy (Some (ee_data y))).
      rewrite enq_app, g1_app, A, B. pose proof (HandlerProofs2.without_perm _ _ _ (wf_ne _ W) L) as P.
      unfold a_msgs. cbn [with_e al at_ ae]. rewrite (msgs_e_perm _ _ P).
      change (msgs_e ((k, x) :: without k (ae a))) with (msg_e x :: msgs_e (without k (ae a))). cbn [enqueued g1 flat_map app]. perm.
    + quiet.
  - destruct (reply_quiet (option_map ee_data (lookup k (ae a)))) as [A B]. cbn [fst snd]. rewrite A, B. perm.
  - cbn [fst snd]. assert (X : enqueued (map (fun e => ORemoved (msg_e (M:=M) (snd e))) (ae a)) = [] /\
      g1 (map (fun e => ORemoved (msg_e (snd e))) (ae a)) = msgs_e (ae a)).
    { induction (ae a) as [|e l [IH1 IH2]]; [auto|]. cbn [map]. split; [exact IH1|]. cbn. f_equal. exact IH2. }
    destruct X as [-> ->]. unfold a_msgs. cbn [with_e al at_ ae]. unfold msgs_e at 2. cbn [map]. perm.
  - quiet.
Qed.

Definition Cons (init : list msg) a o : Prop := Permutation (enqueued o ++ init) (a_msgs a ++ g1 o).
Lemma Cons_step init a o ev : wf a -> Cons init a o -> Cons init (fst (astep a ev)) (o ++ snd (astep a ev)).
Proof.
  unfold Cons. intros W H. rewrite enq_app, g1_app. pose proof (astep_conserve a ev W) as X.
  transitivity (enqueued (snd (astep a ev)) ++ enqueued o ++ init); [perm|]. rewrite H.
  transitivity ((enqueued (snd (astep a ev)) ++ a_msgs a) ++ g1 o); [perm|]. rewrite X. perm.
Qed.

Theorem s_conservation q0 lp0 le0 evs s o : preachable no_meta q0 -> usable q0 -> holds q0 lp0 le0 ->
  srun (s_setup q0) evs = (s, o) -> sclosed s = 0%nat ->
  exists lp le, holds (sq s) lp le /\
    Permutation (enqueued o ++ msgs_p lp0 ++ msgs_e le0)
      (msgs_p lp ++ msgs_h (in_hand s) ++ msgs_e le ++ delivered o ++ s_removed o ++ s_dropped o ++ s_lost o).
Proof.
  intros Hr U Hh E C. destruct (holds_unique q0 lp0 le0 (preachable_inv no_meta q0 Hr) U Hh) as [-> ->].
  destruct (run_invariant (Cons (msgs_p (pc q0) ++ msgs_e (ec q0))) evs
    (fun a o ev _ W => Cons_step _ a o ev W) _ _ [] s o (setup_ok no_meta q0 Hr U)) as [a [A [W P]]]; auto.
  { unfold Cons, a_msgs. cbn. perm. }
  exists (al a), (ae a). split; [eapply R_holds; eauto|]. cbn [app] in P. unfold Cons in P. rewrite P, g1_gone.
  rewrite (in_hand_R no_meta s a (proj1 A)). unfold a_msgs, gone. perm.
Qed.

(** Invariants from start-up on. *)
Definition start (q : pqueue D M) : ast := mkA 0 (pc q) SCreated (ec q) false false.
Definition init_of (q : pqueue D M) : list msg := msgs_p (pc q) ++ msgs_e (ec q).
Theorem run_inv2 (I : ast -> list sout -> Prop) q0 evs s o : preachable no_meta q0 -> usable q0 ->
  (forall a o ev, In ev evs -> wf a -> Cons (init_of q0) a o -> I a o -> I (fst (astep a ev)) (o ++ snd (astep a ev))) ->
  I (start q0) [] -> srun (s_setup q0) evs = (s, o) -> sclosed s = 0%nat ->
  exists a, R s a /\ wf a /\ Cons (init_of q0) a o /\ I a o.
Proof.
  intros Hr U St I0 E C.
  destruct (run_invariant (fun a o => Cons (init_of q0) a o /\ I a o) evs) with (s0 := s_setup q0) (a0 := start q0) (o0 := @nil sout) (s := s) (o := o)
    as [a [A [W [P Q]]]]; auto.
  - intros a o1 ev Hi W [P Q]. split; [now apply Cons_step|now apply St].
  - now apply setup_ok.
  - split; [|auto]. unfold Cons, init_of, a_msgs, start. cbn. perm.
  - exists a. auto.
Qed.

(** ** Distinct keys: nothing is dropped *)
Notation keys l := (map fst l).
Lemma keys_p a : wf a -> keys (msgs_p (al a)) = keys (al a).
Proof. intros W. unfold msgs_p. rewrite map_map. apply map_ext_in. intros e He. pose proof (wf_p _ W) as F. rewrite Forall_forall in F. exact (F e He). Qed.
Lemma keys_e a : wf a -> keys (msgs_e (ae a)) = keys (ae a).
Proof. intros W. unfold msgs_e. rewrite map_map. apply map_ext_in. intros e He. pose proof (wf_e _ W) as F. rewrite Forall_forall in F. exact (F e He). Qed.

Lemma nodup_sub (l l' r : list msg) : Permutation l (l' ++ r) -> NoDup (keys l) -> NoDup (keys l').
Proof.
  intros P H. apply (Permutation_map fst) in P. apply (Permutation_NoDup P) in H. rewrite map_app in H.
  revert H. apply NoDup_app_remove_r.
Qed.

Lemma enq_prefix init a o ev : Cons init a o -> exists r, Permutation (enqueued (o ++ snd (astep a ev)) ++ init) ((enqueued (snd (astep a ev)) ++ a_msgs a) ++ r).
Proof.
  unfold Cons. intros H. exists (g1 o). rewrite enq_app.
  transitivity (enqueued (snd (astep a ev)) ++ enqueued o ++ init); [perm|]. rewrite H. perm.
Qed.
Lemma enq_mono o o' (init : list msg) : NoDup (keys (enqueued (o ++ o') ++ init)) -> NoDup (keys (enqueued o ++ init)).
Proof. apply nodup_sub with (r := enqueued o'). rewrite enq_app. perm. Qed.

Lemma drop_app o o' : s_dropped (o ++ o') = s_dropped o ++ s_dropped o'. Proof. apply flat_map_app. Qed.
Lemma lost_app o o' : s_lost (o ++ o') = s_lost o ++ s_lost o'. Proof. apply flat_map_app. Qed.
Lemma reply_nodrop r : s_dropped (s_reply dto_ok truthy r) = [] /\ s_lost (s_reply dto_ok truthy r) = [].
Proof. unfold s_reply. destruct r as [d|]; [|auto]. destruct (truthy d), (dto_ok d); auto. Qed.

Lemma has_not k {V} (l : list (N * V)) : ~ In k (keys l) -> has k l = false.
Proof. intros H. destruct (has k l) eqn:E; [|reflexivity]. exfalso. apply H. now apply has_In in E. Qed.

Lemma loop_nodrop a : s_dropped (snd (a_loop a)) = [].
Proof. unfold SenderProofs.a_loop. destruct (ap a); [reflexivity|]. destruct (al a) as [|[k e] r]; [reflexivity|]. destruct (dto_ok _); [destruct wait|]; reflexivity. Qed.

Lemma msg_keys a : wf a -> keys (a_msgs a) = keys (al a) ++ keys (msgs_h (hand_of (at_ a))) ++ keys (ae a).
Proof. intros W. unfold a_msgs. rewrite !map_app, keys_p, keys_e by auto. reflexivity. Qed.

Lemma nodup_disj {A} (l r : list A) x : NoDup (l ++ r) -> In x l -> ~ In x r.
Proof.
  induction l as [|y l IH]; cbn; [tauto|]. intros H [->|Hi] Hr; inversion H as [|? ? Hn Hd]; subst.
  - apply Hn, in_or_app. now right.
  - now apply (IH Hd Hi).
Qed.

(** Facts about the places when all keys are distinct. *)
Lemma distinct_places a : wf a -> NoDup (keys (a_msgs a)) ->
  (forall k, In k (keys (ae a)) -> ~ In k (keys (al a))) /\
  (forall e, In e (hand_of (at_ a)) -> ~ In (pe_key e) (keys (al a)) /\ ~ In (pe_key e) (keys (ae a))).
Proof.
  intros W N. rewrite msg_keys in N by auto. split.
  - intros k Hk Hl. apply (nodup_disj _ _ k N Hl). apply in_or_app. now right.
  - intros e He. assert (X : In (pe_key e) (keys (msgs_h (hand_of (at_ a))))).
    { unfold msgs_h. rewrite map_map. change (pe_key e) with ((fun x => fst (msg_p (D:=D) (M:=M) x)) e). now apply in_map. }
    split.
    + intros Hl. apply (nodup_disj _ _ _ N Hl). apply in_or_app. now left.
    + apply NoDup_app_remove_l in N. now apply (nodup_disj _ _ _ N).
Qed.

Theorem astep_nodrop a ev : wf a -> NoDup (keys (enqueued (snd (astep a ev)) ++ a_msgs a)) -> s_dropped (snd (astep a ev)) = [].
Proof.
  intros W N.
  assert (N' : NoDup (keys (a_msgs a))) by (rewrite map_app in N; now apply NoDup_app_remove_l in N).
  destruct (distinct_places a W N') as [De Dh]. destruct ev; cbn [SenderProofs.astep] in *; try reflexivity.
  - cbn [fst snd a_pend app] in *. assert (X : has k (al a) = false).
    { apply has_not. intros Hk. destruct (has k (al a)); cbn in N; inversion N as [|? ? Hn _]; subst; apply Hn;
      rewrite msg_keys by auto; apply in_or_app; now left. }
    rewrite X. reflexivity.
  - destruct (Nat.eqb i (an a)); [|reflexivity]. destruct (at_ a) as [|e|e|] eqn:T; try reflexivity.
    + apply loop_nodrop.
    + cbn [fst snd]. rewrite drop_app, loop_nodrop, app_nil_r. rewrite ?T in Dh. destruct (Dh e (or_introl eq_refl)) as [A B].
      destruct r; cbn [SenderProofs.a_settle]; [reflexivity| |].
      * destruct (_ <=? _); cbn [fst snd a_err a_pend]; rewrite has_not by auto; reflexivity.
      * cbn [fst snd a_err]; rewrite has_not by auto; reflexivity.
  - destruct (Nat.eqb i (an a)); [|reflexivity]. destruct (at_ a); reflexivity.
  - cbn [snd]. clear N N' Dh. assert (De' : forall k, In k (keys (ae a)) -> ~ In k (keys (al a))) by auto. clear De.
    induction (ae a) as [|e l IH]; [reflexivity|]. unfold a_all_outs in *. cbn [flat_map]. rewrite drop_app, IH by (intros k Hk; apply De'; now right).
    rewrite has_not by (apply De'; now left). reflexivity.
  - destruct (lookup k (ae a)) as [x|] eqn:L; [|reflexivity]. cbn [snd]. rewrite drop_app. destruct (reply_nodrop (Some (ee_data x))) as [-> _].
    rewrite has_not; [reflexivity|]. apply De. apply lookup_In in L. now apply (in_map fst) in L.
  - destruct (lookup k (ae a)) as [x|]; [|reflexivity]. cbn [snd]. destruct (reply_nodrop (Some (ee_data x))) as [A _]. exact A.
  - apply reply_nodrop.
  - cbn [snd]. clear. induction (ae a); [reflexivity|]. cbn. auto.
Qed.

(** ** Valid data and no cancellation: nothing is lost *)
Definition Valid (l : list msg) : Prop := Forall (fun x => dto_ok (snd x) = true) l.
Lemma valid_perm l l' : Permutation l l' -> Valid l -> Valid l'.
Proof. unfold Valid. intros P. apply Permutation_Forall. exact P. Qed.
Lemma valid_app l l' : Valid (l ++ l') <-> Valid l /\ Valid l'.
Proof. apply Forall_app. Qed.

Lemma loop_nolost a : Valid (msgs_p (al a)) -> s_lost (snd (a_loop a)) = [].
Proof.
  intros V. unfold SenderProofs.a_loop. destruct (ap a); [reflexivity|]. destruct (al a) as [|[k e] r]; [reflexivity|].
  inversion V as [|? ? V1 V2]; subst. cbn in V1. rewrite V1. destruct wait; reflexivity.
Qed.
Lemma settle_valid a e r : Valid (msg_p e :: msgs_p (al a) ++ msgs_e (ae a)) -> Valid (msgs_p (al (fst (a_settle a e r)))).
Proof.
  intros V. destruct (settle_conserve a e r) as [_ P]. apply (valid_perm _ _ P) in V. apply valid_app in V. apply V.
Qed.
Lemma settle_nolost a e r : s_lost (snd (a_settle a e r)) = [].
Proof. destruct r; cbn [SenderProofs.a_settle]; [reflexivity| |]; [destruct (_ <=? _)|]; cbn [fst snd a_err a_pend]; destruct (has _ _); reflexivity. Qed.

Theorem astep_nolost a ev : Valid (a_msgs a) -> cancels ev = false -> s_lost (snd (astep a ev)) = [].
Proof.
  intros V C. destruct ev; cbn [SenderProofs.astep]; try reflexivity; try discriminate.
  - cbn [fst snd a_pend]. destruct (has k (al a)); reflexivity.
  - destruct (Nat.eqb i (an a)); [|reflexivity]. unfold a_msgs in V. destruct (at_ a) as [|e|e|] eqn:T; try reflexivity.
    + apply loop_nolost. now apply valid_app in V.
    + cbn [fst snd]. rewrite lost_app, settle_nolost. apply loop_nolost. apply settle_valid.
      eapply valid_perm; [|exact V]. cbn. perm.
  - cbn [snd]. induction (ae a) as [|e l IH]; [reflexivity|]. unfold a_all_outs in *. cbn [flat_map]. rewrite lost_app, IH. destruct (has _ _); reflexivity.
  - destruct (lookup k (ae a)) as [x|]; [|reflexivity]. cbn [snd]. rewrite lost_app. destruct (reply_nodrop (Some (ee_data x))) as [_ ->].
    destruct (has _ _); reflexivity.
  - destruct (lookup k (ae a)) as [x|]; [|reflexivity]. cbn [snd]. destruct (reply_nodrop (Some (ee_data x))) as [_ A]. exact A.
  - apply reply_nodrop.
  - cbn [snd]. induction (ae a); [reflexivity|]. cbn. auto.
Qed.

Lemma valid_msgs init a o ev : Cons init a o -> Valid (enqueued (o ++ snd (astep a ev)) ++ init) ->
  Valid (enqueued o ++ init) /\ Valid (a_msgs a).
Proof.
  intros P V. assert (X : Valid (enqueued o ++ init)).
  { rewrite enq_app in V. unfold Valid in *. rewrite !Forall_app in *. tauto. }
  split; [exact X|]. apply (valid_perm _ _ P) in X. now apply valid_app in X.
Qed.

Theorem s_one_place q0 lp0 le0 evs s o : preachable no_meta q0 -> usable q0 -> holds q0 lp0 le0 ->
  srun (s_setup q0) evs = (s, o) -> sclosed s = 0%nat -> forallb (fun e => negb (cancels e)) evs = true ->
  Forall (fun x => dto_ok (snd x) = true) (enqueued o ++ msgs_p lp0 ++ msgs_e le0) ->
  NoDup (keys (enqueued o ++ msgs_p lp0 ++ msgs_e le0)) ->
  exists lp le, holds (sq s) lp le /\
    Permutation (enqueued o ++ msgs_p lp0 ++ msgs_e le0)
      (msgs_p lp ++ msgs_h (in_hand s) ++ msgs_e le ++ delivered o ++ s_removed o) /\
    NoDup (keys (msgs_p lp ++ msgs_h (in_hand s) ++ msgs_e le ++ delivered o ++ s_removed o)).
Proof.
  intros Hr U Hh E C Fc V N. destruct (holds_unique q0 lp0 le0 (preachable_inv no_meta q0 Hr) U Hh) as [-> ->].
  destruct (run_inv2 (fun a o => (NoDup (keys (enqueued o ++ init_of q0)) -> s_dropped o = []) /\
    (Valid (enqueued o ++ init_of q0) -> s_lost o = [])) q0 evs s o Hr U) as [a [A [W [P [Q1 Q2]]]]]; auto.
  - intros a o1 ev Hi W P [Q1 Q2]. split.
    + intros N1. rewrite drop_app, Q1 by (eapply enq_mono, N1). apply astep_nodrop; auto.
      destruct (enq_prefix _ a o1 ev P) as [r Pr]. eapply nodup_sub; eauto.
    + intros V1. destruct (valid_msgs _ _ _ _ P V1) as [V2 V3]. rewrite lost_app, Q2 by auto. apply astep_nolost; auto.
      rewrite forallb_forall in Fc. specialize (Fc ev Hi). now apply negb_true_iff.
  - exists (al a), (ae a). split; [eapply R_holds; eauto|].
    assert (X : Permutation (enqueued o ++ init_of q0) (msgs_p (al a) ++ msgs_h (in_hand s) ++ msgs_e (ae a) ++ delivered o ++ s_removed o)).
    { unfold Cons in P. rewrite P, g1_gone. unfold gone. rewrite Q1, Q2 by auto. rewrite (in_hand_R no_meta s a (proj1 A)). unfold a_msgs. perm. }
    split; [exact X|]. eapply Permutation_NoDup; [apply Permutation_map, X|exact N].
Qed.

(** ** Order *)
Definition waitk (t : ststate) : list N := match t with SWaiting e => [pe_key e] | _ => [] end.
Lemma q_app o o' : s_queued (o ++ o') = s_queued o ++ s_queued o'. Proof. apply flat_map_app. Qed.
Lemma st_app o o' : s_started (o ++ o') = s_started o ++ s_started o'. Proof. apply flat_map_app. Qed.
Lemma sd_app o o' : sends (o ++ o') = sends o ++ sends o'. Proof. apply flat_map_app. Qed.
Lemma reply_order r : s_queued (s_reply dto_ok truthy r) = [] /\ s_started (s_reply dto_ok truthy r) = [] /\ sends (s_reply dto_ok truthy r) = [].
Proof. unfold s_reply. destruct r as [d|]; [|auto]. destruct (truthy d), (dto_ok d); auto. Qed.

Definition ordered_step a o a' : Prop :=
  keys (al a) ++ s_queued o = s_started o ++ keys (al a') /\ waitk (at_ a) ++ s_started o = sends o ++ waitk (at_ a').

Lemma loop_order a : Forall (fun e => pe_key (snd e) = fst e) (al a) -> Valid (msgs_p (al a)) ->
  s_queued (snd (a_loop a)) = [] /\ keys (al a) = s_started (snd (a_loop a)) ++ keys (al (fst (a_loop a))) /\
  s_started (snd (a_loop a)) = sends (snd (a_loop a)) ++ waitk (at_ (fst (a_loop a))).
Proof.
  intros W V. unfold SenderProofs.a_loop. destruct (ap a); [auto|]. destruct (al a) as [|[k e] r] eqn:L; [cbn; rewrite L; auto|].
  inversion V as [|? ? V1 V2]; subst. cbn in V1. rewrite V1. inversion W as [|? ? W1 W2]; subst. cbn in W1. subst k.
  destruct wait; cbn; auto.
Qed.
Lemma settle_order a e r : s_started (snd (a_settle a e r)) = [] /\ sends (snd (a_settle a e r)) = [] /\
  keys (al (fst (a_settle a e r))) = keys (al a) ++ s_queued (snd (a_settle a e r)) /\
  (Forall (fun e => pe_key (snd e) = fst e) (al a) -> Forall (fun e => pe_key (snd e) = fst e) (al (fst (a_settle a e r)))).
Proof.
  destruct r; cbn [SenderProofs.a_settle].
  - cbn. rewrite app_nil_r. auto.
  - destruct (_ <=? _); cbn [fst snd a_err a_pend with_e with_l al].
    + destruct (has _ _); cbn; rewrite app_nil_r; auto.
    + unfold add. destruct (has _ _); cbn; rewrite ?app_nil_r, ?map_app; repeat split; auto.
      intros F. apply Forall_app. split; auto.
  - cbn [fst snd a_err with_e al]. destruct (has _ _); cbn; rewrite app_nil_r; auto.
Qed.
Lemma wake_l a : al (a_wake a) = al a /\ waitk (at_ (a_wake a)) = waitk (at_ a).
Proof. unfold a_wake. destruct (at_ a) eqn:T; rewrite ?T; auto. Qed.

Theorem astep_order a ev : wf a -> Valid (a_msgs a) -> cancels ev = false -> ordered_step a (snd (astep a ev)) (fst (astep a ev)).
Proof.
  intros W V C. unfold ordered_step. destruct ev; cbn [SenderProofs.astep]; try discriminate.
  - cbn [fst snd a_pend]. destruct (wake_l (with_l a (add (al a) k (mkP k 0 d no_meta)))) as [-> ->]. cbn [with_l al at_].
    unfold add. destruct (has k (al a)); cbn; rewrite ?app_nil_r, ?map_app; auto.
  - destruct (Nat.eqb i (an a)); [|cbn; rewrite !app_nil_r; auto]. unfold a_msgs in V. destruct (at_ a) as [|e|e|] eqn:T.
    + destruct (loop_order a (wf_p _ W)) as [A [B F]]; [now apply valid_app in V|]. rewrite A, app_nil_r. split; auto.
    + cbn. rewrite app_nil_r. auto.
    + destruct (settle_order a e r) as [A [B [F G]]]. destruct (loop_order (fst (a_settle a e r))) as [A' [B' F']].
      * apply G, W.
      * apply settle_valid. eapply valid_perm; [|exact V]. cbn. perm.
      * cbn [fst snd]. rewrite q_app, st_app, sd_app, A, B, A', app_nil_r. cbn [app waitk]. rewrite <- F. auto.
    + cbn. rewrite T, !app_nil_r. auto.
  - cbn. rewrite !app_nil_r. auto.
  - cbn [fst snd]. destruct (wake_l (with_p a false)) as [-> ->]. cbn. rewrite !app_nil_r. auto.
  - cbn [fst snd]. match goal with |- context [a_wake ?x] => destruct (wake_l x) as [-> ->] end. cbn [with_p with_e with_l al at_].
    assert (X : s_started (a_all_outs (al a) (ae a)) = [] /\ sends (a_all_outs (al a) (ae a)) = [] /\
      s_queued (a_all_outs (al a) (ae a)) = keys (map (retried (D:=D) (M:=M)) (filter (fun e => negb (has (fst e) (al a))) (ae a)))).
    { unfold a_all_outs. induction (ae a) as [|e l [I1 [I2 I3]]]; [auto|]. cbn [flat_map filter].
      rewrite st_app, sd_app, q_app, I1, I2, I3. destruct (has (fst e) (al a)); auto. }
    destruct X as [-> [-> ->]]. rewrite map_app, !app_nil_r. auto.
  - destruct (lookup k (ae a)) as [x|]; cbn [fst snd]; match goal with |- context [a_wake ?x] => destruct (wake_l x) as [-> ->] end.
    + destruct (reply_order (Some (ee_data x))) as [A [B F]]. rewrite q_app, st_app, sd_app, A, B, F. cbn [with_p with_e with_l al at_].
      unfold add. destruct (has k (al a)); cbn; rewrite ?app_nil_r, ?map_app; auto.
    + cbn. rewrite !app_nil_r. auto.
  - destruct (lookup k (ae a)) as [x|]; cbn [fst snd].
    + destruct (reply_order (Some (ee_data x))) as [A [B F]].
      change (?x :: s_reply dto_ok truthy (Some (ee_data ?y))) with ([x] ++ s_reply dto_ok truthy (Some (ee_data y))).
      rewrite q_app, st_app, sd_app, A, B, F. cbn. rewrite !app_nil_r. auto.
    + cbn. rewrite !app_nil_r. auto.
  - destruct (reply_order (option_map ee_data (lookup k (ae a)))) as [A [B F]]. cbn [fst snd]. rewrite A, B, F, !app_nil_r. auto.
  - cbn [fst snd with_e al at_]. assert (X : s_started (map (fun e => ORemoved (msg_e (M:=M) (snd e))) (ae a)) = [] /\
      sends (map (fun e => ORemoved (msg_e (M:=M) (snd e))) (ae a)) = [] /\ s_queued (map (fun e => ORemoved (msg_e (M:=M) (snd e))) (ae a)) = []).
    { induction (ae a) as [|e l [I1 [I2 I3]]]; [auto|]. auto. }
    destruct X as [-> [-> ->]]. rewrite !app_nil_r. auto.
  - cbn. rewrite !app_nil_r. auto.
Qed.

(** ** Wake-ups *)
Definition AwakeI a : Prop := ap a = false -> al a <> [] -> at_ a <> SDone.
Lemma wake_awake a : at_ (a_wake a) <> SDone.
Proof. unfold a_wake. destruct (at_ a) eqn:T; rewrite ?T; cbn; congruence. Qed.
Lemma loop_awake a : Valid (msgs_p (al a)) -> AwakeI (fst (a_loop a)).
Proof.
  intros V. unfold AwakeI, SenderProofs.a_loop. destruct (ap a) eqn:P; [cbn; congruence|]. destruct (al a) as [|[k e] r] eqn:L.
  - cbn. rewrite L. congruence.
  - inversion V as [|? ? V1 V2]; subst. cbn in V1. rewrite V1. destruct wait; cbn; congruence.
Qed.
Theorem astep_awake a ev : Valid (a_msgs a) -> cancels ev = false -> AwakeI a -> AwakeI (fst (astep a ev)).
Proof.
  intros V C H. destruct ev; cbn [SenderProofs.astep]; try discriminate; try (intros ? ?; apply wake_awake).
  - destruct (Nat.eqb i (an a)); [|exact H]. unfold a_msgs in V. destruct (at_ a) as [|e|e|] eqn:T.
    + apply loop_awake. now apply valid_app in V.
    + cbn. intros ? ?. cbn. congruence.
    + apply loop_awake. apply settle_valid. eapply valid_perm; [|exact V]. cbn. perm.
    + exact H.
  - destruct (lookup k (ae a)); intros ? ?; apply wake_awake.
  - destruct (lookup k (ae a)); exact H.
  - exact H.
  - exact H.
Qed.

Theorem s_order_and_wake q0 lp0 le0 evs s o : preachable no_meta q0 -> usable q0 -> holds q0 lp0 le0 ->
  srun (s_setup q0) evs = (s, o) -> sclosed s = 0%nat -> forallb (fun e => negb (cancels e)) evs = true ->
  Forall (fun x => dto_ok (snd x) = true) (enqueued o ++ msgs_p lp0 ++ msgs_e le0) ->
  exists a, R s a /\ Valid (a_msgs a) /\ AwakeI a /\ keys lp0 ++ s_queued o = s_started o ++ keys (al a) /\
    s_started o = sends o ++ waitk (at_ a).
Proof.
  intros Hr U Hh E C Fc V. destruct (holds_unique q0 lp0 le0 (preachable_inv no_meta q0 Hr) U Hh) as [-> ->].
  destruct (run_inv2 (fun a o => Valid (enqueued o ++ init_of q0) -> AwakeI a /\ keys (pc q0) ++ s_queued o = s_started o ++ keys (al a) /\
    s_started o = sends o ++ waitk (at_ a)) q0 evs s o Hr U) as [a [A [W [P Q]]]]; auto.
  - intros a o1 ev Hi W P Q V1. destruct (valid_msgs _ _ _ _ P V1) as [V2 V3]. destruct (Q V2) as [Q1 [Q2 Q3]].
    rewrite forallb_forall in Fc. specialize (Fc ev Hi). apply negb_true_iff in Fc.
    split; [now apply astep_awake|]. destruct (astep_order a ev W V3 Fc) as [X1 X2].
    rewrite q_app, st_app, sd_app. split.
    + rewrite app_assoc, Q2, <- app_assoc, X1, app_assoc. reflexivity.
    + rewrite Q3, <- app_assoc, X2, app_assoc. reflexivity.
  - cbn. rewrite app_nil_r. intros _. unfold AwakeI. cbn. repeat split; congruence.
  - exists a. split; [auto|]. split; [|now apply Q]. apply (valid_perm _ _ P) in V. now apply valid_app in V.
Qed.

End Proofs.
