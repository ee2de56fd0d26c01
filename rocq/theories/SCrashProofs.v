(** What the files of a buffered sender hold when the process dies in the middle of an event. *)
From Coq Require Import List ZArith NArith Bool String Lia Permutation.
From Coq Require Import ZifyBool ZifyNat ZifyN.
From Verif Require Import Base PermTac PQueueModel PQueueSpec PQueueProofs PQueueProofs2 PendingModel PendingSpec
  PendingProofs SenderModel SenderSpec SenderProofs SenderProofs2 SenderProofs3 SCrashModel.
From Verif Require CrashProofs CrashProofs2.
Import ListNotations.
Local Open Scope Z_scope.

Section Proofs.
Context {D M : Type}.
Variable no_meta : M.
Variables dto_ok truthy : D -> bool.
Variable wait : bool.
Variable max_retries : Z.
Notation msg := (msg D). Notation sout := (sout D). Notation sev := (sev D). Notation sstate := (sstate D M).
Notation ststate := (ststate D M). Notation pentry := (pentry D M). Notation eentry := (eentry D M).
Notation files := (files (D:=D) (M:=M)). Notation pqueue := (pqueue D M).
Notation sstep := (@sstep D M no_meta dto_ok truthy wait max_retries).
Notation srun := (@srun D M no_meta dto_ok truthy wait max_retries).
Notation ast := (@ast D M).
Notation astep := (@astep D M no_meta dto_ok truthy wait max_retries).
Notation a_loop := (@a_loop D M dto_ok wait).
Notation a_settle := (@a_settle D M no_meta max_retries).
Notation R := (@R D M no_meta).
Notation Rm := (@Rm D M no_meta).
Notation keys l := (map fst l).
Notation lim := (Z.max 1 max_retries).
Notation sizes := (CrashProofs.sizes).
Notation s_crash_at := (@s_crash_at D M no_meta dto_ok truthy wait max_retries).
Implicit Types (s : sstate) (o : list sout) (a : ast) (q : pqueue).

(** ** The page sizes never change *)
Lemma s_sizes_shut s : sizes (sq (fst (s_shut_check s))) = sizes (sq s).
Proof.
  unfold s_shut_check. destruct (_ && _); [|reflexivity].
  destruct (q_shut_down (pend (sq s))) as [p|] eqn:Ep; [|reflexivity].
  destruct (q_shut_down (errq (sq s))) as [e|] eqn:Ee.
  - apply CrashProofs.psz_shut in Ep, Ee. destruct (sfut _); unfold CrashProofs.sizes; cbn; now rewrite Ep, Ee.
  - apply CrashProofs.psz_shut in Ep. unfold CrashProofs.sizes; cbn. now rewrite Ep.
Qed.
Lemma s_sizes_check s : sizes (sq (s_check s)) = sizes (sq s).
Proof. unfold s_check. repeat match goal with |- context [match ?x with _ => _ end] => destruct x end; reflexivity. Qed.
Lemma s_sizes_finish s i : sizes (sq (fst (s_finish s i))) = sizes (sq s).
Proof. unfold s_finish. rewrite s_sizes_shut. reflexivity. Qed.
Lemma s_sizes_loop s i : sizes (sq (fst (s_loop dto_ok wait s i))) = sizes (sq s).
Proof.
  unfold s_loop. destruct (_ && _); [|apply s_sizes_finish].
  destruct (pop_pending (sq s)) as [[q [e|]]|e] eqn:E; [destruct (dto_ok _)| |].
  - destruct wait; cbn; eapply CrashProofs.sizes_pop; eauto.
  - pose proof (s_sizes_finish (set_sq s q) i) as X. destruct (s_finish (set_sq s q) i). cbn in *. rewrite X. eapply CrashProofs.sizes_pop; eauto.
  - pose proof (s_sizes_finish (set_sq s q) i) as X. destruct (s_finish (set_sq s q) i). cbn in *. rewrite X. eapply CrashProofs.sizes_pop; eauto.
  - pose proof (s_sizes_finish s i) as X. destruct (s_finish s i). exact X.
Qed.
Lemma s_sizes_pp s k d r : sizes (sq (fst (s_push_pending no_meta s k d r))) = sizes (sq s).
Proof. unfold s_push_pending. destruct (push_pending _ _ _ _ _ _) eqn:E; [|reflexivity]. cbn. eapply CrashProofs.sizes_push; eauto. Qed.
Lemma s_sizes_pe s k d r : sizes (sq (fst (s_push_error no_meta s k d r))) = sizes (sq s).
Proof. unfold s_push_error. destruct (push_error _ _ _ _ _ _) eqn:E; [|reflexivity]. cbn. eapply CrashProofs.sizes_push_error; eauto. Qed.
Lemma s_sizes_settle s e r : sizes (sq (fst (s_settle no_meta max_retries s e r))) = sizes (sq s).
Proof.
  destruct r; cbn [s_settle]; [reflexivity| |].
  - destruct (_ <=? _).
    + pose proof (s_sizes_pe s (pe_key e) (pe_data e) "Max retries reached.") as X. destruct (s_push_error _ _ _ _ _). exact X.
    + pose proof (s_sizes_pp s (pe_key e) (pe_data e) (pe_retries e + 1)) as X. destruct (s_push_pending _ _ _ _ _). exact X.
  - pose proof (s_sizes_pe s (pe_key e) (pe_data e) e0) as X. destruct (s_push_error _ _ _ _ _). exact X.
Qed.

Lemma sstep_sizes s ev : sizes (sq (fst (sstep s ev))) = sizes (sq s).
Proof.
  destruct ev; cbn [SenderModel.sstep].
  - pose proof (s_sizes_pp s k d 0) as X. destruct (s_push_pending _ _ _ _ _). cbn [fst] in *. rewrite s_sizes_check. exact X.
  - unfold s_task. destruct (nth_error _ _) as [t|]; [|reflexivity]. destruct t as [|e|e|].
    + rewrite s_sizes_loop. reflexivity.
    + reflexivity.
    + pose proof (s_sizes_settle s e r) as X. destruct (s_settle no_meta max_retries s e r) as [s1 o1].
      pose proof (s_sizes_loop s1 i) as Y. destruct (s_loop dto_ok wait s1 i). cbn in *. congruence.
    + reflexivity.
  - unfold s_cancel. destruct (nth_error _ _) as [t|]; [|reflexivity].
    destruct t; try reflexivity; pose proof (s_sizes_finish s i) as X; destruct (s_finish s i); exact X.
  - reflexivity.
  - cbn [fst]. rewrite s_sizes_check. reflexivity.
  - destruct (move_all no_meta (sq s)) eqn:E; cbn [fst]; rewrite ?s_sizes_check; [|reflexivity]. cbn. unfold move_all in E. exact (CrashProofs.sizes_all _ _ _ _ E).
  - destruct (move_one no_meta (sq s) k) as [[q o]|] eqn:E; cbn [fst]; rewrite ?s_sizes_check; [|reflexivity]. cbn.
    unfold move_one in E. destruct (q_pop_key _ _) as [[e [x|]]|] eqn:E1; cbn [bind] in E; try discriminate; apply CrashProofs.psz_pop_key in E1.
    + destruct (push_pending _ _ _ _ _ _) eqn:E2; cbn [bind] in E; [|discriminate]. injection E as <- <-.
      rewrite (CrashProofs.sizes_push _ _ _ _ _ _ _ E2). now apply CrashProofs.sizes_err.
    + injection E as <- <-. now apply CrashProofs.sizes_err.
  - destruct (pop_error_key (sq s) k) as [[q o]|] eqn:E; cbn [fst]; [|reflexivity]. cbn.
    unfold pop_error_key in E. destruct (q_pop_key _ _) as [[e x]|] eqn:E1; cbn [bind] in E; [|discriminate].
    injection E as <- <-. apply CrashProofs.psz_pop_key in E1. now apply CrashProofs.sizes_err.
  - destruct (inspect_error_key _ _); reflexivity.
  - reflexivity.
  - rewrite s_sizes_shut. reflexivity.
Qed.
Lemma srun_sizes evs : forall s s' o, srun s evs = (s', o) -> sizes (sq s') = sizes (sq s).
Proof.
  induction evs as [|ev r IH]; intros s s' o E; cbn [SenderModel.srun] in E; [injection E as <- <-; reflexivity|].
  pose proof (sstep_sizes s ev) as X. destruct (sstep s ev) as [s1 o1].
  destruct (srun s1 r) as [s2 o2] eqn:E2. injection E as <- <-. rewrite (IH _ _ _ E2). exact X.
Qed.
Lemma s_setup_sizes q : sizes (sq (s_setup q)) = sizes q.
Proof. unfold s_setup. rewrite !s_sizes_check. reflexivity. Qed.

(** ** What a run did, apart from notes *)
Definition noted (x : sout) : bool := match x with OLost _ | OReply _ | OExn _ | OClosed => false | _ => true end.
Definition vis (o : list sout) : list sout := filter noted o.
Lemma vis_app o o' : vis (o ++ o') = vis o ++ vis o'. Proof. apply filter_app. Qed.
Lemma flat_vis {A} (f : sout -> list A) o : (forall x, noted x = false -> f x = []) -> flat_map f (vis o) = flat_map f o.
Proof.
  intros H. induction o as [|x o IH]; [reflexivity|]. cbn [vis filter flat_map]. fold (vis o). destruct (noted x) eqn:E.
  - cbn [flat_map]. now rewrite IH.
  - rewrite (H x E). exact IH.
Qed.
Lemma vis_enqueued o : enqueued (vis o) = enqueued o. Proof. apply flat_vis. intros []; cbn; congruence. Qed.
Lemma vis_delivered o : delivered (vis o) = delivered o. Proof. apply flat_vis. intros []; cbn; congruence. Qed.
Lemma vis_removed o : s_removed (vis o) = s_removed o. Proof. apply flat_vis. intros []; cbn; congruence. Qed.
Lemma vis_dropped o : s_dropped (vis o) = s_dropped o. Proof. apply flat_vis. intros []; cbn; congruence. Qed.
Lemma vis_cfold k o : forall c, cfold k c (vis o) = cfold k c o.
Proof.
  unfold cfold. induction o as [|x o IH]; intros c; [reflexivity|]. cbn [vis filter fold_left]. fold (vis o).
  destruct (noted x) eqn:E; [cbn [fold_left]; apply IH|]. rewrite IH. destruct c as [[n m] f]. destruct x; cbn in *; try discriminate; reflexivity.
Qed.

(** ** The invariant of many lives: counting from an empty directory *)
Definition q0 : pqueue := pq_open 1 [] [].
Definition I a o : Prop := Cons [] a o /\
  (NoDup (keys (enqueued o)) -> AttI max_retries q0 a o /\ s_dropped o = [] /\ forall k, 0 <= attempts_of k 0 o <= lim).

Lemma init0 : init_of q0 = []. Proof. reflexivity. Qed.

Lemma attempts_app k n o o' : attempts_of k n (o ++ o') = attempts_of k (attempts_of k n o) o'.
Proof. apply fold_left_app. Qed.
Lemma attempts_quiet k o : forall n, (forall d, ~ In (OSend k d) o) -> attempts_of k n o = n \/ attempts_of k n o = 0.
Proof.
  unfold attempts_of. induction o as [|x o IH]; intros n H; [now left|]. cbn [fold_left].
  assert (H' : forall d, ~ In (OSend k d) o) by (intros d X; apply (H d); now right).
  destruct x; try (apply IH; exact H').
  - destruct (N.eqb_spec k0 k) as [->|]; [exfalso; eapply H; now left|]. apply IH; auto.
  - destruct (N.eqb_spec k0 k) as [->|]; [|apply IH; auto]. destruct (IH 0 H') as [->| ->]; auto.
Qed.

Lemma sends_hand a ev k d : In (OSend k d) (snd (astep a ev)) -> exists e, at_ (fst (astep a ev)) = SSending e /\ pe_key e = k.
Proof.
  assert (Rp : forall r, ~ In (OSend k d) (s_reply dto_ok truthy r)).
  { intros r. unfold s_reply. destruct r as [x|]; [destruct (truthy x); [destruct (dto_ok x)|]|]; intros [X|[]]; discriminate. }
  assert (Lp : forall b : ast, In (OSend k d) (snd (a_loop b)) -> exists e, at_ (fst (a_loop b)) = SSending e /\ pe_key e = k).
  { intros b. unfold SenderProofs.a_loop. destruct (ap b); [intros []|]. destruct (al b) as [|[k' e] r]; [intros []|].
    destruct (dto_ok _); [destruct wait|]; cbn; intros X; repeat destruct X as [X|X]; try discriminate; try easy.
    injection X as <- <-. eauto. }
  destruct ev; cbn [SenderProofs.astep].
  - cbn [fst snd a_pend]. destruct (has _ _); cbn; intros X; repeat destruct X as [X|X]; try discriminate; easy.
  - destruct (Nat.eqb i (an a)); [|intros []]. destruct (at_ a) as [|e|e|]; try easy; [apply Lp| |].
    + intros [X|[]]. injection X as <- <-. exists e. auto.
    + cbn [fst snd]. rewrite in_app_iff. intros [X|X]; [|now apply Lp]. exfalso. revert X.
      destruct r; cbn [SenderProofs.a_settle]; [|destruct (_ <=? _)|]; cbn [fst snd a_err a_pend]; try destruct (has _ _); cbn;
        intros X; repeat destruct X as [X|X]; try discriminate; easy.
  - destruct (Nat.eqb i (an a)); [|intros []]. destruct (at_ a); cbn; intros X; repeat destruct X as [X|X]; try discriminate; easy.
  - intros [].
  - intros [].
  - cbn [snd]. unfold a_all_outs. rewrite in_flat_map. intros [x [_ X]]. destruct (has _ _); repeat destruct X as [X|X]; try discriminate; easy.
  - destruct (lookup k0 (ae a)); cbn [snd]; [|intros [X|[]]; discriminate]. rewrite in_app_iff. intros [X|X]; [|now apply Rp in X].
    destruct (has _ _); repeat destruct X as [X|X]; try discriminate; easy.
  - destruct (lookup k0 (ae a)) as [y|]; cbn [snd]; [|intros [X|[]]; discriminate]. intros [X|X]; [discriminate|]. now apply Rp in X.
  - intros X. now apply Rp in X.
  - cbn [snd]. rewrite in_map_iff. intros [x [X _]]. discriminate.
  - intros [].
Qed.

Lemma I_step a o ev : wf a -> I a o -> I (fst (astep a ev)) (o ++ snd (astep a ev)).
Proof.
  intros W [P Q]. split; [now apply Cons_step|]. intros N.
  assert (N0 : NoDup (keys (enqueued o))).
  { pose proof (enq_mono o (snd (astep a ev)) []) as X. rewrite !app_nil_r in X. auto. }
  destruct (Q N0) as [At [Dr Bd]].
  assert (At' : AttI max_retries q0 (fst (astep a ev)) (o ++ snd (astep a ev))).
  { apply astep_att; auto; rewrite ?init0, ?app_nil_r; auto. }
  split; [exact At'|]. split.
  { rewrite drop_app, Dr. apply astep_nodrop; [exact W|]. destruct (enq_prefix no_meta dto_ok truthy wait max_retries [] a o ev P) as [r Pr].
    rewrite app_nil_r in Pr. eapply nodup_sub; eauto. }
  intros k. rewrite attempts_app.
  assert (Dec : (exists d, In (OSend k d) (snd (astep a ev))) \/ (forall d, ~ In (OSend k d) (snd (astep a ev)))).
  { clear. induction (snd (astep a ev)) as [|x l [[d H]|H]]; [right; intros d []|left; exists d; now right|].
    destruct x as [y|k1|y|k1|k1 d1|y|k1|k1 e|y|y|k1|y|y| |e]; try (right; intros d [X|X]; [discriminate|now apply H in X]).
    destruct (N.eqb_spec k1 k) as [->|Nk]; [left; exists d1; now left|right; intros d [X|X]; [congruence|now apply H in X]]. }
  destruct Dec as [[d Hd]|Hd].
  - destruct (sends_hand _ _ _ _ Hd) as [e [T Ke]]. destruct At' as [_ [Hh _]]. rewrite T in Hh. cbn [Hand] in Hh.
    destruct Hh as [Hc [Hr _]]. rewrite Ke in Hc. unfold cnt, n0 in Hc. change (pc q0) with (@nil (BinNums.N * pentry)) in Hc. cbn [lookup find] in Hc.
    rewrite cfold_spec in Hc. injection Hc as Hc _ _. rewrite <- attempts_app. lia.
  - specialize (Bd k). destruct (attempts_quiet k _ (attempts_of k 0 o) Hd) as [->| ->]; lia.
Qed.

(** Nothing but the three lists and the hand matters. *)
Lemma I_same a a' o : al a' = al a -> ae a' = ae a -> at_ a' = at_ a -> I a o -> I a' o.
Proof.
  intros E1 E2 E3 [P Q]. split.
  - unfold Cons, a_msgs in *. rewrite E1, E2, E3. exact P.
  - intros N. destruct (Q N) as [[L [H [A B]]] [Dr Bd]]. split; [|split; [exact Dr|exact Bd]]. split; [eapply flags_lists; eauto|]. rewrite E3. auto.
Qed.

Lemma wf_of q n t p sh : pinv q -> wf (mkA n (pc q) t (ec q) p sh).
Proof. intros H. constructor; cbn [al ae]; [apply H|apply H|apply inv_nodup, H|apply inv_nodup, H]. Qed.

(** Losing part of what there is. *)
Definition f_st (f : files) : ast := mkA 0 (map kv (fst f)) SDone (map kv (snd f)) true false.

Lemma lost_cfold k c (l : list msg) : cfold k c (map (fun x => OLost x) l) = c.
Proof. destruct c as [[n m] f]. unfold cfold. induction l; cbn; auto. Qed.
Lemma lost_enqueued (l : list msg) : enqueued (map (fun x => OLost x) l) = []. Proof. induction l; cbn; auto. Qed.
Lemma lost_delivered (l : list msg) : delivered (map (fun x => OLost x) l) = []. Proof. induction l; cbn; auto. Qed.
Lemma lost_dropped (l : list msg) : s_dropped (map (fun x => OLost x) l) = []. Proof. induction l; cbn; auto. Qed.
Lemma lost_g1 (l : list msg) : g1 (map (fun x => OLost x) l) = l. Proof. induction l as [|x l IH]; [reflexivity|]. change (x :: g1 (map (fun y => OLost y) l) = x :: l). now rewrite IH. Qed.
Lemma lost_lost (l : list msg) : s_lost (map (fun x => OLost x) l) = l. Proof. induction l as [|x l IH]; [reflexivity|]. change (x :: s_lost (map (fun y => OLost y) l) = x :: l). now rewrite IH. Qed.
Lemma lost_vis (l : list msg) : vis (map (fun x => OLost x) l) = []. Proof. induction l; cbn; auto. Qed.
Lemma lost_attempts k n (l : list msg) : attempts_of k n (map (fun x => OLost x) l) = n.
Proof. unfold attempts_of. induction l; cbn; auto. Qed.

Lemma I_lose a a' o l : I a o -> incl (al a') (al a) -> incl (ae a') (ae a) -> hand_of (at_ a') = [] ->
  Permutation (a_msgs a) (a_msgs a' ++ l) -> I a' (o ++ map (fun x => OLost x) l).
Proof.
  intros [P Q] I1 I2 Hh Pm. split.
  - unfold Cons in *. rewrite enq_app, g1_app, lost_enqueued, lost_g1, !app_nil_r in *. rewrite P, Pm. perm.
  - rewrite enq_app, lost_enqueued, app_nil_r. intros N. destruct (Q N) as [[[Lp Le] [H [A B]]] [Dr Bd]].
    assert (Cn : forall k, cnt q0 k (o ++ map (fun x => OLost x) l) = cnt q0 k o).
    { intros k. unfold cnt. rewrite cfold_app. apply lost_cfold. }
    assert (Bk : forall k o', back q0 k o') by (intros k o' []).
    split; [|split; [rewrite drop_app, Dr; apply lost_dropped|intros k; rewrite attempts_app, lost_attempts; apply Bd]].
    split; [|split; [|split]].
    + constructor.
      * intros k e Hi. destruct (Lp k e (I1 _ Hi)) as [X [Y Z0]]. unfold okp. rewrite Cn. auto.
      * intros k x Hi _. specialize (Le k x (I2 _ Hi) (Bk _ _)). unfold oke in *. rewrite Cn. exact Le.
    + destruct (at_ a'); cbn in *; try discriminate; exact Logic.I.
    + intros k Hk. rewrite Cn. apply A. rewrite enq_app, lost_enqueued, app_nil_r in Hk. exact Hk.
    + intros x Hx. rewrite Cn. apply B. rewrite deliver_app, lost_delivered, app_nil_r in Hx. exact Hx.
Qed.

(** ** What a crash leaves *)
Record sleaves (f : files) a (n : Z) : Prop := mkSL {
  sl_good : fgood f;
  sl_p : incl (map kv (fst f)) (al a);
  sl_e : incl (map kv (snd f)) (ae a);
  sl_n : Z.of_nat (List.length (a_msgs a)) <= Z.of_nat (List.length (fst f)) + Z.of_nat (List.length (snd f)) + n }.

Lemma msgs_len a : List.length (a_msgs a) = (List.length (al a) + (List.length (hand_of (at_ a)) + List.length (ae a)))%nat.
Proof. unfold a_msgs, msgs_p, msgs_e, msgs_h. rewrite !app_length, !map_length. reflexivity. Qed.
Lemma hand_len (t : ststate) : (List.length (hand_of t) <= 1)%nat. Proof. destruct t; cbn; lia. Qed.

Lemma sleaves_db q ps a : al a = pc q -> ae a = ec q -> pinv q -> both q -> sizes q = (ps, ps) -> 1 <= ps ->
  sleaves (files_of q) a (4 * ps + 1).
Proof.
  intros E1 E2 P B S H. pose proof (CrashProofs.q_memory q ps B S H) as [X Y]. constructor.
  - now apply fgood_of.
  - rewrite E1. apply db_part.
  - rewrite E2. apply db_part.
  - rewrite msgs_len, E1, E2. cbn [files_of fst snd]. pose proof (hand_len (at_ a)). lia.
Qed.
Lemma sleaves_mono f a n n' : sleaves f a n -> n <= n' -> sleaves f a n'.
Proof. intros [A B C E] H. constructor; auto. lia. Qed.

Lemma sleaves_shut q ps a f : al a = pc q -> ae a = ec q -> pinv q -> both q -> sizes q = (ps, ps) -> 1 <= ps ->
  In f (crash_files_shut q) -> sleaves f a (4 * ps + 1).
Proof.
  intros E1 E2 P B S H Hf.
  destruct (CrashProofs.leaves_shut q ps [] (match hand_of (at_ a) with e :: _ => Some (e, HandlerProofs.PBefore) | [] => None end) f P B S H Hf)
    as [L1 L2 L3 L4].
  cbn [HandlerProofs.a_pend HandlerProofs.a_err] in *. constructor; [exact L1|now rewrite E1|now rewrite E2|].
  rewrite CrashProofs.items_len in L4. rewrite msgs_len, E1, E2.
  cbn [HandlerProofs.a_push HandlerProofs.a_pend HandlerProofs.a_in HandlerProofs.a_err List.length] in L4.
  destruct (at_ a); cbn [hand_of List.length] in *; lia.
Qed.

Lemma sleaves_rest f a n : wf a -> sleaves f a n ->
  exists crashed, Permutation (a_msgs a) (a_msgs (f_st f) ++ crashed) /\ Z.of_nat (List.length crashed) <= n.
Proof.
  intros W [G P E L].
  destruct (CrashProofs2.nodup_rest (al a) (map kv (fst f)) (wf_np _ W)) as [r1 P1]; auto; [apply G|].
  destruct (CrashProofs2.nodup_rest (ae a) (map kv (snd f)) (wf_ne _ W)) as [r2 P2]; auto; [apply G|].
  assert (X : Permutation (a_msgs a) (a_msgs (f_st f) ++ (msgs_p r1 ++ msgs_h (hand_of (at_ a)) ++ msgs_e r2))).
  { unfold a_msgs at 1, f_st, a_msgs. cbn [al at_ ae hand_of msgs_h map app].
    rewrite (Permutation_map (fun e => msg_p (snd e)) P1 : Permutation (msgs_p _) _).
    rewrite (Permutation_map (fun e => msg_e (snd e)) P2 : Permutation (msgs_e _) _).
    fold (msgs_p (map kv (fst f) ++ r1)). fold (msgs_e (map kv (snd f) ++ r2)). rewrite msgs_p_app, msgs_e_app. perm. }
  eexists. split; [exact X|]. apply Permutation_length in X. rewrite app_length in X.
  assert (Y : List.length (a_msgs (f_st f)) = (List.length (fst f) + List.length (snd f))%nat).
  { rewrite msgs_len. cbn [f_st al at_ ae hand_of List.length]. rewrite !map_length. lia. }
  lia.
Qed.

(** The end of a life, in terms of the next one. *)
Lemma crashed_ok f a n o : wf a -> I a o -> sleaves f a n ->
  exists crashed, I (f_st f) (o ++ map (fun x => OLost x) crashed) /\ Z.of_nat (List.length crashed) <= n.
Proof.
  intros W H L. destruct (sleaves_rest f a n W L) as [cr [P N]]. exists cr. split; [|exact N].
  destruct L as [_ L2 L3 _]. eapply I_lose; eauto.
Qed.

End Proofs.
