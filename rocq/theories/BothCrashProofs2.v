(** Proofs about two applications that both crash: nothing disappears between them. *)
From Coq Require Import List ZArith NArith Bool String Lia Permutation.
From Verif Require Import Base PermTac PQueueModel PQueueSpec PQueueProofs PendingModel PendingSpec PendingProofs
  HandlerModel HandlerSpec HandlerProofs HandlerProofs2 HandlerProofs3 HandlerProofs5 CrashModel CrashProofs CrashProofs2 CrashProofs3
  SenderModel SenderSpec SenderProofs SenderProofs2 SenderProofs3
  DeliveryModel DeliverySpec DeliveryProofs DeliveryProofs2 DeliveryProofs3 DeliveryProofs4
  SCrashModel SCrashProofs2 BothCrashModel BothCrashProofs.
Import ListNotations.
Local Open Scope Z_scope.

Section World.
Context {D MA MB : Type}.
Variables (meta_a : MA) (dto_a truthy_a : D -> bool) (wait : bool) (max_a cmax : Z).
Variables (meta_b : MB) (dto_b truthy_b : D -> bool) (max_b : Z).
Notation world := (world D MA MB). Notation wev := (wev D MB). Notation conn := (conn D). Notation msg := (msg D).
Notation wstep := (@wstep D MA MB meta_a dto_a truthy_a wait max_a cmax meta_b dto_b truthy_b max_b).
Notation sstep := (@sstep D MA meta_a dto_a truthy_a wait max_a).
Notation srun := (@srun D MA meta_a dto_a truthy_a wait max_a).
Notation hstep := (@hstep D MB meta_b dto_b truthy_b max_b).
Notation hrun := (@hrun D MB meta_b dto_b truthy_b max_b).
Notation s_lives := (@s_lives D MA meta_a dto_a truthy_a wait max_a).
Notation s_crash_at := (@s_crash_at D MA meta_a dto_a truthy_a wait max_a).
Notation lives := (@lives D MB meta_b dto_b truthy_b max_b).
Notation crash_at := (@crash_at D MB meta_b dto_b truthy_b max_b).
Notation wlives := (@wlives D MA MB meta_a dto_a truthy_a wait max_a cmax meta_b dto_b truthy_b max_b).
Notation a_life := (@a_life D MA MB meta_a dto_a truthy_a wait max_a).
Notation b_life := (@b_life D MA MB meta_b dto_b truthy_b max_b).
Notation J := (@J D MA MB dto_b).
Notation R := (@SenderProofs.R D MA meta_a).
Implicit Types (w : world).

(** ** What an event that a crash cuts short has delivered, sent and accepted *)
Lemma crash_delivers s e f o : s_crash_at s e f o -> o = [] \/ delivered o = delivers s e.
Proof.
  intros C. destruct C as [ev|i r e s1 o1 Nt E|k e x E|f moved Hi|f Hn Hi|ev s1 o f Sh E Hn Hi]; auto; right.
  - destruct (s_settle_tasks _ _ _ _ _ _ _ E) as [_ X]. rewrite X. cbn [delivers]. rewrite Nt. destruct r; reflexivity.
  - cbn [delivers]. unfold s_moved_outs. induction moved as [|m moved IH] in |- *; [reflexivity|]. cbn [flat_map].
    rewrite delivered_cat. rewrite IHmoved || rewrite IH. destruct (has _ _); reflexivity.
  - destruct (sstep_tasks _ _ _ _ _ _ _ _ _ E) as [_ [_ X]]. rewrite X. reflexivity.
Qed.

Lemma step_sends s a ev s' o k d : R s a -> sstep s ev = (s', o) -> In (OSend k d) o -> In (k, d) (a_msgs a).
Proof.
  intros HR E I. pose proof (sstep_ok meta_a dto_a truthy_a wait max_a s a ev HR) as X. rewrite E in X. cbn [fst snd] in X.
  unfold SenderProofs.After in X. apply (astep_sends meta_a dto_a truthy_a wait max_a a ev).
  destruct (closes _); destruct X as [-> _]; [|exact I]. apply in_app_iff in I as [I|[I|[]]]; [exact I|discriminate].
Qed.

Lemma crash_sends s a ev f o k d : R s a -> s_crash_at s ev f o -> In (OSend k d) o -> In (k, d) (a_msgs a).
Proof.
  intros HR C I. destruct C as [ev|i r e s1 o1 Nt E|k' e x E|f moved Hi|f Hn Hi|ev s1 o f Sh E Hn Hi]; try (now destruct I).
  - exfalso. revert E I. unfold s_settle, s_push_error, s_push_pending.
    destruct r; [|destruct (_ <=? _); [destruct (push_error _ _ _ _ _ _)|destruct (push_pending _ _ _ _ _ _)]|destruct (push_error _ _ _ _ _ _)];
      intros E; injection E as <- <-; cbn [In app]; try destruct (has _ _); intuition discriminate.
  - exfalso. unfold s_moved_outs in I. apply in_flat_map in I as [m [_ [I|[I|[]]]]]; [discriminate|]. destruct (has _ _); discriminate.
  - set (b := mkA (an a) (al a) (at_ a) (ae a) (ap a) false).
    assert (Hb : R (set_sshut s false) b).
    { destruct HR as [H [Hr Hc]]. split; [|split; [exact Hr|reflexivity]]. destruct H. constructor; auto. }
    exact (step_sends _ _ _ _ _ _ _ Hb E I).
Qed.

Lemma crash_accepts s e f o : hinv meta_b s -> crash_at s e f o -> accepted o = [].
Proof.
  intros H C. destruct C as [ev|i r e b s1 o1 N Nr E|k e x E|f moved Hi|f Hr Hi|ev s1 o f Sh E Hr Hi]; auto.
  - revert E. unfold settle. destruct b; [intros E; injection E as <- <-; reflexivity|].
    unfold h_push_pending, h_push_error. destruct (item_p e) as [[k d] m]. destruct (_ <=? _).
    + destruct (push_error meta_b _ _ _ _ _); intros E; injection E as <- <-; [destruct (has _ _)|]; reflexivity.
    + destruct (push_pending meta_b _ _ _ _ _); intros E; injection E as <- <-; [destruct (has _ _)|]; reflexivity.
  - unfold moved_outs. induction moved as [|m moved IH] in |- *; [reflexivity|]. cbn [flat_map].
    rewrite accepted_app. rewrite IHmoved || rewrite IH. destruct (has _ _); reflexivity.
  - pose proof (hi_shut _ _ H Sh) as Rn. pose proof (hstep_collecting _ _ _ _ _ _ _ _ E) as X. destruct ev; try apply X.
    cbn [HandlerModel.hstep set_shut collecting] in E. destruct X as [_ ->]. cbn [set_shut collecting].
    destruct (nth_error (collecting s) i) as [[k d]|]; [|reflexivity]. injection E as <- <-.
    rewrite running_check in Hr. cbn in Hr. congruence.
Qed.

(** ** Only what was enqueued is sent *)
Definition sent_ok (o : list (sout D)) : Prop := forall k d, In (OSend k d) o -> In (k, d) (enqueued o).

Lemma run_sends ps f evs s o outs n : s_lives outs n f -> 1 <= ps -> sent_ok outs ->
  srun (s_setup (pq_open ps (fst f) (snd f))) evs = (s, o) -> sclosed s = 0%nat ->
  sent_ok (outs ++ o) /\ exists a, R s a /\ incl (a_msgs a) (enqueued (outs ++ o)).
Proof.
  intros L P Ok E C. destruct (s_lives_ok meta_a dto_a truthy_a wait max_a outs n f L) as [Pf _].
  destruct (start_facts meta_a ps f Pf P) as [Re [U _]].
  destruct (s_crash_accounting meta_a dto_a truthy_a wait max_a outs n f ps L P) as [lp [le [cr [Hh [Pm _]]]]].
  set (q := pq_open ps (fst f) (snd f)) in *.
  assert (In0 : incl (msgs_p lp ++ msgs_e le) (enqueued outs)).
  { intros x Hx. eapply Permutation_in; [symmetry; exact Pm|]. rewrite app_assoc. apply in_or_app. now left. }
  split.
  - intros k d I. rewrite enq_app, in_app_iff. apply in_app_iff in I as [I|I]; [left; now apply Ok|].
    pose proof (sent_was_enqueued meta_a dto_a truthy_a wait max_a q lp le evs s o k d Re U Hh E C I) as X.
    apply in_app_iff in X as [X|X]; [now right|left; now apply In0].
  - destruct (holds_unique q lp le (preachable_inv meta_a q Re) U Hh) as [-> ->].
    destruct (run_inv2 meta_a dto_a truthy_a wait max_a (fun _ _ => True) q evs s o Re U) as [a [A [_ [Co _]]]]; auto.
    exists a. split; [exact A|]. intros x Hx. rewrite enq_app, in_app_iff. unfold Cons in Co.
    assert (X : In x (enqueued o ++ init_of q)) by (eapply Permutation_in; [symmetry; exact Co|]; apply in_or_app; now left).
    apply in_app_iff in X as [X|X]; [now right|left]. now apply In0.
Qed.

Lemma sent_more o o' : sent_ok o -> (forall k d, In (OSend k d) o' -> In (k, d) (enqueued o)) -> sent_ok (o ++ o').
Proof. intros A B k d I. rewrite enq_app, in_app_iff. apply in_app_iff in I as [I|I]; left; auto. Qed.

Theorem lives_sends outs n f : s_lives outs n f -> sent_ok outs.
Proof.
  induction 1 as [|outs n f ps evs s o ev f' o' L IH P E C Cr|outs n f ps evs s o ev s' o' L IH P E C Es Cs|]; auto.
  - intros k d [].
  - destruct (run_sends ps f evs s o outs n L P IH E C) as [A [a [Ra Ia]]]. rewrite app_assoc. apply sent_more; [exact A|].
    intros k d I. apply Ia. eapply crash_sends; eauto.
  - destruct (run_sends ps f evs s o outs n L P IH E C) as [A [a [Ra Ia]]]. rewrite app_assoc. apply sent_more; [exact A|].
    intros k d I. apply Ia. eapply step_sends; eauto.
Qed.

(** ** The connections after a crash *)
Lemma J_restart_a L w cn o p f : J L w -> ext (conns w) cn -> Permutation (flat_map acc_conn cn) (flat_map acc_conn (conns w)) ->
  Permutation (flat_map read_conn cn) (flat_map read_conn (conns w) ++ delivered o) ->
  Forall (fun n => In (OSend (c_key n) (c_data n)) (ao w)) cn -> J L (restart_a w cn o p f).
Proof.
  intros Hj X Ac Re Sr. unfold restart_a. apply J_a; auto.
  - rewrite delivered_cat, Re. apply Permutation_app_tail, (j_del _ _ _ Hj).
  - eapply Forall_impl; [|exact Sr]. intros n H. apply in_or_app. now left.
  - intros i e H. exfalso. unfold s_setup in H. apply s_check_sending, s_check_sending in H. cbn in H. destruct i; discriminate.
  - discriminate.
Qed.

Lemma J_crash_a L w e o cn f p f' : J L w -> a_does w e o cn -> s_crash_at (wa w) e f o -> J L (restart_a w cn o p f').
Proof.
  intros Hj Do Cr. pose proof (crash_delivers _ _ _ _ Cr) as De.
  assert (Same : delivered o = [] -> J L (restart_a w (conns w) o p f')).
  { intros Z. apply J_restart_a; auto; [apply ext_refl|now rewrite Z, app_nil_r|apply (j_src _ _ _ Hj)]. }
  destruct Do as [e o H|i r o Hr|i|i o e m c n No Sn Wc Nc Sc].
  - apply Same. destruct De as [->|De]; [reflexivity|]. rewrite De. destruct e; try reflexivity. cbn [delivers].
    destruct r; try reflexivity. unfold sending in H. destruct (nth_error _ i) as [[]|]; try reflexivity. discriminate.
  - apply Same. destruct De as [->|De]; [reflexivity|]. rewrite De. cbn [delivers]. destruct r; congruence.
  - now apply Same.
  - destruct De as [->|De]; [congruence|]. destruct (j_call _ _ _ Hj _ _ _ Wc) as [e' [k [A [B C]]]].
    assert (e' = e) as -> by congruence. assert (k = n) as -> by congruence.
    apply J_restart_a; auto.
    + eapply ext_set; eauto. congruence.
    + pose proof (acc_set _ _ _ (CRead AAccepted) Nc) as P1. unfold acc_conn in P1 at 1 3. cbn [c_state] in P1. rewrite Sc in P1.
      change (pair_of (mkConn (c_key n) (c_data n) (CRead AAccepted))) with (pair_of n) in P1. cbn [app] in P1. now apply Permutation_cons_inv in P1.
    + pose proof (read_set _ _ _ (CRead AAccepted) Nc) as P2. unfold read_conn in P2 at 1 3. cbn [c_state] in P2. rewrite Sc in P2.
      rewrite De. cbn [delivers]. apply sending_some in Sn. rewrite Sn. replace (msg_p e) with (pair_of n) by exact C.
      change (pair_of (mkConn (c_key n) (c_data n) (CRead AAccepted))) with (pair_of n) in P2. cbn [app] in P2. rewrite P2. perm.
    + apply (src_set (fun k d => In (OSend k d) (ao w))), (j_src _ _ _ Hj).
Qed.

Lemma J_restart_b L w o p f : J L w -> accepted o = [] -> J L (restart_b w o p f).
Proof.
  intros [A1 A2 A3 A4 [A5 A5'] A6 [ot [A7 A7']] A8 A9 A10] Ac. unfold restart_b.
  assert (C : collecting (setup (D:=D) (M:=MB) (pq_open p (fst f) (snd f))) = []).
  { unfold setup. rewrite (proj2 (HandlerProofs6.check_recv _)). cbn [set_proc collecting]. now rewrite (proj2 (HandlerProofs6.check_recv _)). }
  constructor; cbn [wa wb ao bo conns collectors wcalls]; rewrite ?C, ?accepted_app, ?Ac, ?app_nil_r; auto.
  - intros [|i] c H; discriminate.
  - intros [|i] x H; discriminate.
  - constructor.
  - exists ot. rewrite ?app_nil_r. auto.
Qed.

Lemma b_inv nb pb w : b_life nb pb w -> hinv meta_b (wb w).
Proof.
  intros [outs [f [evs [o [L [P [E [C _]]]]]]]]. destruct (lives_ok meta_b dto_b truthy_b max_b outs nb f L) as [Pf _].
  destruct (start_facts meta_b pb f Pf P) as [Re [U _]].
  now destruct (run_facts meta_b dto_b truthy_b max_b _ _ _ _ Re U E C).
Qed.

Theorem wlives_J na pa nb pb ot w : wlives na pa nb pb ot w -> J ot w.
Proof.
  induction 1 as [pa pb Pa Pb|na pa nb pb ot w ev w' l H Hj E Ca Cb|na pa nb pb ot w e f o cn n f' p H Hj Do Cr Op P
    |na pa nb pb ot w ev w' l n f' p H Hj E Ca Cb Op P|na pa nb pb ot w e f o n f' p H Hj Cr Op P
    |na pa nb pb ot w ev w' l n f' p H Hj E Ca Cb Op P].
  - apply J_start.
  - pose proof (wstep_J meta_a dto_a truthy_a wait max_a cmax meta_b dto_b truthy_b max_b _ _ _ _ _ Hj E) as X. exact X.
  - eapply J_crash_a; eauto.
  - pose proof (wstep_J meta_a dto_a truthy_a wait max_a cmax meta_b dto_b truthy_b max_b _ _ _ _ _ Hj E) as X.
    assert (Z : other_of ev = []).
    { destruct ev; try reflexivity. exfalso. destruct (wlives_a _ _ _ _ _ _ _ _ _ _ _ _ _ _ _ _ H) as [Ha _].
      destruct Ha as [outs [f0 [evs [o0 [_ [_ [_ [C0 _]]]]]]]]. cbn [DeliveryModel.wstep] in E.
      destruct (dto_b d); [|injection E as <- <-; congruence]. destruct (hstep _ _). injection E as <- <-. cbn in Ca. congruence. }
    rewrite Z, app_nil_r in X. apply J_restart_a; auto.
    + apply ext_refl.
    + now rewrite app_nil_r.
    + apply (j_src _ _ _ X).
  - apply J_restart_b; [exact Hj|]. eapply crash_accepts; [|exact Cr].
    destruct (wlives_a _ _ _ _ _ _ _ _ _ _ _ _ _ _ _ _ H) as [_ Hb]. eapply b_inv; eauto.
  - pose proof (wstep_J meta_a dto_a truthy_a wait max_a cmax meta_b dto_b truthy_b max_b _ _ _ _ _ Hj E) as X.
    assert (Z : other_of ev = []).
    { destruct ev; try reflexivity. exfalso. destruct (wlives_a _ _ _ _ _ _ _ _ _ _ _ _ _ _ _ _ H) as [_ Hb].
      pose proof (b_inv _ _ _ Hb) as Hi. destruct Hb as [outs [f0 [evs [o0 [_ [_ [_ [C0 _]]]]]]]]. cbn [DeliveryModel.wstep] in E.
      destruct (dto_b d); [|injection E as <- <-; congruence]. cbn [HandlerModel.hstep] in E. destruct (recv_paused (wb w));
      injection E as <- <-; cbn in Cb; congruence. }
    rewrite Z, app_nil_r in X. apply J_restart_b; auto.
Qed.

(** ** Accounting *)
Theorem account_a na pa w : a_life na pa w ->
  exists lp le crashed, holds (sq (wa w)) lp le /\
    Permutation (enqueued (ao w)) (with_sender w lp le ++ delivered (ao w) ++ s_dropped (ao w) ++ s_lost (ao w) ++ crashed) /\
    Z.of_nat (List.length crashed) <= na.
Proof.
  intros [outs [f [evs [o [L [P [E [C O]]]]]]]].
  destruct (s_lives_ok meta_a dto_a truthy_a wait max_a outs na f L) as [Pf _].
  destruct (start_facts meta_a pa f Pf P) as [Re [U _]].
  destruct (s_crash_accounting meta_a dto_a truthy_a wait max_a outs na f pa L P) as [lp0 [le0 [cr [Hh [Pm Lc]]]]].
  destruct (s_conservation meta_a dto_a truthy_a wait max_a _ lp0 le0 evs _ _ Re U Hh E C) as [lp [le [H1 P1]]].
  exists lp, le, cr. split; [exact H1|]. split; [|exact Lc]. rewrite O. unfold with_sender. rewrite O.
  unfold enqueued, delivered, s_removed, s_dropped, s_lost in *. rewrite !flat_map_app. rewrite Pm.
  match type of P1 with Permutation (?a ++ ?b ++ ?c) _ =>
    match goal with |- Permutation ((b ++ c ++ ?r) ++ a) _ => transitivity ((a ++ b ++ c) ++ r); [perm|] end end.
  rewrite P1. perm.
Qed.

Theorem account_b nb pb w : b_life nb pb w ->
  exists lp le (crashed : list (item D MB)), holds (hq (wb w)) lp le /\
    Permutation (map msg_of (accepted (bo w)))
      (with_receiver w lp le ++ map msg_of (dropped (bo w) ++ lost (bo w)) ++ map msg_of crashed) /\
    Z.of_nat (List.length crashed) <= nb.
Proof.
  intros [outs [f [evs [o [L [P [E [C O]]]]]]]].
  destruct (lives_ok meta_b dto_b truthy_b max_b outs nb f L) as [Pf _].
  destruct (start_facts meta_b pb f Pf P) as [Re [U _]].
  destruct (crash_accounting meta_b dto_b truthy_b max_b outs nb f pb L P) as [lp0 [le0 [cr [Hh [Pm Lc]]]]].
  destruct (conservation meta_b dto_b truthy_b max_b _ lp0 le0 evs _ _ Re U Hh E C) as [lp [le [H1 P1]]].
  exists lp, le, cr. split; [exact H1|]. split; [|exact Lc]. unfold with_receiver. rewrite <- !map_app. apply Permutation_map.
  rewrite O. unfold accepted, finished, removed, dropped, lost in *. rewrite !flat_map_app. rewrite Pm.
  match type of P1 with Permutation (?a ++ ?b ++ ?c) _ =>
    match goal with |- Permutation ((b ++ c ++ ?r) ++ a) _ => transitivity ((a ++ b ++ c) ++ r); [perm|] end end.
  rewrite P1. perm.
Qed.

Theorem both_accounting na pa nb pb ot w : wlives na pa nb pb ot w ->
  exists lp le lp' le' again crashed_a (crashed_b : list (item D MB)), holds (sq (wa w)) lp le /\ holds (hq (wb w)) lp' le' /\
    Permutation (enqueued (ao w) ++ again)
      (with_sender w lp le ++ with_receiver w lp' le' ++
       s_dropped (ao w) ++ s_lost (ao w) ++ map msg_of (dropped (bo w) ++ lost (bo w)) ++
       crashed_a ++ map msg_of crashed_b) /\
    Permutation (map msg_of (accepted (bo w))) (delivered (ao w) ++ again) /\
    (forall x, In x again -> In x (enqueued (ao w)) \/ In x ot) /\
    Z.of_nat (List.length crashed_a) <= na /\ Z.of_nat (List.length crashed_b) <= nb.
Proof.
  intros H. destruct (wlives_a _ _ _ _ _ _ _ _ _ _ _ _ _ _ _ _ H) as [Ha Hb]. pose proof (wlives_J _ _ _ _ _ _ H) as Hj.
  destruct (account_a _ _ _ Ha) as [lp [le [ca [A1 [A2 A3]]]]]. destruct (account_b _ _ _ Hb) as [lp' [le' [cb [B1 [B2 B3]]]]].
  assert (Fr : forall x, In x (map msg_of (accepted (bo w))) -> In x (enqueued (ao w)) \/ In x ot).
  { destruct (j_acc _ _ _ Hj) as [oth [Io Ac]]. intros x I. apply (Permutation_in _ Ac), in_app_iff in I as [I|I]; [left|right; auto].
    apply in_flat_map in I as [n [In1 In2]]. assert (x = pair_of n) as ->.
    { unfold acc_conn in In2. destruct (c_state n) as [| |[]|[]| |[]]; cbn in In2; intuition. }
    pose proof (j_src _ _ _ Hj) as Sr. rewrite Forall_forall in Sr. specialize (Sr _ In1).
    destruct Ha as [outs [f [evs [o [L [P [E [C O]]]]]]]].
    destruct (run_sends pa f evs _ _ outs na L P (lives_sends _ _ _ L) E C) as [Sk _]. rewrite O in *. now apply Sk. }
  assert (De : exists again, Permutation (map msg_of (accepted (bo w))) (delivered (ao w) ++ again)).
  { destruct (j_acc _ _ _ Hj) as [oth [_ A]]. pose proof (j_del _ _ _ Hj) as De. destruct (read_acc (conns w)) as [r Rr].
    exists (r ++ oth). rewrite A, Rr, De. perm. }
  destruct De as [again De]. exists lp, le, lp', le', again, ca, cb.
  split; [exact A1|]. split; [exact B1|]. split; [|split; [exact De|split; [|auto]]].
  - rewrite A2. transitivity (with_sender w lp le ++ s_dropped (ao w) ++ s_lost (ao w) ++ ca ++ (delivered (ao w) ++ again)); [perm|].
    rewrite <- De, B2. perm.
  - intros x I. apply Fr. eapply Permutation_in; [symmetry; exact De|]. apply in_or_app. now right.
Qed.
End World.
