(** Many lives of a buffered sender. *)
From Coq Require Import List ZArith NArith Bool String Lia Permutation.
From Coq Require Import ZifyBool ZifyNat ZifyN.
From Verif Require Import Base PermTac PQueueModel PQueueSpec PQueueProofs PQueueProofs2 PendingModel PendingSpec
  PendingProofs SenderModel SenderSpec SenderProofs SenderProofs2 SenderProofs3 SCrashModel SCrashProofs.
From Verif Require CrashProofs CrashProofs2.
Import ListNotations.
Local Open Scope Z_scope.

Section Proofs.
Context {D M : Type}.
Variable no_meta : M.
Variables dto_ok truthy : D -> bool.
Variable wait : bool.
Variable max_retries : Z.
Notation msg := (msg D). Notation sout := (sout D). Notation sev := (sev D). Notation sstate := (sstate D M).
Notation ststate := (ststate D M). Notation pentry := (pentry D M). Notation eentry := (eentry D M).
Notation files := (files (D:=D) (M:=M)). Notation pqueue := (pqueue D M).
Notation sstep := (@sstep D M no_meta dto_ok truthy wait max_retries).
Notation srun := (@srun D M no_meta dto_ok truthy wait max_retries).
Notation ast := (@ast D M).
Notation astep := (@astep D M no_meta dto_ok truthy wait max_retries).
Notation a_loop := (@a_loop D M dto_ok wait).
Notation a_settle := (@a_settle D M no_meta max_retries).
Notation R := (@R D M no_meta).
Notation Rm := (@Rm D M no_meta).
Notation Cl := (@Cl D M no_meta).
Notation After := (@After D M no_meta).
Notation keys l := (map fst l).
Notation lim := (Z.max 1 max_retries).
Notation sizes := (CrashProofs.sizes).
Notation s_crash_at := (@s_crash_at D M no_meta dto_ok truthy wait max_retries).
Notation s_lives := (@s_lives D M no_meta dto_ok truthy wait max_retries).
Notation I := (I max_retries).
Implicit Types (s : sstate) (o : list sout) (a : ast) (q : pqueue).

(** The same up to notes, and losing the same messages. *)
Definition same o o' : Prop := vis o = vis o' /\ s_lost o = s_lost o'.
Lemma same_refl o : same o o. Proof. split; reflexivity. Qed.
Lemma same_app o o' p p' : same o o' -> same p p' -> same (o ++ p) (o' ++ p').
Proof. intros [A B] [C E]. split; [rewrite !vis_app; congruence|rewrite !lost_app; congruence]. Qed.

Lemma reply_same r : same (s_reply dto_ok truthy r) [].
Proof. unfold s_reply. destruct r as [x|]; [destruct (truthy x); [destruct (dto_ok x)|]|]; split; reflexivity. Qed.

Lemma wake_same (b : ast) : al (a_wake b) = al b /\ ae (a_wake b) = ae b.
Proof. unfold a_wake. destruct (at_ b); auto. Qed.

(** "Reprocess one" on the error entry at the head. *)
Lemma one_head a k x rest : ae a = (k, x) :: rest -> ~ In k (keys rest) ->
  let a1 := fst (astep a (SReprocessOne k)) in
  al a1 = add (al a) k (snd (retried (k, x))) /\ ae a1 = rest /\
  same (snd (astep a (SReprocessOne k))) [OReprocessed k; if has k (al a) then ODropped (msg_e x) else OQueued k].
Proof.
  intros E Nk. cbn [SenderProofs.astep]. assert (Lk : lookup k (ae a) = Some x).
  { rewrite E. unfold lookup. cbn [find fst]. now rewrite N.eqb_refl. }
  rewrite Lk. cbn [fst snd]. destruct (wake_same (with_p (with_e (with_l a (add (al a) k (snd (retried (k, x))))) (without k (ae a))) false)) as [A B].
  rewrite A, B. cbn [al ae with_p with_e with_l]. split; [reflexivity|]. split.
  - rewrite E. unfold without. cbn [filter fst]. rewrite N.eqb_refl. cbn [negb]. now apply without_fresh.
  - rewrite <- (app_nil_r [OReprocessed k; _]). apply same_app; [apply same_refl|apply reply_same].
Qed.

Lemma moved_add (lp : list (N * pentry)) k y (l : list (N * eentry)) : ~ In k (keys l) ->
  s_moved_outs (add lp k y) l = s_moved_outs lp l.
Proof.
  unfold s_moved_outs. induction l as [|e l IH]; cbn [flat_map map]; intros H; [reflexivity|].
  rewrite IH by (intros X; apply H; now right). f_equal.
  replace (has (fst e) (add lp k y)) with (has (fst e) lp); [reflexivity|].
  unfold add. destruct (has k lp); [reflexivity|]. rewrite has_app_snoc.
  assert (N.eqb k (fst e) = false) by (apply N.eqb_neq; intros ->; apply H; now left). now rewrite H0, orb_false_r.
Qed.

Lemma sleaves_popped q e k x rest ps a : al a = pc q -> ae a = ec q -> Permutation (ec q) ((k, x) :: rest) ->
  pinv (set_err q e) -> both (set_err q e) -> sizes (set_err q e) = (ps, ps) -> 1 <= ps -> ec (set_err q e) = rest ->
  sleaves (db (pend q), db e) a (4 * ps + 2).
Proof.
  intros E1 E2 Pm P B S Hp Er.
  destruct (sleaves_db (set_err q e) ps (with_e a rest)) as [L1 L2 L3 L4]; auto.
  constructor; [exact L1|exact L2| |].
  - cbn [with_e ae] in L3. rewrite E2. intros y Hy. eapply Permutation_in; [symmetry; exact Pm|]. right. now apply L3.
  - rewrite msgs_len in *. cbn [with_e al ae at_ files_of fst snd set_err pend errq] in *. rewrite E2.
    apply Permutation_length in Pm. cbn [List.length] in Pm. lia.
Qed.

Lemma s_points_ok ps : forall n q f mv a o', pinv q -> both q -> sizes q = (ps, ps) -> 1 <= ps ->
  In (f, mv) (move_all_points no_meta n q) -> al a = pc q -> ae a = ec q -> I a o' ->
  exists a2 o2, wf a2 /\ I a2 (o' ++ o2) /\ same o2 (s_moved_outs (pc q) mv) /\ sleaves f a2 (4 * ps + 2).
Proof.
  assert (W0 : forall q a, pinv q -> al a = pc q -> ae a = ec q -> wf a).
  { intros q a P E1 E2. destruct (wf_of q 0 SDone true false P) as [A B C E]. cbn [al ae] in *. constructor; congruence. }
  induction n as [|n IH]; intros q f mv a o' H B S Hp Hi E1 E2 HI; cbn [move_all_points] in Hi;
    (destruct Hi as [Hi|Hi];
      [injection Hi as <- <-; exists a, []; rewrite app_nil_r; split; [eauto|]; split; [exact HI|]; split; [apply same_refl|];
       eapply sleaves_mono; [apply sleaves_db; eauto|lia]|]);
    destruct (0 <? error_size q) eqn:Es; try easy.
  assert (S0 := S). unfold CrashProofs.sizes in S0. injection S0 as S1 S2.
  assert (Hz : psz (errq q) <> 0) by lia.
  destruct (ec q) as [|[k x] rest] eqn:Ec.
  { unfold error_size in Es. rewrite size_ok in Es by apply H. unfold ec in Ec. rewrite Ec in Es. discriminate. }
  destruct (move_all_step_ok no_meta q k x rest H Hz Ec) as [e [q1 [A [Bq [C [E [F [G Iq]]]]]]]]. rewrite A in Hi.
  assert (P1 : pinv (set_err q e)) by (eapply pop_err_inv; eauto).
  assert (R1 : both (set_err q e)) by (split; [apply B|]; eapply reach_pop; [apply B|exact A]).
  assert (Z1 : sizes (set_err q e) = (ps, ps)) by (rewrite CrashProofs.sizes_err; [exact S|]; now apply CrashProofs.psz_pop in A).
  assert (Er : ec (set_err q e) = rest).
  { destruct (pop_ok (errq q) (pi_e _ H) (or_introl Hz)) as [e2 [X [_ [_ [Y _]]]]]. rewrite A in X. injection X as -> _.
    unfold ec, set_err. cbn [errq]. rewrite Y. unfold ec in Ec. now rewrite Ec. }
  rewrite <- Ec in E2.
  destruct Hi as [Hi|Hi].
  - injection Hi as <- <-. exists a, []. rewrite app_nil_r. split; [eauto|]. split; [exact HI|]. split; [apply same_refl|].
    eapply sleaves_popped with (q := q) (k := k) (x := x); eauto. now rewrite Ec.
  - rewrite Bq in Hi. apply in_map_iff in Hi as [[f1 mv1] [X Hi]]. cbn [fst snd] in X. injection X as <- <-.
    pose proof (CrashProofs.points_moved no_meta n q1 f1 mv1 C ltac:(congruence) Hi) as Inc.
    assert (Nk : ~ In k (keys rest)).
    { pose proof (inv_nodup _ (pi_e _ H)) as Nd. unfold ec in Ec. rewrite Ec in Nd. cbn in Nd. now inversion Nd. }
    rewrite Ec in E2. destruct (one_head a k x rest E2 Nk) as [A1 [A2 A3]].
    destruct (IH q1 f1 mv1 (fst (astep a (SReprocessOne k))) (o' ++ snd (astep a (SReprocessOne k)))) as [a2 [o2 [W2 [I2 [Sm L]]]]]; auto.
    + eapply both_push; eauto.
    + rewrite (CrashProofs.sizes_push _ _ _ _ _ _ _ Bq). exact Z1.
    + congruence.
    + congruence.
    + apply I_step; [|exact HI]. rewrite <- Ec in E2. eauto.
    + exists a2, (snd (astep a (SReprocessOne k)) ++ o2). split; [exact W2|]. split; [now rewrite app_assoc|]. split; [|exact L].
      change (s_moved_outs (pc q) ((k, x) :: mv1))
        with ([OReprocessed k; if has k (pc q) then ODropped (msg_e x) else OQueued k] ++ s_moved_outs (pc q) mv1).
      apply same_app; [rewrite <- E1; exact A3|].
      rewrite F, moved_add in Sm by (rewrite E in Inc; intros Hk; apply Nk, Inc, Hk). exact Sm.
Qed.

Lemma Rm_leaves s a ps f : Rm s a -> sizes (sq s) = (ps, ps) -> 1 <= ps -> f = files_of (sq s) -> sleaves f a (4 * ps + 2).
Proof.
  intros H S Hp ->. eapply sleaves_mono; [apply (sleaves_db (sq s) ps); auto; try (symmetry; apply H); try apply H|lia].
  eapply preachable_both, H.
Qed.
Lemma Rm_shut s a ps f : Rm s a -> sizes (sq s) = (ps, ps) -> 1 <= ps -> In f (crash_files_shut (sq s)) -> sleaves f a (4 * ps + 2).
Proof.
  intros H S Hp Hi. eapply sleaves_mono; [apply (sleaves_shut (sq s) ps); auto; try (symmetry; apply H); try apply H|lia].
  eapply preachable_both, H.
Qed.

Lemma settled_step a e r : at_ a = SSending e ->
  let b := fst (astep (with_p a true) (STask (an a) r)) in
  al b = al (fst (a_settle a e r)) /\ ae b = ae (fst (a_settle a e r)) /\ at_ b = SDone /\
  snd (astep (with_p a true) (STask (an a) r)) = snd (a_settle a e r).
Proof.
  intros T. cbn [SenderProofs.astep with_p an at_]. rewrite Nat.eqb_refl, T. cbn [fst snd].
  destruct (a_settle_n no_meta max_retries (with_p a true) e r) as [_ [_ [_ P]]]. unfold SenderProofs.a_loop. rewrite P. cbn [with_p ap].
  cbn [fst snd with_t al ae at_]. rewrite app_nil_r.
  destruct r; cbn [SenderProofs.a_settle]; [|destruct (_ <=? _)|]; repeat split; reflexivity.
Qed.

Lemma s_crash_ok s a ev f o o' ps : R s a -> sizes (sq s) = (ps, ps) -> 1 <= ps -> I a o' -> s_crash_at s ev f o ->
  pfiles no_meta f /\
  exists a2 o2, wf a2 /\ I a2 (o' ++ o2) /\ same o2 o /\ sleaves f a2 (4 * ps + 2).
Proof.
  intros HR S Hp HI C. pose proof (R_wf no_meta s a HR) as W. destruct HR as [H [Hr Hc]].
  pose proof (r_q _ _ _ H) as P. pose proof (r_reach _ _ _ H) as Re. pose proof (preachable_both no_meta _ Re) as B.
  assert (Stay : forall f, sleaves f a (4 * ps + 2) ->
    exists a2 o2, wf a2 /\ I a2 (o' ++ o2) /\ same o2 [] /\ sleaves f a2 (4 * ps + 2)).
  { intros f0 L. exists a, []. rewrite app_nil_r. split; [exact W|]. split; [exact HI|]. split; [apply same_refl|exact L]. }
  destruct C as [ev|i r e s1 o1 Nt E|k e x E|f moved Hi|f Hn Hi|ev s1 o f Sh E Hn Hi].
  - split; [apply (pf_call no_meta (sq s) ClearError); [auto|now left]|]. apply Stay. eapply Rm_leaves; eauto.
  - assert (Ti : i = an a /\ at_ a = SSending e).
    { rewrite (r_t _ _ _ H) in Nt. destruct (Nat.eq_dec i (an a)) as [->|Ne].
      - rewrite nth_cur in Nt. split; congruence.
      - destruct (nth_old (an a) (@SDone D M) (at_ a) i Ne) as [X|X]; rewrite X in Nt; discriminate. }
    destruct Ti as [-> T].
    destruct (settle_ok no_meta max_retries s a e r H) as [A [Bo _]].
    pose proof (s_sizes_settle no_meta max_retries s e r) as Z1. rewrite E in A, Bo, Z1. cbn [fst snd] in A, Bo, Z1.
    split; [apply (pf_call no_meta (sq s1) ClearError); [apply A|now left]|].
    destruct (settled_step a e r T) as [X1 [X2 [X3 X4]]].
    assert (Wp : wf (with_p a true)) by (destruct W; constructor; auto).
    assert (Ip : I (with_p a true) o') by (eapply I_same; [..|exact HI]; reflexivity).
    pose proof (I_step no_meta dto_ok truthy wait max_retries _ _ (STask (an a) r) Wp Ip) as I1.
    set (b := fst (astep (with_p a true) (STask (an a) r))) in *. rewrite X4, <- Bo in I1.
    exists b, o1. split; [|split; [exact I1|]; split; [apply same_refl|]].
    + destruct (wf_of (sq s1) 0 SDone true false (r_q _ _ _ A)) as [Y1 Y2 Y3 Y4]. cbn [al ae] in *.
      rewrite (r_l _ _ _ A), (r_e _ _ _ A) in *. constructor; congruence.
    + eapply sleaves_mono; [apply (sleaves_db (sq s1) ps); try apply A; auto|lia].
      * rewrite X1. symmetry. apply A.
      * rewrite X2. symmetry. apply A.
      * eapply preachable_both, A.
      * congruence.
  - split.
    { apply (pf_call no_meta (sq s) (MoveOne k)); [auto|]. right. apply in_or_app. left. rewrite E. now left. }
    apply Stay. destruct (pop_error_raw (sq s) k P) as [e1 [E1 [P1 [C1 Z1]]]]. rewrite E in E1. injection E1 as <- ->.
    assert (B1 : both (set_err (sq s) e)) by (split; [apply B|]; eapply reach_pop_key; [apply B|exact E]).
    assert (S1 : sizes (set_err (sq s) e) = (ps, ps)) by (rewrite CrashProofs.sizes_err; auto).
    destruct (sleaves_db (set_err (sq s) e) ps (with_e a (without k (ec (sq s))))) as [L1 L2 L3 L4]; auto.
    { cbn [with_e al]. symmetry. apply H. }
    constructor; [exact L1|exact L2| |].
    + cbn [with_e ae] in L3. rewrite <- (r_e _ _ _ H). intros y Hy. apply L3 in Hy. unfold without in Hy. apply filter_In in Hy. tauto.
    + rewrite msgs_len in *. cbn [with_e al ae at_ files_of fst snd set_err pend errq] in *. rewrite <- (r_e _ _ _ H).
      assert (Hl : (List.length (ec (sq s)) <= 1 + List.length (without k (ec (sq s))))%nat).
      { pose proof (inv_nodup _ (pi_e _ P)) as Nd. fold (ec (sq s)) in Nd. revert Nd. generalize (ec (sq s)) as l. clear.
        induction l as [|[k' y] l IH]; cbn [map fst]; intros Nd; [cbn; lia|]. inversion Nd as [|? ? N1 N2]; subst.
        unfold without. cbn [filter fst]. destruct (N.eqb_spec k' k) as [->|Hk]; cbn [negb List.length].
        - fold (without k l). rewrite without_fresh by auto. lia.
        - fold (without k l). specialize (IH N2). lia. }
      lia.
  - split.
    { apply (pf_call no_meta (sq s) MoveAll); [auto|]. right. apply in_or_app. left. apply (in_map fst) in Hi. exact Hi. }
    apply (s_points_ok ps (Z.to_nat (error_size (sq s))) (sq s) f moved a o'); auto; try (symmetry; apply H).
  - split; [apply (pf_shut no_meta (sq s)); auto|]. apply Stay. eapply Rm_shut; eauto.
  - set (b := mkA (an a) (al a) (at_ a) (ae a) (ap a) false).
    assert (Hb : R (set_sshut s false) b).
    { split; [|split; [exact Hr|reflexivity]]. destruct H. constructor; auto. }
    assert (By : busy (at_ a) = true).
    { unfold closes in Hc. rewrite <- (r_s _ _ _ H), Sh in Hc. cbn [andb] in Hc. now destruct (busy (at_ a)). }
    pose proof (sstep_ok no_meta dto_ok truthy wait max_retries _ _ ev Hb) as X. rewrite E in X. cbn [fst snd] in X.
    assert (Ib : I b o') by (eapply I_same; [..|exact HI]; reflexivity).
    assert (Wb : wf b) by (destruct W; constructor; auto).
    pose proof (I_step no_meta dto_ok truthy wait max_retries _ _ ev Wb Ib) as I1.
    pose proof (sstep_sizes no_meta dto_ok truthy wait max_retries (set_sshut s false) ev) as Z1. rewrite E in Z1. cbn [fst] in Z1.
    assert (Y : o = snd (astep b ev) /\ R s1 (fst (astep b ev))).
    { assert (Dec : ev = SShutDown \/ ev <> SShutDown) by (destruct ev; (left; reflexivity) || (right; discriminate)).
      destruct Dec as [->|Ne].
      - unfold SenderProofs.After in X. cbn [SenderProofs.astep fst snd] in *. unfold closes in X at 1. cbn [with_sh ash at_ b] in X. rewrite By in X. exact X.
      - unfold SenderProofs.After, closes in X. rewrite astep_ash in X by auto. exact X. }
    destruct Y as [-> R1].
    split; [apply (pf_shut no_meta (sq s1)); [apply R1|auto]|].
    exists (fst (astep b ev)), (snd (astep b ev)). split; [eapply R_wf; eauto|]. split; [exact I1|]. split; [apply same_refl|].
    eapply Rm_shut; [apply R1| |exact Hp|exact Hi]. cbn [sq set_sshut] in Z1. congruence.
Qed.

Lemma s_graceful_ok s a ev s' o o' : R s a -> I a o' -> sstep s ev = (s', o) -> sclosed s' <> 0%nat ->
  pfiles no_meta (files_of (sq s')) /\ exists o2, I (f_st (files_of (sq s'))) (o' ++ o2) /\ same o2 o.
Proof.
  intros HR HI E C. pose proof (R_wf no_meta s a HR) as W.
  pose proof (sstep_ok no_meta dto_ok truthy wait max_retries _ _ ev HR) as X. rewrite E in X. cbn [fst snd] in X.
  pose proof (I_step no_meta dto_ok truthy wait max_retries _ _ ev W HI) as I1.
  unfold SenderProofs.After in X. destruct (closes _) eqn:Ec.
  - destruct X as [-> [_ [_ [q [Re [U [E1 [E2 Q]]]]]]]]. pose proof (preachable_inv no_meta q Re) as P.
    destruct (pq_shut_down_ok q P) as [q2 [A [B [F _]]]]. rewrite Q in A. injection A as <-.
    split.
    + apply (pf_shut no_meta q); [auto|]. unfold pq_shut_down in Q. unfold crash_files_shut.
      destruct (q_shut_down (pend q)) as [p|] eqn:Ep; [|discriminate]. cbn [bind] in Q.
      destruct (q_shut_down (errq q)) as [e|] eqn:Ee; [|discriminate]. cbn [bind] in Q. injection Q as <-.
      apply in_or_app. right. apply (in_map (fun t => (db p, t))). unfold crash_tables_shut_down. rewrite Ee.
      right. apply in_or_app. right. now left.
    + exists (snd (astep a ev)). split.
      * rewrite <- (app_nil_r (snd _)), app_assoc.
        apply (I_lose max_retries (fst (astep a ev)) _ _ []); [exact I1|..]; cbn [f_st al ae at_ files_of fst snd].
        -- rewrite B, E1. apply incl_refl.
        -- rewrite F, E2. apply incl_refl.
        -- reflexivity.
        -- unfold a_msgs. cbn [f_st files_of fst snd al ae at_ hand_of]. cbn [msgs_h map app]. rewrite B, E1, F, E2.
           unfold closes in Ec. destruct (at_ (fst (astep a ev))); cbn [busy negb andb] in Ec; rewrite ?andb_false_r in Ec; try discriminate;
             cbn [hand_of msgs_h map app]; perm.
      * split; [now rewrite vis_app, app_nil_r|now rewrite lost_app, app_nil_r].
  - destruct X as [_ [X _]]. exfalso. apply C, X.
Qed.

(** ** Lives *)
Lemma f_st_start q f o : Permutation (pc q) (map kv (fst f)) -> Permutation (ec q) (map kv (snd f)) -> I (f_st f) o -> I (start q) o.
Proof.
  intros P1 P2 H. rewrite <- (app_nil_r o). apply (I_lose max_retries (f_st f) _ _ []); [exact H|..]; cbn [f_st start al ae at_].
  - intros y Hy. eapply Permutation_in; eauto.
  - intros y Hy. eapply Permutation_in; eauto.
  - reflexivity.
  - unfold a_msgs. cbn [al ae at_ hand_of msgs_h map app]. rewrite app_nil_r. apply Permutation_app; apply Permutation_map; now symmetry.
Qed.

Lemma fgood_st (f : files) : fgood f -> wf (f_st f).
Proof. intros [[_ G1] [[_ G2] [G3 G4]]]. constructor; auto. Qed.

Theorem s_lives_ok outs n f : s_lives outs n f -> pfiles no_meta f /\ 0 <= n /\
  exists o crashed, I (f_st f) o /\ vis o = vis outs /\ Permutation (s_lost o) (s_lost outs ++ crashed) /\
    Z.of_nat (List.length crashed) <= n.
Proof.
  induction 1 as [|outs n f ps evs s o ev f' o' L [Pf [Hn [oi [cr [HI [V [Lo Lc]]]]]]] Hp E C Ca
    |outs n f ps evs s o ev s' o' L [Pf [Hn [oi [cr [HI [V [Lo Lc]]]]]]] Hp E C Es Cs|outs n f ps f' L [Pf [Hn [oi [cr [HI [V [Lo Lc]]]]]]] Hp Hi].
  - split; [constructor|]. split; [lia|]. exists [], []. split; [|split; [reflexivity|split; [reflexivity|cbn; lia]]].
    split; [unfold Cons; cbn; constructor|]. intros _. split; [|split; [reflexivity|intros k; cbn; lia]].
    split; [constructor; intros ? ? []|]. split; [exact Logic.I|]. split; [intros k _; reflexivity|intros x []].
  - destruct (CrashProofs2.start_facts no_meta ps f Pf Hp) as [Re [U [Z1 [P1 P2]]]]. set (q := pq_open ps (fst f) (snd f)) in *.
    assert (Z2 : sizes (sq s) = (ps, ps)).
    { rewrite (srun_sizes _ _ _ _ _ _ _ _ _ E), s_setup_sizes. exact Z1. }
    destruct (run_invariant no_meta dto_ok truthy wait max_retries I evs) with (s0 := s_setup q) (a0 := start q) (o0 := oi) (s := s) (o := o)
      as [a [HR [W Ia]]]; auto.
    { intros b ob evb _ Wb Ib. now apply I_step. }
    { now apply setup_ok. }
    { now apply (f_st_start q f). }
    destruct (s_crash_ok s a ev f' o' (oi ++ o) ps HR Z2 Hp Ia Ca) as [Pf' [a2 [o2 [W2 [I2 [[V2 Lo2] Lv]]]]]].
    split; [exact Pf'|]. split; [lia|].
    destruct (crashed_ok max_retries f' a2 _ _ W2 I2 Lv) as [cr' [I3 L3]].
    exists (((oi ++ o) ++ o2) ++ map (fun x => OLost x) cr'), (cr ++ cr'). split; [exact I3|]. split; [|split].
    + rewrite !vis_app, lost_vis, app_nil_r, V, V2, app_assoc. reflexivity.
    + rewrite !lost_app, lost_lost, Lo, Lo2. perm.
    + rewrite app_length. lia.
  - destruct (CrashProofs2.start_facts no_meta ps f Pf Hp) as [Re [U [Z1 [P1 P2]]]]. set (q := pq_open ps (fst f) (snd f)) in *.
    destruct (run_invariant no_meta dto_ok truthy wait max_retries I evs) with (s0 := s_setup q) (a0 := start q) (o0 := oi) (s := s) (o := o)
      as [a [HR [W Ia]]]; auto.
    { intros b ob evb _ Wb Ib. now apply I_step. }
    { now apply setup_ok. }
    { now apply (f_st_start q f). }
    destruct (s_graceful_ok s a ev s' o' (oi ++ o) HR Ia Es Cs) as [Pf' [o2 [I2 [V2 Lo2]]]].
    split; [exact Pf'|]. split; [lia|]. exists ((oi ++ o) ++ o2), cr. split; [exact I2|]. split; [|split; [|exact Lc]].
    + rewrite !vis_app, V, V2, app_assoc. reflexivity.
    + rewrite !lost_app, Lo, Lo2. perm.
  - split; [eapply pf_open; eauto|]. split; [lia|].
    pose proof (pfiles_good no_meta f Pf) as G.
    assert (Lv : sleaves f' (f_st f) (4 * ps)).
    { pose proof (crash_open_good ps f f' G Hi) as G'. destruct G as [G1 [G2 [G3 G4]]].
      apply in_app_or in Hi as [Hi|Hi]; apply in_map_iff in Hi as [t [<- Ht]].
      - destruct (crash_open_ok ps _ _ G1 Ht) as [_ X]. pose proof (CrashProofs2.open_len _ ps _ _ Hp G1 Ht) as Y.
        constructor; auto; cbn [fst snd f_st al ae]; [apply incl_refl|].
        rewrite msgs_len. cbn [f_st al ae at_ hand_of List.length]. rewrite !map_length. lia.
      - destruct (crash_open_ok ps _ _ G2 Ht) as [_ X]. pose proof (CrashProofs2.open_len _ ps _ _ Hp G2 Ht) as Y.
        assert (Hd : In (db (open_queue ps (fst f))) (crash_tables_open ps (fst f))) by (right; right; now left).
        destruct (crash_open_ok ps _ _ G1 Hd) as [_ X']. pose proof (CrashProofs2.open_len _ ps _ _ Hp G1 Hd) as Y'.
        constructor; auto; cbn [fst snd f_st al ae]; auto.
        rewrite msgs_len. cbn [f_st al ae at_ hand_of List.length]. rewrite !map_length. lia. }
    destruct (crashed_ok max_retries f' (f_st f) _ _ (fgood_st f G) HI Lv) as [cr' [I3 L3]].
    exists (oi ++ map (fun x => OLost x) cr'), (cr ++ cr'). split; [exact I3|]. split; [|split].
    + rewrite vis_app, lost_vis, app_nil_r. exact V.
    + rewrite lost_app, lost_lost, Lo. perm.
    + rewrite app_length. lia.
Qed.

Theorem s_crash_accounting outs n f ps : s_lives outs n f -> 1 <= ps ->
  exists lp le crashed, holds (pq_open ps (fst f) (snd f)) lp le /\
    Permutation (enqueued outs)
      (msgs_p lp ++ msgs_e le ++ delivered outs ++ s_removed outs ++ s_dropped outs ++ s_lost outs ++ crashed) /\
    Z.of_nat (List.length crashed) <= n.
Proof.
  intros L Hp. destruct (s_lives_ok outs n f L) as [Pf [_ [o [cr [[P _] [V [Lo Lc]]]]]]].
  destruct (CrashProofs2.start_facts no_meta ps f Pf Hp) as [Re [U [_ [P1 P2]]]]. set (q := pq_open ps (fst f) (snd f)) in *.
  exists (pc q), (ec q), cr. split; [exact (holds_contents q (preachable_inv no_meta q Re) U)|]. split; [|exact Lc].
  unfold Cons in P. rewrite app_nil_r, g1_gone in P. unfold gone in P.
  rewrite <- (vis_enqueued o), <- (vis_delivered o), <- (vis_removed o), <- (vis_dropped o), V in P.
  rewrite vis_enqueued, vis_delivered, vis_removed, vis_dropped, Lo in P. rewrite P.
  unfold a_msgs, f_st. cbn [al ae at_ hand_of]. unfold msgs_p, msgs_e. rewrite P1, P2. cbn [msgs_h map app]. perm.
Qed.

Theorem s_crash_attempts outs n f ps : s_lives outs n f -> 1 <= ps -> NoDup (keys (enqueued outs)) ->
  exists lp le, holds (pq_open ps (fst f) (snd f)) lp le /\
    NoDup (keys (msgs_p lp ++ msgs_e le ++ delivered outs ++ s_removed outs)) /\ s_dropped outs = [] /\
    (forall k, 0 <= attempts_of k 0 outs <= lim) /\
    (forall k e, In (k, e) lp -> pe_retries e = attempts_of k 0 outs /\ retryable_of k 0 outs = attempts_of k 0 outs /\
       failure_of k None outs = None /\ attempts_of k 0 outs < lim /\ In (k, pe_data e) (enqueued outs)) /\
    (forall k x, In (k, x) le -> In (k, ee_data x) (enqueued outs) /\
       ((ee_reason x = "Max retries reached."%string /\ failure_of k None outs = None /\
         attempts_of k 0 outs = lim /\ retryable_of k 0 outs = lim) \/
        (failure_of k None outs = Some (ee_reason x) /\ 1 <= attempts_of k 0 outs /\
         attempts_of k 0 outs = retryable_of k 0 outs + 1))) /\
    (forall x, In x (delivered outs) -> failure_of (fst x) None outs = None /\
       attempts_of (fst x) 0 outs = retryable_of (fst x) 0 outs + 1).
Proof.
  intros L Hp Nd. destruct (s_crash_accounting outs n f ps L Hp) as [lp [le [cr [Hh [P _]]]]].
  destruct (s_lives_ok outs n f L) as [Pf [_ [o [cr' [[Pc Q] [V _]]]]]].
  destruct (CrashProofs2.start_facts no_meta ps f Pf Hp) as [Re [U [_ [P1 P2]]]]. set (q := pq_open ps (fst f) (snd f)) in *.
  destruct (holds_unique q lp le (preachable_inv no_meta q Re) U Hh) as [-> ->].
  rewrite <- (vis_enqueued o), V, vis_enqueued in Q. destruct (Q Nd) as [[[Lp Le] [_ [_ Dn]]] [Dr Bd]]. clear Q.
  assert (X : forall k n m g, cnt (q0 : pqueue) k o = (n, m, g) -> attempts_of k 0 outs = n /\ retryable_of k 0 outs = m /\ failure_of k None outs = g).
  { intros k n1 m g H. unfold cnt in H. rewrite <- vis_cfold, V, vis_cfold, cfold_spec in H. injection H as <- <- <-. auto. }
  assert (Xa : forall k, attempts_of k 0 outs = attempts_of k 0 o).
  { intros k. pose proof (cfold_spec k outs 0 0 None) as A. rewrite <- vis_cfold, <- V, vis_cfold, cfold_spec in A. now injection A as <- _ _. }
  assert (Kp : forall k e, In (k, e) (pc q) -> pe_key e = k).
  { intros k e H. pose proof (preachable_inv no_meta q Re) as I0. exact (proj1 (Forall_forall _ _) (pi_pk _ I0) _ H). }
  assert (Ke : forall k e, In (k, e) (ec q) -> ee_key e = k).
  { intros k e H. pose proof (preachable_inv no_meta q Re) as I0. exact (proj1 (Forall_forall _ _) (pi_ek _ I0) _ H). }
  exists (pc q), (ec q). split; [exact Hh|]. split; [|split; [|split; [|split; [|split]]]].
  - apply (nodup_sub (enqueued outs) _ (s_dropped outs ++ s_lost outs ++ cr)); [|exact Nd]. rewrite P. rewrite <- !app_assoc. reflexivity.
  - rewrite <- vis_dropped, <- V, vis_dropped. exact Dr.
  - intros k. rewrite Xa. apply Bd.
  - intros k e H. assert (H' := H). apply (Permutation_in _ P1), Lp in H'. destruct H' as [C [B _]]. apply X in C. destruct C as [-> [-> ->]].
    repeat split; try lia. eapply Permutation_in; [symmetry; exact P|]. apply in_or_app. left. apply in_map_iff. exists (k, e).
    split; [|exact H]. cbn [snd msg_p]. unfold msg_p. now rewrite (Kp _ _ H).
  - intros k x H. assert (H' := H). apply (Permutation_in _ P2), Le in H'; [|intros []]. split.
    + eapply Permutation_in; [symmetry; exact P|]. apply in_or_app. right. apply in_or_app. left. apply in_map_iff. exists (k, x).
      split; [|exact H]. cbn [snd msg_e]. unfold msg_e. now rewrite (Ke _ _ H).
    + destruct H' as [[A C]|[m [C B]]]; apply X in C; destruct C as [-> [-> ->]]; [left; auto|right]. repeat split; lia.
  - intros x H. rewrite <- vis_delivered, <- V, vis_delivered in H. apply Dn in H as [m [C B]]. apply X in C. destruct C as [-> [-> ->]]. split; [reflexivity|lia].
Qed.

End Proofs.
