(** Recovery after an outage, first part: the sender empties its queue. *)
From Coq Require Import List ZArith NArith Bool String Lia Permutation.
From Coq Require Import ZifyBool ZifyNat ZifyN.
From Verif Require Import Base PermTac PQueueModel PQueueSpec PendingModel PendingSpec
  PendingProofs PQueueProofs2 HandlerModel HandlerSpec HandlerProofs HandlerProofs2 HandlerProofs5 HandlerProofs6
  SenderModel SenderSpec SenderProofs SenderProofs2 SenderProofs3
  DeliveryModel DeliverySpec DeliveryProofs DeliveryProofs2 DeliveryProofs3 RecoverySpec.
Import ListNotations.
Local Open Scope Z_scope.

Section World.
Context {D MA MB : Type}.
Variables (meta_a : MA) (dto_a truthy_a : D -> bool) (wait : bool) (max_a cmax : Z).
Variables (meta_b : MB) (dto_b truthy_b : D -> bool) (max_b : Z).
Notation world := (world D MA MB). Notation wev := (wev D MB). Notation wout := (wout D). Notation conn := (conn D). Notation msg := (msg D).
Notation sstep := (@SenderModel.sstep D MA meta_a dto_a truthy_a wait max_a).
Notation hstep := (@HandlerModel.hstep D MB meta_b dto_b truthy_b max_b).
Notation wstep := (@DeliveryModel.wstep D MA MB meta_a dto_a truthy_a wait max_a cmax meta_b dto_b truthy_b max_b).
Notation wrun := (@DeliveryModel.wrun D MA MB meta_a dto_a truthy_a wait max_a cmax meta_b dto_b truthy_b max_b).
Notation end_call := (@DeliveryModel.end_call D MA MB meta_a dto_a truthy_a wait max_a).
Notation ast := (@SenderProofs.ast D MA).
Notation astep := (@SenderProofs.astep D MA meta_a dto_a truthy_a wait max_a).
Notation a_loop := (@SenderProofs.a_loop D MA dto_a wait).
Notation R := (@SenderProofs.R D MA meta_a).
Implicit Types (w : world) (a : ast).

(** ** The calls of send_data *)
(** A task that does not send has no call; a call has attempts left. *)
Definition K w : Prop := forall i, (sending w i = None -> wcalls w i = (0, None)) /\ fst (wcalls w i) < cmax.

Lemma K_start qa qb : 1 <= cmax -> K (wstart qa qb).
Proof. intros C i. cbn. split; [auto|lia]. Qed.
Lemma K_same w w' : K w -> stasks (wa w') = stasks (wa w) -> wcalls w' = wcalls w -> K w'.
Proof. intros H S C i. unfold sending. rewrite S, C. apply H. Qed.
Lemma K_sender w e s o cs w' : K w -> 1 <= cmax -> sstep (wa w) e = (s, o) -> wa w' = s -> wcalls w' = cs ->
  (forall i, cs i = wcalls w i /\ (target e <> Some i \/ sending w i = None) \/ cs i = (0, None)) -> K w'.
Proof.
  intros H C E Es Ec F i. rewrite Ec. destruct (F i) as [[-> T]|Q].
  2: { rewrite Q. split; [auto|cbn; lia]. }
  split; [|apply H]. intros N. destruct (sending w i) as [e0|] eqn:Se; [|now apply H].
  exfalso. destruct T as [T|T]; [|discriminate].
  apply sending_some in Se. destruct (sstep_tasks meta_a dto_a truthy_a wait max_a (wa w) e s o E) as [St _].
  apply (St i _ T) in Se. assert (sending w' i = Some e0) by (apply sending_some; congruence). congruence.
Qed.

Lemma K_end w i cn r : K w -> 1 <= cmax -> K (end_call w i cn r).
Proof.
  intros H C. unfold DeliveryModel.end_call. destruct (sstep (wa w) (STask i r)) as [s o] eqn:E.
  eapply K_sender; [exact H|exact C|exact E|reflexivity|reflexivity|].
  intros j. cbn [wcalls target]. unfold call_upd. destruct (Nat.eqb_spec j i) as [->|Ne]; [right; reflexivity|left].
  split; [reflexivity|left; congruence].
Qed.
Lemma K_call w cn i n c : K w -> sending w i <> None -> n < cmax -> K (set_net w cn (call_upd (wcalls w) i (n, c))).
Proof.
  intros H S L j. change (sending (set_net w cn (call_upd (wcalls w) i (n, c))) j) with (sending w j).
  cbn [set_net wcalls]. unfold call_upd. destruct (Nat.eqb_spec j i) as [->|Ne]; [|apply H]. cbn [fst]. split; [congruence|exact L].
Qed.
Lemma K_step w ev w' l : K w -> 1 <= cmax -> wstep w ev = (w', l) -> K w'.
Proof.
  intros H C E. destruct ev as [e|i|i x|i|c|c|e|k d]; cbn [DeliveryModel.wstep] in E.
  - destruct e as [k d|i r|i| | | |k|k|k| |].
    2: { destruct (sending w i) eqn:Se; [injection E as <- <-; exact H|]. destruct (sstep (wa w) _) as [s o] eqn:Es. injection E as <- <-.
         eapply K_sender; [exact H|exact C|exact Es|reflexivity|reflexivity|]. intros j. left. split; [reflexivity|]. cbn [target].
         destruct (Nat.eq_dec i j) as [->|Ne]; [right; exact Se|left; congruence]. }
    2: { destruct (sstep (wa w) _) as [s o] eqn:Es. injection E as <- <-.
         eapply K_sender; [exact H|exact C|exact Es|reflexivity|reflexivity|]. intros j. cbn [target set_a wcalls]. unfold call_upd.
         destruct (Nat.eqb_spec j i) as [->|Ne]; [right; reflexivity|left]. split; [reflexivity|left; congruence]. }
    all: destruct (sstep (wa w) _) as [s o] eqn:Es; injection E as <- <-;
      (eapply K_sender; [exact H|exact C|exact Es|reflexivity|reflexivity|]); intros j; left; (split; [reflexivity|left; discriminate]).
  - destruct (sending w i) as [e|] eqn:Se; [|injection E as <- <-; exact H]. destruct (wcalls w i) as [n [c|]] eqn:Wc; [injection E as <- <-; exact H|].
    destruct (n <? cmax) eqn:L; injection E as <- <-; [|now apply K_end]. apply K_call; [exact H|congruence|lia].
  - destruct (sending w i) as [e|] eqn:Se; [|injection E as <- <-; exact H]. destruct (wcalls w i) as [n c] eqn:Wc.
    destruct (n <? cmax) eqn:L; [|injection E as <- <-; exact H]. injection E as <- <-. destruct x; [now apply K_end|].
    destruct (cmax <=? n + 1) eqn:L2; [now apply K_end|]. apply K_call; [exact H|congruence|lia].
  - destruct (sending w i) as [e|] eqn:Se; [|injection E as <- <-; exact H]. destruct (wcalls w i) as [n [c|]] eqn:Wc; [|injection E as <- <-; exact H].
    destruct (nth_error (conns w) c) as [q|]; [|injection E as <- <-; exact H].
    destruct (c_state q); injection E as <- <-; try exact H. now apply K_end.
  - destruct (nth_error (conns w) c) as [q|]; [|injection E as <- <-; exact H].
    destruct (c_state q); try (injection E as <- <-; exact H). destruct (dto_b _); [|injection E as <- <-; now apply (K_same w)].
    destruct (hstep _ _). destruct (recv_paused _); injection E as <- <-; now apply (K_same w).
  - destruct (nth_error (conns w) c) as [q|]; [|injection E as <- <-; exact H].
    destruct (c_state q); injection E as <- <-; try exact H; now apply (K_same w).
  - destruct e; try (injection E as <- <-; exact H); (destruct (hstep _ _); injection E as <- <-; now apply (K_same w)).
  - destruct (dto_b d); [|injection E as <- <-; exact H]. destruct (hstep _ _); injection E as <- <-; now apply (K_same w).
Qed.
Lemma K_run evs : forall w w' l, K w -> 1 <= cmax -> wrun w evs = (w', l) -> K w'.
Proof.
  induction evs as [|ev r IH]; intros w w' l H C E; cbn [DeliveryModel.wrun] in E; [injection E as <- <-; exact H|].
  destruct (wstep w ev) as [w1 l1] eqn:E1. destruct (wrun w1 r) as [w2 l2] eqn:E2. injection E as <- <-.
  apply (IH w1 w2 l2); auto. eapply K_step; eauto.
Qed.

(** ** What the endpoint gets *)
Definition awake_b (s : hstate D MB) : Prop := exists i t, nth_error (tasks s) i = Some t /\ t <> TDone.
Definition items_of (l : list msg) : list (item D MB) := map (fun x => (fst x, snd x, meta_b)) l.
Record Bext w w' (del : list msg) : Prop := mkBext {
  be_recv : recv_paused (wb w') = recv_paused (wb w); be_proc : proc_paused (wb w') = proc_paused (wb w);
  be_shut : shut (wb w') = shut (wb w); be_closed : closed (wb w') = closed (wb w); be_hq : hq (wb w') = hq (wb w);
  be_push : pushing (wb w') = pushing (wb w) ++ items_of del;
  be_acc : accepted (bo w') = accepted (bo w) ++ items_of del;
  be_rem : removed (bo w') = removed (bo w);
  be_awake : awake_b (wb w) \/ del <> [] -> awake_b (wb w') }.
Lemma Bext_same w w' : wb w' = wb w -> bo w' = bo w -> Bext w w' [].
Proof. intros B O. constructor; rewrite ?B, ?O; cbn [items_of map]; rewrite ?app_nil_r; auto. intros [H|H]; [exact H|congruence]. Qed.
Lemma Bext_trans w w1 w2 d1 d2 : Bext w w1 d1 -> Bext w1 w2 d2 -> Bext w w2 (d1 ++ d2).
Proof.
  intros [A1 A2 A3 A4 A5 A6 A7 A9 A8] [B1 B2 B3 B4 B5 B6 B7 B9 B8]. constructor; try congruence.
  - rewrite B6, A6. unfold items_of. now rewrite map_app, app_assoc.
  - rewrite B7, A7. unfold items_of. now rewrite map_app, app_assoc.
  - intros H. apply B8. destruct d2 as [|x d2]; [left|right; discriminate]. apply A8. now rewrite app_nil_r in H.
Qed.

Lemma wrun_app e1 : forall w e2, wrun w (e1 ++ e2) = let (w1, l1) := wrun w e1 in let (w2, l2) := wrun w1 e2 in (w2, l1 ++ l2).
Proof.
  induction e1 as [|ev r IH]; intros w e2; cbn [app DeliveryModel.wrun].
  - destruct (wrun w e2). reflexivity.
  - destruct (wstep w ev) as [w1 l1]. rewrite IH. destruct (wrun w1 r) as [w2 l2]. destruct (wrun w2 e2) as [w3 l3]. now rewrite app_assoc.
Qed.
Lemma check_process_awake s : awake_b (check_process s).
Proof.
  unfold check_process, awake_b.
  assert (New : exists i t, nth_error (tasks (set_tasks s (tasks s ++ [@TCreated D MB]) (Some (List.length (tasks s))))) i = Some t /\ t <> TDone).
  { exists (List.length (tasks s)), TCreated. cbn [set_tasks tasks]. rewrite nth_error_app2, Nat.sub_diag by lia. split; [reflexivity|discriminate]. }
  destruct (cur s) as [i|]; [|exact New]. destruct (nth_error (tasks s) i) as [[| | | |]|] eqn:N; try exact New; exists i; rewrite N; eexists; (split; [reflexivity|discriminate]).
Qed.
Lemma nth_snoc {A} (l : list A) x : nth_error (l ++ [x]) (List.length l) = Some x.
Proof. rewrite nth_error_app2, Nat.sub_diag by lia. reflexivity. Qed.
Lemma del_snoc {A} (l : list A) x : del_nth (List.length l) (l ++ [x]) = l.
Proof. induction l as [|y l IH]; cbn [List.length app del_nth]; [reflexivity|]. now rewrite IH. Qed.
Lemma set_conn_snoc (l : list conn) n x : set_conn (l ++ [n]) (List.length l) x = l ++ [mkConn (c_key n) (c_data n) x].
Proof. unfold set_conn. rewrite nth_snoc. induction l as [|y l IH]; cbn [List.length app put_nth]; [reflexivity|]. now rewrite IH. Qed.

(** One message crosses. *)
Lemma deliver_one w i e n : sending w i = Some e -> wcalls w i = (n, None) -> n < cmax -> dto_b (pe_data e) = true ->
  recv_paused (wb w) = false -> List.length (collectors w) = List.length (collecting (wb w)) ->
  exists w' l, wrun w [WAttempt i; WArrive (List.length (conns w)); WHandler (ECollected (List.length (collectors w)) meta_b); WRead i] = (w', l) /\
    sstep (wa w) (STask i SenderModel.ROk) = (wa w', skipn (List.length (ao w)) (ao w')) /\
    ao w' = ao w ++ skipn (List.length (ao w)) (ao w') /\ Bext w w' [msg_p e] /\
    List.length (collectors w') = List.length (collecting (wb w')) /\ wcalls w' i = (0, None).
Proof.
  intros S C L Dt Rp Ln. destruct (sstep (wa w) (STask i SenderModel.ROk)) as [s o] eqn:Es.
  set (c := List.length (conns w)).
  set (w1 := set_net w (conns w ++ [mkConn (pe_key e) (pe_data e) CTravelling]) (call_upd (wcalls w) i (n, Some c))).
  assert (E1 : wstep w (WAttempt i) = (w1, [LAttempt (pe_key e) (pe_data e)])).
  { cbn [DeliveryModel.wstep]. rewrite S, C. replace (n <? cmax) with true by lia. reflexivity. }
  set (b2 := set_collecting (wb w) (collecting (wb w) ++ [(pe_key e, pe_data e)])).
  set (w2 := set_b w1 b2 [] (conns w ++ [mkConn (pe_key e) (pe_data e) CArrived]) (collectors w ++ [Some c])).
  assert (E2 : wstep w1 (WArrive c) = (w2, [])).
  { cbn [DeliveryModel.wstep]. subst w1 c. cbn [set_net conns wb]. rewrite nth_snoc. cbn [c_state c_data c_key]. rewrite Dt.
    cbn [HandlerModel.hstep]. rewrite Rp. unfold w2. rewrite set_conn_snoc. reflexivity. }
  set (s3 := set_pushing (wb w) (pushing (wb w) ++ [(pe_key e, pe_data e, meta_b)])).
  set (w3 := set_b w2 (check_process s3) [HAccepted (pe_key e, pe_data e, meta_b)]
                   (conns w ++ [mkConn (pe_key e) (pe_data e) (CAnswered AAccepted)]) (collectors w)).
  assert (E3 : wstep w2 (WHandler (ECollected (List.length (collectors w)) meta_b)) = (w3, [])).
  { cbn [DeliveryModel.wstep]. unfold answered. subst w2. cbn [set_b wb conns collectors]. rewrite nth_snoc, del_snoc. subst b2.
    cbn [HandlerModel.hstep set_collecting collecting]. rewrite Ln, nth_snoc, del_snoc.
    cbn [set_pushing set_collecting pushing hq recv_paused proc_paused running shut fut_done closed tasks cur collecting].
    unfold w3. subst c. rewrite set_conn_snoc. cbn [c_key c_data]. unfold s3, set_pushing. reflexivity. }
  set (w4 := mkW s (ao w ++ o) (check_process s3) (bo w ++ [HAccepted (pe_key e, pe_data e, meta_b)])
                 (conns w ++ [mkConn (pe_key e) (pe_data e) (CRead AAccepted)]) (collectors w) (call_upd (wcalls w3) i (0, None))).
  assert (E4 : wstep w3 (WRead i) = (w4, [LGot (pe_key e) AAccepted])).
  { cbn [DeliveryModel.wstep]. change (sending w3 i) with (sending w i). rewrite S.
    change (wcalls w3) with (call_upd (wcalls w) i (n, Some c)). unfold call_upd at 1. rewrite Nat.eqb_refl.
    subst w3. cbn [set_b conns]. unfold c at 1. rewrite nth_snoc. cbn [c_state]. unfold DeliveryModel.end_call.
    subst w2 w1. cbn [set_b set_net wa ao wb bo collectors wcalls outcome_of]. rewrite Es. unfold c. rewrite set_conn_snoc. cbn [c_key c_data].
    unfold w4. cbn [set_b wcalls]. rewrite <- !app_assoc. reflexivity. }
  exists w4, ([LAttempt (pe_key e) (pe_data e)] ++ [] ++ [] ++ [LGot (pe_key e) AAccepted] ++ []).
  split. { cbn [DeliveryModel.wrun]. rewrite E1. fold c. rewrite E2, E3, E4. reflexivity. }
  assert (Sk : skipn (List.length (ao w)) (ao w4) = o) by (cbn; rewrite skipn_app, Nat.sub_diag, skipn_all; reflexivity).
  rewrite Sk. split; [reflexivity|]. split; [reflexivity|].
  destruct (check_recv s3) as [Q1 Q2].
  assert (Q3 : proc_paused (check_process s3) = proc_paused s3 /\ shut (check_process s3) = shut s3 /\ closed (check_process s3) = closed s3 /\
    hq (check_process s3) = hq s3 /\ pushing (check_process s3) = pushing s3).
  { unfold check_process. destruct (cur s3) as [j|]; [|repeat split]. destruct (nth_error (tasks s3) j) as [[| | | |]|]; repeat split. }
  destruct Q3 as (Q3 & Q4 & Q5 & Q6 & Q7).
  split.
  - unfold w4. constructor; cbn [wb bo]; rewrite ?Q1, ?Q3, ?Q4, ?Q5, ?Q6, ?Q7; try reflexivity.
    + unfold accepted. rewrite flat_map_app. reflexivity.
    + unfold removed. rewrite flat_map_app. cbn. now rewrite app_nil_r.
    + intros _. apply check_process_awake.
  - unfold w4. split; [cbn [collectors wb]; rewrite Q2; exact Ln|]. cbn [wcalls]. unfold call_upd at 1. now rewrite Nat.eqb_refl.
Qed.

(** ** A world after the outage *)
Record Rec w a : Prop := mkRec {
  rc_R : R (wa w) a; rc_ash : ash a = false; rc_ap : ap a = false;
  rc_recv : recv_paused (wb w) = false; rc_len : List.length (collectors w) = List.length (collecting (wb w)); rc_K : K w }.

Lemma sending_R w a e : R (wa w) a -> at_ a = SSending e -> sending w (an a) = Some e.
Proof. intros H T. apply sending_some. rewrite (r_t _ _ _ (proj1 H)), T. apply nth_cur. Qed.
Lemma idle_R w a : R (wa w) a -> (forall e, at_ a <> SSending e) -> sending w (an a) = None.
Proof.
  intros H T. destruct (sending w (an a)) as [e|] eqn:S; [|reflexivity]. exfalso. apply sending_some in S.
  rewrite (r_t _ _ _ (proj1 H)), nth_cur in S. injection S as S. now apply (T e).
Qed.
Lemma loop_keeps a : an (fst (a_loop a)) = an a /\ ap (fst (a_loop a)) = ap a /\ ash (fst (a_loop a)) = ash a /\ ae (fst (a_loop a)) = ae a.
Proof.
  unfold SenderProofs.a_loop. destruct (ap a) eqn:P; [auto|]. destruct (al a) as [|[k e] r]; [auto|].
  destruct (dto_a _); [|auto]. destruct wait; auto.
Qed.

(** The task steps while it is not sending. *)
Lemma quiet_step w a : Rec w a -> 1 <= cmax -> (forall e, at_ a <> SSending e) -> at_ a <> SDone ->
  exists w', wrun w [WSender (STask (an a) SenderModel.ROk)] = (w', []) /\ Rec w' (fst (astep a (STask (an a) SenderModel.ROk))) /\
    ao w' = ao w ++ snd (astep a (STask (an a) SenderModel.ROk)) /\ Bext w w' [] /\ wcalls w' = wcalls w.
Proof.
  intros [H Sh Ap Rp Ln Hk] C T Nd. pose proof (idle_R w a H T) as S.
  destruct (sstep (wa w) (STask (an a) SenderModel.ROk)) as [s o] eqn:Es.
  destruct (srun_R meta_a dto_a truthy_a wait max_a [STask (an a) SenderModel.ROk] (wa w) a s o H Sh) as (A1 & A2 & A3).
  { intros ev [<-|[]]. discriminate. }
  { cbn [SenderModel.srun]. rewrite Es. now rewrite app_nil_r. }
  cbn [SenderProofs.arun] in A1, A2, A3. destruct (astep a (STask (an a) SenderModel.ROk)) as [a' o'] eqn:Ea. cbn [fst snd] in *. rewrite app_nil_r in A2. subst o'.
  assert (E : wrun w [WSender (STask (an a) SenderModel.ROk)] = (set_a w s o (wcalls w), [])).
  { cbn [DeliveryModel.wrun DeliveryModel.wstep]. rewrite S, Es. reflexivity. }
  exists (set_a w s o (wcalls w)). split; [exact E|]. split; [|split; [reflexivity|split; [now apply Bext_same|reflexivity]]].
  constructor; auto; [|exact (K_run _ _ _ _ Hk C E)].
  assert (a' = fst (astep a (STask (an a) SenderModel.ROk))) as -> by now rewrite Ea.
  cbn [SenderProofs.astep]. rewrite Nat.eqb_refl. destruct (at_ a) as [|e|e|]; auto; try congruence.
  destruct (loop_keeps a) as (_ & -> & _). exact Ap.
Qed.

(** The task sends, with success. *)
Lemma send_step w a e n : Rec w a -> 1 <= cmax -> at_ a = SSending e -> wcalls w (an a) = (n, None) -> dto_b (pe_data e) = true ->
  exists evs w' l, forallb healthy evs = true /\ wrun w evs = (w', l) /\ Rec w' (fst (astep a (STask (an a) SenderModel.ROk))) /\
    ao w' = ao w ++ snd (astep a (STask (an a) SenderModel.ROk)) /\ Bext w w' [msg_p e] /\ wcalls w' (an a) = (0, None).
Proof.
  intros [H Sh Ap Rp Ln Hk] C T Wc Dt. pose proof (sending_R w a e H T) as S.
  destruct (deliver_one w (an a) e n S Wc) as (w' & l & E & Es & Eo & B & Ln' & Wc'); auto.
  { destruct (Hk (an a)) as [_ L]. rewrite Wc in L. exact L. }
  set (o := skipn (List.length (ao w)) (ao w')) in *.
  destruct (srun_R meta_a dto_a truthy_a wait max_a [STask (an a) SenderModel.ROk] (wa w) a (wa w') o H Sh) as (A1 & A2 & A3).
  { intros ev [<-|[]]. discriminate. }
  { cbn [SenderModel.srun]. rewrite Es. now rewrite app_nil_r. }
  cbn [SenderProofs.arun] in A1, A2, A3. destruct (astep a (STask (an a) SenderModel.ROk)) as [a' o'] eqn:Ea. cbn [fst snd] in *. rewrite app_nil_r in A2.
  rewrite A2 in Eo.
  eexists _, w', l. split; [|split; [exact E|]]; [reflexivity|]. split; [|auto].
  constructor; auto; [|rewrite (be_recv _ _ _ B); exact Rp|exact (K_run _ _ _ _ Hk C E)].
  assert (a' = fst (astep a (STask (an a) SenderModel.ROk))) as -> by now rewrite Ea.
  cbn [SenderProofs.astep]. rewrite Nat.eqb_refl, T. cbn [SenderProofs.a_settle fst snd].
  destruct (loop_keeps a) as (_ & -> & _). exact Ap.
Qed.

Definition drained w a w' (ms : list msg) (a' : ast) : Prop :=
  Rec w' a' /\ al a' = [] /\ at_ a' = SDone /\ ae a' = ae a /\ delivered (ao w') = delivered (ao w) ++ ms /\
  (s_removed (ao w') = s_removed (ao w) /\ enqueued (ao w') = enqueued (ao w)) /\ Bext w w' ms.

Lemma loop_pops a k e l : ap a = false -> al a = (k, e) :: l -> dto_a (pe_data e) = true ->
  a_loop a = (with_t (with_l a l) (if wait then SWaiting e else SSending e),
              if wait then [OStarted (pe_key e)] else [OStarted (pe_key e); OSend (pe_key e) (pe_data e)]).
Proof. intros P L V. unfold SenderProofs.a_loop. rewrite P, L, V. destruct wait; reflexivity. Qed.
Lemma loop_stops a : ap a = false -> al a = [] -> a_loop a = (with_t a SDone, []).
Proof. intros P L. unfold SenderProofs.a_loop. now rewrite P, L. Qed.
Lemma enqueued_cat (o o' : list (sout D)) : enqueued (o ++ o') = enqueued o ++ enqueued o'. Proof. apply flat_map_app. Qed.
Lemma removed_cat (o o' : list (sout D)) : s_removed (o ++ o') = s_removed o ++ s_removed o'. Proof. apply flat_map_app. Qed.

Lemma w_drain n : forall w a e, 1 <= cmax -> List.length (al a) = n -> Valid dto_a (msgs_p (al a)) -> Valid dto_b (msg_p e :: msgs_p (al a)) ->
  Rec w a -> (at_ a = SWaiting e \/ at_ a = SSending e /\ snd (wcalls w (an a)) = None) ->
  exists evs w' l a', forallb healthy evs = true /\ wrun w evs = (w', l) /\ drained w a w' (msg_p e :: msgs_p (al a)) a'.
Proof.
  assert (Snd : forall n, (forall w a e, 1 <= cmax -> List.length (al a) = n -> Valid dto_a (msgs_p (al a)) -> Valid dto_b (msg_p e :: msgs_p (al a)) ->
    Rec w a -> at_ a = SSending e /\ snd (wcalls w (an a)) = None ->
    exists evs w' l a', forallb healthy evs = true /\ wrun w evs = (w', l) /\ drained w a w' (msg_p e :: msgs_p (al a)) a') ->
    forall w a e, 1 <= cmax -> List.length (al a) = n -> Valid dto_a (msgs_p (al a)) -> Valid dto_b (msg_p e :: msgs_p (al a)) ->
    Rec w a -> (at_ a = SWaiting e \/ at_ a = SSending e /\ snd (wcalls w (an a)) = None) ->
    exists evs w' l a', forallb healthy evs = true /\ wrun w evs = (w', l) /\ drained w a w' (msg_p e :: msgs_p (al a)) a').
  { clear n. intros n IH w a e C L Va Vb H [T|T]; [|now apply IH].
    assert (N1 : forall e0, at_ a <> SSending e0) by (rewrite T; discriminate). assert (N2 : at_ a <> SDone) by (rewrite T; discriminate).
    destruct (quiet_step w a H C N1 N2) as (w1 & E1 & H1 & O1 & B1 & W1).
    cbn [SenderProofs.astep] in H1, O1. rewrite Nat.eqb_refl, T in H1, O1. cbn [fst snd] in H1, O1.
    destruct (IH w1 (with_t a (SSending e)) e C L Va Vb H1) as (evs & w' & l & a' & F & E & Dr).
    { split; [reflexivity|]. cbn [with_t an]. rewrite W1. destruct (rc_K _ _ H (an a)) as [Q _].
      rewrite Q; [reflexivity|]. now apply idle_R with (a := a); [apply H|]. }
    destruct Dr as (D1 & D2 & D3 & D4 & D5 & D6 & D7).
    exists (WSender (STask (an a) SenderModel.ROk) :: evs), w', ([] ++ l), a'. split; [exact F|].
    split. { change (WSender (STask (an a) SenderModel.ROk) :: evs) with ([WSender (STask (an a) SenderModel.ROk)] ++ evs). rewrite wrun_app, E1, E. reflexivity. }
    split; [exact D1|]. split; [exact D2|]. split; [exact D3|]. split; [exact D4|].
    split; [rewrite D5, O1, delivered_cat; cbn; now rewrite app_nil_r|].
    split; [destruct D6 as [-> ->]; rewrite O1, removed_cat, enqueued_cat; cbn; now rewrite !app_nil_r|].
    apply (Bext_trans _ _ _ _ _ B1 D7). }
  induction n as [|n IH]; apply Snd; intros w a e C L Va Vb H [T W].
  - destruct (al a) eqn:E; [|discriminate]. cbn [msgs_p map] in *. destruct (wcalls w (an a)) as [m [c|]] eqn:Wc; [discriminate|].
    destruct (send_step w a e m H C T Wc) as (evs & w' & l & F & E1 & H1 & O1 & B1 & W1); [now inversion Vb|].
    cbn [SenderProofs.astep] in H1, O1. rewrite Nat.eqb_refl, T in H1, O1. cbn [SenderProofs.a_settle fst snd] in H1, O1.
    rewrite (loop_stops a (rc_ap _ _ H) E) in H1, O1. cbn [fst snd app] in H1, O1.
    exists evs, w', l, (with_t a SDone). split; [exact F|]. split; [exact E1|].
    split; [exact H1|]. split; [exact E|]. split; [reflexivity|]. split; [reflexivity|].
    split; [rewrite O1, delivered_cat; reflexivity|]. split; [rewrite O1, removed_cat, enqueued_cat; cbn; now rewrite !app_nil_r|exact B1].
  - destruct (al a) as [|[k e'] r] eqn:E; [discriminate|]. cbn [msgs_p map] in *. destruct (wcalls w (an a)) as [m [c|]] eqn:Wc; [discriminate|].
    inversion Va as [|? ? V1 V2]; subst. inversion Vb as [|? ? U1 U2]; subst. cbn [snd] in V1.
    destruct (send_step w a e m H C T Wc U1) as (evs1 & w1 & l1 & F1 & E1 & H1 & O1 & B1 & W1).
    cbn [SenderProofs.astep] in H1, O1. rewrite Nat.eqb_refl, T in H1, O1. cbn [SenderProofs.a_settle fst snd] in H1, O1.
    rewrite (loop_pops a k e' r (rc_ap _ _ H) E V1) in H1, O1. cbn [fst snd app] in H1, O1.
    destruct (IH w1 (with_t (with_l a r) (if wait then SWaiting e' else SSending e')) e' C ltac:(cbn [with_t with_l al]; cbn [List.length] in L; lia) V2 U2 H1) as (evs & w' & l & a' & F & E2 & Dr).
    { cbn [with_t with_l an]. rewrite W1. destruct wait; [now left|right; split; reflexivity]. }
    destruct Dr as (D1 & D2 & D3 & D4 & D5 & D6 & D7).
    exists (evs1 ++ evs), w', (l1 ++ l), a'. split; [rewrite forallb_app, F1, F; reflexivity|].
    split; [rewrite wrun_app, E1, E2; reflexivity|].
    split; [exact D1|]. split; [exact D2|]. split; [exact D3|]. split; [exact D4|].
    split; [rewrite D5, O1, delivered_cat, <- app_assoc; destruct wait; reflexivity|].
    split; [destruct D6 as [-> ->]; rewrite O1, removed_cat, enqueued_cat; destruct wait; cbn; now rewrite !app_nil_r|].
    apply (Bext_trans _ _ _ _ _ B1 D7).
Qed.

Lemma w_drain_all w a : 1 <= cmax -> Valid dto_a (msgs_p (al a)) -> Valid dto_b (msgs_h (hand_of (at_ a)) ++ msgs_p (al a)) -> Rec w a ->
  (al a <> [] -> at_ a <> SDone) -> snd (wcalls w (an a)) = None ->
  exists evs w' l a', forallb healthy evs = true /\ wrun w evs = (w', l) /\ drained w a w' (msgs_h (hand_of (at_ a)) ++ msgs_p (al a)) a'.
Proof.
  intros C Va Vb H Aw W. destruct (at_ a) as [|e|e|] eqn:T.
  - assert (N1 : forall e0, at_ a <> SSending e0) by (rewrite T; discriminate). assert (N2 : at_ a <> SDone) by (rewrite T; discriminate).
    destruct (quiet_step w a H C N1 N2) as (w1 & E1 & H1 & O1 & B1 & W1).
    cbn [SenderProofs.astep] in H1, O1. rewrite Nat.eqb_refl, T in H1, O1. cbn [hand_of msgs_h map app] in *.
    destruct (al a) as [|[k e] r] eqn:E.
    + rewrite (loop_stops a (rc_ap _ _ H) E) in H1, O1. cbn [fst snd] in H1, O1.
      exists [WSender (STask (an a) SenderModel.ROk)], w1, [], (with_t a SDone). split; [reflexivity|]. split; [exact E1|].
      split; [exact H1|]. split; [exact E|]. split; [reflexivity|]. split; [reflexivity|].
      rewrite O1, !app_nil_r. auto.
    + cbn [msgs_p map] in *. inversion Va as [|? ? V1 V2]; subst. cbn [snd] in V1.
      rewrite (loop_pops a k e r (rc_ap _ _ H) E V1) in H1, O1. cbn [fst snd app] in H1, O1.
      destruct (w_drain _ w1 (with_t (with_l a r) (if wait then SWaiting e else SSending e)) e C eq_refl V2 Vb H1) as (evs & w' & l & a' & F & E2 & Dr).
      { cbn [with_t with_l an]. rewrite W1. destruct wait; [now left|right; split; [reflexivity|exact W]]. }
      destruct Dr as (D1 & D2 & D3 & D4 & D5 & D6 & D7).
      exists ([WSender (STask (an a) SenderModel.ROk)] ++ evs), w', ([] ++ l), a'. split; [exact F|].
      split; [rewrite wrun_app, E1, E2; reflexivity|].
      split; [exact D1|]. split; [exact D2|]. split; [exact D3|]. split; [exact D4|].
      split; [rewrite D5, O1, delivered_cat; destruct wait; cbn; now rewrite app_nil_r|].
      split; [destruct D6 as [-> ->]; rewrite O1, removed_cat, enqueued_cat; destruct wait; cbn; now rewrite !app_nil_r|].
      apply (Bext_trans _ _ _ _ _ B1 D7).
  - apply (w_drain _ w a e C eq_refl Va Vb H). now left.
  - apply (w_drain _ w a e C eq_refl Va Vb H). now right.
  - assert (E : al a = []) by (destruct (al a); [reflexivity|]; exfalso; apply Aw; [discriminate|reflexivity]).
    exists [], w, [], a. rewrite E. split; [reflexivity|]. split; [reflexivity|].
    split; [exact H|]. split; [exact E|]. split; [exact T|]. cbn [hand_of msgs_h msgs_p map app]. rewrite !app_nil_r.
    split; [reflexivity|]. split; [reflexivity|]. split; [split; reflexivity|]. now apply Bext_same.
Qed.

(** ** The client gives up the attempt it waits for, if any *)
Record recovered w a w' a' (del : list msg) : Prop := mkRecovered {
  rv_rec : Rec w' a'; rv_al : al a' = []; rv_at : at_ a' = SDone;
  rv_del : delivered (ao w') = delivered (ao w) ++ del; rv_incl : incl (msgs_p (al a)) del;
  rv_rem : s_removed (ao w') = s_removed (ao w); rv_enq : enqueued (ao w') = enqueued (ao w);
  rv_err : forall x, In x (msgs_e (ae a')) -> In x (msgs_e (ae a)) \/ In x (msgs_h (hand_of (at_ a)));
  rv_b : Bext w w' del }.

Lemma add_msgs (l : list (N * pentry D MA)) k e x : In x (msgs_p (add l k e)) -> In x (msgs_p l) \/ x = msg_p e.
Proof.
  unfold add. destruct (has k l); [auto|]. unfold msgs_p. rewrite map_app, in_app_iff. cbn [map snd]. intros [H|[H|[]]]; auto.
Qed.
Lemma add_keeps (l : list (N * pentry D MA)) k e : incl (msgs_p l) (msgs_p (add l k e)).
Proof. unfold add. destruct (has k l); [apply incl_refl|]. unfold msgs_p. rewrite map_app. apply incl_appl, incl_refl. Qed.
Lemma adde_msgs (l : list (N * eentry D MA)) k e x : In x (msgs_e (add l k e)) -> In x (msgs_e l) \/ x = msg_e e.
Proof.
  unfold add. destruct (has k l); [auto|]. unfold msgs_e. rewrite map_app, in_app_iff. cbn [map snd]. intros [H|[H|[]]]; auto.
Qed.
Lemma valid_incl (ok : D -> bool) (l l' : list msg) : incl l' l -> Valid ok l -> Valid ok l'.
Proof. unfold Valid. rewrite !Forall_forall. auto. Qed.

Theorem recover w a : 1 <= cmax -> Rec w a -> Valid dto_a (msgs_h (hand_of (at_ a)) ++ msgs_p (al a)) ->
  Valid dto_b (msgs_h (hand_of (at_ a)) ++ msgs_p (al a)) -> (al a <> [] -> at_ a <> SDone) ->
  exists evs1 evs2 w' l a' del, gives_up evs1 /\ forallb healthy evs2 = true /\ wrun w (evs1 ++ evs2) = (w', l) /\ recovered w a w' a' del.
Proof.
  intros C H Va Vb Aw. destruct (wcalls w (an a)) as [n [c|]] eqn:Wc.
  2: { assert (Va' : Valid dto_a (msgs_p (al a))) by (eapply valid_incl; [|exact Va]; apply incl_appr, incl_refl).
       destruct (w_drain_all w a C Va' Vb H Aw) as (evs & w' & l & a' & F & E & D1 & D2 & D3 & D4 & D5 & [D6 D6'] & D7); [now rewrite Wc|].
       exists [], evs, w', l, a', (msgs_h (hand_of (at_ a)) ++ msgs_p (al a)). split; [now left|]. split; [exact F|]. split; [exact E|].
       constructor; auto; [apply incl_appr, incl_refl|]. rewrite D4. auto. }
  destruct (at_ a) as [|e|e|] eqn:T;
    try (exfalso; destruct (rc_K _ _ H (an a)) as [Q _]; rewrite Q in Wc; [discriminate|]; apply idle_R; [apply H|rewrite T; discriminate]).
  cbn [hand_of msgs_h map app] in *. pose proof (sending_R w a e (rc_R _ _ H) T) as S.
  assert (L : n < cmax) by (destruct (rc_K _ _ H (an a)) as [_ L]; rewrite Wc in L; exact L).
  destruct (cmax <=? n + 1) eqn:Lc.
  - (* the call ends *)
    set (w1 := end_call w (an a) (conns w) RRetryable).
    assert (E1 : wrun w [WFail (an a) None] = (w1, [LFailed (pe_key e)] ++ [])).
    { cbn [DeliveryModel.wrun DeliveryModel.wstep]. rewrite S, Wc. replace (n <? cmax) with true by lia. rewrite Lc. reflexivity. }
    pose proof (K_run _ _ _ _ (rc_K _ _ H) C E1) as K1.
    destruct (sstep (wa w) (STask (an a) RRetryable)) as [s o] eqn:Es.
    destruct (srun_R meta_a dto_a truthy_a wait max_a [STask (an a) RRetryable] (wa w) a s o (rc_R _ _ H) (rc_ash _ _ H)) as (A1 & A2 & A3).
    { intros ev [<-|[]]. discriminate. }
    { cbn [SenderModel.srun]. rewrite Es. now rewrite app_nil_r. }
    assert (W1 : wa w1 = s /\ ao w1 = ao w ++ o /\ wb w1 = wb w /\ bo w1 = bo w /\ collectors w1 = collectors w /\ wcalls w1 (an a) = (0, None)).
    { unfold w1, DeliveryModel.end_call. rewrite Es. cbn [wa ao wb bo collectors wcalls]. unfold call_upd. rewrite Nat.eqb_refl. auto 10. }
    destruct W1 as (W1 & W2 & W3 & W4 & W5 & W6).
    cbn [SenderProofs.arun] in A1, A2, A3. cbn [SenderProofs.astep] in A1, A2, A3. rewrite Nat.eqb_refl, T in A1, A2, A3. cbn [fst snd] in A1, A2, A3.
    rewrite app_nil_r in A2.
    set (x := SenderProofs.a_settle meta_a max_a a e RRetryable) in *. set (sa := fst x) in *.
    assert (Fx : an sa = an a /\ ap sa = ap a /\ incl (msgs_p (al a)) (msgs_p (al sa)) /\
      (forall y, In y (msgs_p (al sa)) -> In y (msgs_p (al a)) \/ y = msg_p e) /\
      (forall y, In y (msgs_e (ae sa)) -> In y (msgs_e (ae a)) \/ y = msg_p e) /\
      delivered (snd x) = [] /\ s_removed (snd x) = [] /\ enqueued (snd x) = []).
    { subst sa x. cbn [SenderProofs.a_settle]. destruct (max_a <=? pe_retries e + 1).
      - unfold a_err. cbn [fst snd with_e an ap al ae]. split; [reflexivity|]. split; [reflexivity|]. split; [apply incl_refl|]. split; [auto|].
        split; [intros y Hy; apply adde_msgs in Hy; exact Hy|]. destruct (has _ _); auto.
      - unfold a_pend. cbn [fst snd with_l an ap al ae]. split; [reflexivity|]. split; [reflexivity|]. split; [apply add_keeps|].
        split; [intros y Hy; apply add_msgs in Hy; exact Hy|]. split; [auto|]. destruct (has _ _); auto. }
    destruct Fx as (F1 & F2 & F3 & F4 & F5 & F6 & F7 & F8).
    assert (Vs : Valid dto_a (msgs_p (al sa)) /\ Valid dto_b (msgs_p (al sa))).
    { split; (eapply valid_incl; [|eassumption]); intros y Hy; (destruct (F4 _ Hy) as [Hq| ->]; [now right|now left]). }
    destruct Vs as [Vsa Vsb].
    destruct (loop_keeps sa) as (L1 & L2 & L3 & L4). set (a1 := fst (a_loop sa)) in *.
    assert (Lp : msgs_h (hand_of (at_ a1)) ++ msgs_p (al a1) = msgs_p (al sa) /\ (al a1 <> [] -> at_ a1 <> SDone) /\
                 delivered (snd (a_loop sa)) = [] /\ s_removed (snd (a_loop sa)) = [] /\ enqueued (snd (a_loop sa)) = []).
    { subst a1. destruct (al sa) as [|[k0 e0] r0] eqn:El.
      - rewrite (loop_stops sa) by (rewrite ?F2; auto; apply H). cbn [fst snd with_t al at_ hand_of msgs_h map app]. rewrite ?El. split; [reflexivity|]. split; [congruence|]. auto.
      - inversion Vsa as [|? ? Vx Vy]. rewrite (loop_pops sa k0 e0 r0) by (rewrite ?F2; auto; apply H).
        cbn [fst snd with_t with_l al at_]. destruct wait; (split; [reflexivity|split; [discriminate|auto]]). }
    destruct Lp as (P1 & P2 & P3 & P4 & P5).
    assert (H1 : Rec w1 a1).
    { constructor; try (rewrite W1; exact A1); try exact A3; try exact K1; [rewrite L2, F2; apply H|rewrite W3; apply H|rewrite W5, W3; apply H]. }
    destruct (w_drain_all w1 a1 C) as (evs & w' & l & a' & F & E & D1 & D2 & D3 & D4 & D5 & [D6 D6'] & D7); auto.
    { eapply valid_incl; [|exact Vsa]. rewrite <- P1. apply incl_appr, incl_refl. }
    { rewrite P1. exact Vsb. }
    { rewrite L1, F1, W6. reflexivity. }
    rewrite P1 in *. exists [WFail (an a) None], evs, w', (([LFailed (pe_key e)] ++ []) ++ l), a', (msgs_p (al sa)).
    split; [right; now exists (an a)|]. split; [exact F|]. split; [rewrite wrun_app, E1, E; reflexivity|].
    assert (Bx : Bext w w1 []) by (apply Bext_same; auto).
    constructor; auto.
    + rewrite D5, W2, A2, !delivered_cat, F6, P3. now rewrite app_nil_r.
    + rewrite D6, W2, A2, !removed_cat, F7, P4. now rewrite app_nil_r.
    + rewrite D6', W2, A2, !enqueued_cat, F8, P5. now rewrite app_nil_r.
    + rewrite D4, L4. intros y Hy. rewrite T. destruct (F5 _ Hy) as [Hq| ->]; [now left|right; now left].
    + apply (Bext_trans _ _ _ _ _ Bx D7).
  - (* another attempt *)
    set (w1 := set_net w (conns w) (call_upd (wcalls w) (an a) (n + 1, None))).
    assert (E1 : wrun w [WFail (an a) None] = (w1, [LFailed (pe_key e)] ++ [])).
    { cbn [DeliveryModel.wrun DeliveryModel.wstep]. rewrite S, Wc. replace (n <? cmax) with true by lia. rewrite Lc. reflexivity. }
    pose proof (K_run _ _ _ _ (rc_K _ _ H) C E1) as K1.
    assert (H1 : Rec w1 a) by (destruct H; constructor; auto).
    assert (Va' : Valid dto_a (msgs_p (al a))) by (eapply valid_incl; [|exact Va]; apply incl_tl, incl_refl).
    destruct (w_drain_all w1 a C) as (evs & w' & l & a' & F & E & D1 & D2 & D3 & D4 & D5 & [D6 D6'] & D7); auto.
    { rewrite T. exact Vb. }
    { rewrite T. discriminate. }
    { unfold w1. cbn [set_net wcalls]. unfold call_upd. now rewrite Nat.eqb_refl. }
    rewrite T in *. cbn [hand_of msgs_h map app] in *.
    exists [WFail (an a) None], evs, w', (([LFailed (pe_key e)] ++ []) ++ l), a', (msg_p e :: msgs_p (al a)).
    split; [right; now exists (an a)|]. split; [exact F|]. split; [rewrite wrun_app, E1, E; reflexivity|].
    assert (Bx : Bext w w1 []) by (apply Bext_same; auto).
    constructor; auto.
    + apply incl_tl, incl_refl.
    + rewrite D4. auto.
    + apply (Bext_trans _ _ _ _ _ Bx D7).
Qed.
End World.
