(** Attempts, classification of outcomes, liveness, pausing and shut-down of a buffered sender. *)
From Coq Require Import List ZArith NArith Bool String Lia Permutation.
From Coq Require Import ZifyBool ZifyNat ZifyN.
From Verif Require Import Base PermTac PQueueModel PQueueSpec PQueueProofs PQueueProofs2 PendingModel PendingSpec
  PendingProofs SenderModel SenderSpec SenderProofs SenderProofs2.
Import ListNotations.
Local Open Scope Z_scope.

Section Proofs.
Context {D M : Type}.
Variable no_meta : M.
Variables dto_ok truthy : D -> bool.
Variable wait : bool.
Variable max_retries : Z.
Notation msg := (msg D). Notation sout := (sout D). Notation sev := (sev D). Notation sstate := (sstate D M).
Notation ststate := (ststate D M). Notation pentry := (pentry D M). Notation eentry := (eentry D M).
Notation sstep := (@sstep D M no_meta dto_ok truthy wait max_retries).
Notation srun := (@srun D M no_meta dto_ok truthy wait max_retries).
Notation ast := (@ast D M).
Notation astep := (@astep D M no_meta dto_ok truthy wait max_retries).
Notation arun := (@arun D M no_meta dto_ok truthy wait max_retries).
Notation a_loop := (@a_loop D M dto_ok wait).
Notation a_settle := (@a_settle D M no_meta max_retries).
Notation R := (@R D M no_meta).
Notation keys l := (map fst l).
Notation lim := (Z.max 1 max_retries).
Implicit Types (s : sstate) (o : list sout) (a : ast).

(** ** Counting *)
Definition count := (Z * Z * option string)%type.
Definition upd (k : N) (c : count) (x : sout) : count :=
  let '(n, m, f) := c in
  match x with
  | OSend k' _ => if N.eqb k' k then (n + 1, m, f) else c
  | ORetryable k' => if N.eqb k' k then (n, m + 1, f) else c
  | OFailed k' e => if N.eqb k' k then (n, m, Some e) else c
  | OReprocessed k' => if N.eqb k' k then (0, 0, None) else c
  | _ => c
  end.
Definition cfold k c o : count := fold_left (upd k) o c.
Lemma cfold_spec k o : forall n m f, cfold k (n, m, f) o = (attempts_of k n o, retryable_of k m o, failure_of k f o).
Proof.
  unfold cfold, attempts_of, retryable_of, failure_of. induction o as [|x o IH]; intros n m f; [reflexivity|].
  cbn [fold_left upd]. destruct x; try apply IH; destruct (N.eqb _ _); apply IH.
Qed.
Lemma cfold_app k c o o' : cfold k c (o ++ o') = cfold k (cfold k c o) o'. Proof. apply fold_left_app. Qed.

Definition mentions (k : N) (x : sout) : Prop :=
  match x with OSend k' _ | ORetryable k' | OFailed k' _ | OReprocessed k' => k' = k | _ => False end.
Ltac ment := intros; repeat match goal with
  | H : In _ (_ ++ _) |- _ => apply in_app_iff in H; destruct H
  | H : In _ (_ :: _) |- _ => destruct H
  | H : In _ [] |- _ => destruct H
  | |- ~ _ => intro
  end; subst; cbn [mentions] in *; first [tauto | congruence].
Lemma cfold_quiet k c o : (forall x, In x o -> ~ mentions k x) -> cfold k c o = c.
Proof.
  revert c. induction o as [|x o IH]; intros c H; [reflexivity|]. cbn [cfold fold_left]. unfold cfold in IH. rewrite IH by (intros y Hy; apply H; now right).
  specialize (H x (or_introl eq_refl)). destruct c as [[n m] f]. destruct x; cbn in *; auto; destruct (N.eqb_spec k0 k); tauto.
Qed.

Lemma reply_mentions k r x : In x (s_reply dto_ok truthy r) -> ~ mentions k x.
Proof.
  unfold s_reply. destruct r as [d|]; [destruct (truthy d); [destruct (dto_ok d)|]|]; intros [<-|[]]; cbn; tauto.
Qed.
Notation keyed l := (Forall (fun e => pe_key (snd e) = fst e) l).
Lemma loop_mentions a k x : keyed (al a) -> In x (snd (a_loop a)) -> mentions k x -> In k (keys (al a)).
Proof.
  intros W. unfold SenderProofs.a_loop. destruct (ap a); [cbn; tauto|]. destruct (al a) as [|[k' e] r]; [cbn; tauto|].
  inversion W as [|? ? W1 _]; subst. cbn in W1. subst k'.
  destruct (dto_ok _); [destruct wait|]; cbn; intuition; subst; cbn in *; auto; tauto.
Qed.
Lemma settle_mentions a e r k x : In x (snd (a_settle a e r)) -> mentions k x -> pe_key e = k.
Proof.
  destruct r; cbn [SenderProofs.a_settle].
  - cbn. intuition. subst. cbn in *. tauto.
  - destruct (_ <=? _); cbn [fst snd a_err a_pend]; destruct (has _ _); cbn; intuition; subst; cbn in *; tauto.
  - cbn [fst snd a_err a_pend]; destruct (has _ _); cbn; intuition; subst; cbn in *; tauto.
Qed.

Lemma all_mentions (lp : list (N * pentry)) (le : list (N * eentry)) k x : In x (a_all_outs lp le) -> mentions k x -> In k (keys le).
Proof.
  unfold a_all_outs. rewrite in_flat_map. intros [e [He [<-|[<-|[]]]]] Hm; cbn in *.
  - subst. now apply in_map.
  - now destruct (has _ _).
Qed.

(** A step only concerns keys that are somewhere. *)
Lemma astep_mentions a ev k x : wf a -> In x (snd (astep a ev)) -> mentions k x -> In k (keys (a_msgs a)).
Proof.
  intros W. rewrite msg_keys by auto. rewrite !in_app_iff. destruct ev; cbn [SenderProofs.astep].
  - cbn [fst snd a_pend]. destruct (has _ _); cbn; intuition; subst; cbn in *; tauto.
  - destruct (Nat.eqb i (an a)); [|cbn; tauto]. destruct (at_ a) as [|e|e|] eqn:T.
    + intros H Hm. left. eapply loop_mentions; eauto. apply W.
    + cbn. intuition. subst. cbn in *. tauto.
    + cbn [fst snd]. rewrite in_app_iff. intros [H|H] Hm.
      * right. left. left. eapply settle_mentions; eauto.
      * apply loop_mentions with (1 := proj2 (proj2 (proj2 (settle_order no_meta max_retries a e r))) (wf_p _ W)) (3 := Hm) in H.
        destruct (settle_order no_meta max_retries a e r) as [_ [_ [-> _]]] in H. rewrite in_app_iff in H. destruct H as [H|H]; [tauto|].
        right. left. left. cbn. revert H. destruct r; cbn [SenderProofs.a_settle]; [cbn; tauto|destruct (_ <=? _)|];
          cbn [fst snd a_err a_pend]; destruct (has _ _); cbn; intuition.
    + cbn; tauto.
  - destruct (Nat.eqb i (an a)); [|cbn; tauto]. destruct (at_ a); cbn; intuition; subst; cbn in *; tauto.
  - cbn; tauto.
  - cbn; tauto.
  - intros H Hm. right. right. cbn [snd] in H. eapply all_mentions; eauto.
  - destruct (lookup k0 (ae a)) as [y|] eqn:L.
    + cbn [snd]. rewrite in_app_iff. intros [H|H] Hm; [|exfalso; eapply reply_mentions; eauto].
      right. right. apply lookup_In in L. apply (in_map fst) in L. cbn in L.
      destruct H as [<-|[<-|[]]]; [cbn in Hm; now subst|destruct (has _ _); cbn in Hm; tauto].
    + cbn. intuition; subst; cbn in *; tauto.
  - destruct (lookup k0 (ae a)) as [y|] eqn:L; cbn [snd].
    + intros [<-|H] Hm; [cbn in Hm; tauto|exfalso; eapply reply_mentions; eauto].
    + cbn. intuition; subst; cbn in *; tauto.
  - intros H Hm. exfalso. eapply reply_mentions; eauto.
  - cbn [snd]. intros H Hm. rewrite in_map_iff in H. destruct H as [e [<- _]]. cbn in Hm. tauto.
  - cbn; tauto.
Qed.

(** ** Attempts *)
Section Attempts.
Variable q0 : pqueue D M.
Notation init := (init_of q0).
Hypothesis Hke : keys (msgs_e (ec q0)) = keys (ec q0).
Definition n0 (k : N) : Z := match lookup k (pc q0) with Some e => pe_retries e | None => 0 end.
Definition cnt k o : count := cfold k (n0 k, n0 k, None) o.
Definition back k o : Prop := In k (keys (ec q0)) -> In (OReprocessed k) o.

Definition okp k (e : pentry) o : Prop := cnt k o = (pe_retries e, pe_retries e, None) /\ 0 <= pe_retries e < lim /\ back k o.
Definition oks k (e : pentry) o : Prop := cnt k o = (pe_retries e + 1, pe_retries e, None) /\ 0 <= pe_retries e < lim /\ back k o.
Definition oke k (m : string) o : Prop :=
  (m = "Max retries reached."%string /\ cnt k o = (lim, lim, None)) \/
  (exists n, cnt k o = (n, n - 1, Some m) /\ 1 <= n <= lim).

Record Lists a o : Prop := mkL {
  l_p : forall k e, In (k, e) (al a) -> okp k e o;
  l_e : forall k x, In (k, x) (ae a) -> back k o -> oke k (ee_reason x) o }.
Definition Hand t o : Prop :=
  match t with SWaiting e => okp (pe_key e) e o | SSending e => oks (pe_key e) e o | _ => True end.

(** Outputs that do not concern a key leave its facts alone. *)
Lemma cnt_quiet k o o1 : (forall x, In x o1 -> ~ mentions k x) -> cnt k (o ++ o1) = cnt k o.
Proof. intros H. unfold cnt. rewrite cfold_app. now apply cfold_quiet. Qed.
Lemma back_app k o o1 : back k o -> back k (o ++ o1).
Proof. unfold back. intros H Hi. apply in_or_app. auto. Qed.
Lemma back_quiet k o o1 : (forall x, In x o1 -> ~ mentions k x) -> back k (o ++ o1) -> back k o.
Proof.
  unfold back. intros Q H Hi. specialize (H Hi). apply in_app_iff in H. destruct H as [H|H]; [auto|].
  exfalso. apply (Q _ H). reflexivity.
Qed.
Lemma okp_quiet k e o o1 : (forall x, In x o1 -> ~ mentions k x) -> okp k e o -> okp k e (o ++ o1).
Proof. intros Q [A [B C]]. unfold okp. rewrite cnt_quiet by auto. split; [auto|]. split; [auto|]. now apply back_app. Qed.
Lemma oks_quiet k e o o1 : (forall x, In x o1 -> ~ mentions k x) -> oks k e o -> oks k e (o ++ o1).
Proof. intros Q [A [B C]]. unfold oks. rewrite cnt_quiet by auto. split; [auto|]. split; [auto|]. now apply back_app. Qed.
Lemma oke_quiet k m o o1 : (forall x, In x o1 -> ~ mentions k x) -> oke k m o -> oke k m (o ++ o1).
Proof. intros Q. unfold oke. now rewrite cnt_quiet. Qed.

Lemma lists_quiet a o o1 : (forall x k, In x o1 -> ~ mentions k x) -> Lists a o -> Lists a (o ++ o1).
Proof.
  intros Q [A B]. constructor.
  - intros k e H. apply okp_quiet; auto.
  - intros k x H Hb. apply oke_quiet; [auto|]. apply B; auto. eapply back_quiet; eauto.
Qed.
Lemma hand_quiet t o o1 : (forall x k, In x o1 -> ~ mentions k x) -> Hand t o -> Hand t (o ++ o1).
Proof. intros Q. destruct t; cbn; auto; [apply okp_quiet|apply oks_quiet]; auto. Qed.

Lemma send_cnt k o d : cnt k (o ++ [OSend k d]) = let '(n, m, f) := cnt k o in (n + 1, m, f).
Proof. unfold cnt. rewrite cfold_app. destruct (cfold k _ o) as [[n m] f]. cbn [cfold fold_left upd]. now rewrite N.eqb_refl. Qed.
Lemma retry_cnt k o : cnt k (o ++ [ORetryable k]) = let '(n, m, f) := cnt k o in (n, m + 1, f).
Proof. unfold cnt. rewrite cfold_app. destruct (cfold k _ o) as [[n m] f]. cbn [cfold fold_left upd]. now rewrite N.eqb_refl. Qed.
Lemma fail_cnt k o e : cnt k (o ++ [OFailed k e]) = let '(n, m, f) := cnt k o in (n, m, Some e).
Proof. unfold cnt. rewrite cfold_app. destruct (cfold k _ o) as [[n m] f]. cbn [cfold fold_left upd]. now rewrite N.eqb_refl. Qed.
Lemma reproc_cnt k o : cnt k (o ++ [OReprocessed k]) = (0, 0, None).
Proof. unfold cnt. rewrite cfold_app. destruct (cfold k _ o) as [[n m] f]. cbn [cfold fold_left upd]. now rewrite N.eqb_refl. Qed.

Lemma okp_send k e o d : okp k e o -> oks k e (o ++ [OSend k d]).
Proof. intros [A [B C]]. unfold oks. rewrite send_cnt, A. split; [auto|]. split; [auto|]. now apply back_app. Qed.

(** Lists under outputs that concern one absent key only. *)
Lemma lists_other a o o1 k0 : (forall x k, In x o1 -> mentions k x -> k = k0) -> ~ In k0 (keys (al a)) -> ~ In k0 (keys (ae a)) ->
  Lists a o -> Lists a (o ++ o1).
Proof.
  intros Q Np Ne [A B]. constructor.
  - intros k e H. apply okp_quiet; auto. intros x Hx Hm. rewrite (Q x k Hx Hm) in H. apply Np. now apply (in_map fst) in H.
  - intros k x H Hb. assert (Q' : forall x, In x o1 -> ~ mentions k x).
    { intros y Hy Hm. rewrite (Q y k Hy Hm) in H. apply Ne. now apply (in_map fst) in H. }
    apply oke_quiet; [auto|]. apply B; auto. eapply back_quiet; eauto.
Qed.

Lemma loop_att a o : keyed (al a) -> NoDup (keys (al a)) -> (forall k, In k (keys (ae a)) -> ~ In k (keys (al a))) ->
  Lists a o -> Lists (fst (a_loop a)) (o ++ snd (a_loop a)) /\ Hand (at_ (fst (a_loop a))) (o ++ snd (a_loop a)).
Proof.
  intros W Nd De [A B]. unfold SenderProofs.a_loop. destruct (ap a); [cbn; rewrite app_nil_r; split; [constructor; auto|auto]|].
  destruct (al a) as [|[k e] r] eqn:L; [cbn; rewrite app_nil_r; split; [constructor; cbn; rewrite ?L; auto|auto]|].
  inversion W as [|? ? W1 _]; subst. cbn in W1. subst k. inversion Nd as [|? ? N1 N2]; subst. cbn [fst] in N1.
  assert (Ne : ~ In (pe_key e) (keys (ae a))). { intros H. apply (De _ H). now left. }
  assert (X : forall t o1, (forall x k, In x o1 -> mentions k x -> k = pe_key e) -> Lists (with_t (with_l a r) t) (o ++ o1)).
  { intros t o1 Q. apply lists_other with (k0 := pe_key e); auto. constructor; cbn; auto. intros k x H. apply A. now right. }
  pose proof (A (pe_key e) e (or_introl eq_refl)) as Oe.
  destruct (dto_ok _); [destruct wait|]; cbn [fst snd with_t at_ Hand].
  - split; [apply X|apply okp_quiet; [|auto]]; ment.
  - split; [apply X; ment|].
    change [OStarted (pe_key e); OSend (pe_key e) (pe_data e)] with ([OStarted (pe_key e)] ++ [OSend (pe_key e) (pe_data e)]).
    rewrite app_assoc. apply okp_send. apply okp_quiet; [|auto]. ment.
  - split; [|auto]. apply X; ment.
Qed.

Lemma settle_att a o e r : keyed (al a) -> ~ In (pe_key e) (keys (al a)) -> ~ In (pe_key e) (keys (ae a)) ->
  Lists a o -> oks (pe_key e) e o -> Lists (fst (a_settle a e r)) (o ++ snd (a_settle a e r)).
Proof.
  intros W Np Ne H [A [B C]].
  assert (Q : forall o1, (forall x k, In x o1 -> mentions k x -> k = pe_key e) -> Lists a (o ++ o1)).
  { intros o1 Q. eapply lists_other; eauto. }
  assert (Err : forall m o1, (forall x k, In x o1 -> mentions k x -> k = pe_key e) -> oke (pe_key e) m (o ++ o1) ->
    Lists (with_e a (add (ae a) (pe_key e) (mkE (pe_key e) (pe_data e) m no_meta))) (o ++ o1)).
  { intros m o1 Q1 Ok. destruct (Q o1 Q1) as [P1 P2]. constructor; [exact P1|]. cbn [with_e ae]. intros k x. unfold add.
    rewrite has_not by auto. rewrite in_app_iff. intros [Hi|[Hi|[]]] Hb; [auto|]. injection Hi as <- <-. exact Ok. }
  destruct r; cbn [SenderProofs.a_settle].
  - cbn [fst snd]. apply Q. ment.
  - destruct (max_retries <=? pe_retries e + 1) eqn:Cm; cbn [fst snd a_err a_pend].
    + rewrite has_not by auto. apply Err; [ment|].
      left. split; [auto|]. change [ORetryable (pe_key e); OErrored (pe_key e, pe_data e)] with ([ORetryable (pe_key e)] ++ [OErrored (pe_key e, pe_data e)]).
      rewrite app_assoc, cnt_quiet, retry_cnt, A by (ment). now replace lim with (pe_retries e + 1) by lia.
    + rewrite has_not by auto. set (o1 := [ORetryable (pe_key e); OQueued (pe_key e)]).
      assert (Q1 : forall x k, In x o1 -> mentions k x -> k = pe_key e) by (unfold o1; ment).
      destruct (Q o1 Q1) as [P1 P2]. constructor; [|exact P2]. cbn [with_l al]. intros k x. unfold add. rewrite has_not by auto.
      rewrite in_app_iff. intros [Hi|[Hi|[]]]; [auto|]. injection Hi as <- <-. unfold okp. cbn [pe_retries].
      split; [|split; [lia|now apply back_app]].
      change o1 with ([ORetryable (pe_key e)] ++ [OQueued (D:=D) (pe_key e)]).
      rewrite app_assoc, cnt_quiet, retry_cnt, A by (ment). reflexivity.
  - cbn [fst snd a_err]. rewrite has_not by auto. apply Err; [ment|].
    right. exists (pe_retries e + 1). split; [|lia].
    change [OFailed (pe_key e) e0; OErrored (pe_key e, pe_data e)] with ([OFailed (pe_key e) e0] ++ [OErrored (pe_key e, pe_data e)]).
    rewrite app_assoc, cnt_quiet, fail_cnt, A by (ment). now replace (pe_retries e + 1 - 1) with (pe_retries e) by lia.
Qed.

Lemma all_outs_cnt (lp : list (N * pentry)) (le : list (N * eentry)) k c : In k (keys le) -> cfold k c (a_all_outs lp le) = (0, 0, None).
Proof.
  revert c. unfold a_all_outs. induction le as [|x le IH]; intros c; cbn [map In flat_map]; [tauto|]. rewrite cfold_app.
  destruct (in_dec N.eq_dec k (keys le)) as [Hi|Hn]; [intros _; now apply IH|]. intros [<-|]; [|tauto].
  rewrite cfold_quiet with (o := flat_map _ le).
  - destruct c as [[n m] f]. destruct (has (fst x) lp); cbn [cfold fold_left upd]; now rewrite N.eqb_refl.
  - intros y Hy Hm. apply Hn. eapply all_mentions; eauto.
Qed.

Lemma settle_keyed_e a e r : Forall (fun e => ee_key (snd e) = fst e) (ae a) -> Forall (fun e => ee_key (snd e) = fst e) (ae (fst (a_settle a e r))).
Proof.
  intros H. destruct r; cbn [SenderProofs.a_settle]; [exact H|destruct (_ <=? _)|]; cbn [fst a_err a_pend with_e with_l ae]; auto;
    unfold add; destruct (has _ _); auto; apply Forall_app; auto.
Qed.
Lemma settle_distinct a e r : wf a -> NoDup (keys (msg_p e :: msgs_p (al a) ++ msgs_e (ae a))) ->
  NoDup (keys (al (fst (a_settle a e r)))) /\
  (forall k, In k (keys (ae (fst (a_settle a e r)))) -> ~ In k (keys (al (fst (a_settle a e r))))).
Proof.
  intros W Nd. destruct (settle_conserve no_meta max_retries a e r) as [_ P].
  apply (Permutation_map fst) in P. apply (Permutation_NoDup P) in Nd. rewrite app_assoc, map_app in Nd. apply NoDup_app_remove_r in Nd.
  rewrite map_app in Nd.
  assert (Kp : keys (msgs_p (al (fst (a_settle a e r)))) = keys (al (fst (a_settle a e r)))).
  { unfold msgs_p. rewrite map_map. apply map_ext_in. intros x Hx.
    pose proof (proj2 (proj2 (proj2 (settle_order no_meta max_retries a e r))) (wf_p _ W)) as F. rewrite Forall_forall in F. exact (F x Hx). }
  assert (Ke : keys (msgs_e (ae (fst (a_settle a e r)))) = keys (ae (fst (a_settle a e r)))).
  { unfold msgs_e. rewrite map_map. apply map_ext_in. intros x Hx.
    pose proof (settle_keyed_e a e r (wf_e _ W)) as F. rewrite Forall_forall in F. exact (F x Hx). }
  assert (Nd' : NoDup (keys (al (fst (a_settle a e r))) ++ keys (ae (fst (a_settle a e r))))) by (rewrite <- Kp, <- Ke; exact Nd).
  clear Nd. rename Nd' into Nd. split; [now apply NoDup_app_remove_r in Nd|].
  intros k Hk Hl. exact (nodup_disj _ _ k Nd Hl Hk).
Qed.

Definition Absent o : Prop := forall k, ~ In k (keys (enqueued o ++ init)) -> cnt k o = (0, 0, None).
Definition Done o : Prop := forall x, In x (delivered o) -> exists n, cnt (fst x) o = (n, n - 1, None) /\ 1 <= n <= lim.
Definition AttI a o : Prop := Lists a o /\ Hand (at_ a) o /\ Absent o /\ Done o.

Lemma wake_hand a o : Hand (at_ a) o -> Hand (at_ (a_wake a)) o.
Proof. unfold a_wake. destruct (at_ a) eqn:T; rewrite ?T; auto. Qed.
Lemma wake_lists a o : Lists a o -> Lists (a_wake a) o.
Proof. intros [A B]. unfold a_wake. destruct (at_ a) eqn:T; constructor; auto. Qed.
Lemma flags_lists a a' o : al a' = al a -> ae a' = ae a -> Lists a o -> Lists a' o.
Proof. intros E1 E2 [A B]. constructor; rewrite ?E1, ?E2; auto. Qed.

Lemma deliver_app o o' : delivered (o ++ o') = delivered o ++ delivered o'. Proof. apply flat_map_app. Qed.

Lemma delivered_step a ev : delivered (snd (astep a ev)) = [] \/
  exists e, at_ a = SSending e /\ ev = STask (an a) ROk /\ delivered (snd (astep a ev)) = [msg_p e].
Proof.
  assert (Rp : forall r, delivered (s_reply dto_ok truthy r) = []).
  { intros r. unfold s_reply. destruct r as [d|]; [destruct (truthy d); [destruct (dto_ok d)|]|]; reflexivity. }
  assert (Lp : forall b : ast, delivered (snd (a_loop b)) = []).
  { intros b. unfold SenderProofs.a_loop. destruct (ap b); [reflexivity|]. destruct (al b) as [|[k e] r]; [reflexivity|].
    destruct (dto_ok _); [destruct wait|]; reflexivity. }
  destruct ev; cbn [SenderProofs.astep].
  - cbn [fst snd a_pend]. destruct (has _ _); auto.
  - destruct (Nat.eqb i (an a)) eqn:I; [|auto]. apply Nat.eqb_eq in I. subst i. destruct (at_ a) as [|e|e|] eqn:T; auto.
    cbn [fst snd]. rewrite deliver_app, Lp, app_nil_r. destruct r; cbn [SenderProofs.a_settle].
    + right. exists e. auto.
    + left. destruct (_ <=? _); cbn [fst snd a_err a_pend]; destruct (has _ _); reflexivity.
    + left. cbn [fst snd a_err a_pend]; destruct (has _ _); reflexivity.
  - destruct (Nat.eqb i (an a)); [|auto]. destruct (at_ a); auto.
  - auto.
  - auto.
  - left. cbn [snd]. unfold a_all_outs. induction (ae a) as [|x l IH]; [reflexivity|]. cbn [flat_map]. rewrite deliver_app, IH. destruct (has _ _); reflexivity.
  - left. destruct (lookup k (ae a)); [|reflexivity]. cbn [snd]. rewrite deliver_app, Rp. destruct (has _ _); reflexivity.
  - left. destruct (lookup k (ae a)) as [y|]; [|reflexivity]. cbn [snd]. apply (Rp (Some (ee_data y))).
  - left. apply Rp.
  - left. cbn [snd]. clear. induction (ae a) as [|x l IH]; [reflexivity|]. cbn. auto.
  - auto.
Qed.

Lemma g1_delivered o : incl (delivered o) (g1 o).
Proof.
  unfold delivered, g1. intros x. rewrite !in_flat_map. intros [y [Hy Hx]]. exists y. split; [auto|]. destruct y; cbn in *; tauto.
Qed.

Theorem astep_att a o ev : wf a -> Cons init a o -> NoDup (keys (enqueued (o ++ snd (astep a ev)) ++ init)) ->
  AttI a o -> AttI (fst (astep a ev)) (o ++ snd (astep a ev)).
Proof.
  intros W P N [HL [HH [HA HD]]].
  destruct (enq_prefix no_meta dto_ok truthy wait max_retries _ a o ev P) as [rr Pr].
  pose proof (nodup_sub _ _ _ Pr N) as Ns.
  assert (Nm : NoDup (keys (a_msgs a))) by (rewrite map_app in Ns; now apply NoDup_app_remove_l in Ns).
  destruct (distinct_places a W Nm) as [De Dh].
  assert (In0 : forall k, In k (keys (a_msgs a)) -> In k (keys (enqueued o ++ init))).
  { intros k Hk. unfold Cons in P. apply (Permutation_map fst) in P. eapply Permutation_in; [symmetry; exact P|].
    rewrite map_app, in_app_iff. now left. }
  assert (Nog : forall k, In k (keys (g1 o)) -> ~ In k (keys (a_msgs a))).
  { intros k Hk Hm. assert (X : NoDup (keys (a_msgs a ++ g1 o))).
    { eapply Permutation_NoDup; [apply Permutation_map, P|]. eapply enq_mono, N. }
    rewrite map_app in X. exact (nodup_disj _ _ k X Hm Hk). }
  assert (Quiet : forall k, ~ In k (keys (a_msgs a)) -> cnt k (o ++ snd (astep a ev)) = cnt k o).
  { intros k Hk. apply cnt_quiet. intros x Hx Hm. apply Hk. eapply astep_mentions; eauto. }
  assert (Last : Absent (o ++ snd (astep a ev)) /\ Done (o ++ snd (astep a ev))).
  { split.
    - intros k Hk. rewrite Quiet.
      + apply HA. intros X. apply Hk. rewrite enq_app, <- app_assoc, map_app, in_app_iff. rewrite map_app, in_app_iff in X.
        rewrite map_app, in_app_iff. tauto.
      + intros X. apply Hk. apply In0 in X. rewrite enq_app, <- app_assoc, map_app, in_app_iff. rewrite map_app, in_app_iff in X.
        rewrite map_app, in_app_iff. tauto.
    - intros x. rewrite deliver_app, in_app_iff. intros [Hx|Hx].
      + rewrite Quiet; [now apply HD|]. apply Nog. apply in_map. now apply g1_delivered.
      + destruct (delivered_step a ev) as [X|[e [T [-> X]]]]; rewrite X in Hx; [destruct Hx|]. destruct Hx as [<-|[]].
        rewrite T in HH. cbn [Hand] in HH. destruct HH as [A [B _]]. exists (pe_retries e + 1). cbn [msg_p fst].
        assert (Q : forall y, In y (snd (astep a (STask (an a) ROk))) -> ~ mentions (pe_key e) y).
        { intros y Hy Hm. cbn [SenderProofs.astep] in Hy. rewrite Nat.eqb_refl, T in Hy. cbn [SenderProofs.a_settle fst snd] in Hy.
          rewrite in_app_iff in Hy. destruct Hy as [[<-|[]]|Hy]; [exact Hm|].
          apply (loop_mentions a (pe_key e) y (wf_p _ W)) in Hy; auto.
          exact (proj1 (Dh e ltac:(rewrite T; now left)) Hy). }
        rewrite cnt_quiet by exact Q. rewrite A. split; [now replace (pe_retries e + 1 - 1) with (pe_retries e) by lia|clear - B; lia]. }
  unfold AttI. destruct Last as [La Ld]. cut (Lists (fst (astep a ev)) (o ++ snd (astep a ev)) /\ Hand (at_ (fst (astep a ev))) (o ++ snd (astep a ev))).
  { intros [H1 H2]. split; [exact H1|]. split; [exact H2|]. split; [exact La|exact Ld]. }
  clear La Ld Quiet.
  destruct ev; cbn [SenderProofs.astep] in *.
  - (* enqueue *)
    cbn [fst snd a_pend] in *.
    assert (Nk : ~ In k (keys (al a))).
    { intros Hk. destruct (has k (al a)); cbn in Ns; inversion Ns as [|? ? Hn _]; subst; apply Hn; rewrite msg_keys by auto; apply in_or_app; now left. }
    assert (Nk' : ~ In k (keys (enqueued o ++ init))).
    { rewrite enq_app, <- app_assoc in N. assert (E : enqueued ([if has k (al a) then ODropped (k, d) else OQueued k] ++ [OEnqueued (k, d)]) = [(k, d)]) by (destruct (has _ _); reflexivity).
      rewrite E in N. rewrite map_app in N. cbn [app map fst] in N. apply NoDup_remove_2 in N. now rewrite map_app. }
    rewrite has_not by auto. set (o1 := [OQueued k] ++ [OEnqueued (k, d)]).
    assert (Q : forall x k, In x o1 -> ~ mentions k x) by (unfold o1; ment).
    split.
    + apply wake_lists. destruct (lists_quiet a o o1 Q HL) as [A B]. constructor; [|exact B]. cbn [with_l al]. unfold add.
      rewrite has_not by auto. intros k' e. rewrite in_app_iff. intros [Hi|[Hi|[]]]; [auto|]. injection Hi as <- <-.
      unfold okp. cbn [pe_retries]. rewrite cnt_quiet by auto. split; [now apply HA|]. split; [lia|].
      intros X. exfalso. apply Nk'. rewrite map_app, in_app_iff. right. unfold init_of. rewrite map_app, in_app_iff. right.
      rewrite <- Hke in X. exact X.
    + apply wake_hand. cbn [with_l at_]. now apply hand_quiet.
  - (* task *)
    destruct (Nat.eqb i (an a)); [|cbn; rewrite app_nil_r; auto]. destruct (at_ a) as [|e|e|] eqn:T.
    + apply loop_att; auto; apply W.
    + cbn [fst snd with_t at_ Hand]. cbn [Hand] in HH. destruct (Dh e (or_introl eq_refl)) as [D1 D2]. split.
      * apply flags_lists with (a := a); auto. apply lists_other with (k0 := pe_key e); auto. ment.
      * now apply okp_send.
    + cbn [Hand] in HH. destruct (Dh e (or_introl eq_refl)) as [D1 D2]. cbn [fst snd]. rewrite app_assoc.
      destruct (settle_order no_meta max_retries a e r) as [_ [_ [Ks Kf]]].
      pose proof (settle_att a o e r (wf_p _ W) D1 D2 HL HH) as X.
      assert (Sd : NoDup (keys (al (fst (a_settle a e r)))) /\
        (forall k, In k (keys (ae (fst (a_settle a e r)))) -> ~ In k (keys (al (fst (a_settle a e r)))))).
      { apply settle_distinct; auto. eapply Permutation_NoDup; [apply Permutation_map|exact Nm]. unfold a_msgs. rewrite T. cbn. perm. }
      apply loop_att; auto.
      * apply Kf, W.
      * exact (proj1 Sd).
      * exact (proj2 Sd).
    + cbn. rewrite app_nil_r. rewrite T. auto.
  - (* cancel *)
    destruct (Nat.eqb i (an a)); [|cbn; rewrite app_nil_r; auto].
    destruct (at_ a) as [|e|e|] eqn:T; cbn [fst snd with_t at_ Hand]; rewrite ?app_nil_r.
    + split; [|auto]. apply flags_lists with (a := a); auto.
    + split; [|auto]. apply flags_lists with (a := a); auto. apply lists_quiet; [ment|auto].
    + split; [|auto]. apply flags_lists with (a := a); auto. apply lists_quiet; [ment|auto].
    + rewrite T. auto.
  - cbn. rewrite app_nil_r. split; [|auto]. apply flags_lists with (a := a); auto.
  - cbn [fst snd]. rewrite app_nil_r. split; [|now apply wake_hand]. apply wake_lists. apply flags_lists with (a := a); auto.
  - (* reprocess all *)
    cbn [fst snd]. set (o1 := a_all_outs (al a) (ae a)).
    assert (Ft : filter (fun e => negb (has (fst e) (al a))) (ae a) = ae a).
    { clear - De. induction (ae a) as [|x l IH]; [reflexivity|]. cbn [filter]. rewrite has_not by (apply De; now left). cbn [negb].
      f_equal. apply IH. intros k Hk. apply De. now right. }
    rewrite Ft.
    assert (Q : forall k, ~ In k (keys (ae a)) -> forall x, In x o1 -> ~ mentions k x).
    { intros k Hk x Hx Hm. apply Hk. eapply all_mentions; eauto. }
    split.
    + apply wake_lists. constructor; cbn [with_p with_e with_l al ae]; [|intros ? ? []]. intros k e. rewrite in_app_iff. intros [Hi|Hi].
      * apply okp_quiet; [|now apply HL]. apply Q. intros Hk. apply (De k Hk). now apply (in_map fst) in Hi.
      * apply in_map_iff in Hi. destruct Hi as [[k1 x] [E Hx]]. injection E as <- <-. unfold okp. cbn [pe_retries].
        assert (Hk : In k1 (keys (ae a))) by now apply (in_map fst) in Hx.
        split; [unfold cnt; rewrite cfold_app; now apply all_outs_cnt|]. split; [lia|].
        intros _. apply in_or_app. right. unfold o1, a_all_outs. apply in_flat_map. exists (k1, x). split; [auto|now left].
    + apply wake_hand. cbn [with_p with_e with_l at_]. destruct (at_ a) as [|e|e|] eqn:T; cbn [Hand] in *; auto.
      * apply okp_quiet; [|auto]. apply Q. apply Dh. now left.
      * apply oks_quiet; [|auto]. apply Q. apply Dh. now left.
  - (* reprocess one *)
    destruct (lookup k (ae a)) as [x|] eqn:L.
    + cbn [fst snd]. assert (Hk : In k (keys (ae a))) by (apply lookup_In in L; now apply (in_map fst) in L).
      rewrite has_not by now apply De. set (o1 := [OReprocessed k; OQueued k] ++ s_reply dto_ok truthy (Some (ee_data x))).
      assert (Q : forall y k', In y o1 -> mentions k' y -> k' = k).
      { intros y k' Hy Hm. unfold o1 in Hy. rewrite in_app_iff in Hy. destruct Hy as [[<-|[<-|[]]]|Hy]; cbn in Hm; try tauto; [congruence|].
        exfalso. eapply reply_mentions; eauto. }
      split.
      * apply wake_lists. apply flags_lists with (a := with_e (with_l a (add (al a) k (snd (retried (k, x))))) (without k (ae a))); auto.
        assert (X : Lists (with_e a (without k (ae a))) (o ++ o1)).
        { apply lists_other with (k0 := k); auto; cbn [with_e al ae].
          - intros Hi. apply in_map_iff in Hi. destruct Hi as [[k1 y] [E Hy]]. cbn in E. subst k1. unfold without in Hy. apply filter_In in Hy.
            destruct Hy as [_ Hy]. cbn in Hy. now rewrite N.eqb_refl in Hy.
          - destruct HL as [A B]. constructor; cbn [with_e al ae]; auto. intros k1 y Hy. apply B. unfold without in Hy. now apply filter_In in Hy. }
        destruct X as [A B]. constructor; cbn [with_e with_l al ae] in *; auto. unfold add. rewrite has_not by now apply De.
        intros k1 e. rewrite in_app_iff. intros [Hi|[Hi|[]]]; [auto|]. injection Hi as <- <-. unfold okp. cbn [retried snd pe_retries].
        split; [|split; [lia|]].
        -- unfold o1. change ([OReprocessed k; OQueued k] ++ ?l) with ([OReprocessed k] ++ (OQueued k :: l)). rewrite app_assoc, cnt_quiet.
           ++ apply reproc_cnt.
           ++ intros y [<-|Hy]; [cbn; tauto|]. eapply reply_mentions; eauto.
        -- intros _. apply in_or_app. right. now left.
      * apply wake_hand. cbn [with_p with_e with_l at_]. destruct (at_ a) as [|e|e|] eqn:T; cbn [Hand] in *; auto;
          destruct (Dh e (or_introl eq_refl)) as [_ D2].
        -- apply okp_quiet; [|auto]. intros y Hy Hm. apply D2. now rewrite (Q y _ Hy Hm).
        -- apply oks_quiet; [|auto]. intros y Hy Hm. apply D2. now rewrite (Q y _ Hy Hm).
    + cbn [fst snd]. assert (Q : forall (x : sout) k, In x [OReply None] -> ~ mentions k x) by (ment).
      split; [apply wake_lists, lists_quiet, flags_lists with (a := a); auto|]. apply wake_hand. cbn [with_p at_]. now apply hand_quiet.
  - (* pop *)
    destruct (lookup k (ae a)) as [x|] eqn:L; cbn [fst snd].
    + assert (Q : forall y k', In y (ORemoved (msg_e x) :: s_reply dto_ok truthy (Some (ee_data x))) -> ~ mentions k' y).
      { intros y k' [<-|Hy]; [cbn; tauto|]. eapply reply_mentions; eauto. }
      split; [|cbn [with_e at_]; now apply hand_quiet]. apply lists_quiet; auto. destruct HL as [A B]. constructor; cbn [with_e al ae]; auto.
      intros k1 y Hy. apply B. unfold without in Hy. now apply filter_In in Hy.
    + assert (Q : forall (x : sout) k, In x [OReply None] -> ~ mentions k x) by (ment).
      split; [now apply lists_quiet|now apply hand_quiet].
  - cbn [fst snd]. assert (Q : forall x k', In x (s_reply dto_ok truthy (option_map ee_data (lookup k (ae a)))) -> ~ mentions k' x)
      by (intros x k'; apply reply_mentions).
    split; [now apply lists_quiet|now apply hand_quiet].
  - cbn [fst snd]. assert (Q : forall x k', In x (map (fun e => ORemoved (msg_e (M:=M) (snd e))) (ae a)) -> ~ mentions k' x).
    { intros x k' Hx. apply in_map_iff in Hx. destruct Hx as [e [<- _]]. cbn. tauto. }
    split; [|now apply hand_quiet]. apply lists_quiet; auto. destruct HL as [A B]. constructor; cbn [with_e al ae]; [auto|intros ? ? []].
  - cbn. rewrite app_nil_r. split; [|auto]. apply flags_lists with (a := a); auto.
Qed.
End Attempts.


Lemma lookup_In_iff {V} k (l : list (N * V)) v : NoDup (keys l) -> In (k, v) l <-> lookup k l = Some v.
Proof.
  intros H. split; [|apply lookup_In]. unfold lookup. induction l as [|[k' v'] l IH]; cbn [In find]; [tauto|].
  inversion H as [|? ? Hn Hd]; subst. intros [Hi|Hi].
  - injection Hi as -> ->. cbn [fst]. rewrite N.eqb_refl. reflexivity.
  - cbn [fst]. destruct (N.eqb_spec k' k) as [->|]; [|auto]. exfalso. apply Hn. now apply (in_map fst) in Hi.
Qed.

Lemma s_attempts q0 lp0 le0 evs s o : preachable no_meta q0 -> usable q0 -> holds q0 lp0 le0 ->
  srun (s_setup q0) evs = (s, o) -> sclosed s = 0%nat ->
  NoDup (keys (enqueued o ++ msgs_p lp0 ++ msgs_e le0)) ->
  (forall k e, In (k, e) lp0 -> 0 <= pe_retries e < lim) ->
  exists lp le, holds (sq s) lp le /\
    (forall k e, In (k, e) lp -> attempts_of k (s_start lp0 k) o = pe_retries e /\ retryable_of k (s_start lp0 k) o = pe_retries e /\
       failure_of k None o = None /\ 0 <= pe_retries e < lim) /\
    (forall e, In e (in_hand s) -> pe_retries e <= attempts_of (pe_key e) (s_start lp0 (pe_key e)) o <= pe_retries e + 1 /\
       retryable_of (pe_key e) (s_start lp0 (pe_key e)) o = pe_retries e /\ failure_of (pe_key e) None o = None /\ 0 <= pe_retries e < lim) /\
    (forall k x, In (k, x) le -> (In k (keys le0) -> In (OReprocessed k) o) ->
       (ee_reason x = "Max retries reached."%string /\ failure_of k None o = None /\
        attempts_of k (s_start lp0 k) o = lim /\ retryable_of k (s_start lp0 k) o = lim) \/
       (failure_of k None o = Some (ee_reason x) /\ 1 <= attempts_of k (s_start lp0 k) o <= lim /\
        attempts_of k (s_start lp0 k) o = retryable_of k (s_start lp0 k) o + 1)) /\
    (forall x, In x (delivered o) -> failure_of (fst x) None o = None /\ 1 <= attempts_of (fst x) (s_start lp0 (fst x)) o <= lim /\
       attempts_of (fst x) (s_start lp0 (fst x)) o = retryable_of (fst x) (s_start lp0 (fst x)) o + 1).
Proof.
  intros Hr U Hh E C N B0. pose proof (preachable_inv no_meta q0 Hr) as I0. destruct (holds_unique q0 lp0 le0 I0 U Hh) as [-> ->].
  pose proof (R_wf no_meta _ _ (setup_ok no_meta q0 Hr U)) as W0.
  pose proof (keys_e _ W0) as Ke. cbn [ae] in Ke. pose proof (keys_p _ W0) as Kp. cbn [al] in Kp.
  destruct (run_inv2 no_meta dto_ok truthy wait max_retries (fun a o => NoDup (keys (enqueued o ++ init_of q0)) -> AttI q0 a o) q0 evs s o Hr U)
    as [a [A [W [P Q]]]]; auto.
  - intros a o1 ev Hi W P Q N1. apply astep_att; auto. apply Q. eapply enq_mono, N1.
  - cbn [enqueued flat_map app]. intros N1.
    assert (Nl : forall k, In k (keys (pc q0)) -> ~ In k (keys (ec q0))).
    { intros k Hk. unfold init_of in N1. rewrite map_app in N1. apply (nodup_disj _ _ k) in N1; [rewrite <- Ke; exact N1|rewrite <- Kp in Hk; exact Hk]. }
    assert (Np : NoDup (keys (pc q0))).
    { unfold init_of in N1. rewrite map_app in N1. apply NoDup_app_remove_r in N1. rewrite <- Kp. exact N1. }
    split; [|split; [exact I|split]].
    + constructor; cbn [start al ae].
      * intros k e H. unfold okp, cnt, n0, cfold. cbn [fold_left]. rewrite (lookup_In_iff _ _ _ Np) in H. rewrite H.
        split; [auto|]. split; [apply (B0 k e); now apply lookup_In|]. intros X. exfalso. apply lookup_In, (in_map fst) in H. now apply (Nl k).
      * intros k x H Hb. unfold back in Hb. apply (in_map fst) in H. destruct (Hb H).
    + intros k Hk. unfold cnt, n0, cfold. cbn [fold_left enqueued flat_map app] in *. destruct (lookup k (pc q0)) as [e|] eqn:L; [|reflexivity].
      exfalso. apply Hk. unfold init_of. rewrite map_app, in_app_iff. left. apply lookup_In, (in_map fst) in L. rewrite <- Kp in L. exact L.
    + intros x [].
  - destruct (Q N) as [[Lp Le] [Hd [_ Dn]]]. clear Q. exists (al a), (ae a). split; [eapply R_holds; eauto|].
    assert (X : forall k n m f, cnt q0 k o = (n, m, f) -> attempts_of k (s_start (pc q0) k) o = n /\ retryable_of k (s_start (pc q0) k) o = m /\ failure_of k None o = f).
    { intros k n m f H. unfold cnt in H. rewrite cfold_spec in H. injection H as <- <- <-. unfold n0, s_start. auto. }
    split; [|split; [|split]].
    + intros k e H. destruct (Lp k e H) as [H1 [H2 _]]. apply X in H1. tauto.
    + intros e He. rewrite (in_hand_R no_meta s a (proj1 A)) in He. destruct (at_ a) as [|e'|e'|] eqn:T; cbn [hand_of In Hand] in *; try tauto;
        destruct He as [<-|[]]; destruct Hd as [H1 [H2 _]]; apply X in H1; destruct H1 as [-> [-> ->]]; (split; [lia|]; split; [auto|]; split; auto).
    + intros k x H Hb. destruct (Le k x H Hb) as [[H1 H2]|[n [H1 H2]]]; [left|right]; [apply X in H2|apply X in H1]; [tauto|].
      destruct H1 as [-> [-> ->]]. split; [auto|]. split; [lia|lia].
    + intros x H. destruct (Dn x H) as [n [H1 H2]]. apply X in H1. destruct H1 as [-> [-> ->]]. split; [auto|]. split; lia.
Qed.

(** ** Runs without a shut-down *)
Lemma astep_ash a ev : ev <> SShutDown -> ash (fst (astep a ev)) = ash a.
Proof.
  assert (Wk : forall b : ast, ash (a_wake b) = ash b) by (intros b; unfold a_wake; destruct (at_ b); reflexivity).
  assert (Lp : forall b : ast, ash (fst (a_loop b)) = ash b).
  { intros b. unfold SenderProofs.a_loop. destruct (ap b); [reflexivity|]. destruct (al b) as [|[k e] r]; [reflexivity|].
    destruct (dto_ok _); [destruct wait|]; reflexivity. }
  intros H. destruct ev; cbn [SenderProofs.astep]; try reflexivity; try (cbn [fst]; rewrite Wk; reflexivity).
  - destruct (Nat.eqb _ _); [|reflexivity]. destruct (at_ a) as [|e|e|]; try reflexivity; [apply Lp|].
    cbn [fst]. rewrite Lp. apply (a_settle_n no_meta max_retries a e r).
  - destruct (Nat.eqb _ _); [|reflexivity]. destruct (at_ a); reflexivity.
  - destruct (lookup k (ae a)); cbn [fst]; rewrite Wk; reflexivity.
  - destruct (lookup k (ae a)); reflexivity.
  - congruence.
Qed.

Lemma srun_R evs : forall s a s' o, R s a -> ash a = false -> (forall ev, In ev evs -> ev <> SShutDown) -> srun s evs = (s', o) ->
  R s' (fst (arun a evs)) /\ o = snd (arun a evs) /\ ash (fst (arun a evs)) = false.
Proof.
  induction evs as [|ev r IH]; intros s a s' o H S F E; cbn [SenderModel.srun SenderProofs.arun] in *; [injection E as <- <-; auto|].
  pose proof (sstep_ok no_meta dto_ok truthy wait max_retries s a ev H) as X.
  assert (S1 : ash (fst (astep a ev)) = false) by (rewrite astep_ash; auto; apply F; now left).
  destruct (sstep s ev) as [s1 o1]. destruct (srun s1 r) as [s2 o2] eqn:E2. injection E as <- <-.
  destruct (astep a ev) as [a1 o1']. cbn [fst snd] in *. unfold After, closes in X. rewrite S1 in X. cbn [andb] in X. destruct X as [-> X].
  specialize (IH s1 a1 s2 o2 X S1 (fun e He => F e (or_intror He)) E2). destruct (arun a1 r) as [a2 o2']. cbn [fst snd] in *.
  destruct IH as [IH1 [-> IH2]]. auto.
Qed.

Lemma arun_app a evs evs' : arun a (evs ++ evs') =
  let (a1, o1) := arun a evs in let (a2, o2) := arun a1 evs' in (a2, o1 ++ o2).
Proof.
  revert a. induction evs as [|ev r IH]; intros a; cbn [SenderProofs.arun app].
  - destruct (arun a evs'). reflexivity.
  - destruct (astep a ev) as [a1 o1]. rewrite IH. destruct (arun a1 r) as [a2 o2]. destruct (arun a2 evs') as [a3 o3]. now rewrite app_assoc.
Qed.
Lemma srun_app s evs evs' : srun s (evs ++ evs') =
  let (s1, o1) := srun s evs in let (s2, o2) := srun s1 evs' in (s2, o1 ++ o2).
Proof.
  revert s. induction evs as [|ev r IH]; intros s; cbn [SenderModel.srun app].
  - destruct (srun s evs'). reflexivity.
  - destruct (sstep s ev) as [a1 o1]. rewrite IH. destruct (srun a1 r) as [a2 o2]. destruct (srun a2 evs') as [a3 o3]. now rewrite app_assoc.
Qed.

(** ** Draining *)
Lemma loop_take a k e r : ap a = false -> al a = (k, e) :: r -> dto_ok (pe_data e) = true ->
  fst (a_loop a) = with_t (with_l a r) (if wait then SWaiting e else SSending e) /\ delivered (snd (a_loop a)) = [].
Proof. intros P L V. unfold SenderProofs.a_loop. rewrite P, L, V. destruct wait; auto. Qed.

Lemma drain_hand n : forall a e, List.length (al a) = n -> Valid dto_ok (msgs_p (al a)) -> ap a = false ->
  (at_ a = SWaiting e \/ at_ a = SSending e) ->
  exists m, let x := arun a (repeat (STask (an a) ROk) m) in
    al (fst x) = [] /\ at_ (fst x) = SDone /\ ae (fst x) = ae a /\ delivered (snd x) = msg_p e :: msgs_p (al a).
Proof.
  assert (Snd : forall n, (forall a e, List.length (al a) = n -> Valid dto_ok (msgs_p (al a)) -> ap a = false -> at_ a = SSending e ->
    exists m, let x := arun a (repeat (STask (an a) ROk) m) in
    al (fst x) = [] /\ at_ (fst x) = SDone /\ ae (fst x) = ae a /\ delivered (snd x) = msg_p e :: msgs_p (al a)) ->
    forall a e, List.length (al a) = n -> Valid dto_ok (msgs_p (al a)) -> ap a = false -> at_ a = SWaiting e \/ at_ a = SSending e ->
    exists m, let x := arun a (repeat (STask (an a) ROk) m) in
    al (fst x) = [] /\ at_ (fst x) = SDone /\ ae (fst x) = ae a /\ delivered (snd x) = msg_p e :: msgs_p (al a)).
  { clear n. intros n IH a e L V P [T|T]; [|now apply IH].
    destruct (IH (with_t a (SSending e)) e L V P eq_refl) as [m Hm]. exists (S m). cbn [repeat SenderProofs.arun]. cbn [SenderProofs.astep].
    rewrite Nat.eqb_refl, T. cbn [with_t an] in *. destruct (arun _ _) as [a2 o2]. cbn [fst snd] in *. exact Hm. }
  induction n as [|n IH]; apply Snd; intros a e L V P T.
  - destruct (al a) eqn:E; [|discriminate]. exists 1%nat. cbn [repeat SenderProofs.arun]. cbn [SenderProofs.astep]. rewrite Nat.eqb_refl, T.
    cbn [SenderProofs.a_settle fst snd]. unfold SenderProofs.a_loop. rewrite P, E. cbn. auto.
  - destruct (al a) as [|[k e'] l] eqn:E; [discriminate|]. inversion V as [|? ? V1 V2]; subst. cbn in V1.
    destruct (IH (with_t (with_l a l) (if wait then SWaiting e' else SSending e')) e') as [m Hm]; auto.
    { destruct wait; auto. }
    exists (S m). cbn [repeat SenderProofs.arun]. cbn [SenderProofs.astep]. rewrite Nat.eqb_refl, T.
    cbn [SenderProofs.a_settle fst snd]. destruct (loop_take a k e' l P E V1) as [Q1 Q2]. rewrite Q1.
    destruct (arun _ _) as [a2 o2]. cbn [fst snd] in *. destruct Hm as [H1 [H2 [H3 H4]]].
    split; [auto|]. split; [auto|]. split; [auto|]. rewrite !deliver_app, Q2, H4. reflexivity.
Qed.

Lemma drain a : Valid dto_ok (a_msgs a) -> ap a = false -> at_ a <> SDone ->
  exists m, let x := arun a (repeat (STask (an a) ROk) m) in
    al (fst x) = [] /\ at_ (fst x) = SDone /\ ae (fst x) = ae a /\ delivered (snd x) = msgs_h (hand_of (at_ a)) ++ msgs_p (al a).
Proof.
  intros V P T. apply valid_app in V. destruct V as [V _]. destruct (at_ a) as [|e|e|] eqn:Ta; [| | |congruence].
  - destruct (al a) as [|[k e] l] eqn:E.
    + exists 1%nat. cbn [repeat SenderProofs.arun]. cbn [SenderProofs.astep]. rewrite Nat.eqb_refl, Ta. unfold SenderProofs.a_loop. rewrite P, E. cbn. auto.
    + inversion V as [|? ? V1 V2]; subst. cbn in V1.
      destruct (drain_hand _ (with_t (with_l a l) (if wait then SWaiting e else SSending e)) e eq_refl) as [m Hm]; auto.
      { destruct wait; auto. }
      exists (S m). cbn [repeat SenderProofs.arun]. cbn [SenderProofs.astep]. rewrite Nat.eqb_refl, Ta.
      destruct (loop_take a k e l P E V1) as [Q1 Q2]. destruct (a_loop a) as [a1 o1]. cbn [fst snd] in Q1, Q2. subst a1.
      cbn [with_t with_l an] in Hm. destruct (arun _ _) as [a2 o2]. cbn [fst snd] in *. destruct Hm as [H1 [H2 [H3 H4]]].
      split; [auto|]. split; [auto|]. split; [auto|]. rewrite deliver_app, Q2, H4. reflexivity.
  - destruct (drain_hand _ a e eq_refl V P (or_introl Ta)) as [m Hm]. exists m. exact Hm.
  - destruct (drain_hand _ a e eq_refl V P (or_intror Ta)) as [m Hm]. exists m. exact Hm.
Qed.

(** Every message in hand or pending is delivered, in order, once sending is allowed and succeeds. *)
Theorem s_drains q0 lp0 le0 evs s o lp le : preachable no_meta q0 -> usable q0 -> holds q0 lp0 le0 ->
  srun (s_setup q0) evs = (s, o) -> sclosed s = 0%nat -> forallb (fun e => negb (cancels e)) evs = true ->
  Forall (fun x => dto_ok (snd x) = true) (enqueued o ++ msgs_p lp0 ++ msgs_e le0) ->
  holds (sq s) lp le -> spaused s = false -> sshut s = false ->
  exists i m s' o', srun s (repeat (STask i ROk) m) = (s', o') /\
    delivered o' = msgs_h (in_hand s) ++ msgs_p lp /\ holds (sq s') [] le /\ in_hand s' = [].
Proof.
  intros Hr U Hh E C Fc V Hs P S.
  destruct (s_order_and_wake no_meta dto_ok truthy wait max_retries q0 lp0 le0 evs s o Hr U Hh E C Fc V) as [a [A [Va [Aw _]]]].
  destruct (R_unique no_meta s a lp le A Hs) as [-> ->].
  rewrite (r_p _ _ _ (proj1 A)) in P. rewrite (r_s _ _ _ (proj1 A)) in S. rewrite (in_hand_R no_meta s a (proj1 A)).
  assert (Dn : at_ a = SDone \/ at_ a <> SDone) by (destruct (at_ a); auto; right; discriminate).
  destruct Dn as [Dn|Dn].
  - exists 0%nat, 0%nat, s, []. split; [reflexivity|]. rewrite Dn. cbn [hand_of msgs_h map app].
    assert (X : al a = []). { destruct (al a) eqn:El; [reflexivity|]. exfalso. apply (Aw P); [congruence|auto]. }
    rewrite X. split; [reflexivity|]. split; [rewrite <- X; now apply R_holds with (no_meta := no_meta)|].
    rewrite (in_hand_R no_meta s a (proj1 A)), Dn. reflexivity.
  - destruct (drain a Va P Dn) as [m Hm]. exists (an a), m. destruct (srun s (repeat (STask (an a) ROk) m)) as [s' o'] eqn:Es.
    exists s', o'. split; [auto|].
    assert (F : forall ev : sev, In ev (repeat (STask (an a) ROk) m) -> ev <> SShutDown) by (intros ev He; apply repeat_spec in He; subst; discriminate).
    destruct (srun_R _ _ _ _ _ A S F Es) as [A' [-> _]].
    destruct (arun a (repeat (STask (an a) ROk) m)) as [a' o1]. cbn [fst snd] in *. destruct Hm as [H1 [H2 [H3 H4]]].
    split; [auto|]. split; [rewrite <- H1, <- H3; now apply R_holds with (no_meta := no_meta)|].
    rewrite (in_hand_R no_meta s' a' (proj1 A')), H2. reflexivity.
Qed.

Theorem s_fifo q0 lp0 le0 evs s o lp le : preachable no_meta q0 -> usable q0 -> holds q0 lp0 le0 ->
  srun (s_setup q0) evs = (s, o) -> sclosed s = 0%nat -> forallb (fun e => negb (cancels e)) evs = true ->
  Forall (fun x => dto_ok (snd x) = true) (enqueued o ++ msgs_p lp0 ++ msgs_e le0) ->
  holds (sq s) lp le ->
  keys lp0 ++ s_queued o = s_started o ++ keys lp /\
  (s_started o = sends o \/ exists e, in_hand s = [e] /\ s_started o = sends o ++ [pe_key e]).
Proof.
  intros Hr U Hh E C Fc V Hs.
  destruct (s_order_and_wake no_meta dto_ok truthy wait max_retries q0 lp0 le0 evs s o Hr U Hh E C Fc V) as [a [A [Va [Aw [X1 X2]]]]].
  destruct (R_unique no_meta s a lp le A Hs) as [-> ->]. split; [exact X1|].
  rewrite (in_hand_R no_meta s a (proj1 A)). destruct (at_ a) as [|e|e|]; cbn [waitk hand_of] in *; rewrite ?app_nil_r in X2; auto.
  right. exists e. auto.
Qed.

Theorem s_awake_run q0 lp0 le0 evs s o lp le : preachable no_meta q0 -> usable q0 -> holds q0 lp0 le0 ->
  srun (s_setup q0) evs = (s, o) -> sclosed s = 0%nat -> forallb (fun e => negb (cancels e)) evs = true ->
  Forall (fun x => dto_ok (snd x) = true) (enqueued o ++ msgs_p lp0 ++ msgs_e le0) ->
  holds (sq s) lp le -> lp <> [] -> spaused s = false -> s_awake s.
Proof.
  intros Hr U Hh E C Fc V Hs Hl P.
  destruct (s_order_and_wake no_meta dto_ok truthy wait max_retries q0 lp0 le0 evs s o Hr U Hh E C Fc V) as [a [A [Va [Aw _]]]].
  destruct (R_unique no_meta s a lp le A Hs) as [-> ->]. exists (an a), (at_ a). rewrite (r_t _ _ _ (proj1 A)). split; [apply nth_cur|].
  apply Aw; auto. rewrite <- (r_p _ _ _ (proj1 A)). exact P.
Qed.

(** ** Facts about reachable states *)
Lemma reach_R q0 evs s o : preachable no_meta q0 -> usable q0 -> srun (s_setup q0) evs = (s, o) -> sclosed s = 0%nat ->
  exists a, R s a.
Proof.
  intros Hr U E C. destruct (srun_ok no_meta dto_ok truthy wait max_retries _ _ _ _ _ (setup_ok no_meta q0 Hr U) E C) as [A _]. eauto.
Qed.

Theorem s_one_at_a_time q0 evs s o : preachable no_meta q0 -> usable q0 -> srun (s_setup q0) evs = (s, o) -> sclosed s = 0%nat ->
  (List.length (in_hand s) <= 1)%nat /\
  forall i j t u, nth_error (stasks s) i = Some t -> nth_error (stasks s) j = Some u -> s_live t -> s_live u -> i = j.
Proof.
  intros Hr U E C. destruct (reach_R _ _ _ _ Hr U E C) as [a A]. split.
  - rewrite (in_hand_R no_meta s a (proj1 A)). destruct (at_ a); cbn; lia.
  - intros i j t u. rewrite (r_t _ _ _ (proj1 A)). intros Hi Hj Li Lj.
    assert (G : forall i t, nth_error (repeat SDone (an a) ++ [at_ a]) i = Some t -> s_live t -> i = an a).
    { intros i' t' H L. destruct (Nat.eq_dec i' (an a)) as [|Ne]; [auto|]. exfalso.
      destruct (nth_old (an a) SDone (at_ a) i' Ne) as [X|X]; rewrite X in H; [|discriminate]. injection H as <-. now apply L. }
    rewrite (G i t), (G j u); auto.
Qed.

Theorem s_classify q0 evs s o i e r s' o' lp le : preachable no_meta q0 -> usable q0 ->
  srun (s_setup q0) evs = (s, o) -> sclosed s = 0%nat -> sshut s = false -> holds (sq s) lp le ->
  nth_error (stasks s) i = Some (SSending e) -> ~ In (pe_key e) (keys lp) -> ~ In (pe_key e) (keys le) ->
  Forall (fun x => dto_ok (pe_data (snd x)) = true) lp -> dto_ok (pe_data e) = true ->
  sstep s (STask i r) = (s', o') ->
  delivered o' = accepted_by_client e r /\ s_dropped o' = [] /\ s_lost o' = [] /\
  exists lp', holds (sq s') lp' (le ++ failed no_meta max_retries e r) /\
    (if spaused s then [] else firstn 1 (keys (lp ++ requeued no_meta max_retries e r))) = map pe_key (in_hand s') /\
    map (fun x => (pe_key x, x)) (in_hand s') ++ lp' = lp ++ requeued no_meta max_retries e r.
Proof.
  intros Hr U E C S Hs Hi Np Ne Vl Ve E'. destruct (reach_R _ _ _ _ Hr U E C) as [a A]. pose proof (R_wf no_meta s a A) as W.
  destruct (R_unique no_meta s a lp le A Hs) as [-> ->].
  assert (I : i = an a /\ at_ a = SSending e).
  { rewrite (r_t _ _ _ (proj1 A)) in Hi. destruct (Nat.eq_dec i (an a)) as [->|X].
    - rewrite nth_cur in Hi. injection Hi as ->. auto.
    - destruct (nth_old (an a) SDone (at_ a) i X) as [Y|Y]; rewrite Y in Hi; discriminate. }
  destruct I as [-> T]. rewrite (r_s _ _ _ (proj1 A)) in S. rewrite (r_p _ _ _ (proj1 A)).
  destruct (srun_R [STask (an a) r] s a s' o' A S) as [A' [-> S']].
  { intros ev [<-|[]]. discriminate. }
  { cbn [SenderModel.srun]. rewrite E'. now rewrite app_nil_r. }
  cbn [SenderProofs.arun] in *. cbn [SenderProofs.astep] in *. rewrite Nat.eqb_refl, T in *. cbn [fst snd] in *. rewrite app_nil_r.
  assert (Lo : al (fst (a_settle a e r)) = al a ++ requeued no_meta max_retries e r /\
    ae (fst (a_settle a e r)) = ae a ++ failed no_meta max_retries e r /\ ap (fst (a_settle a e r)) = ap a /\
    delivered (snd (a_settle a e r)) = accepted_by_client e r /\ s_dropped (snd (a_settle a e r)) = [] /\ s_lost (snd (a_settle a e r)) = []).
  { destruct r; cbn [SenderProofs.a_settle requeued failed accepted_by_client].
    - cbn. rewrite !app_nil_r. auto 6.
    - destruct (max_retries <=? pe_retries e + 1) eqn:Cm.
      + replace (pe_retries e + 1 <? max_retries) with false by lia. cbn [a_err fst snd with_e al ae ap]. unfold add. rewrite has_not by auto.
        cbn. rewrite app_nil_r. auto 6.
      + replace (pe_retries e + 1 <? max_retries) with true by lia. cbn [a_pend fst snd with_l al ae ap]. unfold add. rewrite has_not by auto.
        cbn. rewrite app_nil_r. auto 6.
    - cbn [a_err fst snd with_e al ae ap]. unfold add. rewrite has_not by auto. cbn. rewrite app_nil_r. auto 6. }
  destruct Lo as [L1 [L2 [L3 [L4 [L5 L6]]]]].
  assert (Vl' : Forall (fun x => dto_ok (pe_data (snd x)) = true) (al a ++ requeued no_meta max_retries e r)).
  { apply Forall_app. split; [auto|]. unfold requeued. destruct r; auto. destruct (_ <? _); auto. }
  assert (Kl' : keyed (al a ++ requeued no_meta max_retries e r)).
  { apply Forall_app. split; [apply W|]. unfold requeued. destruct r; auto. destruct (_ <? _); auto. }
  set (b := fst (a_settle a e r)) in *. rewrite deliver_app, drop_app, lost_app, L4, L5, L6. cbn [app].
  rewrite (in_hand_R no_meta s' _ (proj1 A')).
  assert (G : delivered (snd (a_loop b)) = [] /\ s_dropped (snd (a_loop b)) = [] /\ s_lost (snd (a_loop b)) = [] /\
    ae (fst (a_loop b)) = ae b /\ (if ap a then [] else firstn 1 (keys (al b))) = map pe_key (hand_of (at_ (fst (a_loop b)))) /\
    map (fun x => (pe_key x, x)) (hand_of (at_ (fst (a_loop b)))) ++ al (fst (a_loop b)) = al b).
  { rewrite <- L1 in Vl', Kl'. unfold SenderProofs.a_loop. rewrite L3. destruct (ap a); [cbn; auto 7|].
    destruct (al b) as [|[k x] l] eqn:El; [cbn; rewrite El; auto 7|].
    inversion Vl' as [|? ? V1 V2]; subst. inversion Kl' as [|? ? K1 K2]; subst. cbn in V1, K1. subst k. rewrite V1. destruct wait; cbn; auto 7. }
  destruct G as [G1 [G2 [G3 [G4 [G5 G6]]]]]. rewrite G1, G2, G3, app_nil_r. split; [auto|]. split; [auto|]. split; [auto|].
  exists (al (fst (a_loop b))). split; [|split].
  - rewrite <- L2, <- G4. now apply R_holds with (no_meta := no_meta).
  - rewrite <- L1. exact G5.
  - rewrite <- L1. exact G6.
Qed.

(** ** Pausing *)
Lemma astep_paused a ev : s_unpauses ev = false -> ap a = true ->
  ap (fst (astep a ev)) = true /\ s_started (snd (astep a ev)) = [] /\
  (sends (snd (astep a ev)) = [] /\ incl (hand_of (at_ (fst (astep a ev)))) (hand_of (at_ a)) \/
   exists e, at_ a = SWaiting e /\ sends (snd (astep a ev)) = [pe_key e] /\ at_ (fst (astep a ev)) = SSending e) /\
  (waitk (at_ a) = [] -> waitk (at_ (fst (astep a ev))) = []).
Proof.
  intros Hu P. assert (Wk : forall b : ast, ap (a_wake b) = ap b /\ hand_of (at_ (a_wake b)) = hand_of (at_ b)).
  { intros b. unfold a_wake. destruct (at_ b) eqn:T; rewrite ?T; auto. }
  assert (Lp : forall b : ast, ap b = true -> a_loop b = (with_t b SDone, [])) by (intros b Hb; unfold SenderProofs.a_loop; now rewrite Hb).
  destruct ev; cbn [s_unpauses] in Hu; try discriminate; cbn [SenderProofs.astep].
  - cbn [fst snd a_pend]. rewrite (proj1 (Wk _)), (proj2 (Wk _)), (proj2 (wake_l _)). cbn [with_l ap at_].
    split; [auto|]. destruct (has _ _); cbn; (split; [auto|]); (split; [left; split; [auto|apply incl_refl]|auto]).
  - destruct (Nat.eqb i (an a)); [|cbn; split; [auto|]; split; [auto|]; split; [left; split; [auto|apply incl_refl]|auto]].
    destruct (at_ a) as [|e|e|] eqn:T.
    + rewrite Lp by auto. cbn. split; [auto|]. split; [auto|]. split; [left; split; [auto|apply incl_refl]|auto].
    + cbn. split; [auto|]. split; [auto|]. split; [right; exists e; auto|auto].
    + cbn [fst snd]. destruct (a_settle_n no_meta max_retries a e r) as [_ [_ [_ X]]]. rewrite P in X. rewrite Lp by auto. cbn [fst snd with_t ap at_].
      rewrite app_nil_r. destruct (settle_order no_meta max_retries a e r) as [-> [-> _]].
      split; [auto|]. split; [auto|]. split; [left; split; [auto|intros x []]|auto].
    + cbn. rewrite T. split; [auto|]. split; [auto|]. split; [left; split; [auto|apply incl_refl]|auto].
  - destruct (Nat.eqb i (an a)); [|cbn; split; [auto|]; split; [auto|]; split; [left; split; [auto|apply incl_refl]|auto]].
    destruct (at_ a) eqn:T; cbn; rewrite ?T; (split; [auto|]; split; [auto|]; split; [left; split; [auto|intros x []]|auto]).
  - cbn. split; [auto|]; split; [auto|]; split; [left; split; [auto|apply incl_refl]|auto].
  - destruct (lookup k (ae a)) as [x|]; cbn [fst snd with_e ap at_].
    + destruct (reply_order dto_ok truthy (Some (ee_data x))) as [_ [B F]].
      change (?x :: s_reply dto_ok truthy (Some (ee_data ?y))) with ([x] ++ s_reply dto_ok truthy (Some (ee_data y))).
      rewrite st_app, sd_app, B, F. cbn. split; [auto|]; split; [auto|]; split; [left; split; [auto|apply incl_refl]|auto].
    + cbn. split; [auto|]; split; [auto|]; split; [left; split; [auto|apply incl_refl]|auto].
  - destruct (reply_order dto_ok truthy (option_map ee_data (lookup k (ae a)))) as [_ [B F]]. cbn [fst snd]. rewrite B, F.
    split; [auto|]; split; [auto|]; split; [left; split; [auto|apply incl_refl]|auto].
  - cbn [fst snd with_e ap at_]. assert (X : s_started (map (fun e => ORemoved (msg_e (M:=M) (snd e))) (ae a)) = [] /\
      sends (map (fun e => ORemoved (msg_e (M:=M) (snd e))) (ae a)) = []).
    { clear. induction (ae a) as [|e l [I1 I2]]; auto. }
    destruct X as [-> ->]. split; [auto|]; split; [auto|]; split; [left; split; [auto|apply incl_refl]|auto].
  - cbn. split; [auto|]; split; [auto|]; split; [left; split; [auto|apply incl_refl]|auto].
Qed.

Lemma arun_paused evs : forall a, forallb (fun e => negb (s_unpauses e)) evs = true -> ap a = true ->
  s_started (snd (arun a evs)) = [] /\ incl (sends (snd (arun a evs))) (waitk (at_ a)) /\
  (List.length (sends (snd (arun a evs))) <= List.length (waitk (at_ a)))%nat.
Proof.
  induction evs as [|ev r IH]; intros a F P; cbn [SenderProofs.arun forallb] in *; [cbn; split; [auto|]; split; [intros x []|lia]|].
  apply andb_true_iff in F. destruct F as [F1 F2]. apply negb_true_iff in F1.
  destruct (astep_paused a ev F1 P) as [A [B [C W]]]. destruct (astep a ev) as [a1 o1]. cbn [fst snd] in *.
  specialize (IH a1 F2 A). destruct (arun a1 r) as [a2 o2]. cbn [fst snd] in *. destruct IH as [I1 [I2 I3]].
  rewrite st_app, sd_app, B, I1. split; [auto|]. destruct C as [[C1 C2]|[e [C1 [C2 C3]]]].
  - rewrite C1. cbn [app]. assert (X : waitk (at_ a1) = [] \/ waitk (at_ a1) = waitk (at_ a)).
    { destruct (at_ a) as [|e|e|] eqn:T; try (left; now apply W). destruct (at_ a1) as [|e1|e1|]; cbn; auto.
      specialize (C2 e1 (or_introl eq_refl)). destruct C2 as [->|[]]. auto. }
    destruct X as [X|X]; rewrite X in I2, I3; [|auto]. split; [intros x Hx; destruct (I2 x Hx)|cbn in I3; lia].
  - rewrite C1, C2 in *. rewrite C3 in I2, I3. cbn in I2, I3. cbn [waitk app]. destruct (sends o2); [|cbn in I3; lia].
    split; [apply incl_refl|auto].
Qed.

Theorem s_pause_effective q0 evs s o evs' s' o' : preachable no_meta q0 -> usable q0 ->
  srun (s_setup q0) evs = (s, o) -> spaused s = true ->
  srun s evs' = (s', o') -> sclosed s' = 0%nat -> forallb (fun e => negb (s_unpauses e)) evs' = true ->
  s_started o' = [] /\ incl (sends o') (map pe_key (in_hand s)) /\ (List.length (sends o') <= 1)%nat.
Proof.
  intros Hr U E P E' C F. pose proof (srun_closed no_meta dto_ok truthy wait max_retries evs' s) as X. rewrite E' in X. cbn [fst] in X.
  assert (C0 : sclosed s = 0%nat) by lia.
  destruct (reach_R _ _ _ _ Hr U E C0) as [a A]. rewrite (r_p _ _ _ (proj1 A)) in P.
  destruct (srun_ok no_meta dto_ok truthy wait max_retries _ _ _ _ _ A E' C) as [_ ->].
  destruct (arun_paused evs' a F P) as [B1 [B2 B3]]. split; [auto|]. rewrite (in_hand_R no_meta s a (proj1 A)).
  destruct (at_ a); cbn in B2, B3 |- *; split; auto; try lia; intros x Hx; destruct (B2 x Hx).
Qed.

(** ** Closing *)
Lemma Cl_restart s a ps : Cl no_meta s a -> ps <> 0 -> exists lp' le', preachable no_meta (s_restarted ps s) /\
  holds (s_restarted ps s) lp' le' /\ Permutation (al a) lp' /\ Permutation (ae a) le'.
Proof.
  intros [_ [_ [q [Hq [Uq [L1 [L2 E]]]]]]] Hp.
  destruct (restart_thm no_meta q (pc q) (ec q) ps Hq Uq (holds_contents q (preachable_inv no_meta q Hq) Uq) Hp) as [q' [lp' [le' [A [B [C' [Pp Pe]]]]]]].
  unfold pq_reopen in A. rewrite E in A. cbn [bind] in A. injection A as <-. exists lp', le'. rewrite <- L1, <- L2. auto.
Qed.

Lemma in_hand_Cl s a : Cl no_meta s a -> in_hand s = hand_of (at_ a).
Proof. intros [_ [T _]]. unfold in_hand. apply (in_hand_shape _ _ _ T). Qed.

(** Whatever step closes the queues, a restart finds everything. *)
Theorem s_close_safe q0 lp0 le0 evs s o ev s' o' ps : preachable no_meta q0 -> usable q0 -> holds q0 lp0 le0 ->
  srun (s_setup q0) evs = (s, o) -> sclosed s = 0%nat -> sstep s ev = (s', o') -> sclosed s' <> 0%nat -> ps <> 0 ->
  sclosed s' = 1%nat /\ in_hand s' = [] /\
  exists lp le, preachable no_meta (s_restarted ps s') /\ holds (s_restarted ps s') lp le /\
    Permutation (enqueued (o ++ o') ++ msgs_p lp0 ++ msgs_e le0)
      (msgs_p lp ++ msgs_e le ++ delivered (o ++ o') ++ s_removed (o ++ o') ++ s_dropped (o ++ o') ++ s_lost (o ++ o')).
Proof.
  intros Hr U Hh E C E' C' Hp. destruct (holds_unique q0 lp0 le0 (preachable_inv no_meta q0 Hr) U Hh) as [-> ->].
  destruct (run_inv2 no_meta dto_ok truthy wait max_retries (fun _ _ => True) q0 evs s o Hr U) as [a [A [W [P _]]]]; auto.
  pose proof (sstep_ok no_meta dto_ok truthy wait max_retries s a ev A) as X. rewrite E' in X. cbn [fst snd] in X.
  unfold After in X. destruct (closes (fst (astep a ev))) eqn:Ec; [|exfalso; apply C'; destruct X as [_ X]; eapply R_closed; eauto].
  destruct X as [-> X]. pose proof (in_hand_Cl _ _ X) as Ih. pose proof X as [X1 _]. split; [auto|].
  unfold closes in Ec. apply andb_true_iff in Ec. destruct Ec as [_ Eb].
  assert (Hn : hand_of (at_ (fst (astep a ev))) = []) by (destruct (at_ (fst (astep a ev))); [reflexivity|discriminate|discriminate|reflexivity]).
  split; [congruence|]. destruct (Cl_restart _ _ _ X Hp) as [lp [le [B1 [B2 [B3 B4]]]]]. exists lp, le. split; [auto|]. split; [auto|].
  pose proof (Cons_step no_meta dto_ok truthy wait max_retries _ _ _ ev W P) as Y. unfold Cons in Y.
  assert (Z : forall l, enqueued (l ++ [OClosed]) = enqueued (D:=D) l /\ gone (l ++ [OClosed]) = gone (D:=D) l).
  { intros l. unfold gone, enqueued, delivered, s_removed, s_dropped, s_lost. rewrite !flat_map_app. cbn. now rewrite !app_nil_r. }
  rewrite (app_assoc o (snd (astep a ev)) [OClosed]). destruct (Z (o ++ snd (astep a ev))) as [Z1 Z2]. unfold gone in Z2 at 1. rewrite Z1.
  unfold init_of in Y. rewrite Y. rewrite g1_gone, <- Z2. unfold a_msgs. rewrite Hn. cbn [msgs_h map app].
  assert (Pp : Permutation (msgs_p (al (fst (astep a ev)))) (msgs_p lp)) by now apply Permutation_map.
  assert (Pe : Permutation (msgs_e (ae (fst (astep a ev)))) (msgs_e le)) by now apply Permutation_map.
  rewrite Pp, Pe. rewrite <- app_assoc. reflexivity.
Qed.

Theorem s_shut_down_completes q0 evs s o s1 o1 : preachable no_meta q0 -> usable q0 ->
  srun (s_setup q0) evs = (s, o) -> sclosed s = 0%nat -> sstep s SShutDown = (s1, o1) ->
  sclosed s1 = 1%nat \/ exists i, forall r, sclosed (fst (srun s1 [STask i r; STask i r])) = 1%nat.
Proof.
  intros Hr U E C E1. destruct (reach_R _ _ _ _ Hr U E C) as [a A].
  pose proof (sstep_ok no_meta dto_ok truthy wait max_retries s a SShutDown A) as X. rewrite E1 in X. cbn [fst snd SenderProofs.astep] in X.
  unfold After in X. destruct (closes (with_sh a)) eqn:Ec; [left; apply X|]. right. destruct X as [_ A1]. exists (an a). intros r.
  unfold closes in Ec. cbn [with_sh ash at_ andb] in Ec.
  assert (Cs : forall s2 a2, R s2 a2 -> an a2 = an a -> ap a2 = true -> ash a2 = true -> (exists e, at_ a2 = SSending e) ->
     sclosed (fst (sstep s2 (STask (an a) r))) = 1%nat /\
     nth_error (stasks (fst (sstep s2 (STask (an a) r)))) (an a) = Some SDone).
  { intros s2 a2 B N P S [e T]. pose proof (sstep_ok no_meta dto_ok truthy wait max_retries s2 a2 (STask (an a) r) B) as Y.
    cbn [SenderProofs.astep] in Y. rewrite <- N, Nat.eqb_refl, T in Y. cbn [fst snd] in Y.
    destruct (a_settle_n no_meta max_retries a2 e r) as [F1 [F2 [F3 F4]]].
    assert (L : a_loop (fst (a_settle a2 e r)) = (with_t (fst (a_settle a2 e r)) SDone, [])) by (unfold SenderProofs.a_loop; now rewrite F4, P).
    rewrite L in Y. cbn [fst snd] in Y. unfold After, closes in Y. cbn [with_t ash at_ busy negb] in Y. rewrite F2, S in Y. cbn [andb] in Y.
    destruct Y as [_ [Y1 [Y2 _]]]. rewrite <- N. split; [exact Y1|]. rewrite Y2. cbn [with_t an at_]. rewrite F1. apply nth_cur. }
  assert (T : (exists e, at_ a = SSending e) \/ exists e, at_ a = SWaiting e) by (destruct (at_ a); try discriminate; eauto).
  cbn [SenderModel.srun]. destruct T as [T|[e T]].
  - destruct (Cs s1 _ A1 eq_refl eq_refl eq_refl T) as [C1 C2]. destruct (sstep s1 (STask (an a) r)) as [s2 o2]. cbn [fst] in *.
    cbn [SenderModel.sstep]. unfold s_task. rewrite C2. exact C1.
  - pose proof (sstep_ok no_meta dto_ok truthy wait max_retries s1 _ (STask (an a) r) A1) as Y.
    cbn [SenderProofs.astep with_sh an at_] in Y. rewrite Nat.eqb_refl, T in Y. cbn [fst snd] in Y. unfold After, closes in Y.
    cbn [with_t ash at_ busy negb andb] in Y. destruct Y as [_ Y]. destruct (sstep s1 (STask (an a) r)) as [s2 o2]. cbn [fst] in *.
    destruct (Cs s2 _ Y eq_refl eq_refl eq_refl (ex_intro _ e eq_refl)) as [C1 _]. destruct (sstep s2 (STask (an a) r)) as [s3 o3]. exact C1.
Qed.

Lemma arun_cancel_old l : forall a, ~ In (an a) l -> arun a (map SCancel l) = (a, []).
Proof.
  induction l as [|i l IH]; intros a H; [reflexivity|]. cbn [map SenderProofs.arun]. cbn [SenderProofs.astep].
  replace (Nat.eqb i (an a)) with false by (symmetry; apply Nat.eqb_neq; intros ->; apply H; now left).
  rewrite IH by (intros X; apply H; now right). reflexivity.
Qed.

Theorem s_teardown_closes q0 evs s o s' o' lp le ps : preachable no_meta q0 -> usable q0 ->
  srun (s_setup q0) evs = (s, o) -> sclosed s = 0%nat -> sshut s = false -> holds (sq s) lp le ->
  srun s (s_teardown s) = (s', o') -> ps <> 0 ->
  sclosed s' = 1%nat /\ (forall j t, nth_error (stasks s') j = Some t -> ~ s_live t) /\
  s_lost o' = msgs_h (in_hand s) /\
  exists lp' le', preachable no_meta (s_restarted ps s') /\ holds (s_restarted ps s') lp' le' /\
    Permutation lp lp' /\ Permutation le le'.
Proof.
  intros Hr U E C S Hs E' Hp. destruct (reach_R _ _ _ _ Hr U E C) as [a A]. destruct (R_unique no_meta s a lp le A Hs) as [-> ->].
  rewrite (r_s _ _ _ (proj1 A)) in S. unfold s_teardown in E'. rewrite srun_app in E'.
  destruct (srun s (map SCancel (seq 0 (List.length (stasks s))))) as [s1 o1] eqn:E1. cbn [SenderModel.srun] in E'.
  destruct (sstep s1 SShutDown) as [s2 o2] eqn:E2. injection E' as <- <-. rewrite app_nil_r.
  assert (F : forall ev : sev, In ev (map SCancel (seq 0 (List.length (stasks s)))) -> ev <> SShutDown).
  { intros ev He. apply in_map_iff in He. destruct He as [? [<- _]]. discriminate. }
  destruct (srun_R _ _ _ _ _ A S F E1) as [A1 [-> S1]].
  assert (L : List.length (stasks s) = (an a + 1)%nat).
  { rewrite (r_t _ _ _ (proj1 A)), app_length, repeat_length. cbn. lia. }
  rewrite L in *. clear E1. rewrite seq_app, map_app, arun_app in *.
  rewrite arun_cancel_old in * by (rewrite in_seq; lia). cbn [Nat.add seq map SenderProofs.arun] in *. cbn [SenderProofs.astep] in *.
  rewrite Nat.eqb_refl in *. rewrite (in_hand_R no_meta s a (proj1 A)).
  set (x := match at_ a with SCreated => (with_t a SDone, []) | SWaiting e => (with_t a SDone, [OLost (msg_p e)])
    | SSending e => (with_t a SDone, [OLost (msg_p e)]) | SDone => (a, []) end) in *.
  assert (X : al (fst x) = al a /\ ae (fst x) = ae a /\ at_ (fst x) = SDone /\ s_lost (snd x) = msgs_h (hand_of (at_ a)) /\ an (fst x) = an a).
  { subst x. destruct (at_ a) eqn:T; cbn; rewrite ?T; auto. }
  destruct x as [a1 ox]. cbn [fst snd] in *. destruct X as [X1 [X2 [X3 [X4 X5]]]].
  pose proof (sstep_ok no_meta dto_ok truthy wait max_retries s1 a1 SShutDown A1) as Y. rewrite E2 in Y. cbn [fst snd SenderProofs.astep] in Y.
  unfold After, closes in Y. cbn [with_sh ash at_ andb] in Y. rewrite X3 in Y. cbn [busy negb app] in Y. destruct Y as [-> Y].
  split; [apply Y|]. split; [|split].
  - intros j t. destruct Y as [_ [Y _]]. rewrite Y. cbn [with_sh an at_]. rewrite X3. intros Hj Hl. apply Hl.
    destruct (Nat.eq_dec j (an a1)) as [->|Ne]; [rewrite nth_cur in Hj; congruence|].
    destruct (nth_old (an a1) (SDone : ststate) SDone j Ne) as [Z|Z]; rewrite Z in Hj; congruence.
  - cbn [app]. rewrite !app_nil_r. rewrite lost_app, X4. cbn. now rewrite app_nil_r.
  - destruct (Cl_restart _ _ _ Y Hp) as [lp' [le' [B1 [B2 [B3 B4]]]]]. cbn [with_sh al ae] in *. rewrite X1, X2 in *. eauto 6.
Qed.

(** ** Operations on the error queue *)
Lemma reply_answer (x : option eentry) : (forall y, x = Some y -> dto_ok (ee_data y) = true) ->
  s_replies (s_reply dto_ok truthy (option_map ee_data x)) = [s_answer truthy x].
Proof.
  intros H. destruct x as [y|]; [|reflexivity]. cbn. destruct (truthy (ee_data y)); [|reflexivity]. now rewrite (H y eq_refl).
Qed.
Lemma replies_app o o' : s_replies (o ++ o') = s_replies o ++ s_replies o'. Proof. apply flat_map_app. Qed.

Theorem s_error_ops q0 evs s o lp le k : preachable no_meta q0 -> usable q0 ->
  srun (s_setup q0) evs = (s, o) -> sclosed s = 0%nat -> holds (sq s) lp le ->
  (forall x, lookup k le = Some x -> dto_ok (ee_data x) = true) ->
  (let (s', o') := sstep s (SInspectError k) in s' = s /\ s_replies o' = [s_answer truthy (lookup k le)]) /\
  (let (s', o') := sstep s (SPopError k) in holds (sq s') lp (without k le) /\ spaused s' = spaused s /\ in_hand s' = in_hand s /\
     s_replies o' = [s_answer truthy (lookup k le)]) /\
  (let (s', o') := sstep s (SReprocessOne k) in
     holds (sq s') (match lookup k le with
                    | Some x => if has k lp then lp else lp ++ [retried (k, x)]
                    | None => lp end) (without k le) /\
     spaused s' = false /\ in_hand s' = in_hand s /\ s_replies o' = [s_answer truthy (lookup k le)]) /\
  (let (s', o') := sstep s SReprocessAll in
     holds (sq s') (lp ++ map retried (filter (fun e => negb (has (fst e) lp)) le)) [] /\
     spaused s' = false /\ in_hand s' = in_hand s) /\
  (let (s', o') := sstep s SClearError in holds (sq s') lp [] /\ spaused s' = spaused s /\ in_hand s' = in_hand s).
Proof.
  intros Hr U E C Hs V. destruct (reach_R _ _ _ _ Hr U E C) as [a A]. destruct (R_unique no_meta s a lp le A Hs) as [-> ->].
  pose proof A as [_ [_ Hc]].
  assert (G : forall ev, closes (fst (astep a ev)) = false -> R (fst (sstep s ev)) (fst (astep a ev)) /\ snd (sstep s ev) = snd (astep a ev)).
  { intros ev X. pose proof (sstep_ok no_meta dto_ok truthy wait max_retries s a ev A) as Y. unfold After in Y. rewrite X in Y. tauto. }
  assert (Wl : forall b : ast, hand_of (at_ (a_wake b)) = hand_of (at_ b) /\ al (a_wake b) = al b /\ ae (a_wake b) = ae b /\ ap (a_wake b) = ap b).
  { intros b. unfold a_wake. destruct (at_ b) eqn:T; rewrite ?T; auto. }
  assert (Wc : forall l e b, closes (a_wake (with_p (with_e (with_l a l) e) b)) = false) by (intros l e b; apply wake_closes; exact Hc).
  assert (Fin : forall s' a', R s' a' -> holds (sq s') (al a') (ae a') /\ spaused s' = ap a' /\ in_hand s' = hand_of (at_ a')).
  { intros s' a' B. split; [now apply R_holds with (no_meta := no_meta)|]. split; [apply (r_p _ _ _ (proj1 B))|now apply (in_hand_R no_meta), B]. }
  destruct (Fin _ _ A) as [_ [Fp Fh]]. rewrite Fp, Fh.
  split; [|split; [|split; [|split]]].
  - cbn [SenderModel.sstep]. rewrite inspect_error_ok by apply (proj1 A). rewrite (r_e _ _ _ (proj1 A)). split; [auto|].
    apply reply_answer. exact V.
  - destruct (G (SPopError k)) as [B1 B2].
    { cbn [SenderProofs.astep]. destruct (lookup k (ae a)); exact Hc. }
    destruct (sstep s (SPopError k)) as [s' o']. cbn [fst snd SenderProofs.astep] in *. subst o'. destruct (Fin _ _ B1) as [F1 [F2 F3]].
    destruct (lookup k (ae a)) as [x|] eqn:L; cbn [fst snd with_e al ae ap at_] in *.
    + split; [auto|]. split; [auto|]. split; [auto|].
      change (ORemoved (msg_e x) :: ?l) with ([ORemoved (msg_e (M:=M) x)] ++ l). rewrite replies_app. cbn [s_replies flat_map app].
      apply (reply_answer (Some x)). intros y Hy. injection Hy as <-. now apply V.
    + assert (W : without k (ae a) = ae a) by (apply without_fresh; rewrite lookup_dget in L; now apply dget_None).
      rewrite W. auto.
  - destruct (G (SReprocessOne k)) as [B1 B2].
    { cbn [SenderProofs.astep]. destruct (lookup k (ae a)); cbn [fst]; apply wake_closes; exact Hc. }
    destruct (sstep s (SReprocessOne k)) as [s' o']. cbn [fst snd SenderProofs.astep] in *. subst o'. destruct (Fin _ _ B1) as [F1 [F2 F3]].
    destruct (lookup k (ae a)) as [x|] eqn:L; cbn [fst snd] in *; match type of F1 with context [a_wake ?b] => destruct (Wl b) as [W1 [W2 [W3 W4]]] end;
      rewrite W1, W2, W3, W4 in *; cbn [with_p with_e with_l al ae ap at_] in *.
    + unfold add in F1. split; [exact F1|]. split; [auto|]. split; [auto|]. rewrite replies_app.
      replace (s_replies [OReprocessed k; if has k (al a) then ODropped (msg_e x) else OQueued k]) with (@nil (option D)) by (destruct (has k (al a)); reflexivity).
      apply (reply_answer (Some x)). intros y Hy. injection Hy as <-. now apply V.
    + assert (W : without k (ae a) = ae a) by (apply without_fresh; rewrite lookup_dget in L; now apply dget_None).
      rewrite W. auto.
  - destruct (G SReprocessAll) as [B1 B2]; [apply Wc|].
    destruct (sstep s SReprocessAll) as [s' o']. cbn [fst snd SenderProofs.astep] in *. destruct (Fin _ _ B1) as [F1 [F2 F3]].
    match type of F1 with context [a_wake ?b] => destruct (Wl b) as [W1 [W2 [W3 W4]]] end.
    rewrite W1, W2, W3, W4 in *; cbn [with_p with_e with_l al ae ap at_] in *. auto.
  - destruct (G SClearError) as [B1 B2]; [exact Hc|]. destruct (sstep s SClearError) as [s' o']. cbn [fst snd SenderProofs.astep] in *.
    destruct (Fin _ _ B1) as [F1 [F2 F3]]. auto.
Qed.

(** ** A message whose sending is over is in the error queue *)
Theorem s_failures_are_in_error q0 lp0 le0 evs s o k : preachable no_meta q0 -> usable q0 -> holds q0 lp0 le0 ->
  srun (s_setup q0) evs = (s, o) -> sclosed s = 0%nat -> forallb (fun e => negb (cancels e)) evs = true ->
  Forall (fun x => dto_ok (snd x) = true) (enqueued o ++ msgs_p lp0 ++ msgs_e le0) ->
  NoDup (keys (enqueued o ++ msgs_p lp0 ++ msgs_e le0)) ->
  (forall k e, In (k, e) lp0 -> 0 <= pe_retries e < lim) ->
  In k (keys (enqueued o ++ msgs_p lp0)) ->
  (forall m, failure_of k None o = Some m -> In k (keys (s_removed o)) \/ exists lp le x, holds (sq s) lp le /\ In (k, x) le /\ ee_reason x = m) /\
  (retryable_of k (s_start lp0 k) o = lim -> In k (keys (s_removed o)) \/
     exists lp le x, holds (sq s) lp le /\ In (k, x) le /\ ee_reason x = "Max retries reached."%string).
Proof.
  intros Hr U Hh E C Fc V N B0 Hk.
  destruct (s_one_place no_meta dto_ok truthy wait max_retries q0 lp0 le0 evs s o Hr U Hh E C Fc V N) as [lp [le [H1 [P _]]]].
  destruct (s_attempts q0 lp0 le0 evs s o Hr U Hh E C N B0) as [lp' [le' [H2 [Ap [Ah [Ae Ad]]]]]].
  destruct (reach_R _ _ _ _ Hr U E C) as [a A]. pose proof (R_wf no_meta s a A) as W.
  destruct (R_unique no_meta s a lp le A H1) as [-> ->]. destruct (R_unique no_meta s a lp' le' A H2) as [-> ->].
  pose proof (preachable_inv no_meta q0 Hr) as I0. destruct (holds_unique q0 lp0 le0 I0 U Hh) as [-> ->].
  pose proof (keys_e _ (R_wf no_meta _ _ (setup_ok no_meta q0 Hr U))) as Ke. cbn [ae] in Ke.
  assert (Nk : ~ In k (keys (ec q0))).
  { rewrite app_assoc, map_app in N. intros X. apply (nodup_disj _ _ k N); [exact Hk|]. rewrite <- Ke in X. exact X. }
  assert (Hk' : In k (keys (msgs_p (al a) ++ msgs_h (in_hand s) ++ msgs_e (ae a) ++ delivered o ++ s_removed o))).
  { eapply Permutation_in; [apply Permutation_map, P|]. rewrite app_assoc, map_app, in_app_iff. now left. }
  rewrite !map_app, !in_app_iff in Hk'. 
  assert (Kp := keys_p _ W). assert (Ke' := keys_e _ W).
  destruct Hk' as [X|[X|[X|[X|X]]]]; [| | | |split; intros; left; exact X].
  - change (In k (keys (msgs_p (al a)))) in X. rewrite Kp in X. apply in_map_iff in X. destruct X as [[k1 e] [E1 He]]. cbn in E1. subst k1.
    destruct (Ap k e He) as [Q1 [Q2 [Q3 Q4]]]. split; [intros m Hm; congruence|intros Hm; lia].
  - apply in_map_iff in X. destruct X as [[k1 d] [E1 He]]. cbn in E1. subst k1. unfold msgs_h in He. apply in_map_iff in He. destruct He as [e [E1 He]].
    injection E1 as E1 _. destruct (Ah e He) as [Q1 [Q2 [Q3 Q4]]]. rewrite E1 in *. split; [intros m Hm; congruence|intros Hm; lia].
  - change (In k (keys (msgs_e (ae a)))) in X. rewrite Ke' in X. apply in_map_iff in X. destruct X as [[k1 x] [E1 He]]. cbn in E1. subst k1.
    destruct (Ae k x He ltac:(tauto)) as [[Q1 [Q2 [Q3 Q4]]]|[Q1 [Q2 Q3]]].
    + split; [intros m Hm; congruence|]. intros _. right. exists (al a), (ae a), x. auto.
    + split; [|intros Hm; lia]. intros m Hm. right. exists (al a), (ae a), x. split; [auto|]. split; [auto|congruence].
  - apply in_map_iff in X. destruct X as [x [E1 He]]. destruct (Ad x He) as [Q1 [Q2 Q3]]. rewrite E1 in *. split; [intros m Hm; congruence|intros Hm; lia].
Qed.

End Proofs.
