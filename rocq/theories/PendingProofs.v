From Coq Require Import List ZArith NArith Bool String Lia Permutation.
From Coq Require Import ZifyBool ZifyNat ZifyN.
From Verif Require Import Base PQueueModel PQueueSpec PQueueProofs PQueueProofs2 PendingModel PendingSpec.
Import ListNotations.
Local Open Scope Z_scope.

(** Conjunctions of simple facts. *)
Ltac ands := repeat (split; [solve [auto]|]); auto.

Section Proofs.
Context {D M : Type}.
Variable no_meta : M.
Implicit Types q : pqueue D M.

Definition pc q : list (N * pentry D M) := contents (pend q).
Definition ec q : list (N * eentry D M) := contents (errq q).

Record pinv q : Prop := mkPinv {
  pi_p : inv (pend q);
  pi_e : inv (errq q);
  pi_pk : Forall (fun e => pe_key (snd e) = fst e) (pc q);
  pi_ek : Forall (fun e => ee_key (snd e) = fst e) (ec q) }.

(** Adding unless present. *)
Definition add {V} (l : list (N * V)) (k : N) (v : V) := if has k l then l else l ++ [(k, v)].

Lemma Forall_add {V} (P : N * V -> Prop) l k v : Forall P l -> P (k, v) -> Forall P (add l k v).
Proof. intros H1 H2. unfold add. destruct (has k l); [auto|]. apply Forall_app; auto. Qed.

Lemma push_pending_ok q k d r m : pinv q ->
  exists q', push_pending no_meta q k d r m = Ok q' /\ pinv q' /\
    pc q' = add (pc q) k (mkP k r d (or_empty no_meta m)) /\ errq q' = errq q /\ psz (pend q') = psz (pend q).
Proof.
  intros [H1 H2 H3 H4]. unfold push_pending.
  destruct (push_ok (pend q) k (mkP k r d (or_empty no_meta m)) H1) as [p [A [B [C [E _]]]]].
  rewrite A. cbn [bind]. eexists. split; [reflexivity|]. unfold pc, set_pend. cbn [pend errq].
  split; [|auto]. constructor; auto. unfold pc. cbn [pend]. rewrite E. apply Forall_add; auto.
Qed.

Lemma push_error_ok q k d r m : pinv q ->
  exists q', push_error no_meta q k d r m = Ok q' /\ pinv q' /\
    ec q' = add (ec q) k (mkE k d r (or_empty no_meta m)) /\ pend q' = pend q /\ psz (errq q') = psz (errq q).
Proof.
  intros [H1 H2 H3 H4]. unfold push_error.
  destruct (push_ok (errq q) k (mkE k d r (or_empty no_meta m)) H2) as [p [A [B [C [E _]]]]].
  rewrite A. cbn [bind]. eexists. split; [reflexivity|]. unfold ec, set_err. cbn [pend errq].
  split; [|auto]. constructor; auto. unfold ec. cbn [errq]. rewrite E. apply Forall_add; auto.
Qed.

Lemma Forall_tl {A} (P : A -> Prop) l : Forall P l -> Forall P (tl l).
Proof. destruct 1; cbn; auto. Qed.

Lemma pop_pending_ok q : pinv q -> psz (pend q) <> 0 ->
  exists q', pop_pending q = Ok (q', option_map snd (hd_error (pc q))) /\ pinv q' /\
    pc q' = tl (pc q) /\ errq q' = errq q /\ psz (pend q') = psz (pend q).
Proof.
  intros [H1 H2 H3 H4] Hp. unfold pop_pending.
  destruct (pop_ok (pend q) H1 (or_introl Hp)) as [p [A [B [C [E _]]]]].
  rewrite A. cbn [bind]. eexists. split; [reflexivity|]. unfold pc, set_pend. cbn [pend errq].
  split; [|auto]. constructor; auto. unfold pc; cbn [pend]. rewrite E. now apply Forall_tl.
Qed.

Lemma Forall_perm {A} (P : A -> Prop) l l' : Permutation l l' -> Forall P l -> Forall P l'.
Proof. intros HP H. rewrite Forall_forall in *. intros x Hx. apply H. eapply Permutation_in; [symmetry|]; eauto. Qed.

(** Without the restriction on the page size. *)
Lemma pop_pending_inv q : pinv q -> exists q' o, pop_pending q = Ok (q', o) /\ pinv q' /\
   errq q' = errq q /\ psz (pend q') = psz (pend q).
Proof.
  intros [H1 H2 H3 H4]. unfold pop_pending. destruct (pop_inv (pend q) H1) as [p [e [A [B [C E]]]]].
  rewrite A. cbn [bind]. do 2 eexists. split; [reflexivity|]. cbn [pend errq set_pend].
  split; [|auto]. constructor; auto. unfold pc in *. cbn [pend set_pend].
  apply (Forall_perm _ _ _ (Permutation_sym E)) in H3. destruct e; [now inversion H3|auto].
Qed.

Lemma move_all_step_ok q k x rest : pinv q -> psz (errq q) <> 0 -> ec q = (k, x) :: rest ->
  exists e q', q_pop (errq q) = Ok (e, Some (k, x)) /\
    push_pending no_meta (set_err q e) (ee_key x) (ee_data x) 0 (Some (ee_meta x)) = Ok q' /\
    pinv q' /\ ec q' = rest /\ pc q' = add (pc q) k (snd (retried (k, x))) /\
    psz (errq q') = psz (errq q) /\ psz (pend q') = psz (pend q).
Proof.
  intros [H1 H2 H3 H4] Hp E.
  destruct (pop_ok (errq q) H2 (or_introl Hp)) as [e [A [B [C [F _]]]]].
  unfold ec in E. rewrite E in A, F. cbn in A, F. exists e.
  assert (Hi : pinv (set_err q e)).
  { constructor; auto. unfold ec, set_err; cbn [errq]. rewrite F. unfold ec in H4. rewrite E in H4. now inversion H4. }
  destruct (push_pending_ok (set_err q e) (ee_key x) (ee_data x) 0 (Some (ee_meta x)) Hi)
    as [q' [G [I [J [K L]]]]].
  exists q'. split; [auto|]. split; [auto|]. split; [auto|].
  assert (Hk : ee_key x = k).
  { unfold ec in H4. rewrite E in H4. inversion H4; subst. auto. }
  unfold ec, pc in *. rewrite K, L, J. cbn [errq pend set_err]. rewrite Hk. auto.
Qed.

Definition moved q : list (N * pentry D M) :=
  pc q ++ map retried (filter (fun e => negb (has (fst e) (pc q))) (ec q)).

Lemma has_app_snoc {V} k (l : list (N * V)) k' v' : has k (l ++ [(k', v')]) = has k l || N.eqb k' k.
Proof. unfold has. rewrite existsb_app. cbn. now rewrite orb_false_r. Qed.

Lemma moved_step (lp : list (N * pentry D M)) k x (rest : list (N * eentry D M)) : ~ In k (map fst rest) ->
  add lp k (snd (retried (k, x))) ++
    map retried (filter (fun e => negb (has (fst e) (add lp k (snd (retried (k, x)))))) rest)
  = lp ++ map retried (filter (fun e => negb (has (fst e) lp)) ((k, x) :: rest)).
Proof.
  intros Hn. cbn [filter fst]. unfold add. destruct (has k lp) eqn:E; cbn [negb].
  - reflexivity.
  - cbn [map]. rewrite <- app_assoc. cbn [app]. f_equal. f_equal. f_equal. apply filter_ext_in.
    intros [k2 x2] Hin. cbn [fst]. rewrite has_app_snoc.
    destruct (N.eqb_spec k k2) as [->|]; [|now rewrite orb_false_r].
    exfalso. apply Hn. now apply (in_map fst) in Hin.
Qed.

Lemma move_all_loop_ok : forall n q, pinv q -> psz (errq q) <> 0 -> (List.length (ec q) <= n)%nat ->
  exists q', move_all_loop no_meta n q = Ok q' /\ pinv q' /\ ec q' = [] /\ pc q' = moved q /\
    psz (errq q') = psz (errq q) /\ psz (pend q') = psz (pend q).
Proof.
  induction n as [|n IH]; intros q H Hp Hn.
  - cbn [move_all_loop]. unfold error_size. rewrite size_ok by (now destruct H). fold (ec q).
    destruct (ec q) eqn:E; [|cbn in Hn; lia]. cbn [List.length]. cbn. exists q.
    unfold moved. rewrite E. cbn. rewrite app_nil_r. ands.
  - cbn [move_all_loop]. unfold error_size. rewrite size_ok by (now destruct H). fold (ec q).
    destruct (ec q) as [|[k x] rest] eqn:E.
    + cbn. exists q. unfold moved. rewrite E. cbn. rewrite app_nil_r. ands.
    + destruct (0 <? Z.of_nat (List.length ((k, x) :: rest))) eqn:Z0; [|cbn in Z0; lia].
      destruct (move_all_step_ok q k x rest H Hp E) as [e [q1 [A [B [C [F [G [I J]]]]]]]].
      rewrite A. cbn [bind]. rewrite B. cbn [bind].
      destruct (IH q1) as [q2 [K [L [N [O [P Q]]]]]]; auto; [congruence|rewrite F; cbn in Hn; lia|].
      exists q2. split; [auto|]. split; [auto|]. split; [auto|]. split; [|split; congruence].
      rewrite O. unfold moved. rewrite E, F, G. apply moved_step.
      pose proof (inv_nodup _ (pi_e _ H)) as ND. fold (ec q) in ND. rewrite E in ND. now inversion ND.
Qed.

Lemma move_all_ok q : pinv q -> psz (errq q) <> 0 ->
  exists q', move_all no_meta q = Ok q' /\ pinv q' /\ ec q' = [] /\ pc q' = moved q /\
    psz (errq q') = psz (errq q) /\ psz (pend q') = psz (pend q).
Proof.
  intros H Hp. apply move_all_loop_ok; auto. unfold error_size. rewrite size_ok by (now destruct H).
  unfold ec. lia.
Qed.

Lemma Forall_without {V} (P : N * V -> Prop) k l : Forall P l -> Forall P (without k l).
Proof. intros H. unfold without. rewrite Forall_forall in *. intros x Hx. apply filter_In in Hx. apply H, Hx. Qed.

Lemma lookup_In {V} k (l : list (N * V)) v : lookup k l = Some v -> In (k, v) l.
Proof. rewrite lookup_dget. apply dget_In. Qed.

Lemma pop_error_raw q k : pinv q ->
  exists e, q_pop_key (errq q) k = Ok (e, lookup k (ec q)) /\ pinv (set_err q e) /\
    ec (set_err q e) = without k (ec q) /\ psz e = psz (errq q).
Proof.
  intros [H1 H2 H3 H4]. destruct (pop_key_ok (errq q) k H2) as [e [A [B [C [E _]]]]].
  exists e. split; [auto|]. split; [|auto]. constructor; auto.
  unfold ec, set_err. cbn [errq]. rewrite E. now apply Forall_without.
Qed.

Lemma move_one_ok q k : pinv q ->
  exists q', move_one no_meta q k = Ok (q', option_map ee_data (lookup k (ec q))) /\ pinv q' /\
    ec q' = without k (ec q) /\
    pc q' = match lookup k (ec q) with
            | Some x => add (pc q) k (snd (retried (k, x)))
            | None => pc q end /\
    psz (errq q') = psz (errq q) /\ psz (pend q') = psz (pend q).
Proof.
  intros H. unfold move_one. destruct (pop_error_raw q k H) as [e [A [B [C E]]]]. rewrite A. cbn [bind].
  destruct (lookup k (ec q)) as [x|] eqn:L; cbn [option_map].
  - destruct (push_pending_ok (set_err q e) k (ee_data x) 0 (Some (ee_meta x)) B) as [q' [F [G [I [J K]]]]].
    rewrite F. cbn [bind]. exists q'. split; [auto|]. split; [auto|].
    unfold ec in *. rewrite J, K, I. auto.
  - exists (set_err q e). split; [reflexivity|]. auto.
Qed.

Lemma pop_error_key_ok q k : pinv q ->
  exists q', pop_error_key q k = Ok (q', option_map ee_data (lookup k (ec q))) /\ pinv q' /\
    ec q' = without k (ec q) /\ pend q' = pend q /\ psz (errq q') = psz (errq q).
Proof.
  intros H. unfold pop_error_key. destruct (pop_error_raw q k H) as [e [A [B [C E]]]]. rewrite A. cbn [bind].
  exists (set_err q e). auto.
Qed.

Lemma pop_pending_key_ok q k : pinv q ->
  exists q', pop_pending_key q k = Ok (q', option_map pe_data (lookup k (pc q))) /\ pinv q' /\
    pc q' = without k (pc q) /\ errq q' = errq q /\ psz (pend q') = psz (pend q).
Proof.
  intros [H1 H2 H3 H4]. unfold pop_pending_key.
  destruct (pop_key_ok (pend q) k H1) as [e [A [B [C [E _]]]]]. rewrite A. cbn [bind].
  exists (set_pend q e). split; [reflexivity|]. split; [|auto]. constructor; auto.
  unfold pc, set_pend. cbn [pend]. rewrite E. now apply Forall_without.
Qed.

Lemma clear_error_ok q : pinv q -> pinv (clear_error q) /\ ec (clear_error q) = [] /\
  pend (clear_error q) = pend q /\ psz (errq (clear_error q)) = psz (errq q).
Proof.
  intros [H1 H2 H3 H4]. destruct (clear_ok (errq q)) as [A [B C]].
  unfold clear_error, set_err, ec. cbn [errq pend]. split; [|auto]. constructor; auto.
  unfold ec. cbn [errq]. rewrite A. constructor.
Qed.

Lemma inspect_error_ok q k : pinv q -> inspect_error_key q k = Ok (option_map ee_data (lookup k (ec q))).
Proof. intros H. unfold inspect_error_key. rewrite inspect_ok by (now destruct H). reflexivity. Qed.

(** ** Restarts *)
Lemma open_pinv ps (tp : table (pentry D M)) (te : table (eentry D M)) : good tp -> good te ->
  Forall (fun e => pe_key (snd e) = fst e) (map kv tp) ->
  Forall (fun e => ee_key (snd e) = fst e) (map kv te) ->
  pinv (pq_open ps tp te) /\ Permutation (pc (pq_open ps tp te)) (map kv tp) /\
  Permutation (ec (pq_open ps tp te)) (map kv te) /\
  psz (pend (pq_open ps tp te)) = ps /\ psz (errq (pq_open ps tp te)) = ps.
Proof.
  intros [G1 G2] [G3 G4] F1 F2.
  destruct (open_queue_ok ps tp G1 G2) as [A [B [C _]]].
  destruct (open_queue_ok ps te G3 G4) as [A' [B' [C' _]]].
  assert (P1 : Permutation (pc (pq_open ps tp te)) (map kv tp)).
  { unfold pc, pq_open. cbn [pend]. rewrite B. apply reopened_order_perm. }
  assert (P2 : Permutation (ec (pq_open ps tp te)) (map kv te)).
  { unfold ec, pq_open. cbn [errq]. rewrite B'. apply reopened_order_perm. }
  split; [|auto]. constructor; auto.
  - eapply Forall_perm; [symmetry; exact P1|auto].
  - eapply Forall_perm; [symmetry; exact P2|auto].
Qed.

Lemma pq_shut_down_ok q : pinv q ->
  exists q', pq_shut_down q = Ok q' /\ map kv (db (pend q')) = pc q /\ map kv (db (errq q')) = ec q /\
    good (db (pend q')) /\ good (db (errq q')).
Proof.
  intros [H1 H2 H3 H4]. unfold pq_shut_down.
  destruct (shut_down_ok _ H1) as [p [A [B C]]]. destruct (shut_down_ok _ H2) as [e [A' [B' C']]].
  rewrite A, A'. cbn [bind]. eexists. split; [reflexivity|]. cbn [pend errq]. split; [auto|]. split; [auto|].
  split; (split; [auto|]); [rewrite B|rewrite B']; now apply inv_nodup.
Qed.

Lemma pq_reopen_ok ps q : pinv q ->
  exists q', pq_reopen ps q = Ok q' /\ pinv q' /\ Permutation (pc q') (pc q) /\ Permutation (ec q') (ec q) /\
    psz (pend q') = ps /\ psz (errq q') = ps.
Proof.
  intros H. unfold pq_reopen. destruct (pq_shut_down_ok q H) as [q2 [A [B [C [E F]]]]]. rewrite A. cbn [bind].
  eexists. split; [reflexivity|]. destruct (open_pinv ps (db (pend q2)) (db (errq q2)) E F) as [I [J [K L]]].
  - rewrite B. apply H.
  - rewrite C. apply H.
  - rewrite B in J. rewrite C in K. auto.
Qed.

Lemma pq_crash_ok ps q : pinv q -> pinv (pq_crash ps q) /\
  incl (pc (pq_crash ps q)) (pc q) /\ incl (ec (pq_crash ps q)) (ec q) /\
  psz (pend (pq_crash ps q)) = ps /\ psz (errq (pq_crash ps q)) = ps.
Proof.
  intros H. destruct (open_pinv ps (db (pend q)) (db (errq q))) as [I [J [K L]]].
  - apply good_db, H.
  - apply good_db, H.
  - pose proof (pi_pk q H) as X. rewrite Forall_forall in *. intros x Hx. apply X, db_part, Hx.
  - pose proof (pi_ek q H) as X. rewrite Forall_forall in *. intros x Hx. apply X, db_part, Hx.
  - split; [auto|]. split; [|split; [|auto]].
    + intros x Hx. eapply Permutation_in in Hx; [|exact J]. now apply db_part.
    + intros x Hx. eapply Permutation_in in Hx; [|exact K]. now apply db_part.
Qed.

(** ** Histories *)
Lemma move_all_loop_inv : forall n q q', pinv q -> move_all_loop no_meta n q = Ok q' -> pinv q'.
Proof.
  induction n as [|n IH]; intros q q' H; cbn [move_all_loop]; destruct (0 <? error_size q); try discriminate;
    try (intros E; injection E as <-; auto).
  destruct (pop_inv (errq q) (pi_e _ H)) as [e [o [A [B [C E]]]]]. rewrite A. cbn [bind].
  destruct o as [[k x]|]; [|discriminate].
  assert (Hi : pinv (set_err q e)).
  { destruct H as [H1 H2 H3 H4]. constructor; auto. unfold ec, set_err in *. cbn [errq].
    apply (Forall_perm _ _ _ (Permutation_sym E)) in H4. now inversion H4. }
  destruct (push_pending_ok (set_err q e) (ee_key x) (ee_data x) 0 (Some (ee_meta x)) Hi) as [q1 [F [G _]]].
  rewrite F. cbn [bind]. apply IH, G.
Qed.

Lemma pstep_inv q c q' : pinv q -> pstep no_meta q c = Ok q' -> pinv q'.
Proof.
  intros H. destruct c; cbn [pstep].
  - destruct (push_pending_ok q k d retries m H) as [q1 [A [B _]]]. rewrite A. intros E; injection E as <-; auto.
  - destruct (push_error_ok q k d reason m H) as [q1 [A [B _]]]. rewrite A. intros E; injection E as <-; auto.
  - destruct (pop_pending_inv q H) as [q1 [o [A [B _]]]]. rewrite A. cbn. intros E; injection E as <-; auto.
  - apply move_all_loop_inv, H.
  - destruct (move_one_ok q k H) as [q1 [A [B _]]]. rewrite A. cbn [bind]. intros E; injection E as <-; auto.
  - destruct (pop_error_key_ok q k H) as [q1 [A [B _]]]. rewrite A. cbn [bind]. intros E; injection E as <-; auto.
  - destruct (pop_pending_key_ok q k H) as [q1 [A [B _]]]. rewrite A. cbn [bind]. intros E; injection E as <-; auto.
  - intros E; injection E as <-. now apply clear_error_ok.
Qed.

Lemma fresh_pinv ps : pinv (pq_open ps [] []).
Proof. apply open_pinv; try constructor; constructor. Qed.

(** Files that a crash or a shut-down can leave. *)
Definition fgood (f : files (D:=D) (M:=M)) : Prop := good (fst f) /\ good (snd f) /\
  Forall (fun e => pe_key (snd e) = fst e) (map kv (fst f)) /\ Forall (fun e => ee_key (snd e) = fst e) (map kv (snd f)).

Lemma Forall_incl {A} (P : A -> Prop) l l' : incl l' l -> Forall P l -> Forall P l'.
Proof. rewrite !Forall_forall. auto. Qed.

Lemma fgood_of q : pinv q -> fgood (files_of q).
Proof.
  intros [H1 H2 H3 H4]. split; [now apply good_db|]. split; [now apply good_db|].
  split; eapply Forall_incl; [|exact H3| |exact H4]; apply db_part.
Qed.

Lemma fgood_open ps f : fgood f -> pinv (pq_open ps (fst f) (snd f)).
Proof. intros (G1 & G2 & F1 & F2). now apply open_pinv. Qed.

Lemma pop_err_inv q e o : pinv q -> q_pop (errq q) = Ok (e, o) -> pinv (set_err q e).
Proof.
  intros [H1 H2 H3 H4] E. destruct (pop_inv (errq q) H2) as [e' [o' [A [B [C F]]]]]. rewrite A in E. injection E as <- <-.
  constructor; auto. unfold ec, set_err in *. cbn [errq]. eapply Forall_incl; [|exact H4].
  intros x Hx. eapply Permutation_in; [exact F|]. destruct o'; [now right|exact Hx].
Qed.

Lemma move_all_points_good : forall n q f mv, pinv q -> In (f, mv) (move_all_points no_meta n q) -> fgood f.
Proof.
  induction n as [|n IH]; intros q f mv H Hi; cbn [move_all_points] in Hi;
    (destruct Hi as [Hi|Hi]; [injection Hi as <- <-; now apply fgood_of|]); destruct (0 <? error_size q); try easy.
  destruct (q_pop (errq q)) as [[e [[k x]|]]|] eqn:Ep; try easy. pose proof (pop_err_inv q e _ H Ep) as H1.
  destruct Hi as [Hi|Hi]; [injection Hi as <- <-; exact (fgood_of _ H1)|].
  destruct (push_pending_ok (set_err q e) (ee_key x) (ee_data x) 0 (Some (ee_meta x)) H1) as [q1 [F [G _]]].
  rewrite F in Hi. apply in_map_iff in Hi as [[f' mv'] [E Hi]]. injection E as <- <-. eapply IH; eauto.
Qed.

Lemma crash_call_good q c f : pinv q -> In f (crash_files_call no_meta q c) -> fgood f.
Proof.
  intros H [<-|Hi]; [now apply fgood_of|]. apply in_app_or in Hi as [Hi|Hi].
  - destruct c; try easy.
    + apply in_map_iff in Hi as [[f' mv] [<- Hi]]. eapply move_all_points_good; eauto.
    + destruct (q_pop_key (errq q) k) as [[e o]|] eqn:E; [|easy]. destruct Hi as [<-|[]].
      assert (S : pstep no_meta q (PopErrorKey k) = Ok (set_err q e)) by (cbn; unfold pop_error_key; rewrite E; reflexivity).
      exact (fgood_of _ (pstep_inv _ _ _ H S)).
  - destruct (pstep no_meta q c) as [q'|] eqn:E; [|easy]. destruct Hi as [<-|[]]. apply fgood_of. eapply pstep_inv; eauto.
Qed.

Lemma crash_shut_good q f : pinv q -> In f (crash_files_shut q) -> fgood f.
Proof.
  intros [H1 H2 H3 H4] Hi. unfold crash_files_shut in Hi. apply in_app_or in Hi as [Hi|Hi].
  - apply in_map_iff in Hi as [t [<- Ht]]. destruct (crash_shut_ok _ t H1 Ht) as [A B].
    split; [exact A|]. split; [now apply good_db|]. split; eapply Forall_incl; [exact B|exact H3|apply db_part|exact H4].
  - destruct (shut_down_ok _ H1) as [p [A [B C]]]. rewrite A in Hi. apply in_map_iff in Hi as [t [<- Ht]].
    destruct (crash_shut_ok _ t H2 Ht) as [E F]. cbn [fst snd]. split.
    + split; [exact C|]. cbn [fst]. rewrite B. now apply inv_nodup.
    + split; [exact E|]. cbn [fst snd]. split; [rewrite B; exact H3|]. eapply Forall_incl; [exact F|exact H4].
Qed.

Lemma crash_open_good ps f f' : fgood f -> In f' (crash_files_open ps f) -> fgood f'.
Proof.
  intros (G1 & G2 & F1 & F2) Hi. unfold crash_files_open in Hi. apply in_app_or in Hi as [Hi|Hi];
    apply in_map_iff in Hi as [t [<- Ht]].
  - destruct (crash_open_ok ps _ t G1 Ht) as [A B]. split; [exact A|]. split; [exact G2|]. split; [|exact F2].
    eapply Forall_incl; [exact B|exact F1].
  - destruct (crash_open_ok ps _ t G2 Ht) as [A B].
    assert (Hd : In (db (open_queue ps (fst f))) (crash_tables_open ps (fst f))) by (right; right; now left).
    destruct (crash_open_ok ps _ _ G1 Hd) as [A' B']. split; [exact A'|]. split; [exact A|].
    split; eapply Forall_incl; [exact B'|exact F1|exact B|exact F2].
Qed.

Scheme preach_ind2 := Minimality for preachable Sort Prop
  with pfiles_ind2 := Minimality for pfiles Sort Prop.

Lemma preachable_inv q : preachable no_meta q -> pinv q.
Proof.
  revert q. apply (preach_ind2 D M no_meta pinv fgood).
  - intros ps f _ H. now apply fgood_open.
  - intros q c q' _ H E. eapply pstep_inv; eauto.
  - repeat split; constructor.
  - intros q c f _ H Hi. eapply crash_call_good; eauto.
  - intros q f _ H Hi. eapply crash_shut_good; eauto.
  - intros ps f f' _ H Hi. eapply crash_open_good; eauto.
Qed.

Lemma pfiles_good f : pfiles no_meta f -> fgood f.
Proof.
  revert f. apply (pfiles_ind2 D M no_meta pinv fgood).
  - intros ps f _ H. now apply fgood_open.
  - intros q c q' _ H E. eapply pstep_inv; eauto.
  - repeat split; constructor.
  - intros q c f _ H Hi. eapply crash_call_good; eauto.
  - intros q f _ H Hi. eapply crash_shut_good; eauto.
  - intros ps f f' _ H Hi. eapply crash_open_good; eauto.
Qed.

(** Each of the two queues has a history of its own. *)
Definition both q : Prop := reachable (pend q) /\ reachable (errq q).
Definition both_disk (f : files (D:=D) (M:=M)) : Prop := on_disk (fst f) /\ on_disk (snd f).

Lemma reach_push (V : Type) (q q' : queue V) k v r : reachable q -> q_push q k v = Ok (q', r) -> reachable q'.
Proof. intros H E. apply (reach_step q (Push k v) q' (OKey r)); [exact H|]. cbn. rewrite E. reflexivity. Qed.
Lemma reach_pop (V : Type) (q q' : queue V) r : reachable q -> q_pop q = Ok (q', r) -> reachable q'.
Proof. intros H E. apply (reach_step q Pop q' (OEntry r)); [exact H|]. cbn. rewrite E. reflexivity. Qed.
Lemma reach_pop_key (V : Type) (q q' : queue V) k r : reachable q -> q_pop_key q k = Ok (q', r) -> reachable q'.
Proof. intros H E. apply (reach_step q (PopKey k) q' (OVal r)); [exact H|]. cbn. rewrite E. reflexivity. Qed.
Lemma reach_clear (V : Type) (q : queue V) : reachable q -> reachable (q_clear q).
Proof. intros H. apply (reach_step q Clear (q_clear q) OUnit); [exact H|reflexivity]. Qed.
Lemma disk_db (V : Type) (q : queue V) : reachable q -> on_disk (db q).
Proof. intros H. apply (disk_crash_op q Size); [exact H|]. now left. Qed.
Lemma both_disk_of q : both q -> both_disk (files_of q).
Proof. intros [A B]. split; now apply disk_db. Qed.

Lemma both_push q k d r m q' : both q -> push_pending no_meta q k d r m = Ok q' -> both q'.
Proof.
  intros [A B] E. unfold push_pending in E. destruct (q_push (pend q) k _) as [[p z]|] eqn:Ep; [|discriminate].
  injection E as <-. split; [|exact B]. eapply reach_push; eauto.
Qed.
Lemma both_move_all : forall n q q', both q -> move_all_loop no_meta n q = Ok q' -> both q'.
Proof.
  induction n as [|n IH]; intros q q' H; cbn [move_all_loop]; destruct (0 <? error_size q); try discriminate;
    try (intros E; injection E as <-; auto).
  destruct (q_pop (errq q)) as [[e [[k x]|]]|] eqn:Ep; cbn [bind]; try discriminate.
  destruct (push_pending no_meta (set_err q e) (ee_key x) (ee_data x) 0 (Some (ee_meta x))) as [q1|] eqn:F; [|discriminate].
  cbn [bind]. apply IH. eapply both_push; [|exact F]. split; [apply H|]. eapply reach_pop; [apply H|exact Ep].
Qed.
Lemma both_pop_key_err q k e o : both q -> q_pop_key (errq q) k = Ok (e, o) -> both (set_err q e).
Proof. intros [A B] E. split; [exact A|]. eapply reach_pop_key; eauto. Qed.
Lemma both_step q c q' : both q -> pstep no_meta q c = Ok q' -> both q'.
Proof.
  intros H. destruct c; cbn [pstep].
  - apply both_push, H.
  - unfold push_error. destruct (q_push (errq q) k _) as [[p z]|] eqn:Ep; [|discriminate]. intros E. injection E as <-.
    split; [apply H|]. eapply reach_push; [apply H|exact Ep].
  - unfold pop_pending. destruct (q_pop (pend q)) as [[p z]|] eqn:Ep; [|discriminate]. intros E. injection E as <-.
    split; [|apply H]. eapply reach_pop; [apply H|exact Ep].
  - apply both_move_all, H.
  - unfold move_one. destruct (q_pop_key (errq q) k) as [[e [x|]]|] eqn:Ep; [| |discriminate]; cbn [bind];
      pose proof (both_pop_key_err q k e _ H Ep) as H1.
    + destruct (push_pending no_meta (set_err q e) k (ee_data x) 0 (Some (ee_meta x))) as [q1|] eqn:F; [|discriminate].
      cbn [bind]. intros E. injection E as <-. eapply both_push; eauto.
    + intros E. injection E as <-. exact H1.
  - unfold pop_error_key. destruct (q_pop_key (errq q) k) as [[e o]|] eqn:Ep; [|discriminate]. cbn [bind]. intros E. injection E as <-.
    eapply both_pop_key_err; eauto.
  - unfold pop_pending_key. destruct (q_pop_key (pend q) k) as [[e o]|] eqn:Ep; [|discriminate]. cbn [bind]. intros E. injection E as <-.
    split; [|apply H]. eapply reach_pop_key; [apply H|exact Ep].
  - intros E. injection E as <-. split; [apply H|]. apply reach_clear, H.
Qed.

Lemma move_all_points_both : forall n q f mv, both q -> In (f, mv) (move_all_points no_meta n q) -> both_disk f.
Proof.
  induction n as [|n IH]; intros q f mv H Hi; cbn [move_all_points] in Hi;
    (destruct Hi as [Hi|Hi]; [injection Hi as <- <-; now apply both_disk_of|]); destruct (0 <? error_size q); try easy.
  destruct (q_pop (errq q)) as [[e [[k x]|]]|] eqn:Ep; try easy.
  assert (H1 : both (set_err q e)) by (split; [apply H|]; eapply reach_pop; [apply H|exact Ep]).
  destruct Hi as [Hi|Hi]; [injection Hi as <- <-; exact (both_disk_of _ H1)|].
  destruct (push_pending no_meta (set_err q e) (ee_key x) (ee_data x) 0 (Some (ee_meta x))) as [q1|] eqn:F; [|easy].
  apply in_map_iff in Hi as [[f' mv'] [E Hi]]. injection E as <- <-. eapply IH; [|exact Hi]. eapply both_push; eauto.
Qed.

Lemma crash_call_both q c f : both q -> In f (crash_files_call no_meta q c) -> both_disk f.
Proof.
  intros H [<-|Hi]; [now apply both_disk_of|]. apply in_app_or in Hi as [Hi|Hi].
  - destruct c; try easy.
    + apply in_map_iff in Hi as [[f' mv] [<- Hi]]. eapply move_all_points_both; eauto.
    + destruct (q_pop_key (errq q) k) as [[e o]|] eqn:E; [|easy]. destruct Hi as [<-|[]].
      exact (both_disk_of _ (both_pop_key_err _ _ _ _ H E)).
  - destruct (pstep no_meta q c) as [q'|] eqn:E; [|easy]. destruct Hi as [<-|[]]. apply both_disk_of. eapply both_step; eauto.
Qed.
Lemma crash_shut_both q f : both q -> In f (crash_files_shut q) -> both_disk f.
Proof.
  intros [A B] Hi. unfold crash_files_shut in Hi. apply in_app_or in Hi as [Hi|Hi].
  - apply in_map_iff in Hi as [t [<- Ht]]. split; [eapply disk_crash_shut; eauto|now apply disk_db].
  - destruct (q_shut_down (pend q)) as [p|] eqn:E; [|easy]. apply in_map_iff in Hi as [t [<- Ht]].
    split; [eapply disk_shut; eauto|eapply disk_crash_shut; eauto].
Qed.
Lemma crash_open_both ps f f' : both_disk f -> In f' (crash_files_open ps f) -> both_disk f'.
Proof.
  intros [A B] Hi. unfold crash_files_open in Hi. apply in_app_or in Hi as [Hi|Hi]; apply in_map_iff in Hi as [t [<- Ht]].
  - split; [eapply disk_crash_open; eauto|exact B].
  - split; [|eapply disk_crash_open; eauto]. eapply (disk_crash_open _ ps); [exact A|]. right. right. now left.
Qed.

Lemma preachable_both q : preachable no_meta q -> both q.
Proof.
  revert q. apply (preach_ind2 D M no_meta both both_disk).
  - intros ps f _ [A B]. split; apply reach_open; assumption.
  - intros q c q' _ H E. eapply both_step; eauto.
  - split; apply disk_fresh.
  - intros q c f _ H Hi. eapply crash_call_both; eauto.
  - intros q f _ H Hi. eapply crash_shut_both; eauto.
  - intros ps f f' _ H Hi. eapply crash_open_both; eauto.
Qed.

Lemma psteps_reachable cs : forall q q', preachable no_meta q -> psteps no_meta q cs = Ok q' -> preachable no_meta q'.
Proof.
  induction cs as [|c cs IH]; intros q q' H E; cbn in E; [injection E as <-; auto|].
  destruct (pstep no_meta q c) as [q1|] eqn:F; [|discriminate]. cbn in E.
  eapply IH; [|exact E]. eapply preach_step; eauto.
Qed.

(** ** Observational form *)
Lemma holds_contents q : pinv q -> usable q -> holds q (pc q) (ec q).
Proof. intros [H1 H2 _ _] [U1 U2]. split; now apply behaves. Qed.

Lemma holds_unique q lp le : pinv q -> usable q -> holds q lp le -> lp = pc q /\ le = ec q.
Proof.
  intros H U [A B]. destruct (holds_contents q H U) as [C E]. split; eapply behaves_unique; eauto.
Qed.

Lemma move_all_thm q lp le : preachable no_meta q -> usable q -> holds q lp le ->
  exists q', move_all no_meta q = Ok q' /\
    holds q' (lp ++ map retried (filter (fun e => negb (has (fst e) lp)) le)) [].
Proof.
  intros R U H. apply preachable_inv in R. destruct (holds_unique q lp le R U H) as [-> ->].
  destruct (move_all_ok q R (proj2 U)) as [q' [A [B [C [E [F G]]]]]]. exists q'. split; [auto|].
  pose proof (holds_contents q' B) as X. rewrite C, E in X. apply X. destruct U. split; congruence.
Qed.

Lemma filter_all {A} (f : A -> bool) l : (forall x, In x l -> f x = true) -> filter f l = l.
Proof. induction l as [|a l IH]; cbn; intros H; [auto|]. rewrite H by auto. f_equal. auto. Qed.

Lemma move_all_disjoint q lp le : preachable no_meta q -> usable q -> holds q lp le ->
  (forall k, In k (map fst le) -> ~ In k (map fst lp)) ->
  exists q', move_all no_meta q = Ok q' /\ holds q' (lp ++ map retried le) [].
Proof.
  intros R U H Hd. destruct (move_all_thm q lp le R U H) as [q' [A B]]. exists q'. split; [auto|].
  rewrite filter_all in B; [auto|]. intros x Hx.
  destruct (has (fst x) lp) eqn:E; [|auto]. apply has_In in E. exfalso. eapply Hd; eauto. now apply in_map.
Qed.

Lemma move_one_thm q lp le k : preachable no_meta q -> usable q -> holds q lp le ->
  exists q', move_one no_meta q k = Ok (q', option_map ee_data (lookup k le)) /\
    holds q' (match lookup k le with
              | Some x => if has k lp then lp else lp ++ [retried (k, x)]
              | None => lp end) (without k le).
Proof.
  intros R U H. apply preachable_inv in R. destruct (holds_unique q lp le R U H) as [-> ->].
  destruct (move_one_ok q k R) as [q' [A [B [C [E [F G]]]]]]. exists q'. split; [auto|].
  pose proof (holds_contents q' B) as X. rewrite C, E in X. apply X. destruct U. split; congruence.
Qed.

Lemma restart_thm q lp le ps : preachable no_meta q -> usable q -> holds q lp le -> ps <> 0 ->
  exists q' lp' le', pq_reopen ps q = Ok q' /\ preachable no_meta q' /\ holds q' lp' le' /\
    Permutation lp lp' /\ Permutation le le'.
Proof.
  intros R U H Hp. pose proof (preachable_inv q R) as I. destruct (holds_unique q lp le I U H) as [-> ->].
  destruct (pq_reopen_ok ps q I) as [q' [A [B [C [E [F G]]]]]]. exists q', (pc q'), (ec q').
  split; [auto|]. split; [eapply preach_reopen; eauto|]. split; [apply holds_contents; auto; split; congruence|].
  split; symmetry; auto.
Qed.

End Proofs.
