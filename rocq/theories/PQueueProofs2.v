(** Consequences of the refinement, in the form in which PQueueProps states them. *)
From Coq Require Import List ZArith NArith Bool String Lia Permutation Sorted.
From Coq Require Import ZifyBool ZifyNat ZifyN.
From Verif Require Import Base PQueueModel PQueueSpec PQueueProofs.
Import ListNotations.
Local Open Scope Z_scope.

Section Proofs2.
Context {V : Type}.
Implicit Types (l : list (N * V)) (t : table V) (q : queue V).

(** A queue behaves as at most one list. *)
Lemma drain_run l : forall n,
  spec_run l (repeat Pop n) = map (fun e => OEntry (Some e)) (firstn n l) ++
                              repeat (OEntry None) (n - List.length l).
Proof.
  induction l as [|e l IH]; intros n; cbn [List.length].
  - rewrite firstn_nil, Nat.sub_0_r. cbn. induction n; cbn; [auto|]. now f_equal.
  - destruct n; cbn; [auto|]. f_equal. apply IH.
Qed.

Lemma drain_unique l : forall l', (forall ops, spec_run l ops = spec_run l' ops) -> l = l'.
Proof.
  intros l' H.
  pose proof (H (repeat Pop (List.length l + List.length l'))) as X. rewrite !drain_run in X.
  rewrite !firstn_all2 in X by lia. clear H.
  replace (List.length l + List.length l' - List.length l)%nat with (List.length l') in X by lia.
  replace (List.length l + List.length l' - List.length l')%nat with (List.length l) in X by lia.
  assert (G : forall (a b : list (N * V)) n m,
    map (fun e => OEntry (Some e)) a ++ repeat (OEntry None) n =
    map (fun e => OEntry (Some e)) b ++ repeat (@OEntry V None) m -> a = b).
  { clear. induction a as [|x a IH]; intros [|y b] n m H; cbn in *; auto.
    - destruct n; discriminate.
    - destruct m; discriminate.
    - injection H as -> H. f_equal. eapply IH; eauto. }
  eapply G; eauto.
Qed.

Lemma behaves_unique q l l' : behaves_as q l -> behaves_as q l' -> l = l'.
Proof. intros H1 H2. apply drain_unique. intros ops. now rewrite <- H1, <- H2. Qed.

Lemma fifo ps (ops : list (op V)) : ps <> 0 -> run (open_queue ps []) ops = spec_run [] ops.
Proof.
  intros Hp. destruct (open_queue_ok ps (@nil (rec V))) as [A [B [C _]]]; [constructor|constructor|].
  rewrite (behaves _ A) by congruence. reflexivity.
Qed.

Lemma list_view q : reachable q -> psz q <> 0 -> exists l, NoDup (map fst l) /\ behaves_as q l.
Proof.
  intros H Hp. apply reachable_inv in H as [H _]. exists (contents q).
  split; [now apply inv_nodup|now apply behaves].
Qed.

Lemma behaves_contents q l : reachable q -> psz q <> 0 -> behaves_as q l -> l = contents q.
Proof.
  intros H Hp Hl. apply reachable_inv in H as [H _]. eapply behaves_unique; eauto using behaves.
Qed.

Lemma push_again q k v w : reachable q -> run q [Inspect k] = [OVal (Some w)] ->
  step q (Push k v) = Ok (q, OKey k).
Proof.
  intros H Hr. apply reachable_inv in H as [H _]. cbn in Hr. rewrite inspect_ok in Hr by auto.
  cbn in Hr. injection Hr as Hr. cbn. unfold q_push. rewrite <- has_contents by auto.
  rewrite has_dget, <- lookup_dget, Hr. reflexivity.
Qed.

Lemma crash_between q l ps' : reachable q -> 1 <= psz q -> behaves_as q l -> ps' <> 0 ->
  exists lost l', behaves_as (open_queue ps' (db q)) l' /\ Permutation l (lost ++ l') /\
    Z.of_nat (List.length lost) <= 2 * psz q.
Proof.
  intros H Hp Hl Hp'. pose proof (behaves_contents q l H ltac:(lia) Hl) as ->.
  apply reachable_inv in H as [H R]. specialize (R Hp).
  destruct (good_db q H) as [G1 G2].
  destruct (open_queue_ok ps' (db q) G1 G2) as [A [B [C _]]].
  exists (plist (front q) ++ back_list q), (contents (open_queue ps' (db q))).
  split; [apply behaves; auto; congruence|]. split.
  - rewrite B. unfold contents at 1.
    transitivity ((plist (front q) ++ back_list q) ++ map kv (db q)).
    + rewrite <- app_assoc. apply Permutation_app_head, Permutation_app_comm.
    + apply Permutation_app_head. symmetry. apply reopened_order_perm.
  - destruct R as [R1 R2]. rewrite app_length. lia.
Qed.

Lemma restart_same q l ps' : reachable q -> psz q <> 0 -> behaves_as q l -> ps' <> 0 ->
  exists q' l', reopen ps' q = Ok q' /\ behaves_as q' l' /\ Permutation l l'.
Proof.
  intros H Hp Hl Hp'. pose proof (behaves_contents q l H Hp Hl) as ->.
  apply reachable_inv in H as [H _]. destruct (reopen_ok ps' q H) as [q' [A [B [C [D _]]]]].
  exists q', (contents q'). split; [auto|]. split; [apply behaves; auto; congruence|].
  rewrite D. symmetry. apply reopened_order_perm.
Qed.

Lemma reopened_restart ps l : 1 <= ps -> reopened_order ps l = restart_order (Z.to_nat ps) l.
Proof.
  intros Hp. unfold reopened_order, restart_order.
  assert (E : limit_len ps = fun k => Nat.min (Z.to_nat ps) k).
  { unfold limit_len. destruct (ps <? 0) eqn:E; [lia|reflexivity]. }
  rewrite !E.
  destruct (le_lt_dec (List.length l) (Z.to_nat ps)) as [L|L].
  - rewrite Nat.min_r by lia. rewrite skipn_all, firstn_all.
    rewrite (firstn_all2 (n := Z.to_nat ps)), (skipn_all2 (n := Z.to_nat ps)) by lia. reflexivity.
  - rewrite (Nat.min_l (Z.to_nat ps) (List.length l)) by lia.
    do 2 f_equal.
    + f_equal. lia.
    + do 2 f_equal. lia.
Qed.

Lemma restart_order_exact q l ps' : reachable q -> psz q <> 0 -> behaves_as q l -> 1 <= ps' ->
  exists q', reopen ps' q = Ok q' /\ behaves_as q' (restart_order (Z.to_nat ps') l).
Proof.
  intros H Hp Hl Hp'. pose proof (behaves_contents q l H Hp Hl) as ->.
  apply reachable_inv in H as [H _]. destruct (reopen_ok ps' q H) as [q' [A [B [C [D _]]]]].
  exists q'. split; [auto|]. rewrite <- reopened_restart, <- D by auto. apply behaves; auto. lia.
Qed.

Lemma rev_id_nodup {A} (r : list A) : NoDup r -> rev r = r -> (List.length r <= 1)%nat.
Proof.
  intros Hn Hr. destruct r as [|x s]; [cbn; lia|]. destruct s as [|y r]; [cbn; lia|].
  exfalso. inversion_clear Hn. apply H. change (rev (x :: y :: r)) with (rev (y :: r) ++ [x]) in Hr.
  assert (Hi : forall z, In z (rev (y :: r)) -> In z (y :: r)) by (intros z Hz; now apply in_rev).
  destruct (rev (y :: r)) as [|z w] eqn:E.
  - apply (f_equal (@List.length A)) in E. rewrite rev_length in E. discriminate.
  - cbn in Hr. injection Hr as -> _. apply Hi. now left.
Qed.

Lemma restart_order_id n l : (1 <= n)%nat -> NoDup l ->
  restart_order n l = l <-> n = 1%nat \/ (List.length l <= n + 1)%nat.
Proof.
  intros Hn Hl. unfold restart_order. set (rest := skipn n l).
  set (m := (List.length rest - n)%nat).
  assert (Hs : firstn n l ++ firstn m rest ++ rev (skipn m rest) = l <-> rev (skipn m rest) = skipn m rest).
  { split; intros E.
    - assert (E2 : firstn n l ++ firstn m rest ++ skipn m rest = l).
      { now rewrite firstn_skipn; unfold rest; rewrite firstn_skipn. }
      assert (E3 := eq_trans E (eq_sym E2)). do 2 apply app_inv_head in E3. exact E3.
    - rewrite E, firstn_skipn. unfold rest. apply firstn_skipn. }
  rewrite Hs.
  assert (Hlen : List.length rest = (List.length l - n)%nat) by apply skipn_length.
  assert (Hlr : List.length (skipn m rest) = Nat.min n (List.length rest)) by (rewrite skipn_length; lia).
  assert (Hnr : NoDup (skipn m rest)).
  { rewrite <- (firstn_skipn n l) in Hl. apply NoDup_app_remove_l in Hl. fold rest in Hl.
    rewrite <- (firstn_skipn m rest) in Hl. now apply NoDup_app_remove_l in Hl. }
  split.
  - intros E. pose proof (rev_id_nodup _ Hnr E) as L. lia.
  - intros E. assert (L : (List.length (skipn m rest) <= 1)%nat) by lia.
    destruct (skipn m rest) as [|a [|b r]]; cbn in *; auto; lia.
Qed.

Lemma order_kept_iff q l ps' : reachable q -> psz q <> 0 -> behaves_as q l -> 1 <= ps' ->
  ((exists q', reopen ps' q = Ok q' /\ behaves_as q' l) <->
   ps' = 1 \/ Z.of_nat (List.length l) <= ps' + 1).
Proof.
  intros H Hp Hl Hp'. destruct (restart_order_exact q l ps' H Hp Hl Hp') as [q' [A B]].
  assert (Hn : NoDup l).
  { pose proof (behaves_contents q l H Hp Hl) as ->. apply reachable_inv in H as [H _].
    eapply NoDup_map_inv, inv_nodup; auto. }
  pose proof (restart_order_id (Z.to_nat ps') l ltac:(lia) Hn) as E.
  split.
  - intros [q2 [C D]]. rewrite A in C. injection C as <-.
    pose proof (behaves_unique _ _ _ B D) as F. apply E in F. lia.
  - intros F. exists q'. split; [auto|]. rewrite <- (proj2 E) by lia. exact B.
Qed.

Lemma never_raises q : reachable q ->
  (forall o, exists q' x, step q o = Ok (q', x)) /\ (exists q', q_shut_down q = Ok q') /\
  (forall ps, exists q', reopen ps q = Ok q').
Proof.
  intros H. apply reachable_inv in H as [H _]. split; [|split].
  - intros o. destruct (step_inv q o H) as [q' [x [A _]]]. eauto.
  - destruct (shut_down_ok q H) as [q' [A _]]. eauto.
  - intros ps. destruct (reopen_ok ps q H) as [q' [A _]]. eauto.
Qed.

(** A table on disk from which a restart yields a duplicate-free part of [l]. *)
Definition recovers_part t l : Prop :=
  forall ps, ps <> 0 -> exists l', behaves_as (open_queue ps t) l' /\ NoDup (map fst l') /\ incl l' l.

Lemma good_recovers t l : good t -> incl (map kv t) l -> recovers_part t l.
Proof.
  intros [G1 G2] Hi ps Hp. destruct (open_queue_ok ps t G1 G2) as [A [B [C _]]].
  exists (contents (open_queue ps t)). split; [apply behaves; auto; congruence|].
  split; [now apply inv_nodup|]. rewrite B. intros x Hx. apply Hi.
  eapply Permutation_in; [apply reopened_order_perm|]. exact Hx.
Qed.

Lemma crash_anywhere q l : reachable q -> psz q <> 0 -> behaves_as q l ->
  (forall o t, In t (crash_tables_op q o) -> recovers_part t l) /\
  (forall t, In t (crash_tables_shut_down q) -> recovers_part t l).
Proof.
  intros H Hp Hl. pose proof (behaves_contents q l H Hp Hl) as ->.
  apply reachable_inv in H as [H _]. split.
  - intros o t Ht. destruct (crash_op_ok q o t H Ht). now apply good_recovers.
  - intros t Ht. destruct (crash_shut_ok q t H Ht). now apply good_recovers.
Qed.

(** The entries a file holds are those a start-up that is not interrupted finds. *)
Lemma crash_in_start_up t l ps ps' t' : on_disk t -> ps <> 0 -> behaves_as (open_queue ps t) l ->
  In t' (crash_tables_open ps' t) -> recovers_part t' l.
Proof.
  intros H Hp Hl Ht. pose proof (behaves_contents (open_queue ps t) l (reach_open ps t H)) as E.
  apply on_disk_good in H. destruct (open_queue_ok ps t) as [A [B [C _]]]; [apply H|apply H|].
  rewrite (E ltac:(congruence) Hl), B.
  destruct (crash_open_ok ps' t t' H Ht) as [D F]. apply good_recovers; auto.
  intros x Hx. apply F in Hx. eapply Permutation_in; [symmetry; apply reopened_order_perm|]. exact Hx.
Qed.

(** Which calls keep the entries on disk recoverable. *)
Lemma sorted_rid_inj (t : table V) r1 r2 : sorted t -> In r1 t -> In r2 t -> rid r1 = rid r2 -> r1 = r2.
Proof.
  induction 1 as [|r t Ht IH Hr]; [intros []|].
  rewrite Forall_forall in *. intros [<-|I1] [<-|I2] E; auto.
  - specialize (Hr _ I2). lia.
  - specialize (Hr _ I1). lia.
Qed.

Lemma push_keeps_disk q k v q' r : inv q -> q_push q k v = Ok (q', r) -> incl (map kv (db q)) (map kv (db q')).
Proof.
  intros H. unfold q_push.
  destruct (page_has (back_page q) k || page_has (front q) k || db_has q k) eqn:E.
  { intros A. injection A as <- <-. apply incl_refl. }
  destruct (page_size_of (back_page q) <? psz q).
  { intros A. injection A as <- <-. unfold update_back. destruct (back q); apply incl_refl. }
  destruct (back q) as [b|] eqn:Eb.
  - destruct (write_back_ok q) as [t [A1 [B1 C1]]].
    { now destruct H. }
    { pose proof (inv_nodup q H) as X. unfold contents, back_list in X. rewrite Eb in X.
      unfold back_page. rewrite Eb. rewrite map_app in X. now apply NoDup_app_remove_l in X. }
    rewrite A1. cbn. intros A. injection A as <- <-. cbn. rewrite B1. now apply incl_appl, incl_refl.
  - intros A. injection A as <- <-. apply incl_refl.
Qed.

Lemma disk_keeps q o q' x k v : inv q -> step q o = Ok (q', x) ->
  In (k, v) (map kv (db q)) ->
  o <> Clear -> o <> PopKey k -> (o = Pop -> 0 < page_size_of (front q)) ->
  In (k, v) (map kv (db q')).
Proof.
  intros H A Hin Hc Hk Hpop. destruct o; cbn in A.
  - destruct (q_push q k0 v0) as [[q2 k2]|] eqn:E; [|discriminate]. cbn in A. injection A as <- <-.
    eapply push_keeps_disk; eauto.
  - specialize (Hpop eq_refl). revert A. unfold q_pop.
    destruct (0 <? page_size_of (front q)) eqn:E; [|lia].
    destruct (page_pop_front (front q)) as [[p e]|]; [|discriminate]. cbn. intros A. injection A as <- <-. exact Hin.
  - rewrite inspect_ok in A by auto. cbn in A. injection A as <- <-. auto.
  - assert (Hne : k0 <> k) by congruence. revert A. unfold q_pop_key.
    destruct (page_has (front q) k0).
    { destruct (page_pop_entry (front q) k0) as [[p e]|]; [|discriminate]. cbn. intros A. injection A as <- <-. exact Hin. }
    destruct (page_has (back_page q) k0).
    { destruct (page_pop_entry (back_page q) k0) as [[p e]|]; [|discriminate]. cbn. intros A. injection A as <- <-.
      unfold update_back. destruct (back q); exact Hin. }
    unfold get_record. destruct (filter (fun r => N.eqb (rkey r) k0) (db q)) as [|r [|]] eqn:F; cbn; intros A.
    + injection A as <- <-. auto.
    + injection A as <- <-. cbn. assert (Hr : In r (db q) /\ (rkey r =? k0)%N = true).
      { apply (filter_In (fun r => (rkey r =? k0)%N)). rewrite F. now left. }
      destruct Hr as [Hr1 Hr2]. apply N.eqb_eq in Hr2.
      apply in_map_iff in Hin as [r2 [E2 I2]]. apply in_map_iff. exists r2. split; [auto|].
      unfold sql_delete_ids. apply filter_In. split; [auto|]. cbn. rewrite orb_false_r.
      destruct (Z.eqb_spec (rid r2) (rid r)) as [Eq|]; [|auto]. exfalso.
      assert (r2 = r) as -> by (eapply sorted_rid_inj; eauto; now destruct H).
      apply Hne. rewrite <- Hr2. unfold kv in E2. now injection E2.
    + discriminate.
  - injection A as <- <-. auto.
  - injection A as <- <-. auto.
  - congruence.
Qed.

Lemma disk_stays q o q' x d k v ps : reachable q -> step q o = Ok (q', x) -> ps <> 0 ->
  behaves_as (open_queue ps (db q)) d -> In (k, v) d ->
  o <> Clear -> o <> PopKey k -> (o = Pop -> q_first_x q 1 <> []) ->
  exists d', behaves_as (open_queue ps (db q')) d' /\ In (k, v) d'.
Proof.
  intros R A Hp Hd Hin Hc Hk Hpop.
  assert (R' : reachable q') by (eapply reach_step; eauto).
  assert (D : on_disk (db q)) by (eapply disk_crash_op with (o := Size); [exact R|left; reflexivity]).
  assert (D' : on_disk (db q')) by (eapply disk_crash_op with (o := Size); [exact R'|left; reflexivity]).
  pose proof (behaves_contents (open_queue ps (db q)) d (reach_open ps _ D)) as E.
  apply on_disk_good in D. apply on_disk_good in D'.
  destruct (open_queue_ok ps (db q)) as [I1 [B1 [C1 _]]]; [apply D|apply D|].
  destruct (open_queue_ok ps (db q')) as [I2 [B2 [C2 _]]]; [apply D'|apply D'|].
  exists (contents (open_queue ps (db q'))). split; [apply behaves; auto; congruence|].
  rewrite B2. eapply Permutation_in; [symmetry; apply reopened_order_perm|].
  rewrite (E ltac:(congruence) Hd), B1 in Hin.
  eapply Permutation_in in Hin; [|apply reopened_order_perm].
  apply reachable_inv in R as [R _]. refine (disk_keeps q o q' x k v R A Hin Hc Hk _).
  intros Ho. specialize (Hpop Ho). unfold q_first_x, page_first_x in Hpop.
  destruct (0 <? page_size_of (front q)) eqn:Z; [lia|congruence].
Qed.

Lemma first_x_prefix q l x : reachable q -> psz q <> 0 -> behaves_as q l ->
  exists m, (m <= Z.to_nat x)%nat /\ q_first_x q x = map fst (firstn m l).
Proof.
  intros H Hp Hl. pose proof (behaves_contents q l H Hp Hl) as ->.
  unfold q_first_x, page_first_x, page_size_of.
  set (f := plist (front q)).
  assert (P : forall n, (n <= List.length f)%nat -> firstn n (contents q) = firstn n f).
  { intros n Hn. unfold contents. fold f. rewrite firstn_app.
    replace (n - Datatypes.length f)%nat with 0%nat by lia. cbn. now rewrite app_nil_r. }
  destruct (0 <? Z.of_nat (Datatypes.length f)) eqn:E1.
  - destruct (Z.of_nat (Datatypes.length f) <? x) eqn:E2.
    + exists (List.length f). split; [lia|]. now rewrite P, firstn_all by lia.
    + exists (Z.to_nat x). split; [lia|]. now rewrite P by lia.
  - exists 0%nat. split; [lia|reflexivity].
Qed.

Lemma front_after_open ps t : good t -> 1 <= ps ->
  plist (front (open_queue ps t)) = firstn (Z.to_nat ps) (contents (open_queue ps t)).
Proof.
  intros [G1 G2] Hp. destruct (open_queue_ok ps t G1 G2) as [A [B [C D]]].
  destruct (D ltac:(lia)) as [D1 _]. rewrite B, reopened_restart by auto.
  assert (E : contents (open_queue ps t) = restart_order (Z.to_nat ps) (map kv t))
    by (rewrite B; now apply reopened_restart).
  (* the front page was filled with the first ps records *)
  clear D. unfold open_queue, initial_load in *. cbn [psz front db] in *.
  set (q0 := mkQueue ps new_page None t) in *.
  destruct (0 <? db_size q0) eqn:E0.
  - destruct (load_front_ok q0) as [k [K1 K2]]; auto. cbn in K1. cbv zeta in K2. cbn in K2.
    rewrite K2. unfold db_size. cbn [db psz front].
    assert (Hfk : firstn k t = firstn (Z.to_nat ps) t).
    { rewrite <- K1. unfold sql_limit. destruct (ps <? 0) eqn:Z; [lia|auto]. }
    assert (Hres : firstn (Z.to_nat ps) (restart_order (Z.to_nat ps) (map kv t)) = map kv (firstn k t)).
    { rewrite Hfk. unfold restart_order. rewrite firstn_map.
      destruct (le_lt_dec (List.length t) (Z.to_nat ps)) as [L|L].
      - rewrite (skipn_all2 (n := Z.to_nat ps)) by (rewrite map_length; lia). cbn.
        rewrite ?firstn_nil. cbn. rewrite ?app_nil_r. rewrite (firstn_all2 t) by lia.
        rewrite firstn_all2 by (rewrite map_length; lia). reflexivity.
      - rewrite firstn_app, map_length, firstn_length.
        replace (Z.to_nat ps - Nat.min (Z.to_nat ps) (Datatypes.length t))%nat with 0%nat by lia.
        cbn. rewrite app_nil_r. rewrite firstn_all2; [auto|]. rewrite map_length, firstn_length. lia. }
    destruct (0 <? Z.of_nat (Datatypes.length (skipn k t))) eqn:E1.
    + unfold load_back_page, update_back. cbn. now rewrite Hres.
    + cbn. now rewrite Hres.
  - unfold db_size in E0. cbn in E0. destruct t; [|cbn in E0; lia].
    cbn. unfold db_size. cbn. unfold restart_order. cbn.
    rewrite !firstn_nil, !skipn_nil. cbn. now rewrite !firstn_nil.
Qed.

Lemma first_x_after_restart q l ps' x : reachable q -> psz q <> 0 -> behaves_as q l -> 1 <= ps' -> 0 <= x ->
  exists q', reopen ps' q = Ok q' /\
    q_first_x q' x = map fst (firstn (Z.to_nat (Z.min x ps')) (restart_order (Z.to_nat ps') l)).
Proof.
  intros H Hp Hl Hp' Hx. pose proof (behaves_contents q l H Hp Hl) as ->.
  apply reachable_inv in H as [H _]. destruct (shut_down_ok q H) as [q2 [A [B C]]].
  assert (G : good (db q2)) by (split; [auto|rewrite B; now apply inv_nodup]).
  exists (open_queue ps' (db q2)). split; [unfold reopen; now rewrite A|].
  pose proof (front_after_open ps' (db q2) G Hp') as F.
  destruct (open_queue_ok ps' (db q2) (proj1 G) (proj2 G)) as [_ [D _]].
  rewrite D, B, reopened_restart in F by auto.
  set (r := restart_order (Z.to_nat ps') (contents q)) in *.
  unfold q_first_x, page_first_x, page_size_of. rewrite F.
  replace (Z.to_nat (Z.min x ps')) with (Nat.min (Z.to_nat x) (Z.to_nat ps')) by lia.
  rewrite <- firstn_firstn.
  destruct (0 <? Z.of_nat (Datatypes.length (firstn (Z.to_nat ps') r))) eqn:E1.
  - destruct (_ <? x) eqn:E2; [|reflexivity].
    rewrite (firstn_all2 (n := Z.to_nat x)) by lia. reflexivity.
  - destruct (firstn (Z.to_nat ps') r); [|cbn in E1; lia]. now rewrite firstn_nil.
Qed.

Lemma pop_yields q : reachable q -> psz q <> 0 -> 0 < q_size q ->
  exists q' e, q_pop q = Ok (q', Some e) /\ q_size q' = q_size q - 1.
Proof.
  intros H Hp Hs. apply reachable_inv in H as [H _]. rewrite size_ok in * by auto.
  destruct (pop_ok q H (or_introl Hp)) as [q' [A [B [C [D _]]]]].
  destruct (contents q) as [|e r] eqn:E; [cbn in Hs; lia|].
  exists q', e. split; [auto|]. rewrite size_ok, D by auto. cbn [tl List.length]. lia.
Qed.

Lemma NoDup_contents q : reachable q -> NoDup (map fst (contents q)).
Proof. intros H. apply reachable_inv in H as [H _]. now apply inv_nodup. Qed.

End Proofs2.
