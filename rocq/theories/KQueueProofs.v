(** A queue of span keys is a list of span keys. *)
From Coq Require Import List ZArith NArith Bool String Lia ZifyBool ZifyN.
From Verif Require Import Base SpanKeyModel SpanKeySpec SpanKeyProofs PQueueModel PQueueSpec PQueueProofs PQueueProps KQueueModel KQueueSpec.
From Coq Require Import Permutation.
Import ListNotations.
Local Open Scope Z_scope.

Definition num (k : span_key) : N := Z.to_N (trace_id k * 2 ^ 64 + span_id k).
Lemma usable_valid k : usable k = true <-> valid_key k.
Proof. unfold usable, valid_key. lia. Qed.
Lemma from_be_app a b : from_be (a ++ b) = from_be a * 256 ^ Z.of_nat (List.length b) + from_be b.
Proof. unfold from_be at 1. rewrite fold_left_app. apply from_be_acc. Qed.
Lemma queue_key_ok k : valid_key k -> queue_key k = Ok (num k).
Proof.
  intros V. unfold queue_key, key_bytes, span_id_bytes. destruct V as [V1 V2].
  rewrite to_bytes_ok by (rewrite pow_256_16; exact V1). cbn [bind]. rewrite to_bytes_ok by (rewrite pow_256_8; exact V2). cbn [bind].
  rewrite from_be_app, be_length, !from_be_be, pow_256_16, pow_256_8 by lia. rewrite !Z.mod_small by lia. reflexivity.
Qed.
Lemma queue_key_bad k : ~ valid_key k -> queue_key k = Raise "OverflowError".
Proof.
  intros V. unfold queue_key, key_bytes, span_id_bytes, to_bytes. rewrite pow_256_16, pow_256_8. unfold valid_key in V.
  destruct ((0 <=? trace_id k) && (trace_id k <? 2 ^ 128)) eqn:A; [|reflexivity]. cbn [bind].
  destruct ((0 <=? span_id k) && (span_id k <? 2 ^ 64)) eqn:B; [exfalso; lia|reflexivity].
Qed.
Lemma num_inj a b : valid_key a -> valid_key b -> num a = num b -> a = b.
Proof.
  intros [A1 A2] [B1 B2] E. unfold num in E. apply (f_equal Z.of_N) in E. rewrite !Z2N.id in E by nia. destruct a as [ta sa], b as [tb sb]. cbn [trace_id span_id] in *.
  assert (ta = tb) by nia. subst. f_equal. lia.
Qed.
Lemma same_key_iff a b : same_key a b = true <-> a = b.
Proof. unfold same_key. destruct a as [ta sa], b as [tb sb]. cbn [trace_id span_id]. split; [intros H; f_equal; lia|intros H; injection H as -> ->; lia]. Qed.
Lemma num_eqb a b : valid_key a -> valid_key b -> N.eqb (num a) (num b) = same_key a b.
Proof.
  intros A B. destruct (same_key a b) eqn:S.
  - apply same_key_iff in S as ->. apply N.eqb_refl.
  - apply N.eqb_neq. intros E. apply num_inj in E; auto. apply same_key_iff in E. congruence.
Qed.
Lemma key_of_num k : valid_key k -> key_of_number (num k) = Ok k.
Proof.
  intros V. destruct (bytes_roundtrip k V) as (b & B1 & B2 & B3 & B4). pose proof (queue_key_ok k V) as Q. unfold queue_key in Q. rewrite B1 in Q. cbn [bind] in Q. injection Q as Q.
  pose proof (from_be_bound b B3) as Bd. rewrite B2 in Bd.
  unfold key_of_number. rewrite <- Q. rewrite Z2N.id by lia. rewrite to_bytes_ok by exact Bd. cbn [bind]. rewrite <- B2 at 1. rewrite be_from_be by exact B3. exact B4.
Qed.

Section Refine.
Context {V : Type}.
Definition numbered (l : list (span_key * V)) : list (N * V) := map (fun e => (num (fst e), snd e)) l.
Definition all_valid (l : list (span_key * V)) : Prop := Forall (fun e => valid_key (fst e)) l.
Definition op_num (o : kop V) : op V :=
  match o with KPush k v => Push (num k) v | KPop => Pop | KInspect k => Inspect (num k) | KPopKey k => PopKey (num k)
             | KSize => Size | KIsEmpty => IsEmpty | KClear => Clear end.
Lemma lookup_num l k : all_valid l -> valid_key k -> lookup (num k) (numbered l) = find_key k l.
Proof.
  intros A K. unfold lookup, find_key. induction A as [|e l E A IH]; [reflexivity|]. cbn [numbered map find fst]. rewrite num_eqb by assumption.
  destruct (same_key (fst e) k); [reflexivity|exact IH].
Qed.
Lemma has_num l k : all_valid l -> valid_key k -> has (num k) (numbered l) = match find_key k l with Some _ => true | None => false end.
Proof.
  intros A K. unfold has, find_key. induction A as [|e l E A IH]; [reflexivity|]. cbn [numbered map existsb find fst]. rewrite num_eqb by assumption.
  destruct (same_key (fst e) k); [reflexivity|exact IH].
Qed.
Lemma without_num l k : all_valid l -> valid_key k -> without (num k) (numbered l) = numbered (filter (fun e => negb (same_key (fst e) k)) l).
Proof.
  intros A K. unfold without. induction A as [|e l E A IH]; [reflexivity|]. cbn [numbered map filter fst]. rewrite num_eqb by assumption.
  destruct (same_key (fst e) k); cbn [negb]; [exact IH|]. cbn [numbered map]. f_equal. exact IH.
Qed.
Lemma step_behaves (q : queue V) L o : behaves_as q L -> exists q', step q o = Ok (q', snd (spec_step L o)) /\ behaves_as q' (fst (spec_step L o)).
Proof.
  intros B. pose proof (B [o]) as B1. cbn [run spec_run] in B1.
  destruct (step q o) as [[q' x]|e] eqn:E.
  - destruct (spec_step L o) as [L' x'] eqn:S. injection B1 as ->. exists q'. split; [reflexivity|]. intros r. pose proof (B (o :: r)) as B2. cbn [run spec_run] in B2. rewrite E, S in B2. injection B2 as B2. exact B2.
  - exfalso. destruct (spec_step L o) as [L' x'] eqn:S. injection B1 as B1. subst x'. destruct o; cbn [spec_step] in S; try discriminate S. destruct L; discriminate S.
Qed.
Lemma kstep_ok q l o : behaves_as q (numbered l) -> all_valid l -> match key_of o with Some k => valid_key k | None => True end ->
  snd (kstep q o) = snd (kspec_step l o) /\ behaves_as (fst (kstep q o)) (numbered (fst (kspec_step l o))) /\ all_valid (fst (kspec_step l o)).
Proof.
  intros B A K.
  assert (U : match key_of o with Some k => usable k | None => true end = true) by (destruct (key_of o); [apply usable_valid; exact K|reflexivity]).
  assert (O : op_of o = Ok (op_num o)) by (destruct o; cbn [op_of op_num key_of] in *; try reflexivity; rewrite queue_key_ok by exact K; reflexivity).
  destruct (step_behaves q (numbered l) (op_num o) B) as (q' & S & B').
  unfold kstep, kspec_step. rewrite O, U. cbn [bind]. rewrite S. cbn [bind].
  destruct o as [k v| |k|k| | |]; cbn [op_num spec_step key_of] in *.
  - cbn [snd fst kout_of] in *. rewrite key_of_num by exact K. cbn [bind snd fst]. rewrite has_num in B' by assumption.
    destruct (find_key k l); (split; [reflexivity|split]); try assumption.
    + unfold numbered. rewrite map_app. exact B'.
    + apply Forall_app. split; [exact A|]. constructor; [exact K|constructor].
  - destruct A as [|[k v] r E A]; cbn [numbered map snd fst kout_of bind] in *.
    + split; [reflexivity|split; [exact B'|constructor]].
    + rewrite key_of_num by exact E. cbn [bind snd fst]. split; [reflexivity|split; [exact B'|exact A]].
  - cbn [snd fst kout_of bind] in *. rewrite lookup_num by assumption. split; [reflexivity|split; assumption].
  - cbn [snd fst kout_of bind] in *. rewrite lookup_num by assumption. rewrite without_num in B' by assumption. split; [reflexivity|split; [exact B'|]].
    apply Forall_forall. intros e I. apply filter_In in I as [I _]. revert e I. apply Forall_forall. exact A.
  - cbn [snd fst kout_of bind] in *. unfold numbered at 1. rewrite map_length. split; [reflexivity|split; assumption].
  - cbn [snd fst kout_of bind] in *. split; [destruct l; reflexivity|split; assumption].
  - cbn [snd fst kout_of bind] in *. split; [reflexivity|split; [exact B'|constructor]].
Qed.
Lemma kstep_bad (q : queue V) o k : key_of o = Some k -> ~ valid_key k -> kstep q o = (q, KExn "OverflowError").
Proof. intros K B. unfold kstep. destruct o; cbn [key_of] in K; try discriminate K; injection K as ->; cbn [op_of]; rewrite queue_key_bad by exact B; reflexivity. Qed.
Lemma krun_spec ops : forall q l, behaves_as q (numbered l) -> all_valid l -> krun q ops = kspec_run l ops.
Proof.
  induction ops as [|o r IH]; intros q l B A; [reflexivity|]. cbn [krun kspec_run].
  destruct (match key_of o with Some k => usable k | None => true end) eqn:U.
  - assert (K : match key_of o with Some k => valid_key k | None => True end) by (destruct (key_of o); [apply usable_valid; exact U|exact Logic.I]).
    destruct (kstep_ok q l o B A K) as (E & B' & A'). destruct (kstep q o) as [q' x]. destruct (kspec_step l o) as [l' x']. cbn [fst snd] in *. subst x'. f_equal. apply IH; assumption.
  - destruct (key_of o) as [k|] eqn:K; [|discriminate U]. assert (N : ~ valid_key k) by (rewrite <- usable_valid; congruence).
    rewrite (kstep_bad q o k K N). unfold kspec_step. rewrite K, U. f_equal. apply IH; assumption.
Qed.
Lemma kafter_ok ops : forall q l, behaves_as q (numbered l) -> all_valid l -> behaves_as (kafter q ops) (numbered (kheld l ops)) /\ all_valid (kheld l ops).
Proof.
  induction ops as [|o r IH]; intros q l B A; [split; assumption|]. cbn [kafter kheld fold_left].
  destruct (match key_of o with Some k => usable k | None => true end) eqn:U.
  - assert (K : match key_of o with Some k => valid_key k | None => True end) by (destruct (key_of o); [apply usable_valid; exact U|exact Logic.I]).
    destruct (kstep_ok q l o B A K) as (_ & B' & A'). apply IH; assumption.
  - destruct (key_of o) as [k|] eqn:K; [|discriminate U]. assert (N : ~ valid_key k) by (rewrite <- usable_valid; congruence).
    rewrite (kstep_bad q o k K N). unfold kspec_step. rewrite K, U. apply IH; assumption.
Qed.
Lemma kafter_reachable ops : forall q : queue V, reachable q -> psz q <> 0 -> reachable (kafter q ops) /\ psz (kafter q ops) = psz q.
Proof.
  induction ops as [|o r IH]; intros q H Z; [split; [exact H|reflexivity]|]. cbn [kafter fold_left].
  assert (S : reachable (fst (kstep q o)) /\ psz (fst (kstep q o)) = psz q).
  { unfold kstep. destruct (op_of o) as [o'|e]; cbn [bind]; [|split; [exact H|reflexivity]]. destruct (step q o') as [[q' x]|e] eqn:E; cbn [bind]; [|split; [exact H|reflexivity]].
    destruct (kout_of x); cbn [bind fst]; [|split; [exact H|reflexivity]]. split; [eapply reach_step; eauto|]. destruct (step_ok q o' (proj1 (reachable_inv q H)) Z) as (q2 & E2 & _ & P & _). congruence. }
  destruct S as [S1 S2]. destruct (IH _ S1 ltac:(congruence)) as [I1 I2]. split; [exact I1|]. etransitivity; [exact I2|exact S2].
Qed.
Lemma perm_numbered (l : list (span_key * V)) L : Permutation (numbered l) L -> exists l', Permutation l l' /\ L = numbered l'.
Proof. intros P. apply Permutation_sym, Permutation_map_inv in P as (l' & E & P). exists l'. split; assumption. Qed.
Lemma order_numbered n (l : list (span_key * V)) : restart_order n (numbered l) = numbered (order_after n l).
Proof.
  unfold restart_order, order_after, numbered. rewrite !map_app, map_rev, !skipn_map, !map_length, !firstn_map. reflexivity.
Qed.
Lemma order_valid n (l : list (span_key * V)) : all_valid l -> all_valid (order_after n l).
Proof.
  intros A. unfold order_after, all_valid. rewrite <- (firstn_skipn n l) in A. apply Forall_app in A as [A1 A2].
  apply Forall_app. split; [exact A1|]. rewrite <- (firstn_skipn (List.length (skipn n l) - n) (skipn n l)) in A2. apply Forall_app in A2 as [A2 A3].
  apply Forall_app. split; [exact A2|]. apply Forall_rev. exact A3.
Qed.
Lemma fresh_behaves ps : ps <> 0 -> behaves_as (open_queue ps []) (numbered ([] : list (span_key * V))).
Proof. intros Z ops. apply C01_queue_is_fifo. exact Z. Qed.
Lemma restarted ps ps' ops ops2 : ps <> 0 -> 1 <= ps' ->
  exists q', reopen ps' (kafter (open_queue ps []) ops) = Ok q' /\ krun q' ops2 = kspec_run (order_after (Z.to_nat ps') (kheld ([] : list (span_key * V)) ops)) ops2.
Proof.
  intros Z P. destruct (kafter_ok ops (open_queue ps []) [] (fresh_behaves ps Z) (Forall_nil _)) as [B A].
  destruct (kafter_reachable ops (open_queue ps []) (reach_fresh _) Z) as [R S].
  destruct (C05_order_after_restart V _ _ ps' R ltac:(rewrite S; exact Z) B P) as (q' & E & B'). rewrite order_numbered in B'.
  exists q'. split; [exact E|]. apply krun_spec; [exact B'|]. apply order_valid. exact A.
Qed.
Lemma crashed ps ps' ops ops2 : 1 <= ps -> ps' <> 0 ->
  exists lost l', Permutation (kheld ([] : list (span_key * V)) ops) (lost ++ l') /\ Z.of_nat (List.length lost) <= 2 * ps /\
    krun (open_queue ps' (db (kafter (open_queue ps []) ops))) ops2 = kspec_run l' ops2.
Proof.
  intros P Z. assert (Z0 : ps <> 0) by lia. destruct (kafter_ok ops (open_queue ps []) [] (fresh_behaves ps Z0) (Forall_nil _)) as [B A].
  destruct (kafter_reachable ops (open_queue ps []) (reach_fresh _) Z0) as [R S]. cbn [open_queue psz] in S.
  destruct (C03_crash_loss_bounded V _ _ ps' R ltac:(rewrite S; exact P) B Z) as (L1 & L2 & B' & Pm & Bd).
  destruct (perm_numbered _ _ Pm) as (l2 & P2 & E2). unfold numbered in E2. symmetry in E2. apply map_eq_app in E2 as (a & b & -> & <- & <-).
  exists a, b. split; [exact P2|]. rewrite map_length in Bd. split; [rewrite S in Bd; exact Bd|]. apply krun_spec; [exact B'|].
  eapply Permutation_Forall in A; [|exact P2]. apply Forall_app in A as [_ A]. exact A.
Qed.
End Refine.
