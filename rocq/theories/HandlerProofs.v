(** The buffered handler refines a machine on plain lists whose steps are the recorded outputs. *)
From Coq Require Import List ZArith NArith Bool String Lia Permutation.
From Coq Require Import ZifyBool ZifyNat ZifyN.
From Verif Require Import Base PQueueModel PQueueSpec PQueueProofs PQueueProofs2 PendingModel PendingSpec
  PendingProofs HandlerModel HandlerSpec.
Import ListNotations.
Local Open Scope Z_scope.

Section Proofs.
Context {D M : Type}.
Variable no_meta : M.
Variables dto_ok truthy : D -> bool.
Variable max_retries : Z.
Notation item := (item D M). Notation hout := (hout D M). Notation hev := (hev D M). Notation hstate := (hstate D M).
Notation tstate := (tstate D M). Notation pentry := (pentry D M). Notation eentry := (eentry D M).
Implicit Types s : hstate.

(** ** The machine *)
Inductive phase := PBefore | PCall | PAfter (b : bool).
Record ast := mkA { a_push : list item; a_pend : list (N * pentry); a_in : option (pentry * phase);
                    a_err : list (N * eentry) }.

Definition back_outs (lp : list (N * pentry)) (e : N * eentry) : list hout :=
  [HReprocessed (fst e); if has (fst e) lp then HDropped (item_e (snd e)) else HQueued (fst e)].

Definition note (o : hout) : bool :=
  match o with HRefused _ | HRunFailed _ | HReply _ | HExn _ => true | _ => false end.

Inductive micro : ast -> list hout -> ast -> Prop :=
| mi_note a o : note o = true -> micro a [o] a
| mi_accept ps lp i le x : micro (mkA ps lp i le) [HAccepted x] (mkA (ps ++ [x]) lp i le)
| mi_push ps1 k d m ps2 lp i le : has k lp = false ->
    micro (mkA (ps1 ++ (k, d, m) :: ps2) lp i le) [HQueued k] (mkA (ps1 ++ ps2) (lp ++ [(k, mkP k 0 d m)]) i le)
| mi_push_dup ps1 k d m ps2 lp i le : has k lp = true ->
    micro (mkA (ps1 ++ (k, d, m) :: ps2) lp i le) [HDropped (k, d, m)] (mkA (ps1 ++ ps2) lp i le)
| mi_push_lost ps1 x ps2 lp i le :
    micro (mkA (ps1 ++ x :: ps2) lp i le) [HLost x] (mkA (ps1 ++ ps2) lp i le)
| mi_start ps e lp le : dto_ok (pe_data e) = true ->
    micro (mkA ps ((pe_key e, e) :: lp) None le) [HStarted (pe_key e) (pe_data e) (pe_meta e) (pe_retries e)]
          (mkA ps lp (Some (e, PBefore)) le)
| mi_bad ps e lp le : dto_ok (pe_data e) = false ->
    micro (mkA ps ((pe_key e, e) :: lp) None le) [HLost (item_p e)] (mkA ps lp None le)
| mi_call ps lp e le :
    micro (mkA ps lp (Some (e, PBefore)) le) [HCalled (pe_key e) (pe_data e)] (mkA ps lp (Some (e, PCall)) le)
| mi_return ps lp e b le :
    micro (mkA ps lp (Some (e, PCall)) le) [HReturned (pe_key e) b] (mkA ps lp (Some (e, PAfter b)) le)
| mi_done ps lp e le :
    micro (mkA ps lp (Some (e, PAfter true)) le) [HFinished (item_p e)] (mkA ps lp None le)
| mi_retry ps lp e le : pe_retries e + 1 < max_retries -> has (pe_key e) lp = false ->
    micro (mkA ps lp (Some (e, PAfter false)) le) [HQueued (pe_key e)]
          (mkA ps (lp ++ [(pe_key e, mkP (pe_key e) (pe_retries e + 1) (pe_data e) (pe_meta e))]) None le)
| mi_retry_dup ps lp e le : pe_retries e + 1 < max_retries -> has (pe_key e) lp = true ->
    micro (mkA ps lp (Some (e, PAfter false)) le) [HDropped (item_p e)] (mkA ps lp None le)
| mi_error ps lp e le : max_retries <= pe_retries e + 1 -> has (pe_key e) le = false ->
    micro (mkA ps lp (Some (e, PAfter false)) le) [HErrored (item_p e)]
          (mkA ps lp None (le ++ [(pe_key e, mkE (pe_key e) (pe_data e) "Max retries reached." (pe_meta e))]))
| mi_error_dup ps lp e le : max_retries <= pe_retries e + 1 -> has (pe_key e) le = true ->
    micro (mkA ps lp (Some (e, PAfter false)) le) [HDropped (item_p e)] (mkA ps lp None le)
| mi_fail ps lp e ph le :
    micro (mkA ps lp (Some (e, ph)) le) [HLost (item_p e)] (mkA ps lp None le)
| mi_all ps lp i le :
    micro (mkA ps lp i le) (flat_map (back_outs lp) le)
          (mkA ps (lp ++ map retried (filter (fun e => negb (has (fst e) lp)) le)) i [])
| mi_one ps lp i le k x : lookup k le = Some x ->
    micro (mkA ps lp i le) (back_outs lp (k, x)) (mkA ps (add lp k (snd (retried (k, x)))) i (without k le))
| mi_remove ps lp i le k x : lookup k le = Some x ->
    micro (mkA ps lp i le) [HRemoved (item_e x)] (mkA ps lp i (without k le))
| mi_clear ps lp i le :
    micro (mkA ps lp i le) (map (fun e => HRemoved (item_e (snd e))) le) (mkA ps lp i []).

Inductive micros : ast -> list hout -> ast -> Prop :=
| ms_nil a : micros a [] a
| ms_cons a o a1 o1 a2 : micro a o a1 -> micros a1 o1 a2 -> micros a (o ++ o1) a2.

Lemma micros_one a o a' : micro a o a' -> micros a o a'.
Proof. intros H. rewrite <- (app_nil_r o). eapply ms_cons; [exact H|constructor]. Qed.
Lemma micros_app a o a1 o1 a2 : micros a o a1 -> micros a1 o1 a2 -> micros a (o ++ o1) a2.
Proof. induction 1; intros H2; [auto|]. rewrite <- app_assoc. eapply ms_cons; eauto. Qed.
Lemma micros_notes a l : forallb note l = true -> micros a l a.
Proof.
  induction l as [|o l IH]; cbn [forallb]; intros H; [constructor|].
  apply andb_prop in H as [H1 H2]. change (o :: l) with ([o] ++ l). eapply ms_cons; [apply mi_note, H1|auto].
Qed.

(** ** The abstraction *)
Definition tin (t : tstate) : option (pentry * phase) :=
  match t with
  | TBefore e => Some (e, PBefore) | TCall e => Some (e, PCall) | TAfter e b => Some (e, PAfter b)
  | TCreated | TDone => None end.
Definition cur_in s : option (pentry * phase) :=
  match cur s with
  | Some i => match nth_error (tasks s) i with Some t => tin t | None => None end
  | None => None end.
Definition abs_with s i : ast := mkA (pushing s) (pc (hq s)) i (ec (hq s)).
Definition abs s : ast := abs_with s (cur_in s).

Record hinv s : Prop := mkHinv {
  hi_q : pinv (hq s);
  hi_u : usable (hq s);
  hi_reach : preachable no_meta (hq s);
  hi_live : forall j t, nth_error (tasks s) j = Some t -> t <> TDone -> cur s = Some j;
  hi_cur : forall j, cur s = Some j -> (j < List.length (tasks s))%nat;
  hi_run : running s = true <-> cur_in s <> None;
  hi_shut : shut s = true -> running s = true }.

(** Inside a step of task [i]: it is the current task and runs; what it holds is not looked at. *)
Record hmid s i : Prop := mkHmid {
  hm_q : pinv (hq s);
  hm_u : usable (hq s);
  hm_reach : preachable no_meta (hq s);
  hm_live : forall j t, nth_error (tasks s) j = Some t -> t <> TDone -> j = i;
  hm_cur : cur s = Some i;
  hm_len : (i < List.length (tasks s))%nat }.

Lemma nth_set_same {A} i (x : A) l : (i < List.length l)%nat -> nth_error (set_nth i x l) i = Some x.
Proof. revert i. induction l; intros [|i]; cbn; intros; try lia; auto. apply IHl. lia. Qed.
Lemma nth_set_other {A} i j (x : A) l : j <> i -> nth_error (set_nth i x l) j = nth_error l j.
Proof. revert i j. induction l; intros [|i] [|j]; cbn; intros; try congruence; auto. Qed.
Lemma len_set {A} i (x : A) l : List.length (set_nth i x l) = List.length l.
Proof. revert i. induction l; intros [|i]; cbn; auto. Qed.
Lemma del_nth_split {A} i (l : list A) x : nth_error l i = Some x ->
  exists l1 l2, l = l1 ++ x :: l2 /\ del_nth i l = l1 ++ l2.
Proof.
  revert i. induction l as [|y l IH]; intros [|i]; cbn; intros H; try discriminate.
  - injection H as ->. exists [], l. auto.
  - destruct (IH i H) as [l1 [l2 [A1 A2]]]. exists (y :: l1), l2. rewrite A1 at 1. rewrite A2. auto.
Qed.

Lemma hinv_mid s i t : hinv s -> nth_error (tasks s) i = Some t -> t <> TDone -> hmid s i.
Proof.
  intros [A B C E F G H] N T. pose proof (E _ _ N T) as Hc. constructor; auto.
  intros j t' N' T'. specialize (E _ _ N' T'). congruence.
Qed.

Lemma mid_set_hq s i q : hmid s i -> pinv q -> usable q -> preachable no_meta q -> hmid (set_hq s q) i.
Proof. intros [A B C E F G] P U R. constructor; auto. Qed.

(** Setting the current task's state re-establishes the invariant. *)
Lemma mid_set_task s i t : hmid s i -> t <> TDone -> t <> TCreated -> running s = true -> hinv (set_task s i t) /\
  abs (set_task s i t) = abs_with s (tin t).
Proof.
  intros [A B C E F G] T1 T2 R.
  assert (X : cur_in (set_task s i t) = tin t).
  { unfold cur_in, set_task, set_tasks. cbn [cur tasks]. rewrite F, nth_set_same by auto. reflexivity. }
  split.
  - constructor; auto; cbn [set_task set_tasks hq tasks cur running shut].
    + intros j t' N T. destruct (Nat.eq_dec j i) as [->|Hj]; [auto|]. rewrite nth_set_other in N by auto.
      apply E in N; [subst; auto|auto].
    + rewrite len_set. intros j Hj. replace j with i by congruence. auto.
    + split; auto. intros _. fold (set_task s i t). change (cur_in (set_task s i t) <> None). rewrite X. destruct t; cbn; congruence.
  - unfold abs. rewrite X. reflexivity.
Qed.

Lemma mid_done s i : hmid s i -> shut s = false ->
  hinv (set_task (set_running s false) i TDone) /\ abs (set_task (set_running s false) i TDone) = abs_with s None.
Proof.
  intros [A B C E F G] S.
  assert (X : cur_in (set_task (set_running s false) i TDone) = None).
  { unfold cur_in, set_task, set_tasks, set_running. cbn [cur tasks]. rewrite F, nth_set_same by auto. reflexivity. }
  split.
  - constructor; auto; cbn [set_task set_tasks set_running hq tasks cur running shut].
    + intros j t' N T. destruct (Nat.eq_dec j i) as [->|Hj]; [auto|]. rewrite nth_set_other in N by auto.
      apply E in N; [subst; auto|auto].
    + rewrite len_set. intros j Hj. replace j with i by congruence. auto.
    + split; [discriminate|]. intros H. contradict H. exact X.
    + congruence.
  - unfold abs. rewrite X. reflexivity.
Qed.

(** Closing. *)
Lemma shut_down_check_idle s : running s = true \/ shut s = false -> shut_down_check s = (s, []).
Proof. intros [H|H]; unfold shut_down_check; rewrite H; [|rewrite andb_false_r]; reflexivity. Qed.

Lemma shut_down_check_closes s : pinv (hq s) -> running s = false -> shut s = true ->
  exists s' o, shut_down_check s = (s', HClosed :: o) /\ closed s' = S (closed s) /\
    map kv (db (pend (hq s'))) = pc (hq s) /\ map kv (db (errq (hq s'))) = ec (hq s).
Proof.
  intros Hq R S. unfold shut_down_check. rewrite R, S. cbn [negb andb].
  destruct (shut_down_ok _ (pi_p _ Hq)) as [p [A [B C]]]. destruct (shut_down_ok _ (pi_e _ Hq)) as [e [A' [B' C']]].
  rewrite A, A'. cbn [fut_done set_closed set_hq].
  destruct (fut_done s); eexists; eexists; (split; [reflexivity|]); cbn; auto.
Qed.

Lemma finish_ok s i s' o : hmid s i -> finish_task s i = (s', o) ->
  (shut s = true -> (closed s < closed s')%nat) /\
  (shut s = false -> o = [] /\ hinv s' /\ abs s' = abs_with s None /\ closed s' = closed s).
Proof.
  intros H E. unfold finish_task in E. split; intros Sh.
  - destruct (shut_down_check_closes (set_task (set_running s false) i TDone)) as [s1 [o1 [A [B _]]]]; auto.
    { apply H. }
    rewrite A in E. injection E as <- <-. rewrite B. cbn. lia.
  - rewrite shut_down_check_idle in E by (right; exact Sh). injection E as <- <-.
    destruct (mid_done s i H Sh) as [X Y]. auto.
Qed.

Lemma finish_micro s i s' o : hmid s i -> finish_task s i = (s', o) -> closed s' = closed s ->
  hinv s' /\ o = [] /\ abs s' = abs_with s None.
Proof.
  intros H E C. destruct (finish_ok s i s' o H E) as [A B]. destruct (shut s).
  - specialize (A eq_refl). lia.
  - destruct (B eq_refl) as [? [? [? ?]]]. auto.
Qed.

Lemma has_pending_ok q : pinv (D:=D) (M:=M) q -> has_pending q = match pc q with [] => false | _ => true end.
Proof.
  intros H. unfold has_pending, q_is_empty. rewrite size_ok by apply H. fold (pc q). destruct (pc q); cbn; lia.
Qed.

Lemma loop_ok s i s' o : hmid s i -> running s = true -> loop dto_ok s i = (s', o) -> closed s' = closed s ->
  hinv s' /\ micros (abs_with s None) o (abs s').
Proof.
  intros H R E C. unfold loop in E.
  destruct (proc_paused s); cbn [negb andb] in E.
  { apply finish_micro in E as [X [-> Y]]; auto. rewrite Y. split; [auto|constructor]. }
  rewrite has_pending_ok in E by apply H.
  destruct (pc (hq s)) as [|[k e] rest] eqn:P.
  { apply finish_micro in E as [X [-> Y]]; auto. rewrite Y. split; [auto|constructor]. }
  destruct (pop_pending_ok (hq s) (hm_q _ _ H) (proj1 (hm_u _ _ H))) as [q [A [B [F [G I]]]]].
  rewrite A, P in E. cbn [hd_error option_map snd] in E. rewrite P in F. cbn [tl] in F.
  assert (K : pe_key e = k).
  { pose proof (pi_pk _ (hm_q _ _ H)) as Q. rewrite P in Q. inversion Q; auto. }
  assert (HM : hmid (set_hq s q) i).
  { apply mid_set_hq; auto.
    - split; [rewrite I|rewrite G]; apply (hm_u _ _ H).
    - eapply preach_step with (c := PopPending); [apply (hm_reach _ _ H)|]. cbn [pstep]. rewrite A. reflexivity. }
  assert (W : forall x, abs_with (set_hq s q) x = mkA (pushing s) rest x (ec (hq s))).
  { intros x. unfold abs_with. cbn [set_hq hq pushing]. unfold ec. rewrite F, G. reflexivity. }
  assert (W0 : abs_with s None = mkA (pushing s) ((pe_key e, e) :: rest) None (ec (hq s))).
  { unfold abs_with. rewrite P, K. reflexivity. }
  destruct (dto_ok (pe_data e)) eqn:Dt.
  - injection E as <- <-. destruct (mid_set_task (set_hq s q) i (TBefore e)) as [X Y]; auto; try discriminate.
    split; [auto|]. rewrite Y, W, W0. apply micros_one. apply mi_start, Dt.
  - destruct (finish_task (set_hq s q) i) as [s1 o1] eqn:Ef. injection E as <- <-.
    apply finish_micro in Ef as [X [-> Y]]; auto. split; [auto|]. rewrite Y, W, W0.
    change ([HLost (item_p e); HExn "ValidationError"]) with ([HLost (item_p e)] ++ [@HExn D M "ValidationError"]).
    eapply ms_cons; [apply mi_bad, Dt|]. apply micros_notes. reflexivity.
Qed.

Lemma push_pending_reach q k d r m q' : preachable no_meta q -> push_pending (D:=D) no_meta q k d r m = Ok q' ->
  preachable no_meta q'.
Proof. intros H E. apply (preach_step no_meta q (PushPending k d r m)); auto. Qed.
Lemma push_error_reach q k d r m q' : preachable no_meta q -> push_error (D:=D) no_meta q k d r m = Ok q' ->
  preachable no_meta q'.
Proof. intros H E. apply (preach_step no_meta q (PushError k d r m)); auto. Qed.

(** Pushing to either queue: what changes. *)
Lemma h_push_pending_ok s k d m r : pinv (hq s) -> usable (hq s) -> preachable no_meta (hq s) ->
  exists q, h_push_pending no_meta s (k, d, m) r =
      (set_hq s q, [if has k (pc (hq s)) then HDropped (k, d, m) else HQueued k]) /\
    pinv q /\ usable q /\ preachable no_meta q /\ pc q = add (pc (hq s)) k (mkP k r d m) /\ ec q = ec (hq s).
Proof.
  intros P U R. unfold h_push_pending.
  destruct (push_pending_ok no_meta (hq s) k d r (Some m) P) as [q [A [B [C [E F]]]]].
  exists q. rewrite A. split; [reflexivity|]. split; [auto|]. split; [split; [rewrite F|rewrite E]; apply U|].
  split; [eapply push_pending_reach; eauto|]. unfold ec. rewrite E. auto.
Qed.
Lemma h_push_error_ok s k d m : pinv (hq s) -> usable (hq s) -> preachable no_meta (hq s) ->
  exists q, h_push_error no_meta s (k, d, m) =
      (set_hq s q, [if has k (ec (hq s)) then HDropped (k, d, m) else HErrored (k, d, m)]) /\
    pinv q /\ usable q /\ preachable no_meta q /\ pc q = pc (hq s) /\
    ec q = add (ec (hq s)) k (mkE k d "Max retries reached." m).
Proof.
  intros P U R. unfold h_push_error.
  destruct (push_error_ok no_meta (hq s) k d "Max retries reached." (Some m) P) as [q [A [B [C [E F]]]]].
  exists q. rewrite A. split; [reflexivity|]. split; [auto|]. split; [split; [rewrite E|rewrite F]; apply U|].
  split; [eapply push_error_reach; eauto|]. unfold pc. rewrite E. auto.
Qed.

Lemma settle_ok s i e b s' o : hmid s i -> settle no_meta max_retries s e b = (s', o) ->
  hmid s' i /\ running s' = running s /\ closed s' = closed s /\
  micros (abs_with s (Some (e, PAfter b))) o (abs_with s' None).
Proof.
  intros H E. unfold settle in E. destruct b.
  { injection E as <- <-. ands. apply micros_one, mi_done. }
  destruct (max_retries <=? pe_retries e + 1) eqn:L.
  - destruct (h_push_error_ok s (pe_key e) (pe_data e) (pe_meta e) (hm_q _ _ H) (hm_u _ _ H) (hm_reach _ _ H))
      as [q [A [B [C [F [G I]]]]]].
    unfold item_p in E. rewrite A in E. injection E as <- <-.
    split; [apply mid_set_hq; auto|]. ands. unfold abs_with. cbn [set_hq hq pushing]. rewrite G, I. apply micros_one.
    unfold add. destruct (has (pe_key e) (ec (hq s))) eqn:Hk; [apply mi_error_dup|apply mi_error]; auto; lia.
  - destruct (h_push_pending_ok s (pe_key e) (pe_data e) (pe_meta e) (pe_retries e + 1)
      (hm_q _ _ H) (hm_u _ _ H) (hm_reach _ _ H)) as [q [A [B [C [F [G I]]]]]].
    unfold item_p in E. rewrite A in E. injection E as <- <-.
    split; [apply mid_set_hq; auto|]. ands. unfold abs_with. cbn [set_hq hq pushing]. rewrite G, I. apply micros_one.
    unfold add. destruct (has (pe_key e) (pc (hq s))) eqn:Hk; [apply mi_retry_dup|apply mi_retry]; auto; lia.
Qed.

Lemma abs_tin s i t : hinv s -> nth_error (tasks s) i = Some t -> t <> TDone -> abs s = abs_with s (tin t).
Proof. intros H N T. unfold abs, cur_in. rewrite (hi_live _ H _ _ N T), N. reflexivity. Qed.

Lemma fail_ok s i t e ph s' o rest : hinv s -> nth_error (tasks s) i = Some t -> tin t = Some (e, ph) ->
  finish_task s i = (s', o) -> closed s' = closed s -> forallb note rest = true ->
  hinv s' /\ micros (abs s) (HLost (item_p e) :: rest ++ o) (abs s').
Proof.
  intros H N T E C Nt. assert (Td : t <> TDone) by (intros ->; discriminate).
  apply finish_micro in E as [X [-> Y]]; auto; [|eapply hinv_mid; eauto]. split; [auto|].
  rewrite (abs_tin _ _ _ H N Td), T, Y, app_nil_r. change (HLost (item_p e) :: rest) with ([HLost (item_p e)] ++ rest).
  eapply ms_cons; [apply mi_fail|]. now apply micros_notes.
Qed.

Lemma running_started s i t e ph : hinv s -> nth_error (tasks s) i = Some t -> tin t = Some (e, ph) -> running s = true.
Proof.
  intros H N T. apply (hi_run _ H). unfold cur_in. rewrite (hi_live _ H _ _ N) by (intros ->; discriminate).
  rewrite N, T. discriminate.
Qed.

Lemma shut_mono_finish s i : (closed s <= closed (fst (finish_task s i)))%nat.
Proof.
  unfold finish_task, shut_down_check.
  repeat match goal with |- context [match ?x with _ => _ end] => destruct x end; cbn; lia.
Qed.

Lemma loop_closed s i : (closed s <= closed (fst (loop dto_ok s i)))%nat.
Proof.
  unfold loop. destruct (negb _ && _); [|apply shut_mono_finish].
  destruct (pop_pending (hq s)) as [[q [e|]]|e]; [destruct (dto_ok _)| |].
  - cbn. lia.
  - pose proof (shut_mono_finish (set_hq s q) i) as X. destruct (finish_task (set_hq s q) i). exact X.
  - pose proof (shut_mono_finish (set_hq s q) i) as X. destruct (finish_task (set_hq s q) i). exact X.
  - pose proof (shut_mono_finish s i) as X. destruct (finish_task s i). exact X.
Qed.

Lemma task_step_ok s i r s' o : hinv s -> task_step no_meta dto_ok max_retries s i r = (s', o) ->
  closed s' = closed s -> hinv s' /\ micros (abs s) o (abs s').
Proof.
  intros H E C. unfold task_step in E.
  destruct (nth_error (tasks s) i) as [t|] eqn:N; [|injection E as <- <-; split; [auto|constructor]].
  destruct t as [|e|e|e b|].
  - assert (HM : hmid (set_running s true) i).
    { pose proof (hinv_mid s i _ H N ltac:(discriminate)) as [A1 A2 A3 A4 A5 A6]. constructor; auto. }
    apply loop_ok in E as [X Y]; auto. split; [auto|]. rewrite (abs_tin _ _ _ H N) by discriminate. exact Y.
  - pose proof (hinv_mid s i _ H N ltac:(discriminate)) as HM.
    assert (HR : running s = true) by (eapply running_started; eauto; reflexivity).
    assert (G : forall s1 o1, (set_task s i (TCall e), [@HCalled D M (pe_key e) (pe_data e)]) = (s1, o1) ->
      hinv s1 /\ micros (abs s) o1 (abs s1)).
    { intros s1 o1 E1. injection E1 as <- <-. destruct (mid_set_task s i (TCall e)) as [X Y]; auto; try discriminate.
      split; [auto|]. rewrite Y, (abs_tin _ _ _ H N) by discriminate. apply micros_one, mi_call. }
    destruct r; [apply G, E|apply G, E|].
    destruct (finish_task s i) as [s1 o1] eqn:Ef. injection E as <- <-.
    change (HExn "user" :: o1) with ([@HExn D M "user"] ++ o1). eapply fail_ok; eauto; reflexivity.
  - pose proof (hinv_mid s i _ H N ltac:(discriminate)) as HM.
    assert (HR : running s = true) by (eapply running_started; eauto; reflexivity).
    destruct r.
    + injection E as <- <-. split; [auto|constructor].
    + injection E as <- <-. destruct (mid_set_task s i (TAfter e b)) as [X Y]; auto; try discriminate.
      split; [auto|]. rewrite Y, (abs_tin _ _ _ H N) by discriminate. apply micros_one, mi_return.
    + destruct (finish_task s i) as [s1 o1] eqn:Ef. injection E as <- <-.
      change (HExn "user" :: o1) with ([@HExn D M "user"] ++ o1). eapply fail_ok; eauto; reflexivity.
  - pose proof (hinv_mid s i _ H N ltac:(discriminate)) as HM.
    assert (HR : running s = true) by (eapply running_started; eauto; reflexivity).
    assert (G : forall s2 o2, (let (s1, o1) := settle no_meta max_retries s e b in
                               let (s2, o2) := loop dto_ok s1 i in (s2, o1 ++ o2)) = (s2, o2) ->
      closed s2 = closed s -> hinv s2 /\ micros (abs s) o2 (abs s2)).
    { intros s2 o2 E2 C2. destruct (settle no_meta max_retries s e b) as [s1 o1] eqn:Es.
      apply (settle_ok s i) in Es as [A [B [Cs F]]]; auto.
      destruct (loop dto_ok s1 i) as [s3 o3] eqn:El. injection E2 as <- <-.
      apply loop_ok in El as [X Y]; auto; try congruence. split; [auto|].
      rewrite (abs_tin _ _ _ H N) by discriminate. eapply micros_app; eauto. }
    destruct r; [apply G; auto|apply G; auto|].
    destruct (finish_task s i) as [s1 o1] eqn:Ef. injection E as <- <-.
    change (HExn "user" :: o1) with ([@HExn D M "user"] ++ o1). eapply fail_ok; eauto; reflexivity.
  - injection E as <- <-. split; [auto|constructor].
Qed.

Lemma cancel_ok s i s' o : hinv s -> cancel_task s i = (s', o) -> closed s' = closed s ->
  hinv s' /\ micros (abs s) o (abs s').
Proof.
  intros H E C. unfold cancel_task in E.
  destruct (nth_error (tasks s) i) as [t|] eqn:N; [|injection E as <- <-; split; [auto|constructor]].
  assert (G : forall e ph, tin t = Some (e, ph) ->
    (let (s', o) := finish_task s i in (s', HLost (item_p e) :: o)) = (s', o) -> hinv s' /\ micros (abs s) o (abs s')).
  { intros e ph T E1. destruct (finish_task s i) as [s1 o1] eqn:Ef. injection E1 as <- <-.
    eapply (fail_ok s i t e ph s1 o1 []); eauto. }
  destruct t as [|e|e|e b|]; try (eapply G; [reflexivity|exact E]).
  - injection E as <- <-. pose proof (hinv_mid s i _ H N ltac:(discriminate)) as [A1 A2 A3 A4 A5 A6].
    assert (X : cur_in (set_task s i TDone) = None).
    { unfold cur_in, set_task, set_tasks. cbn [cur tasks]. rewrite A5, nth_set_same by auto. reflexivity. }
    assert (X0 : cur_in s = None) by (unfold cur_in; rewrite A5, N; reflexivity).
    split.
    + constructor; auto; cbn [set_task set_tasks hq tasks cur running shut].
      * intros j t' N' T. destruct (Nat.eq_dec j i) as [->|Hj]; [auto|]. rewrite nth_set_other in N' by auto.
        apply A4 in N'; [subst; auto|auto].
      * rewrite len_set. intros j Hj. replace j with i by congruence. auto.
      * pose proof (hi_run _ H) as Hr. rewrite X0 in Hr. change (running s = true <-> cur_in (set_task s i TDone) <> None). rewrite X. exact Hr.
      * apply (hi_shut _ H).
    + unfold abs. rewrite X, X0. constructor.
  - injection E as <- <-. split; [auto|constructor].
Qed.

(** [check_process] only adds a task that has not started. *)
Lemma check_process_ok s : hinv s -> hinv (check_process s) /\ abs (check_process s) = abs s.
Proof.
  intros [A B C E F G H].
  assert (K : (forall j t, nth_error (tasks s) j = Some t -> t <> TDone -> False) ->
     hinv (set_tasks s (tasks s ++ [TCreated]) (Some (List.length (tasks s)))) /\
     abs (set_tasks s (tasks s ++ [TCreated]) (Some (List.length (tasks s)))) = abs s).
  { intros Dead.
    assert (Z0 : cur_in s = None).
    { unfold cur_in. destruct (cur s) as [i|]; [|auto]. destruct (nth_error (tasks s) i) as [t|] eqn:N; [|auto].
      destruct t; auto; exfalso; eapply Dead; [exact N|discriminate|exact N|discriminate|exact N|discriminate]. }
    assert (Z1 : cur_in (set_tasks s (tasks s ++ [TCreated]) (Some (List.length (tasks s)))) = None).
    { unfold cur_in. cbn [cur tasks set_tasks]. rewrite nth_error_app2, Nat.sub_diag by lia. reflexivity. }
    split; [constructor; auto|].
    - cbn [tasks cur set_tasks]. intros j t N T. destruct (Nat.lt_ge_cases j (List.length (tasks s))) as [L|L].
      + rewrite nth_error_app1 in N by auto. exfalso; eapply Dead; eauto.
      + rewrite nth_error_app2 in N by auto. destruct (j - List.length (tasks s))%nat eqn:J; cbn in N.
        * f_equal. lia.
        * destruct n; discriminate.
    - cbn [tasks cur set_tasks]. intros j Hj. injection Hj as <-. rewrite app_length. cbn. lia.
    - rewrite Z1. rewrite Z0 in G. exact G.
    - unfold abs. rewrite Z0, Z1. reflexivity. }
  unfold check_process. destruct (cur s) as [i|] eqn:Hc.
  - destruct (nth_error (tasks s) i) as [t|] eqn:N.
    + destruct t; try (split; [constructor; auto; rewrite Hc; auto|reflexivity]).
      apply K. intros j t N' T. specialize (E _ _ N' T). replace j with i in * by congruence.
      rewrite N in N'. injection N' as <-. auto.
    + apply nth_error_None in N. specialize (F i eq_refl). lia.
  - apply K. intros j t N T. specialize (E _ _ N T). congruence.
Qed.

Lemma hinv_flags s s1 : hinv s -> hq s1 = hq s -> tasks s1 = tasks s -> cur s1 = cur s -> running s1 = running s ->
  (shut s1 = true -> running s = true) -> hinv s1.
Proof.
  intros [A B C E F G H] Q T Cu R S. constructor; rewrite ?Q, ?T, ?Cu, ?R; auto.
  unfold cur_in. rewrite T, Cu. exact G.
Qed.

Lemma hinv_set_hq s q : hinv s -> pinv q -> usable q -> preachable no_meta q -> hinv (set_hq s q).
Proof. intros [A B C E F G H] P U R. constructor; auto. Qed.

Lemma note_reply o : forallb note (reply dto_ok truthy o) = true.
Proof. unfold reply. destruct o as [d|]; [|reflexivity]. destruct (truthy d); [|reflexivity]. destruct (dto_ok d); reflexivity. Qed.

Lemma check_closed s : closed (check_process s) = closed s.
Proof.
  unfold check_process. destruct (cur s) as [i|]; [|reflexivity].
  destruct (nth_error (tasks s) i) as [t|]; [|reflexivity]. destruct t; reflexivity.
Qed.

Theorem hstep_ok s ev s' o : hinv s -> hstep no_meta dto_ok truthy max_retries s ev = (s', o) -> closed s' = closed s ->
  hinv s' /\ micros (abs s) o (abs s').
Proof.
  intros H E C. destruct ev; cbn [hstep] in E.
  - destruct (recv_paused s); injection E as <- <-.
    + split; [auto|]. apply micros_notes. reflexivity.
    + split; [|constructor]. eapply hinv_flags; eauto. cbn. apply H.
  - destruct (nth_error (collecting s) i) as [[k d]|]; [|injection E as <- <-; split; [auto|constructor]].
    injection E as <- <-.
    match goal with |- hinv (check_process ?x) /\ _ => assert (X : hinv x) end.
    { eapply hinv_flags; eauto. cbn. apply H. }
    apply check_process_ok in X as [X Y]. split; [auto|]. rewrite Y.
    apply micros_one. unfold abs, abs_with. apply mi_accept.
  - destruct (nth_error (collecting s) i) as [[k d]|]; injection E as <- <-; [|split; [auto|constructor]].
    split; [|apply micros_notes; reflexivity]. eapply hinv_flags; eauto. cbn. apply H.
  - destruct (nth_error (pushing s) i) as [[[k d] m]|] eqn:N; [|injection E as <- <-; split; [auto|constructor]].
    assert (X : hinv (set_pushing s (del_nth i (pushing s)))) by (eapply hinv_flags; eauto; cbn; apply H).
    destruct (h_push_pending_ok _ k d m 0 (hi_q _ X) (hi_u _ X) (hi_reach _ X)) as [q [A [B [F [G [I J]]]]]].
    rewrite A in E. injection E as <- <-. split; [apply hinv_set_hq; auto|].
    apply del_nth_split in N as [l1 [l2 [L1 L2]]]. unfold abs, abs_with.
    cbn [set_pushing set_hq hq pushing] in *. unfold cur_in. cbn [cur tasks set_hq set_pushing]. fold (cur_in s).
    rewrite I, J, L2, L1. unfold add. apply micros_one.
    destruct (has k (pc (hq s))) eqn:Hk; [apply mi_push_dup|apply mi_push]; auto.
  - destruct (nth_error (pushing s) i) as [x|] eqn:N; injection E as <- <-; [|split; [auto|constructor]].
    split; [eapply hinv_flags; eauto; cbn; apply H|].
    apply del_nth_split in N as [l1 [l2 [L1 L2]]]. unfold abs, abs_with. cbn [set_pushing hq pushing] in *.
    unfold cur_in. cbn [cur tasks set_hq set_pushing]. fold (cur_in s). rewrite L2, L1. apply micros_one, mi_push_lost.
  - eapply task_step_ok; eauto.
  - eapply cancel_ok; eauto.
  - injection E as <- <-. split; [|constructor]. eapply hinv_flags; eauto. cbn. apply H.
  - injection E as <- <-. assert (X : hinv (set_recv s false)) by (eapply hinv_flags; eauto; cbn; apply H).
    apply check_process_ok in X as [X Y]. rewrite Y. split; [auto|constructor].
  - injection E as <- <-. split; [|constructor]. eapply hinv_flags; eauto. cbn. apply H.
  - injection E as <- <-. assert (X : hinv (set_proc s false)) by (eapply hinv_flags; eauto; cbn; apply H).
    apply check_process_ok in X as [X Y]. rewrite Y. split; [auto|constructor].
  - destruct (move_all_ok no_meta (hq s) (hi_q _ H) (proj2 (hi_u _ H))) as [q [A [B [F [G [I J]]]]]].
    rewrite A in E. injection E as <- <-.
    assert (X : hinv (set_proc (set_hq s q) false)).
    { eapply (hinv_flags (set_hq s q)); eauto; [|cbn; apply H].
      apply hinv_set_hq; auto; [split; [rewrite J|rewrite I]; apply (hi_u _ H)|].
      apply (preach_step no_meta (hq s) MoveAll); [apply H|exact A]. }
    apply check_process_ok in X as [X Y]. split; [auto|]. rewrite Y. unfold abs, abs_with.
    cbn [set_proc set_hq hq pushing]. unfold cur_in. cbn [set_proc set_hq cur tasks]. fold (cur_in s).
    rewrite F, G. apply micros_one. apply mi_all.
  - destruct (move_one_ok no_meta (hq s) k (hi_q _ H)) as [q [A [B [F [G [I J]]]]]].
    rewrite A in E. injection E as <- <-.
    assert (X : hinv (set_proc (set_hq s q) false)).
    { eapply (hinv_flags (set_hq s q)); eauto; [|cbn; apply H].
      apply hinv_set_hq; auto; [split; [rewrite J|rewrite I]; apply (hi_u _ H)|].
      apply (preach_step no_meta (hq s) (MoveOne k)); [apply H|]. cbn [pstep]. rewrite A. reflexivity. }
    apply check_process_ok in X as [X Y]. split; [auto|]. rewrite Y. unfold abs, abs_with.
    cbn [set_proc set_hq hq pushing]. unfold cur_in. cbn [set_proc set_hq cur tasks]. fold (cur_in s).
    rewrite F, G. change (entries (errq (hq s))) with (ec (hq s)). change (entries (pend (hq s))) with (pc (hq s)).
    destruct (lookup k (ec (hq s))) as [x|] eqn:L.
    + eapply micros_app; [|apply micros_notes, note_reply]. apply micros_one. apply mi_one. exact L.
    + replace (without k (ec (hq s))) with (ec (hq s)); [apply micros_notes, note_reply|].
      symmetry. apply without_fresh. rewrite lookup_dget in L. now apply dget_None.
  - destruct (pop_error_key_ok (hq s) k (hi_q _ H)) as [q [A [B [F [G I]]]]].
    rewrite A in E. injection E as <- <-.
    split.
    { apply hinv_set_hq; auto; [split; [rewrite G|rewrite I]; apply (hi_u _ H)|].
      apply (preach_step no_meta (hq s) (PopErrorKey k)); [apply H|]. cbn [pstep]. rewrite A. reflexivity. }
    unfold abs, abs_with. cbn [set_hq hq pushing]. unfold cur_in. cbn [set_hq cur tasks]. fold (cur_in s).
    replace (pc q) with (pc (hq s)) by (unfold pc; now rewrite G). rewrite F.
    change (entries (errq (hq s))) with (ec (hq s)).
    destruct (lookup k (ec (hq s))) as [x|] eqn:L.
    + eapply micros_app; [|apply micros_notes, note_reply]. apply micros_one. apply mi_remove. exact L.
    + replace (without k (ec (hq s))) with (ec (hq s)); [apply micros_notes, note_reply|].
      symmetry. apply without_fresh. rewrite lookup_dget in L. now apply dget_None.
  - rewrite inspect_error_ok in E by apply H. injection E as <- <-. split; [auto|apply micros_notes, note_reply].
  - injection E as <- <-. destruct (clear_error_ok (hq s) (hi_q _ H)) as [A [B [F G]]]. split.
    { apply hinv_set_hq; auto; [split; [rewrite F|rewrite G]; apply (hi_u _ H)|].
      apply (preach_step no_meta (hq s) ClearError); [apply H|reflexivity]. }
    unfold abs, abs_with. cbn [set_hq hq pushing]. unfold cur_in. cbn [set_hq cur tasks]. fold (cur_in s).
    replace (pc (clear_error (hq s))) with (pc (hq s)) by (unfold pc; now rewrite F). rewrite B.
    apply micros_one, mi_clear.
  - destruct (running s) eqn:R.
    + rewrite shut_down_check_idle in E by (left; exact R). injection E as <- <-.
      split; [|constructor]. eapply hinv_flags; eauto.
    + destruct (shut_down_check_closes (set_shut (set_proc (set_recv s true) true) true)) as [s1 [o1 [A [B _]]]];
        auto; [apply H|]. rewrite A in E. injection E as <- <-. rewrite B in C. cbn in C. lia.
Qed.

Lemma settle_closed s e b : closed (fst (settle no_meta max_retries s e b)) = closed s.
Proof.
  unfold settle, h_push_error, h_push_pending, item_p.
  destruct b; [reflexivity|]. destruct (_ <=? _).
  - destruct (push_error _ _ _ _ _ _); reflexivity.
  - destruct (push_pending _ _ _ _ _ _); reflexivity.
Qed.

Lemma hstep_closed s ev : (closed s <= closed (fst (hstep no_meta dto_ok truthy max_retries s ev)))%nat.
Proof.
  assert (Fin : forall i (f : list hout -> list hout),
            (closed s <= closed (fst (let (s', o) := finish_task s i in (s', f o))))%nat).
  { intros i f. pose proof (shut_mono_finish s i) as X. destruct (finish_task s i). exact X. }
  destruct ev; cbn [hstep].
  - destruct (recv_paused s); cbn; lia.
  - destruct (nth_error _ _) as [[k d]|]; cbn [fst]; rewrite ?check_closed; cbn; lia.
  - destruct (nth_error _ _) as [[k d]|]; cbn; lia.
  - destruct (nth_error _ _) as [[[k d] m]|]; [|cbn; lia]. unfold h_push_pending.
    destruct (push_pending _ _ _ _ _ _); cbn; lia.
  - destruct (nth_error _ _); cbn; lia.
  - unfold task_step. destruct (nth_error _ _) as [t|]; [|cbn; lia]. destruct t as [|e|e|e b|].
    + pose proof (loop_closed (set_running s true) i) as X. exact X.
    + destruct r; [cbn; lia|cbn; lia|apply (Fin i (fun o => HLost (item_p e) :: HExn "user" :: o))].
    + destruct r; [cbn; lia|cbn; lia|apply (Fin i (fun o => HLost (item_p e) :: HExn "user" :: o))].
    + assert (G : (closed s <= closed (fst (let (s1, o1) := settle no_meta max_retries s e b in
                                          let (s2, o2) := loop dto_ok s1 i in (s2, o1 ++ o2))))%nat).
      { pose proof (settle_closed s e b) as X. destruct (settle no_meta max_retries s e b) as [s1 o1].
        pose proof (loop_closed s1 i) as Y. destruct (loop dto_ok s1 i). cbn in *. lia. }
      destruct r; [apply G|apply G|apply (Fin i (fun o => HLost (item_p e) :: HExn "user" :: o))].
    + cbn; lia.
  - unfold cancel_task. destruct (nth_error _ _) as [t|]; [|cbn; lia].
    destruct t; try (cbn; lia); apply (Fin i (fun o => HLost (item_p e) :: o)).
  - cbn; lia.
  - cbn [fst]. rewrite check_closed. cbn; lia.
  - cbn; lia.
  - cbn [fst]. rewrite check_closed. cbn; lia.
  - destruct (move_all _ _); cbn [fst]; rewrite ?check_closed; cbn; lia.
  - destruct (move_one _ _ _) as [[q o]|]; cbn [fst]; rewrite ?check_closed; cbn; lia.
  - destruct (pop_error_key _ _) as [[q o]|]; cbn; lia.
  - destruct (inspect_error_key _ _); cbn; lia.
  - cbn; lia.
  - unfold shut_down_check.
    repeat match goal with |- context [match ?x with _ => _ end] => destruct x end; cbn; lia.
Qed.

Lemma hrun_closed evs : forall s, (closed s <= closed (fst (hrun no_meta dto_ok truthy max_retries s evs)))%nat.
Proof.
  induction evs as [|ev r IH]; intros s; cbn [hrun]; [cbn; lia|].
  pose proof (hstep_closed s ev) as X. destruct (hstep no_meta dto_ok truthy max_retries s ev) as [s1 o1].
  specialize (IH s1). destruct (hrun no_meta dto_ok truthy max_retries s1 r) as [s2 o2]. cbn [fst] in *. lia.
Qed.

Theorem hrun_ok evs : forall s s' o, hinv s -> hrun no_meta dto_ok truthy max_retries s evs = (s', o) ->
  closed s' = closed s -> hinv s' /\ micros (abs s) o (abs s').
Proof.
  induction evs as [|ev r IH]; intros s s' o H E C; cbn [hrun] in E; [injection E as <- <-; split; [auto|constructor]|].
  pose proof (hstep_closed s ev) as X. destruct (hstep no_meta dto_ok truthy max_retries s ev) as [s1 o1] eqn:E1.
  pose proof (hrun_closed r s1) as Y. destruct (hrun no_meta dto_ok truthy max_retries s1 r) as [s2 o2] eqn:E2.
  injection E as <- <-. cbn [fst] in *.
  destruct (hstep_ok s ev s1 o1 H E1) as [A B]; [lia|].
  destruct (IH s1 s2 o2 A E2) as [F G]; [lia|]. split; [auto|eapply micros_app; eauto].
Qed.

Lemma setup_ok (q : pqueue D M) : preachable no_meta q -> usable q ->
  hinv (setup q) /\ abs (setup q) = mkA [] (pc q) None (ec q) /\ closed (setup q) = 0%nat.
Proof.
  intros R U. unfold setup.
  assert (H0 : hinv (mkH q true true false false false 0 [] None [] [])).
  { constructor; cbn [hq tasks cur running shut]; auto; try discriminate.
    - eapply preachable_inv; eauto.
    - intros [|j] t; discriminate.
    - unfold cur_in. cbn. split; congruence. }
  assert (H1 : hinv (set_recv (mkH q true true false false false 0 [] None [] []) false)).
  { eapply hinv_flags; eauto; try discriminate. }
  destruct (check_process_ok _ H1) as [H2 A2].
  assert (H3 : hinv (set_proc (check_process (set_recv (mkH q true true false false false 0 [] None [] []) false)) false)).
  { eapply hinv_flags; eauto; try discriminate. }
  destruct (check_process_ok _ H3) as [H4 A4]. split; [auto|]. split; [rewrite A4; exact A2|].
  rewrite check_closed. cbn [set_proc closed]. rewrite check_closed. reflexivity.
Qed.

End Proofs.
