(** Progress of a buffered endpoint: bounded waiting, and draining. *)
From Coq Require Import List ZArith NArith Bool String Lia Permutation.
From Coq Require Import ZifyBool ZifyNat ZifyN.
From Verif Require Import Base PermTac PQueueModel PQueueSpec PQueueProofs PQueueProofs2 PendingModel PendingSpec
  PendingProofs HandlerModel HandlerSpec HandlerProofs HandlerProofs2 HandlerProofs3 HandlerProofs4 ProgressSpec.
Import ListNotations.
Local Open Scope Z_scope.

Section Proofs.
Context {D M : Type}.
Variable no_meta : M.
Variables dto_ok truthy : D -> bool.
Variable max_retries : Z.
Notation item := (item D M). Notation hout := (hout D M). Notation hev := (hev D M). Notation hstate := (hstate D M).
Notation tstate := (tstate D M). Notation pentry := (pentry D M). Notation eentry := (eentry D M).
Notation hstep := (@hstep D M no_meta dto_ok truthy max_retries).
Notation hrun := (@hrun D M no_meta dto_ok truthy max_retries).
Notation hinv := (@hinv D M no_meta).
Implicit Types (s : hstate) (o : list hout) (ev : hev) (e : pentry).

Definition left (t : tstate) : nat :=
  match t with TCreated => 1 | TBefore _ => 3 | TCall _ => 2 | TAfter _ _ => 1 | TDone => 0 end%nat.

(** The task is live, processing is not paused, the endpoint is not shut down. *)
Record going s (i : nat) (t : tstate) : Prop := mkGoing
  { go_inv : hinv s; go_unpaused : proc_paused s = false; go_open : shut s = false;
    go_task : nth_error (tasks s) i = Some t; go_live : t <> TDone }.

Lemma check_live s i t : hinv s -> nth_error (tasks s) i = Some t -> t <> TDone -> check_process s = s.
Proof.
  intros H N T. unfold check_process. rewrite (hi_live _ _ H _ _ N T), N. destruct t; congruence.
Qed.
Lemma going_same s s' i t : going s i t -> hinv s' -> proc_paused s' = false -> shut s' = false -> tasks s' = tasks s -> going s' i t.
Proof. intros [A B C E F] H P S T. constructor; auto. now rewrite T. Qed.

(** Events of others. *)
Lemma quiet s i t ev s' o : going s i t -> undisturbed ev = true -> (forall r, ev <> ETask i r) -> hstep s ev = (s', o) ->
  going s' i t /\ exists new, pc (hq s') = pc (hq s) ++ new.
Proof.
  intros G U Ne E. pose proof (go_inv _ _ _ G) as H.
  assert (Ns : ev <> EShutDown) by (intros ->; discriminate U).
  destruct (step_open no_meta dto_ok truthy max_retries s ev s' o (go_open _ _ _ G) Ns E) as [Cl Sh].
  destruct (hstep_ok no_meta dto_ok truthy max_retries s ev s' o H E Cl) as [H' _].
  assert (Same : forall s1, tasks s1 = tasks s -> cur s1 = cur s -> tasks (check_process s1) = tasks s /\ check_process s1 = s1).
  { intros s1 T C. unfold check_process. rewrite C, T, (hi_live _ _ H _ _ (go_task _ _ _ G) (go_live _ _ _ G)), (go_task _ _ _ G).
    pose proof (go_live _ _ _ G). destruct t; try congruence; split; congruence. }
  assert (K : tasks s' = tasks s /\ proc_paused s' = false /\ exists new, pc (hq s') = pc (hq s) ++ new).
  { pose proof (go_unpaused _ _ _ G) as P.
    assert (Id : exists new, pc (hq s) = pc (hq s) ++ new) by (exists []; now rewrite app_nil_r).
    destruct ev; cbn [HandlerModel.hstep] in E; try discriminate U.
    - destruct (recv_paused s); injection E as <- <-; auto.
    - destruct (nth_error (collecting s) i0) as [[k d]|]; injection E as <- <-; auto.
      match goal with |- context [check_process ?x] => destruct (Same x eq_refl eq_refl) as [T1 T2]; rewrite T2; rewrite T2 in T1 end. auto.
    - destruct (nth_error (collecting s) i0) as [[k d]|]; injection E as <- <-; auto.
    - destruct (nth_error (pushing s) i0) as [[[k d] m]|] eqn:N; [|injection E as <- <-; auto].
      assert (X : hinv (set_pushing s (del_nth i0 (pushing s)))) by (apply (hinv_flags no_meta s); auto; cbn; apply H).
      destruct (h_push_pending_ok no_meta _ k d m 0 (hi_q _ _ X) (hi_u _ _ X) (hi_reach _ _ X)) as [q [A [B [F [G0 [I J]]]]]].
      rewrite A in E. injection E as <- <-. cbn [set_hq set_pushing tasks proc_paused hq]. repeat split; auto.
      rewrite I. cbn [set_pushing hq]. unfold add. destruct (has k (pc (hq s))); [exact Id|eexists; reflexivity].
    - unfold task_step in E. destruct (nth_error (tasks s) i0) as [t0|] eqn:N; [|injection E as <- <-; auto].
      assert (t0 = TDone).
      { destruct t0; auto; exfalso; pose proof (hi_live _ _ H _ _ N ltac:(discriminate)) as C1;
          pose proof (hi_live _ _ H _ _ (go_task _ _ _ G) (go_live _ _ _ G)) as C2; rewrite C2 in C1; injection C1 as <-; now apply (Ne r). }
      subst t0. injection E as <- <-. auto.
    - injection E as <- <-. auto.
    - injection E as <- <-. destruct (Same (set_recv s false) eq_refl eq_refl) as [T1 T2]. rewrite T2. auto.
    - injection E as <- <-. destruct (Same (set_proc s false) eq_refl eq_refl) as [T1 T2]. rewrite T2. auto.
    - destruct (move_all_ok no_meta (hq s) (hi_q _ _ H) (proj2 (hi_u _ _ H))) as [q [A [B [F [G0 _]]]]].
      rewrite A in E. injection E as <- <-. destruct (Same (set_proc (set_hq s q) false) eq_refl eq_refl) as [T1 T2]. rewrite T2.
      cbn. rewrite G0. unfold moved. repeat split; auto. eexists; reflexivity.
    - destruct (move_one_ok no_meta (hq s) k (hi_q _ _ H)) as [q [A [B [F [G0 _]]]]].
      rewrite A in E. injection E as <- <-. destruct (Same (set_proc (set_hq s q) false) eq_refl eq_refl) as [T1 T2]. rewrite T2.
      cbn. repeat split; auto. rewrite G0. destruct (lookup k (ec (hq s))); [|exact Id].
      unfold add. destruct (has _ _); [exact Id|eauto].
    - destruct (pop_error_key_ok (hq s) k (hi_q _ _ H)) as [q [A [B [F [G0 I]]]]].
      rewrite A in E. injection E as <- <-. cbn. repeat split; auto. replace (pc q) with (pc (hq s)) by (unfold pc; now rewrite G0). exact Id.
    - rewrite inspect_error_ok in E by apply H. injection E as <- <-. auto.
    - injection E as <- <-. destruct (clear_error_ok (hq s) (hi_q _ _ H)) as [A [B [F G0]]]. cbn. repeat split; auto.
  }
  destruct K as (T & P & New). split; [|exact New]. eapply going_same; eauto.
Qed.

(** The loop takes the first pending request. *)
Lemma loop_takes s i k e rest s' o : hmid no_meta s i -> running s = true -> proc_paused s = false -> shut s = false ->
  pc (hq s) = (k, e) :: rest -> dto_ok (pe_data e) = true -> loop dto_ok s i = (s', o) ->
  going s' i (TBefore e) /\ pc (hq s') = rest /\ ec (hq s') = ec (hq s) /\ pushing s' = pushing s /\
  o = [HStarted (pe_key e) (pe_data e) (pe_meta e) (pe_retries e)].
Proof.
  intros H R P S Pc Dt E. pose proof (loop_open dto_ok s i s' o S E) as [Cl Sh].
  destruct (loop_ok no_meta dto_ok max_retries s i s' o H R E Cl) as [H' _].
  unfold loop in E. rewrite P in E. cbn [negb andb] in E. rewrite has_pending_ok, Pc in E by apply H.
  destruct (pop_pending_ok (hq s) (hm_q _ _ _ H) (proj1 (hm_u _ _ _ H))) as [q [A [B [F [G I]]]]].
  rewrite A, Pc in E. cbn [hd_error option_map snd] in E. rewrite Pc in F. cbn [tl] in F. rewrite Dt in E. injection E as <- <-.
  split; [constructor; auto; [|discriminate]; cbn; apply nth_set_same, H|]. split; [exact F|].
  split; [cbn; unfold ec; now rewrite G|]. auto.
Qed.
Lemma loop_ends s i s' o : hmid no_meta s i -> running s = true -> proc_paused s = false -> shut s = false ->
  pc (hq s) = [] -> loop dto_ok s i = (s', o) ->
  hinv s' /\ shut s' = false /\ proc_paused s' = false /\ nth_error (tasks s') i = Some TDone /\ pc (hq s') = [] /\ ec (hq s') = ec (hq s) /\
  pushing s' = pushing s /\ o = [].
Proof.
  intros H R P S Pc E. pose proof (loop_open dto_ok s i s' o S E) as [Cl Sh].
  destruct (loop_ok no_meta dto_ok max_retries s i s' o H R E Cl) as [H' _].
  unfold loop in E. rewrite P in E. cbn [negb andb] in E. rewrite has_pending_ok, Pc in E by apply H.
  unfold finish_task in E. rewrite shut_down_check_idle in E by (now right). injection E as <- <-.
  split; [exact H'|]. split; [exact S|]. split; [exact P|]. split; [cbn; apply nth_set_same, H|]. auto.
Qed.
Lemma settle_same s e b s' o : settle no_meta max_retries s e b = (s', o) ->
  tasks s' = tasks s /\ proc_paused s' = proc_paused s /\ shut s' = shut s /\ running s' = running s /\ pushing s' = pushing s /\ cur s' = cur s.
Proof.
  unfold settle, h_push_error, h_push_pending, item_p. intros E. destruct b; [injection E as <- <-; auto 10|].
  destruct (_ <=? _).
  - destruct (push_error _ _ _ _ _ _); injection E as <- <-; auto 10.
  - destruct (push_pending _ _ _ _ _ _); injection E as <- <-; auto 10.
Qed.
Lemma settle_pend s i e b s' o : hmid no_meta s i -> settle no_meta max_retries s e b = (s', o) ->
  pc (hq s') = pc (hq s) \/ (b = false /\ pe_retries e + 1 < max_retries /\
    pc (hq s') = pc (hq s) ++ [(pe_key e, mkP (pe_key e) (pe_retries e + 1) (pe_data e) (pe_meta e))]).
Proof.
  intros H E. unfold settle in E. destruct b; [injection E as <- <-; auto|].
  destruct (max_retries <=? pe_retries e + 1) eqn:L.
  - destruct (h_push_error_ok no_meta s (pe_key e) (pe_data e) (pe_meta e) (hm_q _ _ _ H) (hm_u _ _ _ H) (hm_reach _ _ _ H))
      as [q [A [B [C [F [G I]]]]]].
    unfold item_p in E. rewrite A in E. injection E as <- <-. left. exact G.
  - destruct (h_push_pending_ok no_meta s (pe_key e) (pe_data e) (pe_meta e) (pe_retries e + 1)
      (hm_q _ _ _ H) (hm_u _ _ _ H) (hm_reach _ _ _ H)) as [q [A [B [C [F [G I]]]]]].
    unfold item_p in E. rewrite A in E. injection E as <- <-. cbn [set_hq hq]. rewrite G. unfold add.
    destruct (has _ _); [now left|right]. repeat split; auto. lia.
Qed.

(** ** A step of the task *)
Definition att e : nat := attempts_left max_retries (pe_retries e).
Definition held_cost (t : tstate) : nat := match t with TBefore e | TCall e | TAfter e _ => 3 * (att e - 1) | _ => 0 end%nat.
Fixpoint cost (l : list (N * pentry)) : nat := match l with [] => 0 | x :: r => 3 * att (snd x) + cost r end%nat.
Lemma cost_app l l' : cost (l ++ l') = (cost l + cost l')%nat.
Proof. induction l as [|x l IH]; cbn [cost app]; lia. Qed.
Definition measure s (t : tstate) : nat := (left t + held_cost t + cost (pc (hq s)))%nat.

Definition data_ok (l : list (N * pentry)) : Prop := Forall (fun x => dto_ok (pe_data (snd x)) = true) l.
Definition head_ok (l : list (N * pentry)) : Prop := match l with [] => True | x :: _ => dto_ok (pe_data (snd x)) = true end.
Definition held_ok (t : tstate) : Prop := match t with TBefore e | TCall e | TAfter e _ => dto_ok (pe_data e) = true | _ => True end.

(** from the loop head *)
Lemma at_loop s i s' o : hmid no_meta s i -> running s = true -> proc_paused s = false -> shut s = false ->
  head_ok (pc (hq s)) -> loop dto_ok s i = (s', o) ->
  exists t', nth_error (tasks s') i = Some t' /\ hinv s' /\ shut s' = false /\ proc_paused s' = false /\ pushing s' = pushing s /\
    (measure s' t' <= cost (pc (hq s)))%nat /\ held_ok t' /\ (data_ok (pc (hq s)) -> data_ok (pc (hq s'))) /\ (t' = TDone -> pc (hq s') = []) /\
    (forall k e rest, pc (hq s) = (k, e) :: rest -> t' = TBefore e /\ pc (hq s') = rest /\
        o = [HStarted (pe_key e) (pe_data e) (pe_meta e) (pe_retries e)]).
Proof.
  intros H R P S Ok E. destruct (pc (hq s)) as [|[k e] rest] eqn:Pc.
  - destruct (loop_ends s i s' o H R P S Pc E) as (A1 & A2 & A3 & A4 & A5 & _ & A6 & _). exists TDone.
    split; [exact A4|]. split; [exact A1|]. split; [exact A2|]. split; [exact A3|]. split; [exact A6|].
    split; [unfold measure; rewrite A5; cbn; lia|]. split; [exact I|]. split; [rewrite A5; constructor|]. split; [auto|]. discriminate.
  - cbn [head_ok snd] in Ok.
    destruct (loop_takes s i k e rest s' o H R P S Pc Ok E) as (G & A1 & _ & A2 & A3). destruct G as [B1 B2 B3 B4 B5].
    exists (TBefore e). split; [exact B4|]. split; [exact B1|]. split; [exact B3|]. split; [exact B2|]. split; [exact A2|].
    split.
    { unfold measure. rewrite A1. cbn [left held_cost cost snd].
      assert (1 <= att e)%nat by (unfold att, attempts_left; lia). lia. }
    split; [exact Ok|]. split; [rewrite A1; now inversion 1|]. split; [discriminate|].
    intros k0 e0 rest0 X. injection X as <- <- <-. auto.
Qed.

(** One step, whatever boolean or nothing the awaited code returns. *)
Lemma own_step s i t r s' o : going s i t -> held_ok t -> head_ok (pc (hq s)) -> r <> RExn -> hstep s (ETask i r) = (s', o) ->
  (s' = s /\ o = [] /\ r = ROk) \/
  exists t', nth_error (tasks s') i = Some t' /\ hinv s' /\ shut s' = false /\ proc_paused s' = false /\ pushing s' = pushing s /\
    (measure s' t' < measure s t)%nat /\ held_ok t' /\ (data_ok (pc (hq s)) -> data_ok (pc (hq s'))) /\ (t' = TDone -> pc (hq s') = []) /\
    match t with
    | TBefore e => t' = TCall e /\ pc (hq s') = pc (hq s) /\ o = [HCalled (pe_key e) (pe_data e)]
    | TCall e => exists b, t' = TAfter e b /\ pc (hq s') = pc (hq s)
    | _ => forall k e rest, pc (hq s) = (k, e) :: rest -> t' = TBefore e /\ exists new, pc (hq s') = rest ++ new
    end.
Proof.
  intros G Ht Ok Nr E. pose proof (go_inv _ _ _ G) as H. pose proof (go_task _ _ _ G) as N. pose proof (go_live _ _ _ G) as L.
  pose proof (hinv_mid no_meta s i _ H N L) as HM.
  assert (Open : closed s' = closed s /\ shut s' = false).
  { apply (step_open no_meta dto_ok truthy max_retries s (ETask i r) s' o); auto; [apply G|discriminate]. }
  destruct Open as [Cl Sh].
  destruct (hstep_ok no_meta dto_ok truthy max_retries s _ s' o H E Cl) as [H' _].
  cbn [HandlerModel.hstep] in E. unfold task_step in E. rewrite N in E.
  destruct t as [|e|e|e b|]; [| | | |congruence].
  - right. assert (HM' : hmid no_meta (set_running s true) i) by (destruct HM; constructor; auto).
    destruct (at_loop (set_running s true) i s' o HM' eq_refl (go_unpaused _ _ _ G) (go_open _ _ _ G) Ok E)
      as (t' & A1 & A2 & A3 & A4 & A5 & A6 & A7 & A7' & A8 & A9).
    exists t'. split; [exact A1|]. split; [exact A2|]. split; [exact A3|]. split; [exact A4|]. split; [exact A5|].
    split; [unfold measure in *; cbn [left held_cost set_running hq] in *; lia|]. split; [exact A7|]. split; [exact A7'|]. split; [exact A8|].
    intros k e rest X. destruct (A9 k e rest X) as (B1 & B2 & _). split; [exact B1|]. exists []. now rewrite app_nil_r.
  - right. assert (E' : (set_task s i (TCall e), [@HCalled D M (pe_key e) (pe_data e)]) = (s', o)) by (destruct r; auto; congruence).
    injection E' as <- <-. exists (TCall e). split; [cbn; apply nth_set_same, HM|]. split; [exact H'|]. split; [exact Sh|].
    split; [apply G|]. split; [reflexivity|]. split; [unfold measure; cbn [left held_cost set_task set_tasks hq]; lia|].
    split; [exact Ht|]. split; [auto|]. split; [discriminate|]. auto.
  - destruct r as [|b|]; [left|right|congruence].
    + injection E as <- <-. auto.
    + injection E as <- <-. exists (TAfter e b). split; [cbn; apply nth_set_same, HM|]. split; [exact H'|]. split; [exact Sh|].
      split; [apply G|]. split; [reflexivity|]. split; [unfold measure; cbn [left held_cost set_task set_tasks hq]; lia|].
      split; [exact Ht|]. split; [auto|]. split; [discriminate|]. exists b. auto.
  - right. assert (E' : (let (s1, o1) := settle no_meta max_retries s e b in let (s2, o2) := loop dto_ok s1 i in (s2, o1 ++ o2)) = (s', o))
      by (destruct r; auto; congruence).
    destruct (settle no_meta max_retries s e b) as [s1 o1] eqn:Es. destruct (loop dto_ok s1 i) as [s2 o2] eqn:El. injection E' as <- <-.
    destruct (settle_same s e b s1 o1 Es) as (T1 & T2 & T3 & T4 & T5 & T6).
    pose proof (settle_pend s i e b s1 o1 HM Es) as Pe.
    destruct (settle_ok no_meta dto_ok max_retries s i e b s1 o1 HM Es) as (HM1 & R1 & C1 & _).
    assert (HR : running s = true) by (eapply running_started; eauto; reflexivity).
    assert (Ok1 : head_ok (pc (hq s1))).
    { destruct Pe as [->|(_ & _ & ->)]; [exact Ok|]. destruct (pc (hq s)); [exact Ht|exact Ok]. }
    assert (Ok2 : data_ok (pc (hq s)) -> data_ok (pc (hq s1))).
    { intros Ok2. destruct Pe as [->|(_ & _ & ->)]; [exact Ok2|]. apply Forall_app. split; [exact Ok2|]. constructor; [exact Ht|constructor]. }
    destruct (at_loop s1 i s2 o2 HM1 ltac:(congruence) ltac:(rewrite T2; apply G) ltac:(rewrite T3; apply G) Ok1 El)
      as (t' & A1 & A2 & A3 & A4 & A5 & A6 & A7 & A7' & A8 & A9).
    exists t'. split; [exact A1|]. split; [exact A2|]. split; [exact A3|]. split; [exact A4|]. split; [congruence|].
    split.
    { assert (cost (pc (hq s1)) <= held_cost (TAfter e b) + cost (pc (hq s)))%nat.
      { destruct Pe as [->|(_ & Lt & ->)]; [lia|]. rewrite cost_app. cbn [cost snd held_cost]. unfold att, attempts_left. cbn [pe_retries]. lia. }
      unfold measure at 2. cbn [left]. lia. }
    split; [exact A7|]. split; [auto|]. split; [exact A8|].
    intros k0 e0 rest X. destruct Pe as [Pe|(_ & _ & Pe)].
    + destruct (A9 k0 e0 rest) as (B1 & B2 & _); [congruence|]. split; [exact B1|]. exists []. now rewrite app_nil_r.
    + rewrite X in Pe. cbn [app] in Pe. destruct (A9 _ _ _ Pe) as (B1 & B2 & _). split; [exact B1|]. eauto.
Qed.

(** ** Bounded waiting *)
Lemma own_or_not ev i : (exists r, ev = ETask i r) \/ forall r, ev <> ETask i r.
Proof. destruct ev; try (right; discriminate). destruct (Nat.eq_dec i0 i) as [->|Ne]; [left; eauto|right; congruence]. Qed.
Lemma steps_other ev i (r : list hev) : (forall q, ev <> ETask i q) -> steps_of i (ev :: r) = steps_of i r.
Proof.
  intros Ne. unfold steps_of. cbn [filter]. destruct ev as [| | | | |j q| | | | | | | | | | |]; auto.
  destruct q; auto. destruct (Nat.eqb_spec j i) as [->|]; [exfalso; now apply (Ne (RRet b))|auto].
Qed.
Lemma steps_own i q (r : list hev) : (steps_of i (ETask i q :: r) <= S (steps_of i r))%nat.
Proof. unfold steps_of. cbn [filter]. destruct q; try lia. rewrite Nat.eqb_refl. cbn. lia. Qed.
Lemma steps_ok i (r : list hev) : steps_of i (ETask i ROk :: r) = steps_of i r.
Proof. reflexivity. Qed.

Lemma called_in evs : forall s s' o i e, going s i (TBefore e) -> forallb undisturbed evs = true -> hrun s evs = (s', o) ->
  (1 <= steps_of i evs)%nat -> In (HCalled (pe_key e) (pe_data e)) o.
Proof.
  induction evs as [|ev r IH]; intros s s' o i e G U E L; [cbn in L; lia|].
  cbn [HandlerModel.hrun] in E. destruct (hstep s ev) as [s1 o1] eqn:E1. destruct (hrun s1 r) as [s2 o2] eqn:E2. injection E as <- <-.
  cbn [forallb] in U. apply andb_prop in U as [U1 U2].
  apply in_or_app. destruct (own_or_not ev i) as [[b ->]|Ne].
  - left. cbn [HandlerModel.hstep] in E1. unfold task_step in E1. rewrite (go_task _ _ _ G) in E1.
    destruct b; [| |discriminate U1]; injection E1 as <- <-; now left.
  - right. destruct (quiet s i _ ev s1 o1 G U1 Ne E1) as [G1 _]. apply (IH s1 s2 o2 i e G1 U2 E2).
    now rewrite steps_other in L.
Qed.

(** The request behind [pre] is called within this many steps of the task. *)
Theorem bounded_waiting evs : forall s s' o i t pre k e post, going s i t -> held_ok t ->
  pc (hq s) = pre ++ (k, e) :: post -> data_ok (pre ++ [(k, e)]) ->
  forallb undisturbed evs = true -> hrun s evs = (s', o) ->
  (3 * List.length pre + left t + 1 <= steps_of i evs)%nat -> In (HCalled (pe_key e) (pe_data e)) o.
Proof.
  induction evs as [|ev r IH]; intros s s' o i t pre k e post G Ht Pc Ok U E L; [cbn in L; lia|].
  cbn [HandlerModel.hrun] in E. destruct (hstep s ev) as [s1 o1] eqn:E1. destruct (hrun s1 r) as [s2 o2] eqn:E2. injection E as <- <-.
  cbn [forallb] in U. apply andb_prop in U as [U1 U2]. apply in_or_app. right.
  destruct (own_or_not ev i) as [[b ->]|Ne].
  - assert (Hd : head_ok (pc (hq s))).
    { rewrite Pc. destruct pre as [|y pre]; cbn; now inversion Ok. }
    destruct (own_step s i t b s1 o1 G Ht Hd ltac:(intros ->; discriminate U1) E1) as [(-> & -> & ->)|
      (t' & A1 & A2 & A3 & A4 & A5 & A6 & A7 & A7' & A8 & A9)].
    { apply (IH s s2 o2 i t pre k e post G Ht Pc Ok U2 E2). rewrite steps_ok in L. exact L. }
    pose proof (steps_own i b r) as L1. pose proof (go_live _ _ _ G) as Live.
    assert (Take : left t = 1%nat -> (forall k e rest, pc (hq s) = (k, e) :: rest -> t' = TBefore e /\ exists new, pc (hq s1) = rest ++ new) ->
                   In (HCalled (pe_key e) (pe_data e)) o2).
    { intros Lt A. destruct pre as [|[k1 e1] pre].
      - destruct (A k e post Pc) as [-> [new Pn]].
        apply (called_in r s1 s2 o2 i e); [constructor; auto; discriminate|exact U2|exact E2|cbn [List.length] in L; lia].
      - cbn [app] in Pc. destruct (A _ _ _ Pc) as [-> [new Pn]].
        apply (IH s1 s2 o2 i (TBefore e1) pre k e (post ++ new)); [constructor; auto; discriminate|exact A7| | |exact U2|exact E2|].
        + rewrite Pn, <- app_assoc. reflexivity.
        + now inversion Ok.
        + cbn [List.length left] in *. lia. }
    destruct t as [|e0|e0|e0 b0|]; [now apply Take| | |now apply Take|congruence].
    + destruct A9 as (-> & Pn & _). apply (IH s1 s2 o2 i (TCall e0) pre k e post); auto; [constructor; auto; discriminate|congruence|].
      cbn [left] in *. lia.
    + destruct A9 as (b0 & -> & Pn). apply (IH s1 s2 o2 i (TAfter e0 b0) pre k e post); auto; [constructor; auto; discriminate|congruence|].
      cbn [left] in *. lia.
  - destruct (quiet s i t ev s1 o1 G U1 Ne E1) as [G1 [new Pn]].
    apply (IH s1 s2 o2 i t pre k e (post ++ new) G1 Ht); auto.
    + rewrite Pn, Pc, <- app_assoc. reflexivity.
    + now rewrite steps_other in L.
Qed.

(** ** Draining *)
Definition tame s (r : hstate * list hout) : Prop := accepted (snd r) = [] /\ removed (snd r) = [] /\ cur (fst r) = cur s.
Lemma tame_finish s i : tame s (finish_task s i).
Proof.
  unfold tame, finish_task, shut_down_check. destruct (_ && _); [|auto].
  destruct (q_shut_down _); [|auto]. destruct (q_shut_down _); [|auto]. destruct (fut_done _); auto.
Qed.
Lemma tame_loop s i : tame s (loop dto_ok s i).
Proof.
  unfold loop. destruct (_ && _); [|apply tame_finish].
  destruct (pop_pending (hq s)) as [[q [e|]]|e]; [destruct (dto_ok _); [repeat split|]| |].
  - pose proof (tame_finish (set_hq s q) i) as T. destruct (finish_task (set_hq s q) i). exact T.
  - pose proof (tame_finish (set_hq s q) i) as T. destruct (finish_task (set_hq s q) i). exact T.
  - pose proof (tame_finish s i) as T. destruct (finish_task s i). exact T.
Qed.
Lemma tame_settle s e b : tame s (settle no_meta max_retries s e b).
Proof.
  unfold settle, h_push_error, h_push_pending, item_p. destruct b; [repeat split|]. destruct (_ <=? _).
  - destruct (push_error _ _ _ _ _ _); [|repeat split]. destruct (has _ _); repeat split.
  - destruct (push_pending _ _ _ _ _ _); [|repeat split]. destruct (has _ _); repeat split.
Qed.
Lemma tame_step s i b : tame s (hstep s (ETask i (RRet b))).
Proof.
  cbn [HandlerModel.hstep]. unfold task_step. destruct (nth_error (tasks s) i) as [[|e|e|e b0|]|]; try (repeat split; fail).
  - pose proof (tame_loop (set_running s true) i) as T. exact T.
  - pose proof (tame_settle s e b0) as T1. destruct (settle no_meta max_retries s e b0) as [s1 o1].
    pose proof (tame_loop s1 i) as T2. destruct (loop dto_ok s1 i) as [s2 o2]. unfold tame in *. cbn [fst snd] in *.
    destruct T1 as (A1 & A2 & A3), T2 as (B1 & B2 & B3). rewrite accepted_app, removed_app, A1, A2, B1, B2. repeat split. congruence.
Qed.
Theorem drains bs : forall s s' o i t, going s i t -> held_ok t -> data_ok (pc (hq s)) ->
  hrun s (map (fun b => ETask i (RRet b)) bs) = (s', o) -> (measure s t <= List.length bs)%nat ->
  hinv s' /\ shut s' = false /\ pc (hq s') = [] /\ nth_error (tasks s') i = Some TDone /\ pushing s' = pushing s.
Proof.
  induction bs as [|b r IH]; intros s s' o i t G Ht Ok E L.
  - exfalso. unfold measure in L. pose proof (go_live _ _ _ G). destruct t; cbn in L; congruence || lia.
  - cbn [map HandlerModel.hrun] in E. destruct (hstep s (ETask i (RRet b))) as [s1 o1] eqn:E1.
    destruct (hrun s1 (map (fun b => ETask i (RRet b)) r)) as [s2 o2] eqn:E2. injection E as <- <-.
    assert (Hd : head_ok (pc (hq s))) by (destruct (pc (hq s)); [exact I|now inversion Ok]).
    destruct (own_step s i t (RRet b) s1 o1 G Ht Hd ltac:(discriminate) E1) as [(_ & _ & X)|
      (t' & A1 & A2 & A3 & A4 & A5 & A6 & A7 & A7' & A8 & A9)]; [discriminate X|].
    assert (Dn : t' = TDone \/ t' <> TDone) by (destruct t'; (now left) || (right; discriminate)).
    destruct Dn as [->|Nd].
    + assert (Stay : forall l s, nth_error (tasks s) i = Some TDone -> hrun s (map (fun b => ETask i (RRet b)) l) = (s, [])).
      { intros l. induction l as [|b0 l IHl]; intros s0 N; [reflexivity|]. cbn [map HandlerModel.hrun HandlerModel.hstep]. unfold task_step.
        rewrite N, (IHl s0 N). reflexivity. }
      rewrite (Stay r s1 A1) in E2. injection E2 as <- <-. auto 10.
    + cbn [List.length] in L. destruct (IH s1 s2 o2 i t') as (B1 & B2 & B3 & B4 & B5); auto; [constructor; auto|lia|].
      repeat split; auto; try apply B1. congruence.
Qed.
End Proofs.
