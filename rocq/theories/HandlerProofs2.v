(** Consequences over whole runs: conservation, order, attempts. *)
From Coq Require Import List ZArith NArith Bool String Lia Permutation.
From Coq Require Import ZifyBool ZifyNat ZifyN.
From Verif Require Import Base PermTac PQueueModel PQueueSpec PQueueProofs PQueueProofs2 PendingModel PendingSpec
  PendingProofs HandlerModel HandlerSpec HandlerProofs.
Import ListNotations.
Local Open Scope Z_scope.

Section Proofs.
Context {D M : Type}.
Variable no_meta : M.
Variables dto_ok truthy : D -> bool.
Variable max_retries : Z.
Notation item := (item D M). Notation hout := (hout D M). Notation hev := (hev D M). Notation hstate := (hstate D M).
Notation tstate := (tstate D M). Notation pentry := (pentry D M). Notation eentry := (eentry D M).
Notation cnt := (@calls D M). Notation ret := (@returns D M).
Notation ast := (@ast D M). Notation micro := (@micro D M dto_ok max_retries). Notation micros := (@micros D M dto_ok max_retries).
Implicit Types (s : hstate) (a : ast) (o : list hout).

(** ** Reading outputs *)
Lemma accepted_app o o' : accepted (o ++ o') = accepted o ++ accepted o'. Proof. apply flat_map_app. Qed.
Lemma finished_app o o' : finished (o ++ o') = finished o ++ finished o'. Proof. apply flat_map_app. Qed.
Lemma removed_app o o' : removed (o ++ o') = removed o ++ removed o'. Proof. apply flat_map_app. Qed.
Lemma dropped_app o o' : dropped (o ++ o') = dropped o ++ dropped o'. Proof. apply flat_map_app. Qed.
Lemma lost_app o o' : lost (o ++ o') = lost o ++ lost o'. Proof. apply flat_map_app. Qed.
Lemma queued_app o o' : queued (o ++ o') = queued o ++ queued o'. Proof. apply flat_map_app. Qed.
Lemma started_app o o' : started (o ++ o') = started o ++ started o'. Proof. apply flat_map_app. Qed.

(** Everything that left the handler. *)
Definition gone o : list item :=
  flat_map (fun x => match x with HFinished y | HRemoved y | HDropped y | HLost y => [y] | _ => [] end) o.
Lemma gone_app o o' : gone (o ++ o') = gone o ++ gone o'. Proof. apply flat_map_app. Qed.
Lemma gone_parts o : Permutation (gone o) (finished o ++ removed o ++ dropped o ++ lost o).
Proof.
  unfold gone, finished, removed, dropped, lost.
  induction o as [|x o IH]; [constructor|]. cbn [flat_map].
  destruct x; cbn [app]; auto; rewrite IH; perm.
Qed.

Definition in_items (i : option (pentry * phase)) : list item := match i with Some (e, _) => [item_p e] | None => [] end.
Definition a_items a : list item := a_push a ++ items_p (a_pend a) ++ in_items (a_in a) ++ items_e (a_err a).

Record wf a : Prop := mkWf {
  wf_p : Forall (fun e => pe_key (snd e) = fst e) (a_pend a);
  wf_e : Forall (fun e => ee_key (snd e) = fst e) (a_err a);
  wf_np : NoDup (map fst (a_pend a));
  wf_ne : NoDup (map fst (a_err a)) }.

Lemma without_perm (l : list (N * eentry)) k x : NoDup (map fst l) -> lookup k l = Some x ->
  Permutation l ((k, x) :: without k l).
Proof.
  unfold without, lookup. induction l as [|[k' y] l IH]; cbn [find map fst filter]; [discriminate|].
  intros ND L. inversion ND; subst. cbn [N.eqb] in *. destruct (N.eqb k' k) eqn:E; cbn [negb].
  - apply N.eqb_eq in E. subst k'. cbn in L. injection L as ->. apply perm_skip.
    fold (without k l). rewrite without_fresh by auto. auto.
  - rewrite (IH H2 L) at 1. apply perm_swap.
Qed.

Lemma filter_split {A} (f : A -> bool) l : Permutation l (filter f l ++ filter (fun x => negb (f x)) l).
Proof.
  induction l as [|x l IH]; [constructor|]. cbn [filter]. destruct (f x); cbn [negb app].
  - now apply perm_skip.
  - rewrite IH at 1. apply Permutation_middle.
Qed.

Lemma retried_item e : ee_key (snd e) = fst e -> item_p (snd (retried (D:=D) (M:=M) e)) = item_e (snd e).
Proof. destruct e as [k x]. cbn. intros <-. reflexivity. Qed.

Lemma items_retried (l : list (N * eentry)) : Forall (fun e => ee_key (snd e) = fst e) l -> items_p (map (retried (D:=D) (M:=M)) l) = items_e l.
Proof.
  unfold items_p, items_e. induction 1 as [|e l H H1 IH]; [reflexivity|]. cbn [map]. rewrite IH, retried_item by auto.
  reflexivity.
Qed.

Lemma items_p_app l l' : items_p (D:=D) (M:=M) (l ++ l') = items_p l ++ items_p l'. Proof. apply map_app. Qed.
Lemma items_e_app l l' : items_e (D:=D) (M:=M) (l ++ l') = items_e l ++ items_e l'. Proof. apply map_app. Qed.

Lemma Forall_filter {A} (P : A -> Prop) f (l : list A) : Forall P l -> Forall P (filter f l).
Proof. rewrite !Forall_forall. intros H x Hx. apply H. apply filter_In in Hx. apply Hx. Qed.

Lemma map_fst_retried l : map fst (map (retried (D:=D) (M:=M)) l) = map fst l.
Proof. rewrite map_map. reflexivity. Qed.

Lemma NoDup_map_filter {A} (g : A -> N) f (l : list A) : NoDup (map g l) -> NoDup (map g (filter f l)).
Proof.
  induction l as [|x l IH]; cbn; intros H; [constructor|]. inversion H; subst. destruct (f x); cbn; auto.
  constructor; auto. intros Hi. apply H2. apply in_map_iff in Hi as [y [E Y]]. apply filter_In in Y as [Y _].
  rewrite <- E. now apply in_map.
Qed.

Lemma NoDup_app_intro {A} (l l' : list A) : NoDup l -> NoDup l' -> (forall x, In x l -> ~ In x l') -> NoDup (l ++ l').
Proof.
  induction 1; cbn; intros H1 H2; auto. constructor.
  - rewrite in_app_iff. intros [Hx|Hx]; [auto|]. apply (H2 x); auto.
  - apply IHNoDup; auto.
Qed.

Lemma NoDup_moved (lp : list (N * pentry)) (le : list (N * eentry)) : NoDup (map fst lp) -> NoDup (map fst le) ->
  NoDup (map fst (lp ++ map retried (filter (fun e => negb (has (fst e) lp)) le))).
Proof.
  intros H1 H2. rewrite map_app, map_fst_retried. apply NoDup_app_intro; auto; [now apply NoDup_map_filter|].
  intros k Hk Hi. apply in_map_iff in Hi as [e [E Hi]]. apply filter_In in Hi as [_ Hi]. subst k.
  apply has_In in Hk. rewrite Hk in Hi. discriminate.
Qed.

Lemma wf_add (l : list (N * pentry)) k e : pe_key e = k -> Forall (fun e => pe_key (snd e) = fst e) l ->
  Forall (fun e => pe_key (snd e) = fst e) (add l k e).
Proof. intros H1 H2. now apply Forall_add. Qed.
Lemma nd_add {V} (l : list (N * V)) k e : NoDup (map fst l) -> NoDup (map fst (add l k e)).
Proof. intros H. unfold add. destruct (has k l) eqn:E; [auto|]. apply NoDup_snoc; auto. now apply has_false. Qed.
Lemma nd_snoc {V} (l : list (N * V)) k e : has k l = false -> NoDup (map fst l) -> NoDup (map fst (l ++ [(k, e)])).
Proof. intros E H. apply NoDup_snoc; auto. now apply has_false. Qed.

Lemma dropped_back (lp : list (N * pentry)) (le : list (N * eentry)) : dropped (flat_map (back_outs lp) le) = items_e (filter (fun e => has (fst e) lp) le).
Proof.
  induction le as [|e le IH]; [reflexivity|]. cbn [flat_map filter]. rewrite dropped_app, IH.
  unfold back_outs. destruct (has (fst e) lp); reflexivity.
Qed.
Lemma gone_back (lp : list (N * pentry)) (le : list (N * eentry)) : gone (flat_map (back_outs lp) le) = items_e (filter (fun e => has (fst e) lp) le).
Proof.
  induction le as [|e le IH]; [reflexivity|]. cbn [flat_map filter]. rewrite gone_app, IH.
  unfold back_outs. destruct (has (fst e) lp); reflexivity.
Qed.
Lemma accepted_back lp le : accepted (flat_map (back_outs (D:=D) (M:=M) lp) le) = [].
Proof.
  induction le as [|e le IH]; [reflexivity|]. cbn [flat_map]. rewrite accepted_app, IH.
  unfold back_outs. destruct (has (fst e) lp); reflexivity.
Qed.
Lemma gone_clear (l : list (N * eentry)) : gone (map (fun e => HRemoved (item_e (snd e))) l) = items_e l.
Proof. induction l as [|e l IH]; [reflexivity|]. cbn [map]. change (item_e (snd e) :: gone (map (fun e => HRemoved (item_e (snd e))) l) = item_e (snd e) :: items_e l). now rewrite IH. Qed.
Lemma accepted_clear (l : list (N * eentry)) : accepted (map (fun e => HRemoved (D:=D) (M:=M) (item_e (snd e))) l) = [].
Proof. induction l as [|e l IH]; [reflexivity|]. exact IH. Qed.

Lemma items_e_perm l l' : Permutation l l' -> Permutation (items_e (D:=D) (M:=M) l) (items_e l').
Proof. apply Permutation_map. Qed.

Theorem micro_conserves a o a' : wf a -> micro a o a' ->
  wf a' /\ Permutation (accepted o ++ a_items a) (a_items a' ++ gone o).
Proof.
  intros [W1 W2 W3 W4] H. destruct H; cbn [a_pend a_err] in *.
  - destruct o; try discriminate H; (split; [constructor; auto|]); cbn [accepted gone flat_map]; perm.
  - split; [constructor; auto|]. unfold a_items. cbn [accepted gone flat_map a_push a_pend a_in a_err app]. perm.
  - split; [constructor; cbn [a_pend a_err]; auto|].
    + apply Forall_app; auto.
    + now apply nd_snoc.
    + unfold a_items. cbn [accepted gone flat_map a_push a_pend a_in a_err]. rewrite items_p_app.
      change (items_p [(k, mkP k 0 d m)]) with [(k, d, m)]. perm.
  - split; [constructor; auto|]. unfold a_items. cbn [accepted gone flat_map a_push a_pend a_in a_err app]. perm.
  - split; [constructor; auto|]. unfold a_items. cbn [accepted gone flat_map a_push a_pend a_in a_err app]. perm.
  - split; [constructor; cbn [a_pend a_err]; auto; [now inversion W1|now inversion W3]|].
    unfold a_items. cbn [accepted gone flat_map a_push a_pend a_in a_err app in_items items_p map snd].
    fold (items_p lp). perm.
  - split; [constructor; cbn [a_pend a_err]; auto; [now inversion W1|now inversion W3]|].
    unfold a_items. cbn [accepted gone flat_map a_push a_pend a_in a_err app in_items items_p map snd].
    fold (items_p lp). perm.
  - split; [constructor; auto|]. unfold a_items. cbn [accepted gone flat_map a_push a_pend a_in a_err app in_items]. perm.
  - split; [constructor; auto|]. unfold a_items. cbn [accepted gone flat_map a_push a_pend a_in a_err app in_items]. perm.
  - split; [constructor; auto|]. unfold a_items. cbn [accepted gone flat_map a_push a_pend a_in a_err app in_items]. perm.
  - split; [constructor; cbn [a_pend a_err]; auto|].
    + apply Forall_app; auto.
    + now apply nd_snoc.
    + unfold a_items. cbn [accepted gone flat_map a_push a_pend a_in a_err in_items]. rewrite items_p_app.
      change (items_p [(pe_key e, mkP (pe_key e) (pe_retries e + 1) (pe_data e) (pe_meta e))]) with [item_p e]. perm.
  - split; [constructor; auto|]. unfold a_items. cbn [accepted gone flat_map a_push a_pend a_in a_err app in_items]. perm.
  - split; [constructor; cbn [a_pend a_err]; auto|].
    + apply Forall_app; auto.
    + now apply nd_snoc.
    + unfold a_items. cbn [accepted gone flat_map a_push a_pend a_in a_err in_items]. rewrite items_e_app.
      change (items_e [(pe_key e, mkE (pe_key e) (pe_data e) "Max retries reached." (pe_meta e))]) with [item_p e]. perm.
  - split; [constructor; auto|]. unfold a_items. cbn [accepted gone flat_map a_push a_pend a_in a_err app in_items]. perm.
  - split; [constructor; auto|]. unfold a_items. cbn [accepted gone flat_map a_push a_pend a_in a_err app in_items]. perm.
  - split; [constructor; cbn [a_pend a_err]; auto|].
    + apply Forall_app; split; [auto|]. apply Forall_map. rewrite Forall_forall. intros e _. reflexivity.
    + now apply NoDup_moved.
    + constructor.
    + rewrite accepted_back, gone_back. unfold a_items. cbn [a_push a_pend a_in a_err].
      rewrite items_p_app, items_retried by (now apply Forall_filter).
      rewrite (items_e_perm _ _ (filter_split (fun e => has (fst e) lp) le)) at 1. rewrite items_e_app. unfold items_e at 4. cbn [map].
      perm.
  - pose proof (without_perm le k x W4 H) as P.
    assert (Hk : ee_key x = k).
    { apply lookup_In in H. rewrite Forall_forall in W2. now apply (W2 (k, x)). }
    split.
    + constructor; cbn [a_pend a_err]; [now apply wf_add|now apply Forall_without|now apply nd_add|now apply NoDup_without].
    + unfold a_items, back_outs, add. cbn [a_push a_pend a_in a_err fst snd].
      rewrite (items_e_perm _ _ P). unfold items_e at 1. cbn [map snd]. fold (items_e (without k le)).
      destruct (has k lp) eqn:E; cbn [accepted gone flat_map app].
      * perm.
      * rewrite items_p_app. change (items_p [(k, mkP k 0 (ee_data x) (ee_meta x))]) with [(k, ee_data x, ee_meta x)].
        replace (item_e x) with (k, ee_data x, ee_meta x) by (unfold item_e; now rewrite Hk). perm.
  - pose proof (without_perm le k x W4 H) as P.
    split.
    + constructor; cbn [a_pend a_err]; auto; [now apply Forall_without|now apply NoDup_without].
    + unfold a_items. cbn [a_push a_pend a_in a_err fst snd].
      rewrite (items_e_perm _ _ P). unfold items_e at 1. cbn [map snd accepted gone flat_map]. fold (items_e (without k le)).
      perm.
  - split; [constructor; cbn [a_pend a_err]; auto; constructor|].
    rewrite accepted_clear, gone_clear. unfold a_items. cbn [a_push a_pend a_in a_err]. unfold items_e at 2. cbn [map]. perm.
Qed.

Theorem micros_conserve a o a' : micros a o a' -> wf a ->
  wf a' /\ Permutation (accepted o ++ a_items a) (a_items a' ++ gone o).
Proof.
  induction 1 as [a|a o a1 o1 a2 H H1 IH]; intros W.
  - split; [auto|]. cbn. perm.
  - destruct (micro_conserves _ _ _ W H) as [W1 P1]. destruct (IH W1) as [W2 P2]. split; [auto|].
    rewrite accepted_app, gone_app, (Permutation_app_comm (accepted o)), <- app_assoc, P1.
    rewrite app_assoc, P2. perm.
Qed.

(** *** Nothing is dropped when keys are distinct *)
Lemma keys_perm (l l' : list item) : Permutation l l' -> NoDup (map key_of l) -> NoDup (map key_of l').
Proof. intros P H. eapply Permutation_NoDup; [|exact H]. now apply Permutation_map. Qed.

Lemma items_p_keys (l : list (N * pentry)) : Forall (fun e => pe_key (snd e) = fst e) l -> map key_of (items_p l) = map fst l.
Proof.
  induction 1 as [|[k e] l H H1 IH]; [reflexivity|]. unfold items_p in *. cbn [map fst snd] in *. rewrite IH. f_equal. exact H.
Qed.
Lemma items_e_keys (l : list (N * eentry)) : Forall (fun e => ee_key (snd e) = fst e) l -> map key_of (items_e l) = map fst l.
Proof.
  induction 1 as [|[k e] l H H1 IH]; [reflexivity|]. unfold items_e in *. cbn [map fst snd] in *. rewrite IH. f_equal. exact H.
Qed.

Lemma two_keys (l : list item) (x : item) k r : Permutation l (x :: r) -> NoDup (map key_of l) -> key_of x = k ->
  ~ In k (map key_of r).
Proof. intros P H K. apply (keys_perm _ _ P) in H. cbn in H. inversion H; subst. auto. Qed.

Lemma micro_no_drop a o a' : wf a -> micro a o a' -> NoDup (map key_of (a_items a)) -> dropped o = [].
Proof.
  intros [W1 W2 W3 W4] H ND. unfold a_items in ND. destruct H; cbn [a_push a_pend a_in a_err in_items] in *; try reflexivity.
  - destruct o; try discriminate H; reflexivity.
  - exfalso. assert (P : Permutation ((ps1 ++ (k, d, m) :: ps2) ++ items_p lp ++ in_items i ++ items_e le)
      ((k, d, m) :: ps1 ++ ps2 ++ items_p lp ++ in_items i ++ items_e le)) by perm.
    apply (two_keys _ _ k _ P ND eq_refl). rewrite !map_app, !in_app_iff, items_p_keys by auto. apply has_In in H. tauto.
  - exfalso. assert (P : Permutation (ps ++ items_p lp ++ [item_p e] ++ items_e le)
      (item_p e :: ps ++ items_p lp ++ items_e le)) by perm.
    apply (two_keys _ _ (pe_key e) _ P ND eq_refl). rewrite !map_app, !in_app_iff, items_p_keys by auto. apply has_In in H0. tauto.
  - exfalso. assert (P : Permutation (ps ++ items_p lp ++ [item_p e] ++ items_e le)
      (item_p e :: ps ++ items_p lp ++ items_e le)) by perm.
    apply (two_keys _ _ (pe_key e) _ P ND eq_refl). rewrite !map_app, !in_app_iff, items_e_keys by auto. apply has_In in H0. tauto.
  - rewrite dropped_back. replace (filter (fun e => has (fst e) lp) le) with (@nil (N * eentry)); [reflexivity|].
    symmetry. rewrite !map_app, items_p_keys, items_e_keys in ND by auto.
    apply NoDup_app_remove_l in ND.
    assert (G : forall e, In e le -> has (fst e) lp = false).
    { intros e He. apply has_false. intros Hl. eapply NoDup_app_disj; [exact ND|exact Hl|].
      apply in_app_iff. right. now apply in_map. }
    revert G. clear. induction le as [|e le IH]; intros G; [reflexivity|]. cbn [filter].
    rewrite G by (left; reflexivity). apply IH. intros e' He'. apply G. now right.
  - unfold back_outs. cbn [fst snd]. destruct (has k lp) eqn:E; [|reflexivity]. exfalso.
    rewrite !map_app, items_p_keys, items_e_keys in ND by auto. apply NoDup_app_remove_l in ND.
    apply has_In in E. eapply NoDup_app_disj; [exact ND|exact E|]. apply in_app_iff. right.
    apply lookup_In in H. now apply (in_map fst) in H.
  - clear. induction le as [|e le IH]; [reflexivity|]. exact IH.
Qed.

Lemma micros_no_drop a o a' : micros a o a' -> wf a -> NoDup (map key_of (accepted o ++ a_items a)) -> dropped o = [].
Proof.
  induction 1 as [a|a o a1 o1 a2 H H1 IH]; intros W ND; [reflexivity|].
  destruct (micro_conserves _ _ _ W H) as [W1 P1]. rewrite dropped_app.
  rewrite accepted_app in ND.
  assert (ND0 : NoDup (map key_of (a_items a))).
  { rewrite map_app in ND. now apply NoDup_app_remove_l in ND. }
  rewrite (micro_no_drop _ _ _ W H ND0). apply IH; auto.
  apply (keys_perm _ (accepted o1 ++ a_items a1 ++ gone o)) in ND.
  - rewrite app_assoc, map_app in ND. now apply NoDup_app_remove_r in ND.
  - rewrite <- P1. perm.
Qed.

(** ** Order: what is queued is started in that order *)
Lemma started_back lp le : started (flat_map (back_outs (D:=D) (M:=M) lp) le) = [].
Proof.
  induction le as [|e le IH]; [reflexivity|]. cbn [flat_map]. rewrite started_app, IH.
  unfold back_outs. destruct (has (fst e) lp); reflexivity.
Qed.
Lemma queued_back (lp : list (N * pentry)) (le : list (N * eentry)) :
  queued (flat_map (back_outs lp) le) = map fst (filter (fun e => negb (has (fst e) lp)) le).
Proof.
  induction le as [|e le IH]; [reflexivity|]. cbn [flat_map filter]. rewrite queued_app, IH.
  unfold back_outs. destruct (has (fst e) lp); reflexivity.
Qed.

Definition items_ok (l : list item) : Prop := Forall (fun x => dto_ok (data_of x) = true) l.
Lemma items_ok_perm l l' : Permutation l l' -> items_ok l -> items_ok l'.
Proof. apply Forall_perm. Qed.

Lemma micro_order a o a' : micro a o a' -> items_ok (a_items a) ->
  map fst (a_pend a) ++ queued o = started o ++ map fst (a_pend a').
Proof.
  intros H Ok. destruct H; cbn [a_push a_pend a_in a_err queued started flat_map app];
    rewrite ?map_app; cbn [map fst]; rewrite ?app_nil_r; try reflexivity.
  - destruct o; try discriminate H; cbn; now rewrite app_nil_r.
  - exfalso. unfold items_ok, a_items in Ok. cbn [a_push a_pend a_in a_err] in Ok.
    apply Forall_app in Ok as [_ Ok]. cbn in Ok. inversion Ok; subst. cbn in *. congruence.
  - rewrite queued_back, started_back, map_fst_retried. reflexivity.
  - unfold back_outs, add. cbn [fst snd]. destruct (has k lp); cbn; [now rewrite app_nil_r|now rewrite map_app].
  - assert (Hq : queued (map (fun e => HRemoved (D:=D) (M:=M) (item_e (snd e))) le) = []) by (clear; induction le; auto).
    assert (Hs : started (map (fun e => HRemoved (D:=D) (M:=M) (item_e (snd e))) le) = []) by (clear; induction le; auto).
    rewrite Hq, Hs, app_nil_r. reflexivity.
Qed.

Lemma micros_order a o a' : micros a o a' -> wf a -> items_ok (accepted o ++ a_items a) ->
  map fst (a_pend a) ++ queued o = started o ++ map fst (a_pend a').
Proof.
  induction 1 as [a|a o a1 o1 a2 H H1 IH]; intros W Ok; [cbn; now rewrite app_nil_r|].
  destruct (micro_conserves _ _ _ W H) as [W1 P1]. rewrite queued_app, started_app.
  rewrite accepted_app in Ok. unfold items_ok in Ok. rewrite !Forall_app in Ok. destruct Ok as [[Ok1 Ok2] Ok3].
  rewrite app_assoc, (micro_order _ _ _ H Ok3), <- app_assoc, IH, app_assoc; auto.
  unfold items_ok. apply Forall_app. split; [auto|].
  apply Forall_app with (l2 := gone o). apply (items_ok_perm _ _ P1). apply Forall_app. auto.
Qed.

(** ** What processing sees is what was accepted *)
Lemma micro_started a o a' k d m r : micro a o a' -> In (HStarted k d m r) o -> In (k, d, m) (a_items a).
Proof.
  intros H Hi. destruct H; try solve [destruct Hi as [Hi|[]]; discriminate Hi].
  - destruct Hi as [Hi|[]]. subst o. discriminate.
  - destruct Hi as [Hi|[]]. injection Hi as <- <- <- <-. unfold a_items. cbn. apply in_app_iff. right. left. reflexivity.
  - apply in_flat_map in Hi as [e [_ [Hi|[Hi|[]]]]]; [discriminate|]. destruct (has (fst e) lp); discriminate.
  - destruct Hi as [Hi|[Hi|[]]]; [discriminate|]. cbn in Hi. destruct (has k0 lp); discriminate.
  - apply in_map_iff in Hi as [e [Hi _]]. discriminate.
Qed.
Lemma micros_started a o a' k d m r : micros a o a' -> wf a -> In (HStarted k d m r) o ->
  In (k, d, m) (accepted o ++ a_items a).
Proof.
  induction 1 as [a|a o a1 o1 a2 H H1 IH]; intros W Hi; [destruct Hi|].
  destruct (micro_conserves _ _ _ W H) as [W1 P1]. rewrite accepted_app. apply in_app_iff in Hi as [Hi|Hi].
  - apply in_app_iff. right. eapply micro_started; eauto.
  - apply IH in Hi; auto. rewrite !in_app_iff. apply in_app_iff in Hi as [Hi|Hi]; [auto|].
    assert (X : In (k, d, m) (accepted o ++ a_items a)).
    { eapply Permutation_in; [symmetry; exact P1|]. apply in_app_iff. auto. }
    apply in_app_iff in X. tauto.
Qed.

(** ** Attempts, for one key *)
Lemma cnt_app k n o o' : cnt k n (o ++ o') = cnt k (cnt k n o) o'. Proof. apply fold_left_app. Qed.
Lemma ret_app k b n o o' : ret k b n (o ++ o') = ret k b (ret k b n o) o'. Proof. apply fold_left_app. Qed.

Definition Max : Z := Z.max 1 max_retries.
Lemma max_pos : 1 <= Max. Proof. unfold Max. lia. Qed.

(** Where key [k] is, with [c] calls of which [f] returned False and [t] True. *)
Definition at_push (c f t : Z) : Prop := c = 0 /\ f = 0 /\ t = 0.
Definition at_pend (r c f t : Z) : Prop := c = r /\ f = r /\ t = 0 /\ 0 <= c < Max.
Definition at_in (ph : phase) (r c f t : Z) : Prop :=
  match ph with
  | PBefore => at_pend r c f t
  | PCall => c = r + 1 /\ f = r /\ t = 0 /\ 0 < c <= Max
  | PAfter true => c = r + 1 /\ f = r /\ t = 1 /\ 0 < c <= Max
  | PAfter false => c = r + 1 /\ f = r + 1 /\ t = 0 /\ 0 < c <= Max
  end.
Definition at_err (e : eentry) (c f t : Z) : Prop :=
  c = Max /\ f = Max /\ t = 0 /\ ee_reason e = "Max retries reached."%string.

Record at_key (k : N) (c f t : Z) a : Prop := mkAt {
  ak_push : Forall (fun x => key_of x = k -> at_push c f t) (a_push a);
  ak_pend : Forall (fun e => fst e = k -> at_pend (pe_retries (snd e)) c f t) (a_pend a);
  ak_in : match a_in a with Some (e, ph) => pe_key e = k -> at_in ph (pe_retries e) c f t | None => True end;
  ak_err : Forall (fun e => fst e = k -> at_err (snd e) c f t) (a_err a);
  ak_max : 0 <= c <= Max }.

Definition elsewhere (k : N) a : Prop := Forall (fun x => key_of x <> k) (a_push a ++ items_p (a_pend a) ++ items_e (a_err a)).
Definition no_item (k : N) a : Prop := Forall (fun x => key_of x <> k) (a_items a).

Lemma elsewhere_push k a c f t : elsewhere k a -> Forall (fun x => key_of x = k -> at_push c f t) (a_push a).
Proof. intros H. apply Forall_app in H as [H _]. eapply Forall_impl; [|exact H]. cbn beta. congruence. Qed.
Lemma elsewhere_pend k a c f t : wf a -> elsewhere k a ->
  Forall (fun e => fst e = k -> at_pend (pe_retries (snd e)) c f t) (a_pend a).
Proof.
  intros W H. apply Forall_app in H as [_ H]. apply Forall_app in H as [H _]. unfold items_p in H. rewrite Forall_map in H.
  pose proof (wf_p _ W) as X. rewrite Forall_forall in *. intros e He E. exfalso. apply (H e He). cbn.
  rewrite (X e He). exact E.
Qed.
Lemma elsewhere_err k a c f t : wf a -> elsewhere k a -> Forall (fun e => fst e = k -> at_err (snd e) c f t) (a_err a).
Proof.
  intros W H. apply Forall_app in H as [_ H]. apply Forall_app in H as [_ H]. unfold items_e in H. rewrite Forall_map in H.
  pose proof (wf_e _ W) as X. rewrite Forall_forall in *. intros e He E. exfalso. apply (H e He). cbn.
  rewrite (X e He). exact E.
Qed.

Lemma at_key_in k c f t a : wf a -> elsewhere k a ->
  match a_in a with Some (e, ph) => pe_key e = k -> at_in ph (pe_retries e) c f t | None => True end ->
  0 <= c <= Max -> at_key k c f t a.
Proof. intros W H1 H2 H3. constructor; auto; [now apply elsewhere_push|now apply elsewhere_pend|now apply elsewhere_err]. Qed.

Lemma no_item_elsewhere k a : no_item k a -> elsewhere k a.
Proof. unfold no_item, elsewhere, a_items. rewrite !Forall_app. tauto. Qed.

Lemma at_key_none k a c f t : wf a -> no_item k a -> 0 <= c <= Max -> at_key k c f t a.
Proof.
  intros W H Hc. apply at_key_in; auto; [now apply no_item_elsewhere|].
  unfold no_item, a_items in H. rewrite !Forall_app in H. destruct H as [_ [_ [H _]]].
  destruct (a_in a) as [[e ph]|]; [|exact I]. inversion H; subst. intros E. contradiction.
Qed.

Lemma key_once (l : list item) k (x : item) r : NoDup (map key_of l) -> Permutation l (x :: r) -> key_of x = k ->
  Forall (fun y => key_of y <> k) r.
Proof.
  intros ND P K. apply Forall_forall. intros y Hy E. apply (keys_perm _ _ P) in ND. cbn in ND.
  inversion ND as [|? ? H1 H2]; subst. apply H1. rewrite <- E. now apply in_map.
Qed.

Lemma in_elsewhere k a e ph : NoDup (map key_of (a_items a)) -> a_in a = Some (e, ph) -> pe_key e = k -> elsewhere k a.
Proof.
  intros ND E K. unfold elsewhere. eapply (key_once _ k (item_p e)); [exact ND| |exact K].
  unfold a_items. rewrite E. cbn [in_items]. perm.
Qed.

(** Steps about other keys leave the counts alone; steps about [k] move it along. *)
Lemma cnt_note k n x : note x = true -> cnt k n [x] = n. Proof. destruct x; try discriminate; reflexivity. Qed.
Lemma ret_note k b n x : note x = true -> ret k b n [x] = n. Proof. destruct x; try discriminate; reflexivity. Qed.

Lemma cnt_back_other k n (lp : list (N * pentry)) (le : list (N * eentry)) : ~ In k (map fst le) -> cnt k n (flat_map (back_outs lp) le) = n.
Proof.
  revert n. induction le as [|e le IH]; intros n H; [reflexivity|]. cbn [flat_map]. rewrite cnt_app.
  cbn [map In] in H. rewrite IH by tauto. unfold back_outs. cbn. destruct (N.eqb_spec (fst e) k) as [E|E]; [tauto|].
  destruct (has (fst e) lp); reflexivity.
Qed.
Lemma cnt_back_in k n (lp : list (N * pentry)) (le : list (N * eentry)) : In k (map fst le) -> cnt k n (flat_map (back_outs lp) le) = 0.
Proof.
  revert n. induction le as [|e le IH]; intros n H; [destruct H|]. cbn [flat_map]. rewrite cnt_app.
  destruct (in_dec N.eq_dec k (map fst le)) as [Hi|Hi]; [now apply IH|].
  rewrite cnt_back_other by auto. destruct H as [H|H]; [|tauto]. subst k. unfold back_outs. cbn. rewrite N.eqb_refl.
  destruct (has (fst e) lp); reflexivity.
Qed.
Lemma ret_back_other k b n (lp : list (N * pentry)) (le : list (N * eentry)) : ~ In k (map fst le) -> ret k b n (flat_map (back_outs lp) le) = n.
Proof.
  revert n. induction le as [|e le IH]; intros n H; [reflexivity|]. cbn [flat_map]. rewrite ret_app.
  cbn [map In] in H. rewrite IH by tauto. unfold back_outs. cbn. destruct (N.eqb_spec (fst e) k) as [E|E]; [tauto|].
  destruct (has (fst e) lp); reflexivity.
Qed.
Lemma ret_back_in k b n (lp : list (N * pentry)) (le : list (N * eentry)) : In k (map fst le) -> ret k b n (flat_map (back_outs lp) le) = 0.
Proof.
  revert n. induction le as [|e le IH]; intros n H; [destruct H|]. cbn [flat_map]. rewrite ret_app.
  destruct (in_dec N.eq_dec k (map fst le)) as [Hi|Hi]; [now apply IH|].
  rewrite ret_back_other by auto. destruct H as [H|H]; [|tauto]. subst k. unfold back_outs. cbn. rewrite N.eqb_refl.
  destruct (has (fst e) lp); reflexivity.
Qed.

Lemma back_one (lp : list (N * pentry)) e : back_outs lp e = flat_map (back_outs lp) [e].
Proof. cbn. reflexivity. Qed.

Lemma cnt_clear k n (l : list (N * eentry)) : cnt k n (map (fun e => HRemoved (D:=D) (M:=M) (item_e (snd e))) l) = n.
Proof. revert n. induction l as [|e l IH]; intros n; [reflexivity|]. apply (IH n). Qed.
Lemma ret_clear k b n (l : list (N * eentry)) : ret k b n (map (fun e => HRemoved (D:=D) (M:=M) (item_e (snd e))) l) = n.
Proof. revert n. induction l as [|e l IH]; intros n; [reflexivity|]. apply (IH n). Qed.

Lemma lookup_fst_in {V} k (l : list (N * V)) x : lookup k l = Some x -> In k (map fst l).
Proof. intros H. apply lookup_In in H. now apply (in_map fst) in H. Qed.

Ltac okey := cbn [a_push a_pend a_in a_err] in *.
Ltac same_counts A := destruct A as [A1 A2 A3 A4 A5]; cbn [a_push a_pend a_in a_err] in *.

(** One step for key [k]: it is accepted only when its counts are zero and it is nowhere. *)
Lemma micro_at k c f t a o a' : micro a o a' -> wf a -> NoDup (map key_of (a_items a)) ->
  at_key k c f t a ->
  (In k (map key_of (accepted o)) -> c = 0 /\ f = 0 /\ t = 0) ->
  at_key k (cnt k c o) (ret k false f o) (ret k true t o) a' /\
  (In k (map key_of (finished o)) -> ret k true t o = 1 /\ cnt k c o = ret k false f o + 1) /\
  (no_item k a -> cnt k c o = c /\ ret k false f o = f /\ ret k true t o = t).
Proof.
  intros H W ND At Acc. pose proof max_pos as MP.
  assert (Same : forall o', cnt k c o' = c -> ret k false f o' = f -> ret k true t o' = t -> finished o' = [] ->
    at_key k c f t a' ->
    at_key k (cnt k c o') (ret k false f o') (ret k true t o') a' /\
    (In k (map key_of (finished o')) -> ret k true t o' = 1 /\ cnt k c o' = ret k false f o' + 1) /\
    (no_item k a -> cnt k c o' = c /\ ret k false f o' = f /\ ret k true t o' = t)).
  { intros o' E1 E2 E3 E4 G. rewrite E1, E2, E3, E4. split; [auto|]. split; [intros []|auto]. }
  destruct H.
  - apply Same; auto; try (now rewrite ?cnt_note, ?ret_note). destruct o; try discriminate H; reflexivity.
  - apply Same; auto. same_counts At. constructor; okey; auto. okey. apply Forall_app; split; [auto|].
    constructor; [|constructor]. intros E. apply Acc. cbn. auto.
  - apply Same; auto. same_counts At. apply Forall_app in A1 as [B1 B2]. inversion_clear B2.
    constructor; auto; okey; [apply Forall_app; auto|]. apply Forall_app; split; [auto|].
    constructor; [|constructor]. cbn. intros E. destruct (H0 E) as [-> [-> ->]]. unfold at_pend. lia.
  - apply Same; auto. same_counts At. apply Forall_app in A1 as [B1 B2]. inversion_clear B2.
    constructor; auto; okey. apply Forall_app; auto.
  - apply Same; auto. same_counts At. apply Forall_app in A1 as [B1 B2]. inversion_clear B2.
    constructor; auto; okey. apply Forall_app; auto.
  - apply Same; auto. same_counts At. inversion_clear A2. constructor; auto.
  - apply Same; auto. same_counts At. inversion_clear A2. constructor; auto.
  - (* call *)
    cbn [calls returns fold_left]. split; [|split; [intros []|]].
    + destruct (N.eqb_spec (pe_key e) k) as [E|E].
      * pose proof (in_elsewhere k _ e PBefore ND eq_refl E) as El.
        destruct (ak_in _ _ _ _ _ At E) as [B1 [B2 [B3 B4]]].
        apply at_key_in; [destruct W; constructor; auto|exact El| |lia].
        cbn [a_in]. intros _. cbn. lia.
      * same_counts At. constructor; okey; auto; okey. congruence.
    + intros Hn. destruct (N.eqb_spec (pe_key e) k) as [E|E]; [|auto]. exfalso.
      unfold no_item, a_items in Hn. rewrite !Forall_app in Hn. destruct Hn as [_ [_ [Hn _]]]. inversion_clear Hn. auto.
  - (* return *)
    cbn [calls returns fold_left]. split; [|split; [intros []|]].
    + destruct (N.eqb_spec (pe_key e) k) as [E|E].
      * pose proof (in_elsewhere k _ e PCall ND eq_refl E) as El.
        destruct (ak_in _ _ _ _ _ At E) as [B1 [B2 [B3 B4]]].
        apply at_key_in; [destruct W; constructor; auto|exact El| |lia].
        cbn [a_in]. intros _. destruct b; cbn; lia.
      * same_counts At. constructor; okey; auto; okey. congruence.
    + intros Hn. destruct (N.eqb_spec (pe_key e) k) as [E|E]; [|auto]. exfalso.
      unfold no_item, a_items in Hn. rewrite !Forall_app in Hn. destruct Hn as [_ [_ [Hn _]]]. inversion_clear Hn. auto.
  - (* done *)
    cbn [calls returns fold_left]. split; [|split; [|auto]].
    + same_counts At. constructor; okey; auto.
    + cbn. intros [E|[]]. destruct (ak_in _ _ _ _ _ At E) as [B1 [B2 [B3 B4]]]. lia.
  - (* retry *)
    apply Same; auto. pose proof (ak_in _ _ _ _ _ At) as Hin. same_counts At. constructor; okey; auto. okey.
    apply Forall_app; split; [auto|]. constructor; [|constructor]. cbn. intros E.
    destruct (Hin E) as [B1 [B2 [B3 B4]]]. unfold at_pend, Max in *. lia.
  - apply Same; auto. same_counts At. constructor; okey; auto.
  - (* error *)
    apply Same; auto. pose proof (ak_in _ _ _ _ _ At) as Hin. same_counts At. constructor; okey; auto. okey.
    apply Forall_app; split; [auto|]. constructor; [|constructor]. cbn. intros E.
    destruct (Hin E) as [B1 [B2 [B3 B4]]]. unfold at_err, Max in *. cbn. repeat split; lia.
  - apply Same; auto. same_counts At. constructor; okey; auto.
  - apply Same; auto. same_counts At. constructor; okey; auto.
  - (* reprocess all *)
    assert (Fb : finished (flat_map (back_outs lp) le) = []).
    { clear. induction le as [|e le IH]; [reflexivity|]. cbn [flat_map]. rewrite finished_app, IH.
      unfold back_outs. destruct (has (fst e) lp); reflexivity. }
    destruct (in_dec N.eq_dec k (map fst le)) as [Hi|Hi].
    + rewrite cnt_back_in, !ret_back_in by auto. rewrite Fb. split; [|split; [intros []|]].
      * assert (El : Forall (fun x => key_of x <> k) (ps ++ items_p lp ++ in_items i)).
        { apply in_map_iff in Hi as [[k' x] [E Hi]]. cbn in E. subst k'.
          apply in_split in Hi as [l1 [l2 Hl]]. subst le. 
          assert (Kx : ee_key x = k). { pose proof (wf_e _ W) as X. okey. rewrite Forall_forall in X. apply (X (k, x)). apply in_app_iff. right. left. reflexivity. }
          assert (G : Forall (fun y => key_of y <> k) ((ps ++ items_p lp ++ in_items i) ++ items_e l1 ++ items_e l2)).
          { eapply (key_once _ k (item_e x)); [exact ND| |exact Kx]. unfold a_items. okey. rewrite items_e_app.
            change (items_e ((k, x) :: l2)) with (item_e x :: items_e l2). perm. }
          apply Forall_app in G. apply G. }
        rewrite !Forall_app in El. destruct El as [E1 [E2 E3]].
        constructor; okey; try lia; [| | |constructor].
        -- eapply Forall_impl; [|exact E1]. cbn beta. congruence.
        -- apply Forall_app; split.
           ++ unfold items_p in E2. rewrite Forall_map in E2. pose proof (wf_p _ W) as X. okey.
              rewrite Forall_forall in *. intros e He E. exfalso. apply (E2 e He). cbn. now rewrite (X e He).
           ++ apply Forall_map. rewrite Forall_forall. intros e _ _. unfold at_pend. cbn. lia.
        -- destruct i as [[e ph]|]; [|exact I]. inversion_clear E3. intros E. contradiction.
      * intros Hn. exfalso. unfold no_item, a_items in Hn. rewrite !Forall_app in Hn. destruct Hn as [_ [_ [_ Hn]]]. okey.
        apply in_map_iff in Hi as [e [E Hi]]. unfold items_e in Hn. rewrite Forall_map in Hn.
        pose proof (wf_e _ W) as X. okey. rewrite Forall_forall in *. apply (Hn e Hi). cbn. rewrite (X e Hi). exact E.
    + apply Same; auto; try (now apply cnt_back_other); try (now apply ret_back_other).
      same_counts At. constructor; okey; auto; okey. apply Forall_app; split; [auto|].
      apply Forall_map. apply Forall_forall. intros e He E. exfalso. apply Hi. apply filter_In in He as [He _].
      cbn in E. rewrite <- E. now apply in_map.
  - (* reprocess one *)
    rewrite back_one.
    assert (Fb : finished (flat_map (back_outs lp) [(k0, x)]) = []).
    { unfold back_outs. cbn. destruct (has k0 lp); reflexivity. }
    destruct (N.eq_dec k0 k) as [->|Hk].
    + rewrite cnt_back_in, !ret_back_in by (cbn; auto). rewrite Fb. split; [|split; [intros []|]].
      * pose proof (without_perm le k x (wf_ne _ W) H) as P.
        assert (Kx : ee_key x = k). { pose proof (wf_e _ W) as X. okey. rewrite Forall_forall in X. apply (X (k, x)). now apply lookup_In. }
        assert (El : Forall (fun x => key_of x <> k) (ps ++ items_p lp ++ in_items i ++ items_e (without k le))).
        { eapply (key_once _ k (item_e x)); [exact ND| |exact Kx]. unfold a_items. okey. rewrite (items_e_perm _ _ P).
          change (items_e ((k, x) :: without k le)) with (item_e x :: items_e (without k le)). perm. }
        rewrite !Forall_app in El. destruct El as [E1 [E2 [E3 E4]]].
        assert (X0 : Forall (fun e : N * pentry => fst e = k -> at_pend (pe_retries (snd e)) 0 0 0) lp).
        { unfold items_p in E2. rewrite Forall_map in E2. pose proof (wf_p _ W) as X. okey.
          rewrite Forall_forall in *. intros e He E. exfalso. apply (E2 e He). cbn. now rewrite (X e He). }
        constructor; okey; try lia.
        -- eapply Forall_impl; [|exact E1]. cbn beta. congruence.
        -- apply Forall_add; [exact X0|]. cbn. unfold at_pend. lia.
        -- destruct i as [[e ph]|]; [|exact I]. inversion_clear E3. intros E. contradiction.
        -- apply Forall_forall. intros e He E. exfalso. unfold without in He. apply filter_In in He as [_ He].
           rewrite E, N.eqb_refl in He. discriminate.
      * intros Hn. exfalso. unfold no_item, a_items in Hn. rewrite !Forall_app in Hn. destruct Hn as [_ [_ [_ Hn]]]. okey.
        apply lookup_In in H. unfold items_e in Hn. rewrite Forall_map in Hn.
        pose proof (wf_e _ W) as X. okey. rewrite Forall_forall in *. apply (Hn _ H). cbn. apply (X _ H).
    + apply Same; auto; try (apply cnt_back_other; cbn; tauto); try (apply ret_back_other; cbn; tauto).
      same_counts At. constructor; okey; auto; okey.
      * apply Forall_add; [auto|]. cbn. congruence.
      * now apply Forall_without.
  - apply Same; auto. same_counts At. constructor; okey; auto; okey. now apply Forall_without.
  - apply Same; auto; try apply cnt_clear; try apply ret_clear.
    + clear. induction le; auto.
    + same_counts At. constructor; okey; auto.
Qed.

(** ** Attempts over runs *)
Lemma no_item_keys k a : no_item k a <-> ~ In k (map key_of (a_items a)).
Proof.
  unfold no_item. rewrite Forall_forall. split.
  - intros H Hi. apply in_map_iff in Hi as [x [E Hi]]. now apply (H x).
  - intros H x Hx E. apply H. rewrite <- E. now apply in_map.
Qed.

Lemma micro_nodup a o a1 o1 : wf a -> micro a o a1 -> NoDup (map key_of (accepted (o ++ o1) ++ a_items a)) ->
  NoDup (map key_of (a_items a)) /\ NoDup (map key_of (accepted o1 ++ a_items a1)) /\
  NoDup (map key_of (gone o) ++ map key_of (accepted o1 ++ a_items a1)) /\
  (forall k, In k (map key_of (accepted o1)) -> ~ In k (map key_of (accepted o)) /\ no_item k a).
Proof.
  intros W H ND. destruct (micro_conserves _ _ _ W H) as [W1 P1].
  assert (G : NoDup (map key_of (gone o) ++ map key_of (accepted o1 ++ a_items a1))).
  { rewrite <- map_app. eapply keys_perm; [|exact ND]. rewrite accepted_app.
    transitivity (accepted o1 ++ (accepted o ++ a_items a)); [perm|]. rewrite P1. perm. }
  split; [rewrite map_app in ND; now apply NoDup_app_remove_l in ND|].
  split; [now apply NoDup_app_remove_l in G|]. split; [auto|].
  intros k Hk. assert (ND2 : NoDup (map key_of (accepted o1) ++ map key_of (accepted o ++ a_items a))).
  { rewrite <- map_app. eapply keys_perm; [|exact ND]. rewrite accepted_app. perm. }
  assert (X : ~ In k (map key_of (accepted o ++ a_items a))) by (intros Hi; eapply NoDup_app_disj; eauto).
  rewrite map_app, in_app_iff in X. split; [tauto|]. apply no_item_keys. tauto.
Qed.

Lemma micros_unchanged a o a' k c f t : micros a o a' -> wf a -> NoDup (map key_of (accepted o ++ a_items a)) ->
  no_item k a -> ~ In k (map key_of (accepted o)) -> 0 <= c <= Max ->
  cnt k c o = c /\ ret k false f o = f /\ ret k true t o = t.
Proof.
  intros H. revert c f t. induction H as [a|a o a1 o1 a2 H H1 IH]; intros c f t W ND No Na Hc; [auto|].
  destruct (micro_nodup _ _ _ _ W H ND) as [N1 [N2 [N3 N4]]]. destruct (micro_conserves _ _ _ W H) as [W1 P1].
  rewrite accepted_app, map_app, in_app_iff in Na.
  destruct (micro_at k c f t a o a1 H W N1) as [A [B C]]; [now apply at_key_none|tauto|].
  destruct (C No) as [C1 [C2 C3]]. rewrite cnt_app, !ret_app, C1, C2, C3. apply IH; auto.
  apply no_item_keys. intros Hi.
  assert (X : In k (map key_of (accepted o ++ a_items a))).
  { eapply Permutation_in; [apply Permutation_map; symmetry; exact P1|]. rewrite map_app. apply in_app_iff. auto. }
  rewrite map_app, in_app_iff in X. apply no_item_keys in No. tauto.
Qed.

Theorem micros_at k a o a' c f t : micros a o a' -> wf a -> NoDup (map key_of (accepted o ++ a_items a)) ->
  at_key k c f t a -> (In k (map key_of (accepted o)) -> c = 0 /\ f = 0 /\ t = 0) ->
  at_key k (cnt k c o) (ret k false f o) (ret k true t o) a' /\
  (In k (map key_of (finished o)) -> ret k true t o = 1 /\ cnt k c o = ret k false f o + 1).
Proof.
  intros H. revert c f t. induction H as [a|a o a1 o1 a2 H H1 IH]; intros c f t W ND At Acc; [split; [auto|intros []]|].
  destruct (micro_nodup _ _ _ _ W H ND) as [N1 [N2 [N3 N4]]]. destruct (micro_conserves _ _ _ W H) as [W1 P1].
  rewrite accepted_app, map_app in Acc.
  destruct (micro_at k c f t a o a1 H W N1 At) as [A [B C]]; [intros Hi; apply Acc, in_app_iff; auto|].
  rewrite cnt_app, !ret_app, finished_app, map_app.
  destruct (IH (cnt k c o) (ret k false f o) (ret k true t o) W1 N2 A) as [A2 B2].
  { intros Hi. destruct (N4 k Hi) as [_ No]. destruct (C No) as [-> [-> ->]]. apply Acc, in_app_iff. auto. }
  split; [auto|]. intros Hi. apply in_app_iff in Hi as [Hi|Hi]; [|auto].
  assert (G : In k (map key_of (gone o))).
  { eapply Permutation_in; [apply Permutation_map; symmetry; apply gone_parts|]. rewrite map_app. apply in_app_iff. auto. }
  assert (X : ~ In k (map key_of (accepted o1 ++ a_items a1))) by (intros Hx; eapply NoDup_app_disj; eauto).
  rewrite map_app, in_app_iff in X.
  destruct (micros_unchanged a1 o1 a2 k (cnt k c o) (ret k false f o) (ret k true t o) H1 W1 N2) as [-> [-> ->]].
  - apply no_item_keys. tauto.
  - tauto.
  - apply (ak_max _ _ _ _ _ A).
  - auto.
Qed.

End Proofs.
