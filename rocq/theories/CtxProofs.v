(** Proofs about the span key that code sees. *)
From Coq Require Import List NArith Bool Lia PeanoNat.
Import ListNotations.
From Verif Require Import CtxModel CtxSpec.

Definition trace (evs : list cev) : list cout := snd (crun cstart evs).
Definition st (evs : list cev) : cstate := fst (crun cstart evs).

Lemma crun_app : forall e1 e2 s, crun s (e1 ++ e2) =
  (fst (crun (fst (crun s e1)) e2), snd (crun s e1) ++ snd (crun (fst (crun s e1)) e2)).
Proof.
  induction e1 as [|ev r IH]; intros e2 s.
  - cbn. now destruct (crun s e2).
  - cbn [crun app]. destruct (cstep s ev) as [s1 o1] eqn:E1. rewrite IH. destruct (crun s1 r) as [s2 o2] eqn:E2. cbn.
    now rewrite app_assoc.
Qed.
Lemma crun_snoc : forall evs ev, st (evs ++ [ev]) = fst (cstep (st evs) ev) /\ trace (evs ++ [ev]) = trace evs ++ snd (cstep (st evs) ev).
Proof.
  intros evs ev. unfold st, trace. rewrite crun_app. cbn [crun]. destruct (cstep (fst (crun cstart evs)) ev) as [s1 o1]. cbn. now rewrite app_nil_r.
Qed.

Lemma put_len : forall A i (x : A) l, List.length (put i x l) = List.length l.
Proof. intros A i x l. revert i. induction l as [|y r IH]; intros [|i]; cbn; auto. Qed.
Lemma put_nth : forall A i (x : A) l j, nth_error (put i x l) j =
  if Nat.eqb i j then (match nth_error l j with Some _ => Some x | None => None end) else nth_error l j.
Proof.
  intros A i x l. revert i. induction l as [|y r IH]; intros [|i] [|j]; cbn; auto. now destruct (Nat.eqb i j).
Qed.

Definition base (tr : list cout) (i : nat) (x : option N) : Prop :=
  (exists a t0 kd b, tr = a ++ OStarted i t0 kd :: b /\ sees a t0 x) \/ ((forall t0 kd, ~ In (OStarted i t0 kd) tr) /\ x = None).
Definition task_ok (tr : list cout) (i : nat) (t : task) : Prop :=
  match tphase t with
  | PRequest k tok => doing tr i = Some (WRequest k) /\ var t = Some k /\ base tr i tok /\ tkind t = KServe
  | PItem k tok => doing tr i = Some (WItem k) /\ var t = Some k /\ base tr i tok /\ (exists j, tkind t = KProcess j)
  | PMessage k => doing tr i = Some (WMessage k) /\ base tr i (var t) /\ (exists j, tkind t = KSend j)
  | _ => doing tr i = None /\ base tr i (var t)
  end.
Record inv (s : cstate) (tr : list cout) : Prop := mkInv
  { inv_ok : forall i t, nth_error (ctasks s) i = Some t -> task_ok tr i t;
    inv_st : forall i t0 kd, In (OStarted i t0 kd) tr -> exists t, nth_error (ctasks s) i = Some t /\ tkind t = kd;
    inv_do : forall i, nth_error (ctasks s) i = None -> doing tr i = None }.

Lemma doing_snoc : forall tr o i, doing (tr ++ [o]) i = mark i (doing tr i) o.
Proof. intros. unfold doing. now rewrite fold_left_app. Qed.
Lemma base_snoc : forall tr o i x, base tr i x -> (forall t0 kd, o <> OStarted i t0 kd) -> base (tr ++ [o]) i x.
Proof.
  intros tr o i x [(a & t0 & kd & b & -> & S)|[H ->]] No.
  - left. exists a, t0, kd, (b ++ [o]). split; [now rewrite <- app_assoc|exact S].
  - right. split; [|reflexivity]. intros t0 kd Hin. apply in_app_iff in Hin as [Hin|[E|[]]]; [exact (H _ _ Hin)|exact (No _ _ E)].
Qed.
Lemma handles_doing : forall tr t k, handles tr t k -> doing tr t = Some (WRequest k) \/ doing tr t = Some (WItem k).
Proof. auto. Qed.
Lemma base_sees : forall tr i x, base tr i x -> (forall k, ~ handles tr i k) -> sees tr i x.
Proof.
  intros tr i x [(a & t0 & kd & b & -> & S)|[H ->]] Nh.
  - now apply sees_started.
  - now apply sees_none.
Qed.
Lemma ok_sees : forall tr i t, task_ok tr i t -> sees tr i (var t).
Proof.
  intros tr i t H. unfold task_ok in H. destruct (tphase t).
  - destruct H as (D & B). apply base_sees; [exact B|]. intros k [E|E]; congruence.
  - destruct H as (D & V & _). rewrite V. apply sees_handles. now left.
  - destruct H as (D & V & _). rewrite V. apply sees_handles. now right.
  - destruct H as (D & B & _). apply base_sees; [exact B|]. intros k' [E|E]; congruence.
  - destruct H as (D & B). apply base_sees; [exact B|]. intros k' [E|E]; congruence.
Qed.

Lemma task_ok_snoc : forall tr o i t, task_ok tr i t -> (forall t0 kd, o <> OStarted i t0 kd) ->
  (forall w, mark i w o = w) -> task_ok (tr ++ [o]) i t.
Proof.
  intros tr o i t H No Hm. unfold task_ok in *. rewrite doing_snoc, Hm.
  destruct (tphase t); repeat match goal with H : _ /\ _ |- _ => destruct H end; repeat split; auto using base_snoc.
Qed.

(** a task changes *)
Lemma inv_change : forall s tr i t t' o, inv s tr -> nth_error (ctasks s) i = Some t -> tkind t' = tkind t ->
  (forall j t0 kd, o <> OStarted j t0 kd) -> (forall j w, j <> i -> mark j w o = w) ->
  task_ok (tr ++ [o]) i t' -> inv (set_t s i t') (tr ++ [o]).
Proof.
  intros s tr i t t' o I Hi Hk No Hm Ht. split.
  - intros j u. cbn. rewrite put_nth. destruct (Nat.eqb_spec i j) as [->|Ne].
    + rewrite Hi. intros E. injection E as <-. exact Ht.
    + intros Hu. apply task_ok_snoc; [now apply (inv_ok _ _ I)|apply No|]. intros w. apply Hm. congruence.
  - intros j t0 kd Hin. apply in_app_iff in Hin as [Hin|[E|[]]]; [|now destruct (No j t0 kd)].
    destruct (inv_st _ _ I _ _ _ Hin) as (u & Hu & Ku). cbn. rewrite put_nth.
    destruct (Nat.eqb_spec i j) as [->|Ne].
    + rewrite Hu. exists t'. split; [reflexivity|]. congruence.
    + now exists u.
  - intros j. cbn. rewrite put_nth. destruct (Nat.eqb_spec i j) as [->|Ne].
    + rewrite Hi. discriminate.
    + intros Hn. rewrite doing_snoc, Hm by congruence. now apply (inv_do _ _ I).
Qed.
(** a task is created by code in a task *)
Lemma inv_create : forall s tr i t kd p q, inv s tr -> nth_error (ctasks s) i = Some t ->
  inv (mkC (create s kd t) p q) (tr ++ [OStarted (next s) i kd]).
Proof.
  intros s tr i t kd p q I Hi. unfold create, next.
  assert (Hn : nth_error (ctasks s) (List.length (ctasks s)) = None) by now apply nth_error_None.
  split; cbn [ctasks].
  - intros j u Hj. destruct (Nat.lt_ge_cases j (List.length (ctasks s))) as [L|L].
    + rewrite nth_error_app1 in Hj by exact L. apply task_ok_snoc; [now apply (inv_ok _ _ I)| |reflexivity].
      intros t0 k E. injection E as E _ _. lia.
    + rewrite nth_error_app2 in Hj by exact L. destruct (j - List.length (ctasks s)) as [|n] eqn:En; [|destruct n; discriminate Hj].
      cbn in Hj. injection Hj as <-. replace j with (List.length (ctasks s)) by lia. unfold task_ok. cbn.
      rewrite doing_snoc. cbn. rewrite (inv_do _ _ I _ Hn). split; [reflexivity|].
      left. exists tr, i, kd, []. split; [reflexivity|]. apply ok_sees. now apply (inv_ok _ _ I).
  - intros j t0 k Hin. apply in_app_iff in Hin as [Hin|[E|[]]].
    + destruct (inv_st _ _ I _ _ _ Hin) as (u & Hu & Ku). exists u. split; [|exact Ku].
      rewrite nth_error_app1; [exact Hu|]. apply nth_error_Some. congruence.
    + injection E as <- <- <-. exists (mkT kd PIdle (var t)). split; [|reflexivity].
      rewrite nth_error_app2 by lia. now rewrite Nat.sub_diag.
  - intros j Hj. apply nth_error_None in Hj. rewrite app_length in Hj. cbn in Hj. rewrite doing_snoc. cbn.
    apply (inv_do _ _ I). apply nth_error_None. lia.
Qed.
Lemma inv_line : forall s tr i x, inv s tr -> inv s (tr ++ [OLine i x]).
Proof.
  intros s tr i x I. split.
  - intros j u Hj. apply task_ok_snoc; [now apply (inv_ok _ _ I)|discriminate|reflexivity].
  - intros j t0 kd Hin. apply in_app_iff in Hin as [Hin|[E|[]]]; [|discriminate]. now apply (inv_st _ _ I) with (t0 := t0).
  - intros j Hj. rewrite doing_snoc. cbn. now apply (inv_do _ _ I).
Qed.

Lemma inv_step : forall s tr ev, inv s tr -> inv (fst (cstep s ev)) (tr ++ snd (cstep s ev)).
Proof.
  intros s tr ev I.
  assert (Nop : inv s (tr ++ [])) by now rewrite app_nil_r.
  assert (Arr : ev = CArrive -> inv (fst (cstep s ev)) (tr ++ snd (cstep s ev))).
  { intros ->. cbn. rewrite app_nil_r. split; cbn [ctasks].
    - intros j u Hj. destruct (Nat.lt_ge_cases j (List.length (ctasks s))) as [L|L].
      + rewrite nth_error_app1 in Hj by exact L. now apply (inv_ok _ _ I).
      + rewrite nth_error_app2 in Hj by exact L. destruct (j - List.length (ctasks s)) as [|n]; [|destruct n; discriminate Hj].
        cbn in Hj. injection Hj as <-. unfold task_ok. cbn. assert (Hn : nth_error (ctasks s) j = None) by now apply nth_error_None.
        split; [now apply (inv_do _ _ I)|]. right. split; [|reflexivity]. intros t0 kd Hin.
        destruct (inv_st _ _ I _ _ _ Hin) as (u & Hu & _). congruence.
    - intros j t0 k Hin. destruct (inv_st _ _ I _ _ _ Hin) as (u & Hu & Ku). exists u. split; [|exact Ku].
      rewrite nth_error_app1; [exact Hu|]. apply nth_error_Some. congruence.
    - intros j Hj. apply nth_error_None in Hj. rewrite app_length in Hj. cbn in Hj. apply (inv_do _ _ I). apply nth_error_None. lia. }
  assert (At : forall i t, nth_error (ctasks s) i = Some t -> where_at ev = i -> ev <> CArrive ->
                 inv (fst (cstep_at s i t ev)) (tr ++ snd (cstep_at s i t ev))).
  { intros i t Hi Hw Hne. pose proof (inv_ok _ _ I _ _ Hi) as Ok. unfold task_ok in Ok.
    assert (Mk : forall o (P : nat -> Prop), (forall j w, j <> i -> mark j w o = w) -> forall j w, j <> i -> mark j w o = w) by auto.
    destruct ev as [|i' k|i' k|i'|i'|i' j|i' j|i'|i'|i']; cbn [where_at] in Hw; try congruence; subst i'; cbn [cstep_at].
    - destruct (tkind t) eqn:K; try exact Nop. destruct (tphase t) eqn:P; try exact Nop. destruct Ok as (D & B).
      apply (inv_change s tr i t); auto; try discriminate.
      + intros j w Ne. cbn. destruct (Nat.eqb_spec i j); congruence.
      + unfold task_ok. cbn. rewrite doing_snoc. cbn. rewrite Nat.eqb_refl. repeat split; auto. apply base_snoc; [exact B|discriminate].
    - destruct (tkind t) eqn:K; try exact Nop; destruct (tphase t) eqn:P; try exact Nop; destruct Ok as (D & B).
      + apply (inv_change s tr i t); auto; try discriminate.
        * intros j' w Ne. cbn. destruct (Nat.eqb_spec i j'); congruence.
        * unfold task_ok. cbn. rewrite doing_snoc. cbn. rewrite Nat.eqb_refl. repeat split; eauto. apply base_snoc; [exact B|discriminate].
      + rewrite <- K. apply (inv_change s tr i t); auto; try discriminate.
        * intros j' w Ne. cbn. destruct (Nat.eqb_spec i j'); congruence.
        * unfold task_ok. cbn. rewrite doing_snoc. cbn. rewrite Nat.eqb_refl. repeat split; eauto. apply base_snoc; [exact B|discriminate].
    - destruct (tphase t) eqn:P; try exact Nop.
      + destruct Ok as (D & V & B & _). apply (inv_change s tr i t); auto; try discriminate.
        * intros j' w Ne. cbn. destruct (Nat.eqb_spec i j'); congruence.
        * unfold task_ok. cbn. rewrite doing_snoc. cbn. rewrite Nat.eqb_refl. split; auto. apply base_snoc; [exact B|discriminate].
      + destruct Ok as (D & V & B & _). apply (inv_change s tr i t); auto; try discriminate.
        * intros j' w Ne. cbn. destruct (Nat.eqb_spec i j'); congruence.
        * unfold task_ok. cbn. rewrite doing_snoc. cbn. rewrite Nat.eqb_refl. split; auto. apply base_snoc; [exact B|discriminate].
      + destruct Ok as (D & B & _). apply (inv_change s tr i t); auto; try discriminate.
        * intros j' w Ne. cbn. destruct (Nat.eqb_spec i j'); congruence.
        * unfold task_ok. cbn. rewrite doing_snoc. cbn. rewrite Nat.eqb_refl. split; auto. apply base_snoc; [exact B|discriminate].
    - destruct (tphase t) eqn:P; try exact Nop. cbn [fst snd]. rewrite app_nil_r. destruct Ok as (D & B). split; cbn [set_t ctasks].
      + intros j u. rewrite put_nth. destruct (Nat.eqb_spec i j) as [->|Ne]; [|apply (inv_ok _ _ I)].
        rewrite Hi. intros E. injection E as <-. unfold task_ok. cbn. auto.
      + intros j t0 kd Hin. destruct (inv_st _ _ I _ _ _ Hin) as (u & Hu & Ku). rewrite put_nth.
        destruct (Nat.eqb_spec i j) as [->|Ne]; [|now exists u]. rewrite Hu. eexists. split; [reflexivity|]. cbn. congruence.
      + intros j. rewrite put_nth. destruct (Nat.eqb_spec i j) as [->|Ne]; [now rewrite Hi|apply (inv_do _ _ I)].
    - destruct (live t && over s (curp s j)); [now apply inv_create|exact Nop].
    - destruct (live t && over s (curs s j)); [now apply inv_create|exact Nop].
    - destruct (live t); [now apply inv_create|exact Nop].
    - destruct (user_code t); [now apply inv_create|exact Nop].
    - destruct (live t); [now apply inv_line|exact Nop]. }
  assert (D : ev = CArrive \/ ev <> CArrive) by (destruct ev; (now left) || (right; discriminate)).
  destruct D as [E|Ne]; [now apply Arr|].
  replace (cstep s ev) with (match nth_error (ctasks s) (where_at ev) with Some t => cstep_at s (where_at ev) t ev | None => (s, []) end)
    by (destruct ev; try reflexivity; congruence).
  destruct (nth_error (ctasks s) (where_at ev)) as [t|] eqn:Hi; [now apply At|exact Nop].
Qed.

Lemma inv_start : inv cstart [].
Proof.
  split.
  - intros [|[|i]] t E; cbn in E; try discriminate. injection E as <-. unfold task_ok. cbn. split; [reflexivity|]. right. split; [tauto|reflexivity].
  - intros i t0 kd [].
  - reflexivity.
Qed.
Theorem inv_run : forall evs, inv (st evs) (trace evs).
Proof.
  induction evs as [|ev evs IH] using rev_ind; [exact inv_start|].
  destruct (crun_snoc evs ev) as [-> ->]. now apply inv_step.
Qed.

(** every output comes from one event *)
Lemma one_out : forall s ev o, In o (snd (cstep s ev)) -> snd (cstep s ev) = [o].
Proof.
  intros s ev o. destruct ev; cbn [cstep where_at]; [intros []|..];
    (destruct (nth_error (ctasks s) t) as [u|]; [|intros []]); cbn [cstep_at];
    repeat match goal with |- context [match ?x with _ => _ end] => destruct x end; cbn; intros [<-|[]] || intros []; reflexivity.
Qed.
Lemma trace_split : forall evs a o b, trace evs = a ++ o :: b ->
  exists e1 ev e2, evs = e1 ++ ev :: e2 /\ trace e1 = a /\ snd (cstep (st e1) ev) = [o].
Proof.
  induction evs as [|ev evs IH] using rev_ind; intros a o b E.
  - cbn in E. destruct a; discriminate.
  - rewrite (proj2 (crun_snoc evs ev)) in E.
    destruct (snd (cstep (st evs) ev)) as [|o' os] eqn:Es.
    + rewrite app_nil_r in E. destruct (IH a o b E) as (e1 & ev' & e2 & -> & H). exists e1, ev', (e2 ++ [ev]). split; [now rewrite <- app_assoc|exact H].
    + assert (H1 : snd (cstep (st evs) ev) = [o']) by (apply one_out; rewrite Es; now left). rewrite Es in H1. injection H1 as ->.
      destruct (exists_last (l := o :: b)) as (b' & o'' & Eb); [discriminate|]. rewrite Eb in E. rewrite app_assoc in E.
      apply app_inj_tail in E as [E1 E2]. subst o''. destruct b' as [|o1 b1].
      * cbn in Eb. injection Eb as <- ->. rewrite app_nil_r in E1. exists evs, ev, []. split; [reflexivity|]. split; [exact E1|exact Es].
      * cbn in Eb. injection Eb as <- ->. destruct (IH a o b1 E1) as (e1 & ev' & e2 & -> & H). exists e1, ev', (e2 ++ [ev]). split; [now rewrite <- app_assoc|exact H].
Qed.
Lemma started_once : forall evs a b i t0 kd t0' kd', trace evs = a ++ OStarted i t0 kd :: b -> ~ In (OStarted i t0' kd') a.
Proof.
  intros evs a b i t0 kd t0' kd' E Hin. destruct (trace_split _ _ _ _ E) as (e1 & ev & e2 & -> & Ha & Ho).
  pose proof (inv_run e1) as I. rewrite Ha in I. destruct (inv_st _ _ I _ _ _ Hin) as (u & Hu & _).
  assert (i = next (st e1)).
  { revert Ho. destruct ev; cbn [cstep where_at]; [discriminate|..];
      (destruct (nth_error (ctasks (st e1)) t) as [v|]; [|discriminate]); cbn [cstep_at];
      repeat match goal with |- context [match ?x with _ => _ end] => destruct x end; cbn; intros Ho; try discriminate;
      injection Ho as Hj _ _; now symmetry. }
  subst i. assert (nth_error (ctasks (st e1)) (next (st e1)) = None) by (apply nth_error_None; unfold next; lia). congruence.
Qed.
Lemma split_same : forall A (a b a' b' : list A) x y, a ++ x :: b = a' ++ y :: b' ->
  (a = a' /\ x = y /\ b = b') \/ (exists c, a = a' ++ y :: c) \/ (exists c, a' = a ++ x :: c).
Proof.
  induction a as [|z a IH]; intros b [|z' a'] b' x y E; cbn in E.
  - injection E as -> ->. now left.
  - injection E as -> ->. right. right. now exists a'.
  - injection E as -> <-. right. left. now exists a.
  - injection E as -> E. destruct (IH _ _ _ _ _ E) as [(-> & -> & ->)|[[c ->]|[c ->]]]; [now left|right; left|right; right]; now exists c.
Qed.
Lemma prefix_trace : forall evs a b, trace evs = a ++ b -> exists e1, trace e1 = a.
Proof.
  intros evs a [|o b] E.
  - rewrite app_nil_r in E. now exists evs.
  - destruct (trace_split _ _ _ _ E) as (e1 & _ & _ & _ & Ha & _). now exists e1.
Qed.
Theorem sees_fun : forall tr i x, sees tr i x -> forall evs y, trace evs = tr -> sees tr i y -> x = y.
Proof.
  intros tr i x H. induction H as [tr t k Hk|a t t0 kd b x Nh Hs IH|tr t Nh Ns]; intros evs y E Hy.
  - inversion Hy as [tr' t' k' Hk' E1 E2 E3|a' t' t0' kd' b' x' Nh' Hs' E1 E2 E3|tr' t' Nh' Ns' E1 E2 E3].
    + destruct Hk as [D|D], Hk' as [D'|D']; congruence.
    + exfalso. subst. rewrite E1 in Nh'. exact (Nh' _ Hk).
    + exfalso. exact (Nh' _ Hk).
  - inversion Hy as [tr' t' k' Hk' E1 E2 E3|a' t' t0' kd' b' x' Nh' Hs' E1 E2 E3|tr' t' Nh' Ns' E1 E2 E3]; subst.
    + exfalso. exact (Nh _ Hk').
    + destruct (split_same _ _ _ _ _ _ _ E1) as [(-> & Eo & ->)|[[c ->]|[c ->]]].
      * injection Eo as -> ->. destruct (prefix_trace _ _ _ E) as [e1 He1]. exact (IH e1 y He1 Hs').
      * exfalso. rewrite <- E1 in E. apply (started_once _ _ _ _ _ _ t0 kd E). apply in_or_app. right. now left.
      * exfalso. apply (started_once _ _ _ _ _ _ t0' kd' E). apply in_or_app. right. now left.
    + exfalso. apply (Ns' t0 kd). apply in_or_app. right. now left.
  - inversion Hy as [tr' t' k' Hk' E1 E2 E3|a' t' t0' kd' b' x' Nh' Hs' E1 E2 E3|tr' t' Nh' Ns' E1 E2 E3]; [| |reflexivity].
    + exfalso. exact (Nh _ Hk').
    + exfalso. apply (Ns t0' kd'). rewrite <- E1, <- E2. apply in_or_app. right. left. reflexivity.
Qed.

(** ** Lines *)
Lemma line_sees : forall evs a t x b, trace evs = a ++ OLine t x :: b -> sees a t x.
Proof.
  intros evs a t x b E. destruct (trace_split _ _ _ _ E) as (e1 & ev & e2 & -> & Ha & Ho).
  pose proof (inv_run e1) as I. rewrite Ha in I. revert Ho.
  destruct ev; cbn [cstep where_at]; [discriminate|..]; (destruct (nth_error (ctasks (st e1)) t0) as [u|] eqn:Hu; [|discriminate]); cbn [cstep_at];
    repeat match goal with |- context [match ?x with _ => _ end] => destruct x end; cbn; intros Ho; try discriminate.
  injection Ho as <- <-. apply ok_sees. now apply (inv_ok _ _ I).
Qed.
Theorem lines_exact : forall evs, lines_exactly (trace evs).
Proof.
  intros evs a t x b y E Hy. pose proof (line_sees _ _ _ _ _ E) as Hx. destruct (prefix_trace _ _ _ E) as [e1 He1].
  exact (sees_fun _ _ _ Hx _ _ He1 Hy).
Qed.

Lemma other_no_work : forall evs i t0, In (OStarted i t0 KOther) (trace evs) -> forall k, ~ handles (trace evs) i k.
Proof.
  intros evs i t0 Hin k Hk. pose proof (inv_run evs) as I. destruct (inv_st _ _ I _ _ _ Hin) as (u & Hu & Ku).
  pose proof (inv_ok _ _ I _ _ Hu) as Ok. unfold task_ok in Ok.
  destruct (tphase u); repeat match goal with H : _ /\ _ |- _ => destruct H | H : exists _, _ |- _ => destruct H end; destruct Hk; congruence.
Qed.
Lemma runs_for_sees : forall tr t k, runs_for tr t k -> forall evs, trace evs = tr -> sees tr t (Some k).
Proof.
  intros tr t k H. induction H as [tr t k Hk|a t t0 b k Hr IH]; intros evs E.
  - now apply sees_handles.
  - destruct (prefix_trace _ _ _ E) as [e1 He1]. apply sees_started; [|now apply (IH e1)].
    rewrite <- E. apply (other_no_work evs t t0). rewrite E. apply in_or_app. right. now left.
Qed.
Theorem handlers_lines_ok : forall evs, handlers_lines (trace evs).
Proof.
  intros evs a t x b k E Hr. destruct (prefix_trace _ _ _ E) as [e1 He1].
  exact (lines_exact evs a t x b (Some k) E (runs_for_sees _ _ _ Hr e1 He1)).
Qed.
