(** Proofs about error states. *)
From Coq Require Import String ZArith Bool Lia List.
From Verif Require Import ErrStateModel ErrStateSpec.
Import ListNotations.
Local Open Scope Z_scope.

Section Proofs.
Context (upper : string -> string) (upper_idem : forall s, upper (upper s) = upper s).
Notation run := (run upper). Notation step := (step upper). Notation count := (count upper).
Notation count1 := (count1 upper). Notation raised := (raised upper). Notation raises := (raises upper).
Notation build := build_errors_response.

(** The map a history should lead to. *)
Definition expected (ops : list op) : emap :=
  map (fun p => (fst p, mkKeeper (fst p) (snd p) (count (fst p) ops))) (raised ops).

Lemma count_opt_snoc : forall i ops o, count_opt upper i (ops ++ [o]) = count1 i (count_opt upper i ops) o.
Proof. intros. unfold ErrStateSpec.count_opt. rewrite fold_left_app. reflexivity. Qed.
Lemma raised_acc_snoc : forall ops acc o,
  raised_acc upper acc (ops ++ [o]) = raised_acc upper (raised_acc upper acc ops) [o].
Proof.
  induction ops as [|a ops IH]; intros acc o; [reflexivity|].
  destruct a; rewrite <- ?app_comm_cons; cbn [raised_acc]; rewrite ?IH; reflexivity.
Qed.
Lemma raised_snoc : forall ops o, raised (ops ++ [o]) = raised_acc upper (raised ops) [o].
Proof. intros. apply raised_acc_snoc. Qed.
Lemma run_snoc : forall ops o, run (ops ++ [o]) = step (run ops) o.
Proof. intros. unfold ErrStateModel.run. rewrite fold_left_app. reflexivity. Qed.

Lemma mget_expected : forall (r : list (string * string)) f u,
  mget u (map (fun p => (fst p, f p)) r) = match find (fun p => String.eqb u (fst p)) r with Some p => Some (f p) | None => None end.
Proof.
  induction r as [|p r IH]; intros f u; [reflexivity|]. cbn [map mget find].
  destruct (String.eqb u (fst p)); auto.
Qed.
Lemma existsb_find : forall (A : Type) (f : A -> bool) l, existsb f l = match find f l with Some _ => true | None => false end.
Proof. induction l as [|a l IH]; cbn; auto. destruct (f a); auto. Qed.

Lemma nodup_raised : forall ops, NoDup (map fst (raised ops)).
Proof.
  induction ops as [|o ops IH] using rev_ind; [constructor|]. rewrite raised_snoc.
  destruct o; cbn [raised_acc]; auto.
  destruct (existsb (fun p => String.eqb (upper i) (fst p)) (raised ops)) eqn:E; auto.
  rewrite map_app. cbn [map fst].
  apply NoDup_rev in IH. rewrite <- (rev_involutive (map fst (raised ops) ++ [upper i])).
  apply NoDup_rev. rewrite rev_app_distr. cbn [rev app]. constructor; auto.
  rewrite <- in_rev. intro H. apply in_map_iff in H. destruct H as (p & Hp & Hin).
  assert (existsb (fun p => String.eqb (upper i) (fst p)) (raised ops) = true); [|congruence].
  apply existsb_exists. exists p. split; auto. rewrite Hp. apply String.eqb_refl.
Qed.
Lemma raised_upper : forall ops p, In p (raised ops) -> upper (fst p) = fst p.
Proof.
  induction ops as [|o ops IH] using rev_ind; [cbn; tauto|]. rewrite raised_snoc.
  intros p H. destruct o; cbn [raised_acc] in H; auto.
  destruct (existsb (fun p => String.eqb (upper i) (fst p)) (raised ops)) eqn:E; auto.
  apply in_app_or in H. destruct H as [H|[<-|[]]]; auto. cbn. apply upper_idem.
Qed.

Lemma mupdate_map : forall (r : list (string * string)) f g u,
  NoDup (map fst r) ->
  mupdate u g (map (fun p => (fst p, f p)) r) =
  map (fun p => (fst p, if String.eqb u (fst p) then g (f p) else f p)) r.
Proof.
  induction r as [|p r IH]; intros f g u N; [reflexivity|]. cbn [map mupdate]. inversion N; subst.
  destruct (String.eqb_spec u (fst p)) as [->|Hn].
  - f_equal. apply map_ext_in. intros q Hq. destruct (String.eqb_spec (fst p) (fst q)) as [e|]; auto.
    exfalso. apply H1. rewrite e. apply in_map. auto.
  - f_equal. apply IH. auto.
Qed.
Lemma mupdate_app_new : forall m u k g, mget u m = None -> mupdate u g (m ++ [(u, k)]) = m ++ [(u, g k)].
Proof.
  induction m as [|(j, k') m IH]; intros u k g H; cbn [app mupdate mget] in *.
  - rewrite String.eqb_refl. reflexivity.
  - destruct (String.eqb u j); [discriminate|]. f_equal. apply IH; auto.
Qed.
Lemma clear_count : forall c n, (if Z.leb n c then c - n else 0) = Z.max 0 (c - n).
Proof. intros. destruct (Z.leb_spec n c); lia. Qed.

Lemma count_raised : forall ops i,
  (if existsb (fun p => String.eqb (upper i) (fst p)) (raised ops) then exists c, count_opt upper i ops = Some c
   else count_opt upper i ops = None).
Proof.
  induction ops as [|o ops IH] using rev_ind; [reflexivity|]. intros i. specialize (IH i).
  rewrite count_opt_snoc, raised_snoc. unfold ErrStateSpec.count1, same_id.
  destruct o; cbn [about raised_acc].
  2-4: destruct (existsb _ _); [destruct IH as (c & ->)|rewrite IH]; destruct (String.eqb _ _); eauto.
  destruct (String.eqb_spec (upper i0) (upper i)) as [e|ne].
  - rewrite e. destruct (existsb (fun p => String.eqb (upper i) (fst p)) (raised ops)) eqn:E.
    + rewrite E. destruct IH as (c & ->). eauto.
    + rewrite existsb_app. cbn. rewrite String.eqb_refl, orb_true_r, IH. eauto.
  - destruct (existsb (fun p => String.eqb (upper i0) (fst p)) (raised ops)) eqn:E; auto.
    rewrite existsb_app. cbn [existsb fst].
    destruct (String.eqb_spec (upper i) (upper i0)); [congruence|]. rewrite !orb_false_r. exact IH.
Qed.

Lemma count_same : forall ops i j, upper i = upper j -> count i ops = count j ops.
Proof.
  intros ops i j e. unfold ErrStateSpec.count. replace (count_opt upper i ops) with (count_opt upper j ops); auto.
  induction ops as [|o ops IH] using rev_ind; [reflexivity|]. rewrite !count_opt_snoc, IH.
  unfold ErrStateSpec.count1, same_id. rewrite e. reflexivity.
Qed.
Lemma count_snoc : forall ops p o, In p (raised ops) -> 
  count (fst p) (ops ++ [o]) = match count1 (fst p) (Some (count (fst p) ops)) o with Some c => c | None => 0 end.
Proof.
  intros ops p o H. unfold ErrStateSpec.count. rewrite count_opt_snoc.
  pose proof (count_raised ops (fst p)) as R.
  assert (E : existsb (fun q => String.eqb (upper (fst p)) (fst q)) (raised ops) = true).
  { apply existsb_exists. exists p. split; auto. rewrite (raised_upper ops p H). apply String.eqb_refl. }
  rewrite E in R. destruct R as (c & ->). reflexivity.
Qed.

Lemma has_expected : forall ops i, has_error_id upper i (expected ops) = existsb (fun p => String.eqb (upper i) (fst p)) (raised ops).
Proof.
  intros. unfold has_error_id, expected. rewrite (mget_expected (raised ops)), existsb_find.
  destruct (find _ _); auto.
Qed.

Lemma run_expected : forall ops, run ops = expected ops.
Proof.
  induction ops as [|o ops IH] using rev_ind; [reflexivity|].
  rewrite run_snoc, IH.
  assert (U : forall g i,
     (forall p, In p (raised ops) -> String.eqb (upper i) (fst p) = true -> kcount (g (mkKeeper (fst p) (snd p) (count (fst p) ops))) = count (fst p) (ops ++ [o])) ->
     (forall k, kid (g k) = kid k /\ kdescr (g k) = kdescr k) ->
     about o = i ->
     mupdate (upper i) g (expected ops) =
       map (fun p => (fst p, mkKeeper (fst p) (snd p) (count (fst p) (ops ++ [o])))) (raised ops)).
  { intros g i Hg Hk Hi. unfold expected. rewrite (mupdate_map (raised ops)) by apply nodup_raised.
    apply map_ext_in. intros p Hp. f_equal. specialize (Hg p Hp).
    destruct (String.eqb_spec (upper i) (fst p)) as [e|ne].
    - specialize (Hg eq_refl). destruct (Hk (mkKeeper (fst p) (snd p) (count (fst p) ops))) as (A & B).
      destruct (g _); cbn in *. congruence.
    - f_equal. rewrite count_snoc by auto. unfold ErrStateSpec.count1, same_id. rewrite Hi.
      rewrite (raised_upper ops p Hp). destruct (String.eqb_spec (upper i) (fst p)); congruence. }
  assert (K : forall i, about o = i -> existsb (fun p => String.eqb (upper i) (fst p)) (raised ops) = false ->
     expected ops = map (fun p => (fst p, mkKeeper (fst p) (snd p) (count (fst p) (ops ++ [o])))) (raised ops)).
  { intros i Hi E. unfold expected. apply map_ext_in. intros p Hp. f_equal. f_equal.
    rewrite count_snoc by auto. unfold ErrStateSpec.count1, same_id. rewrite Hi, (raised_upper ops p Hp).
    destruct (String.eqb (upper i) (fst p)) eqn:E2; auto.
    assert (existsb (fun p => String.eqb (upper i) (fst p)) (raised ops) = true); [|congruence].
    apply existsb_exists. eauto. }
  assert (S1 : forall p i, In p (raised ops) -> String.eqb (upper i) (fst p) = true -> about o = i -> same_id upper (about o) (fst p) = true).
  { intros p i Hp He Hi. unfold same_id. rewrite Hi, (raised_upper ops p Hp). auto. }
  unfold expected at 2. rewrite raised_snoc.
  destruct o; cbn [ErrStateModel.step raised_acc].
  - unfold increment. rewrite has_expected.
    destruct (existsb (fun p => String.eqb (upper i) (fst p)) (raised ops)) eqn:E.
    + apply U; auto. intros p Hp He. rewrite count_snoc by auto. unfold ErrStateSpec.count1. rewrite (S1 p i Hp He eq_refl). reflexivity.
    + assert (M : mget (upper i) (expected ops) = None).
      { pose proof (has_expected ops i) as A. rewrite E in A. unfold has_error_id in A. destruct (mget _ _); congruence. }
      rewrite mupdate_app_new by auto. rewrite map_app. cbn [map fst snd]. f_equal.
      * unfold expected. apply map_ext_in. intros p Hp. f_equal. f_equal. rewrite count_snoc by auto.
        unfold ErrStateSpec.count1, same_id. cbn [about]. rewrite (raised_upper ops p Hp).
        destruct (String.eqb (upper i) (fst p)) eqn:E2; auto.
        assert (existsb (fun p => String.eqb (upper i) (fst p)) (raised ops) = true); [|congruence].
        apply existsb_exists. eauto.
      * unfold k_increment. cbn [kid kdescr kcount]. f_equal. f_equal. f_equal.
        unfold ErrStateSpec.count. rewrite count_opt_snoc. pose proof (count_raised ops (upper i)) as R.
        rewrite upper_idem, E in R. rewrite R.
        unfold ErrStateSpec.count1, same_id. cbn [about]. rewrite upper_idem, String.eqb_refl. reflexivity.
  - unfold clear_some. rewrite has_expected. destruct (existsb _ _) eqn:E; [|apply K with (i := i); auto].
    apply U; auto. intros p Hp He. rewrite count_snoc by auto. unfold ErrStateSpec.count1. rewrite (S1 p i Hp He eq_refl).
    cbn [k_clear_some kcount]. apply clear_count.
  - unfold clear_all. rewrite has_expected. destruct (existsb _ _) eqn:E; [|apply K with (i := i); auto].
    apply U; auto. intros p Hp He. rewrite count_snoc by auto. unfold ErrStateSpec.count1. rewrite (S1 p i Hp He eq_refl). reflexivity.
  - unfold eco_error_states_clear. cbn [fst]. rewrite has_expected. destruct (existsb _ _) eqn:E; [|apply K with (i := i); auto].
    destruct (Z.eqb n 0) eqn:En.
    + unfold clear_all. rewrite has_expected, E.
      apply U; auto. intros p Hp He. rewrite count_snoc by auto. unfold ErrStateSpec.count1. rewrite (S1 p i Hp He eq_refl), En. reflexivity.
    + unfold clear_some. rewrite has_expected, E.
      apply U; auto. intros p Hp He. rewrite count_snoc by auto. unfold ErrStateSpec.count1. rewrite (S1 p i Hp He eq_refl), En.
      cbn [k_clear_some kcount]. apply clear_count.
Qed.

Lemma filter_idem : forall (A : Type) (f : A -> bool) l, filter f (filter f l) = filter f l.
Proof. induction l as [|a l IH]; cbn; auto. destruct (f a) eqn:E; cbn; rewrite ?E, ?IH; auto. Qed.

Lemma report_expected : forall ops,
  build (run ops) =
  filter (fun t => Z.ltb 0 (snd t)) (map (fun p => (fst p, snd p, count (fst p) ops)) (raised ops)).
Proof.
  intros ops. rewrite (run_expected ops). unfold build_errors_response, get_error_states. rewrite filter_idem.
  unfold expected. rewrite map_map. cbn [snd].
  induction (raised ops) as [|p r IH]; [reflexivity|]. cbn [map filter snd]. unfold k_is_set at 1. cbn [kcount].
  destruct (Z.ltb 0 (count (fst p) ops)); cbn [map kid kdescr kcount]; rewrite ?IH; auto.
Qed.

Lemma count_bounds : forall ops i, Forall (fun o => asks_nothing_negative o = true) ops -> 0 <= count i ops <= raises i ops.
Proof.
  induction ops as [|o ops IH] using rev_ind; [cbn; lia|]. intros i F.
  apply Forall_app in F. destruct F as (F & Fo). inversion Fo as [|? ? Ho _]; subst. specialize (IH i F).
  unfold ErrStateSpec.count in *. rewrite count_opt_snoc. unfold ErrStateSpec.raises in *. rewrite filter_app, app_length.
  unfold ErrStateSpec.count1. destruct o; cbn [about asks_nothing_negative] in *; cbn [filter].
  - destruct (same_id upper i0 i); cbn [List.length]; destruct (count_opt upper i ops); lia.
  - cbn [List.length]. apply Z.leb_le in Ho. destruct (same_id upper i0 i); destruct (count_opt upper i ops); lia.
  - cbn [List.length]. destruct (same_id upper i0 i); destruct (count_opt upper i ops); lia.
  - cbn [List.length]. apply Z.leb_le in Ho. destruct (same_id upper i0 i); destruct (Z.eqb n 0); destruct (count_opt upper i ops); lia.
Qed.
(** Only positive counts are reported, whatever is asked. *)
Lemma reported_positive : forall ops t, In t (build (run ops)) -> 0 < snd t.
Proof.
  intros ops t H. unfold build_errors_response in H. apply in_map_iff in H. destruct H as (k & <- & Hk).
  apply filter_In in Hk. destruct Hk as (_ & Hk). apply Z.ltb_lt in Hk. auto.
Qed.

(** Counting never goes below zero, whatever is asked. *)
Lemma never_negative : forall ops i k, In (i, k) (run ops) -> 0 <= kcount k.
Proof.
  assert (U : forall g m, (forall k, 0 <= kcount k -> 0 <= kcount (g k)) -> forall u,
     (forall i k, In (i, k) m -> 0 <= kcount k) -> forall i k, In (i, k) (mupdate u g m) -> 0 <= kcount k).
  { intros g m Hg u. induction m as [|(j, x) m IH]; cbn; intros H i k; [tauto|].
    destruct (String.eqb u j); cbn; intros [e|Hin].
    - injection e as <- <-. apply Hg. eapply H. left. reflexivity.
    - eapply H. right. eauto.
    - injection e as <- <-. eapply H. left. reflexivity.
    - eapply IH; eauto. }
  assert (C : forall n k, 0 <= kcount k -> 0 <= kcount (k_clear_some n k)).
  { intros n k H. cbn. rewrite clear_count. lia. }
  induction ops as [|o ops IH] using rev_ind; [cbn; tauto|]. intros i k. rewrite run_snoc. specialize (IH).
  destruct o; cbn [ErrStateModel.step].
  - unfold increment. apply U; [cbn; lia|]. destruct (has_error_id upper i0 (run ops)); [exact IH|].
    intros i' k' H. apply in_app_or in H. destruct H as [H|[H|[]]]; [eapply IH; eauto|]. injection H as <- <-. cbn. lia.
  - unfold clear_some. destruct (has_error_id _ _ _); [|apply IH]. apply U; auto.
  - unfold clear_all. destruct (has_error_id _ _ _); [|apply IH]. apply U; auto. cbn. lia.
  - unfold eco_error_states_clear. cbn [fst]. destruct (has_error_id upper i0 (run ops)) eqn:E; [|apply IH].
    destruct (Z.eqb n 0); [unfold clear_all|unfold clear_some]; rewrite E; apply U; auto. cbn. lia.
Qed.
End Proofs.
