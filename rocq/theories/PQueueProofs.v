(** Invariants and refinement of the paged queue. *)
From Coq Require Import List ZArith NArith Bool String Lia Permutation Sorted.
From Coq Require Import ZifyBool ZifyNat ZifyN.
From Verif Require Import Base PQueueModel PQueueSpec.
Import ListNotations.
Local Open Scope Z_scope.

Lemma NoDup_app_remove_r {A} (a b : list A) : NoDup (a ++ b) -> NoDup a.
Proof.
  induction a as [|x a IH]; cbn; [constructor|]. intros H. inversion_clear H.
  constructor; [rewrite in_app_iff in H0; tauto|auto].
Qed.

Lemma NoDup_app_remove_l {A} (a b : list A) : NoDup (a ++ b) -> NoDup b.
Proof.
  intros H. apply (NoDup_app_remove_r b a). eapply Permutation_NoDup; [|exact H].
  apply Permutation_app_comm.
Qed.

Section Proofs.
Context {V : Type}.
Implicit Types (l : list (N * V)) (t : table V) (q : queue V) (p : page V).

Definition kv (r : rec V) : N * V := (rkey r, rval r).
Definition back_list q : list (N * V) := match back q with Some b => plist b | None => [] end.
Definition contents q : list (N * V) := plist (front q) ++ map kv (db q) ++ back_list q.
Definition sorted t : Prop := StronglySorted (fun a b : rec V => rid a < rid b) t.

Record inv q : Prop := mkInv {
  inv_front : pdict (front q) = plist (front q);
  inv_back  : forall b, back q = Some b -> pdict b = plist b;
  inv_alias : back q = None -> db q = [];
  inv_nodup : NoDup (map fst (contents q));
  inv_sorted : sorted (db q) }.

(** ** Dictionaries *)
Lemma dget_In (k : N) (v : V) l : dget k l = Some v -> In (k, v) l.
Proof.
  induction l as [|[k' v'] l IH]; cbn; [discriminate|].
  destruct (N.eqb_spec k k') as [->|]; intros H.
  - injection H as ->. now left.
  - right; auto.
Qed.

Lemma dget_None (k : N) l : dget k l = None <-> ~ In k (map fst l).
Proof.
  induction l as [|[k' v'] l IH]; cbn; [tauto|].
  destruct (N.eqb_spec k k') as [->|H].
  - split; [discriminate|]. intros X; exfalso; apply X; now left.
  - rewrite IH. split; intros X; [intros [->|Y]; auto|auto].
Qed.

Lemma dmem_In (k : N) l : dmem k l = true <-> In k (map fst l).
Proof.
  unfold dmem. destruct (dget k l) eqn:E.
  - apply dget_In in E. split; [|auto]. intros _. now apply (in_map fst) in E.
  - apply dget_None in E. split; [discriminate|tauto].
Qed.

Lemma dset_fresh (k : N) (v : V) l : ~ In k (map fst l) -> dset k v l = l ++ [(k, v)].
Proof.
  induction l as [|[k' v'] l IH]; cbn; [auto|]. intros H.
  destruct (N.eqb_spec k k') as [->|]; [exfalso; apply H; now left|].
  f_equal. apply IH. tauto.
Qed.

Lemma ddel_without (k : N) l : NoDup (map fst l) -> ddel k l = without k l.
Proof.
  induction l as [|[k' v'] l IH]; cbn; [auto|]. intros H. inversion_clear H.
  rewrite N.eqb_sym. destruct (N.eqb_spec k' k) as [->|]; cbn.
  - clear IH. unfold without. induction l as [|[k2 v2] l IH]; cbn; [auto|].
    cbn in H0. destruct (N.eqb_spec k2 k) as [->|]; cbn; [tauto|]. f_equal.
    inversion_clear H1. tauto.
  - now rewrite IH.
Qed.

Lemma without_fresh (k : N) l : ~ In k (map fst l) -> without k l = l.
Proof.
  unfold without. induction l as [|[k' v'] l IH]; cbn; [auto|]. intros H.
  destruct (N.eqb_spec k' k) as [->|]; [exfalso; apply H; now left|]. cbn. f_equal. apply IH; tauto.
Qed.

Lemma without_app (k : N) l1 l2 : without k (l1 ++ l2) = without k l1 ++ without k l2.
Proof. apply filter_app. Qed.

Lemma has_In (k : N) l : has k l = true <-> In k (map fst l).
Proof.
  unfold has. rewrite existsb_exists, in_map_iff. split.
  - intros [e [H1 H2]]. exists e. apply N.eqb_eq in H2. auto.
  - intros [e [H1 H2]]. exists e. rewrite N.eqb_eq. auto.
Qed.

Lemma has_app (k : N) l1 l2 : has k (l1 ++ l2) = has k l1 || has k l2.
Proof. apply existsb_app. Qed.

Lemma has_dmem (k : N) l : dmem k l = has k l.
Proof. apply eq_true_iff_eq. now rewrite dmem_In, has_In. Qed.

Lemma lookup_dget (k : N) l : lookup k l = dget k l.
Proof.
  unfold lookup. induction l as [|[k' v'] l IH]; cbn; [auto|].
  rewrite N.eqb_sym. destruct (N.eqb k k'); cbn; auto.
Qed.

Lemma dget_app (k : N) l1 l2 :
  dget k (l1 ++ l2) = match dget k l1 with Some v => Some v | None => dget k l2 end.
Proof.
  induction l1 as [|[k' v'] l1 IH]; cbn; [auto|]. destruct (N.eqb k k'); auto.
Qed.

Lemma has_false (k : N) l : has k l = false <-> ~ In k (map fst l).
Proof. rewrite <- has_In. destruct (has k l); split; congruence || tauto. Qed.

Lemma has_dget (k : N) l : has k l = match dget k l with Some _ => true | None => false end.
Proof. rewrite <- has_dmem. reflexivity. Qed.

(** ** Pages *)
Lemma page_append_ok p (k : N) (v : V) :
  pdict p = plist p -> ~ In k (map fst (plist p)) ->
  page_append p k v = mkPage (plist p ++ [(k, v)]) (plist p ++ [(k, v)]).
Proof. intros H1 H2. unfold page_append. rewrite H1, dset_fresh; auto. Qed.

Lemma page_append_recs_ok (rs : list (rec V)) : forall p,
  pdict p = plist p -> NoDup (map fst (plist p ++ map kv rs)) ->
  page_append_recs p rs = mkPage (plist p ++ map kv rs) (plist p ++ map kv rs).
Proof.
  induction rs as [|r rs IH]; intros p H1 H2.
  - cbn. rewrite app_nil_r. destruct p; cbn in *; congruence.
  - cbn [page_append_recs fold_left map].
    assert (Hf : ~ In (rkey r) (map fst (plist p))).
    { rewrite map_app in H2. cbn in H2. apply NoDup_remove_2 in H2.
      intros X; apply H2, in_or_app; now left. }
    unfold page_append_recs in IH. rewrite (page_append_ok p _ _ H1 Hf), IH; cbn.
    + now rewrite <- app_assoc.
    + reflexivity.
    + now rewrite <- app_assoc.
Qed.

Lemma last_index_absent (k : N) l : forall i d,
  ~ In k (map fst l) -> last_index_from i k l d = d.
Proof.
  induction l as [|[k' v'] l IH]; intros i d H; cbn; [auto|]. cbn in H.
  destruct (N.eqb_spec k k') as [->|]; [tauto|]. apply IH. tauto.
Qed.

Lemma last_index_split (k : N) (v : V) l1 l2 : forall i d,
  ~ In k (map fst l1) -> ~ In k (map fst l2) ->
  last_index_from i k (l1 ++ (k, v) :: l2) d = i + Z.of_nat (List.length l1).
Proof.
  induction l1 as [|[k' v'] l1 IH]; intros i d H1 H2; cbn [app last_index_from].
  - rewrite N.eqb_refl, last_index_absent; cbn; [lia|auto].
  - cbn in H1. destruct (N.eqb_spec k k') as [->|]; [tauto|].
    rewrite IH; cbn; [lia|tauto|auto].
Qed.

Lemma page_pop_entry_ok p (k : N) :
  pdict p = plist p -> NoDup (map fst (plist p)) ->
  page_pop_entry p k = Ok (mkPage (without k (plist p)) (without k (plist p)), lookup k (plist p)).
Proof.
  intros H1 H2. unfold page_pop_entry. rewrite H1, lookup_dget.
  destruct (dget k (plist p)) as [v|] eqn:E.
  - pose proof (dget_In _ _ _ E) as Hin. apply in_split in Hin as [l1 [l2 Hl]].
    rewrite Hl in *. rewrite map_app in H2. cbn in H2.
    pose proof (NoDup_remove_2 _ _ _ H2) as Hk.
    assert (Hk1 : ~ In k (map fst l1)) by (intros X; apply Hk, in_or_app; auto).
    assert (Hk2 : ~ In k (map fst l2)) by (intros X; apply Hk, in_or_app; auto).
    rewrite last_index_split by auto.
    unfold list_pop_at.
    destruct (l1 ++ (k, v) :: l2) eqn:E3; [destruct l1; discriminate|]. rewrite <- E3 in *.
    destruct (0 + Z.of_nat (Datatypes.length l1) <? 0) eqn:E2; [lia|].
    replace (Z.to_nat (0 + Z.of_nat (Datatypes.length l1))) with (Datatypes.length l1) by lia.
    cbn [bind].
    assert (Hd : firstn (Datatypes.length l1) (l1 ++ (k, v) :: l2) ++
                 skipn (S (Datatypes.length l1)) (l1 ++ (k, v) :: l2) = l1 ++ l2).
    { rewrite firstn_app, Nat.sub_diag, firstn_all. cbn [firstn]. rewrite app_nil_r.
      rewrite skipn_app, skipn_all2 by lia.
      replace (S (Datatypes.length l1) - Datatypes.length l1)%nat with 1%nat by lia. reflexivity. }
    rewrite Hd.
    assert (Hw : without k (l1 ++ (k, v) :: l2) = l1 ++ l2).
    { rewrite without_app. cbn. rewrite N.eqb_refl. cbn.
      change (filter (fun e => negb (N.eqb (fst e) k)) l2) with (without k l2).
      now rewrite !without_fresh. }
    rewrite ddel_without by (rewrite map_app; exact H2). now rewrite Hw.
  - apply dget_None in E. rewrite without_fresh by auto. destruct p; cbn in *; congruence.
Qed.

(** ** Table *)
Lemma sorted_app_inv t1 t2 : sorted (t1 ++ t2) ->
  sorted t1 /\ sorted t2 /\ (forall a b, In a t1 -> In b t2 -> rid a < rid b).
Proof.
  induction t1 as [|r t1 IH]; cbn; intros H.
  - repeat split; auto; [constructor|intros a b []].
  - inversion_clear H. destruct (IH H0) as [A [B C]]. rewrite Forall_app in H1. destruct H1 as [D E].
    repeat split; auto; [now constructor|].
    intros a b [<-|Ha] Hb; [|auto]. rewrite Forall_forall in E. auto.
Qed.

Lemma sorted_app t1 t2 : sorted t1 -> sorted t2 ->
  (forall a b, In a t1 -> In b t2 -> rid a < rid b) -> sorted (t1 ++ t2).
Proof.
  induction t1 as [|r t1 IH]; cbn; intros H1 H2 H; [auto|].
  inversion_clear H1. constructor.
  - apply IH; auto.
  - apply Forall_app; split; [auto|]. apply Forall_forall. intros x Hx. apply H; auto.
Qed.

Lemma sql_delete_split t1 t2 t3 : sorted (t1 ++ t2 ++ t3) ->
  sql_delete_ids (map rid t2) (t1 ++ t2 ++ t3) = t1 ++ t3.
Proof.
  intros H. apply sorted_app_inv in H as [H1 [H23 H12]].
  apply sorted_app_inv in H23 as [H2 [H3 H23]].
  unfold sql_delete_ids. rewrite !filter_app.
  assert (F1 : forall t u : table V, (forall a b, In a t -> In b u -> rid a <> rid b) ->
             filter (fun r => negb (existsb (Z.eqb (rid r)) (map rid u))) t = t).
  { clear. induction t as [|r t IH]; intros u H; cbn; [auto|].
    destruct (existsb (Z.eqb (rid r)) (map rid u)) eqn:E.
    - exfalso. apply existsb_exists in E as [i [Hi Hr]]. apply in_map_iff in Hi as [b [Hb Hb2]].
      apply Z.eqb_eq in Hr. apply (H r b); cbn; [now left|auto|congruence].
    - cbn. f_equal. apply IH. intros; apply H; cbn; auto. }
  rewrite (F1 t1 t2), (F1 t3 t2).
  - replace (filter _ t2) with (@nil (rec V)); [auto|].
    symmetry. rewrite <- (app_nil_l t2) at 1.
    assert (forall t u : table V, (forall x, In x t -> In x u) ->
              filter (fun r => negb (existsb (Z.eqb (rid r)) (map rid u))) t = []) as F2.
    { clear. induction t as [|r t IH]; intros u H; cbn; [auto|].
      replace (existsb (Z.eqb (rid r)) (map rid u)) with true.
      - cbn. apply IH. intros; apply H; cbn; auto.
      - symmetry. apply existsb_exists. exists (rid r). split; [|apply Z.eqb_refl].
        apply in_map. apply H. now left. }
    apply F2. auto.
  - intros a b Ha Hb. specialize (H23 b a Hb Ha). lia.
  - intros a b Ha Hb. specialize (H12 a b Ha). rewrite in_app_iff in H12. specialize (H12 (or_introl Hb)). lia.
Qed.

Lemma sql_limit_split (n : Z) t : exists k, sql_limit n t = firstn k t.
Proof.
  unfold sql_limit. destruct (n <? 0).
  - exists (List.length t). now rewrite firstn_all.
  - now exists (Z.to_nat n).
Qed.

Lemma rid_used_false (i : Z) t : (forall r, In r t -> rid r <> i) -> rid_used i t = false.
Proof.
  intros H. unfold rid_used. destruct (existsb _ t) eqn:E; [|auto].
  apply existsb_exists in E as [r [Hr E]]. apply Z.eqb_eq in E. exfalso. apply (H r); auto.
Qed.

Lemma key_used_has (k : N) t : key_used k t = has k (map kv t).
Proof.
  unfold key_used, has. induction t as [|r t IH]; cbn; [auto|]. now rewrite IH, N.eqb_sym.
Qed.

Lemma ins_front (x : rec V) t : (forall r, In r t -> rid x < rid r) -> ins_by_rid x t = x :: t.
Proof.
  destruct t as [|r t]; cbn; [auto|]. intros H. specialize (H r (or_introl eq_refl)).
  destruct (rid x <? rid r) eqn:E; [auto|lia].
Qed.

Lemma ins_back (x : rec V) t : (forall r, In r t -> rid r < rid x) -> ins_by_rid x t = t ++ [x].
Proof.
  induction t as [|r t IH]; cbn; [auto|]. intros H.
  pose proof (H r (or_introl eq_refl)).
  destruct (rid x <? rid r) eqn:E; [lia|]. f_equal. apply IH. auto.
Qed.

Lemma bulk_front l : forall i t,
  sorted t -> (forall r, In r t -> i < rid r) -> NoDup (map fst (l ++ map kv t)) ->
  exists t', bulk_save (number_entries i (-1) l) t = Ok t' /\
             map kv t' = rev l ++ map kv t /\ sorted t'.
Proof.
  induction l as [|[k v] l IH]; intros i t Hs Hi Hn.
  - exists t. cbn. auto.
  - cbn [number_entries bulk_save]. cbn in Hn. inversion_clear Hn.
    unfold sql_insert. cbn [rid rkey].
    rewrite rid_used_false by (intros r Hr; specialize (Hi r Hr); lia).
    rewrite key_used_has.
    replace (has k (map kv t)) with false.
    2:{ symmetry. apply has_false. rewrite map_app, in_app_iff in H. tauto. }
    cbn [orb bind]. rewrite ins_front by (cbn; auto).
    destruct (IH (i + -1) (mkRec i k v :: t)) as [t' [A [B C]]].
    + constructor; [auto|]. apply Forall_forall. auto.
    + intros r [<-|Hr]; cbn; [lia|]. specialize (Hi r Hr). lia.
    + cbn. rewrite map_app. cbn. apply NoDup_Add with (a := k) (l := map fst l ++ map fst (map kv t)).
      * apply Add_app.
      * rewrite <- map_app. auto.
    + exists t'. repeat split; auto. rewrite B. cbn. rewrite <- app_assoc. reflexivity.
Qed.

Lemma bulk_back l : forall i t,
  sorted t -> (forall r, In r t -> rid r < i) -> NoDup (map fst (map kv t ++ l)) ->
  exists t', bulk_save (number_entries i 1 l) t = Ok t' /\
             map kv t' = map kv t ++ l /\ sorted t'.
Proof.
  induction l as [|[k v] l IH]; intros i t Hs Hi Hn.
  - exists t. cbn. now rewrite app_nil_r.
  - cbn [number_entries bulk_save].
    unfold sql_insert. cbn [rid rkey].
    rewrite rid_used_false by (intros r Hr; specialize (Hi r Hr); lia).
    rewrite key_used_has.
    replace (has k (map kv t)) with false.
    2:{ symmetry. apply has_false. rewrite map_app in Hn. cbn in Hn. apply NoDup_remove_2 in Hn.
        rewrite in_app_iff in Hn. tauto. }
    cbn [orb bind]. rewrite ins_back by (cbn; auto).
    destruct (IH (i + 1) (t ++ [mkRec i k v])) as [t' [A [B C]]].
    + apply sorted_app; auto.
      * repeat constructor.
      * intros a b Ha [<-|[]]. cbn. auto.
    + intros r Hr. apply in_app_iff in Hr as [Hr|[<-|[]]]; cbn; [|lia]. specialize (Hi r Hr). lia.
    + rewrite (map_app kv), <- app_assoc. exact Hn.
    + exists t'. repeat split; auto. rewrite B, (map_app kv), <- app_assoc. reflexivity.
Qed.

Lemma fold_min_le (t : table V) : forall m,
  fold_left (fun m x => Z.min m (rid x)) t m <= m /\
  forall r, In r t -> fold_left (fun m x => Z.min m (rid x)) t m <= rid r.
Proof.
  induction t as [|x t IH]; intros m; cbn; [split; [lia|tauto]|].
  destruct (IH (Z.min m (rid x))) as [A B]. split; [lia|].
  intros r [<-|Hr]; [lia|auto].
Qed.

Lemma fold_max_ge (t : table V) : forall m,
  m <= fold_left (fun m x => Z.max m (rid x)) t m /\
  forall r, In r t -> rid r <= fold_left (fun m x => Z.max m (rid x)) t m.
Proof.
  induction t as [|x t IH]; intros m; cbn; [split; [lia|tauto]|].
  destruct (IH (Z.max m (rid x))) as [A B]. split; [lia|].
  intros r [<-|Hr]; [lia|auto].
Qed.

Lemma min_record_le q r : In r (db q) -> min_record_id q <= rid r.
Proof.
  unfold min_record_id. destruct (db q) as [|x t]; [intros []|].
  destruct (fold_min_le t (rid x)) as [A B]. intros [<-|H]; auto.
Qed.

Lemma max_record_ge q r : In r (db q) -> rid r <= max_record_id q.
Proof.
  unfold max_record_id. destruct (db q) as [|x t]; [intros []|].
  destruct (fold_max_ge t (rid x)) as [A B]. intros [<-|H]; auto.
Qed.

(** ** Page writes and loads *)
Lemma NoDup_app_comm {A} (a b : list A) : NoDup (a ++ b) -> NoDup (b ++ a).
Proof. apply Permutation_NoDup, Permutation_app_comm. Qed.

Lemma write_front_ok q :
  sorted (db q) -> NoDup (map fst (plist (front q) ++ map kv (db q))) ->
  exists t, write_front_page q = Ok (mkQueue (psz q) new_page (Some (back_page q)) t) /\
            map kv t = plist (front q) ++ map kv (db q) /\ sorted t.
Proof.
  intros Hs Hn. unfold write_front_page.
  destruct (bulk_front (rev (plist (front q))) (min_record_id q - 1) (db q)) as [t [A [B C]]]; auto.
  - intros r Hr. pose proof (min_record_le q r Hr). lia.
  - eapply Permutation_NoDup; [|exact Hn]. apply Permutation_map, Permutation_app_tail, Permutation_rev.
  - exists t. rewrite A. cbn. rewrite rev_involutive in B. auto.
Qed.

Lemma write_back_ok q :
  sorted (db q) -> NoDup (map fst (map kv (db q) ++ plist (back_page q))) ->
  exists t, write_back_page q = Ok (mkQueue (psz q) (front q) (Some new_page) t) /\
            map kv t = map kv (db q) ++ plist (back_page q) /\ sorted t.
Proof.
  intros Hs Hn. unfold write_back_page.
  destruct (bulk_back (plist (back_page q)) (max_record_id q + 1) (db q)) as [t [A [B C]]]; auto.
  - intros r Hr. pose proof (max_record_ge q r Hr). lia.
  - exists t. rewrite A. cbn. auto.
Qed.

Lemma firstn_skipn_sorted k t : sorted t ->
  sql_delete_ids (map rid (firstn k t)) t = skipn k t.
Proof.
  intros H. rewrite <- (firstn_skipn k t) in H at 1.
  pose proof (sql_delete_split [] (firstn k t) (skipn k t) H) as X. cbn [app] in X.
  rewrite (firstn_skipn k t) in X. exact X.
Qed.

Lemma load_front_ok q :
  pdict (front q) = plist (front q) -> sorted (db q) ->
  NoDup (map fst (plist (front q) ++ map kv (db q))) ->
  exists k, sql_limit (psz q) (db q) = firstn k (db q) /\
    let l := plist (front q) ++ map kv (firstn k (db q)) in
    load_front_page q = mkQueue (psz q) (mkPage l l) (back q) (skipn k (db q)).
Proof.
  intros H1 H2 H3. destruct (sql_limit_split (psz q) (db q)) as [k Hk]. exists k. split; [auto|].
  unfold load_front_page. rewrite Hk, page_append_recs_ok; auto.
  - unfold set_db, set_front. cbn [psz front back db]. now rewrite firstn_skipn_sorted.
  - rewrite <- (firstn_skipn k (db q)), (map_app kv), app_assoc, map_app in H3.
    now apply NoDup_app_remove_r in H3.
Qed.

Lemma load_back_ok q b :
  back q = Some b -> b = new_page -> sorted (db q) -> NoDup (map fst (map kv (db q))) ->
  exists t1 t2, db q = t1 ++ t2 /\
    sql_limit (psz q) (rev (db q)) = rev t2 /\
    load_back_page q = mkQueue (psz q) (front q)
      (Some (mkPage (rev (map kv t2)) (rev (map kv t2)))) t1.
Proof.
  intros Hb -> Hs Hn. destruct (sql_limit_split (psz q) (rev (db q))) as [k Hk].
  set (r1 := firstn k (rev (db q))) in *. set (r2 := skipn k (rev (db q))).
  assert (Hr : rev (db q) = r1 ++ r2) by (symmetry; apply firstn_skipn).
  assert (Hd : db q = rev r2 ++ rev r1).
  { rewrite <- rev_app_distr, <- Hr. symmetry; apply rev_involutive. }
  exists (rev r2), (rev r1). split; [auto|]. split; [now rewrite rev_involutive|].
  unfold load_back_page. rewrite Hk. unfold back_page, update_back. rewrite Hb.
  rewrite page_append_recs_ok.
  - cbn [plist new_page app]. unfold set_db. cbn [psz front back db]. rewrite <- map_rev, rev_involutive. f_equal.
    rewrite Hd in Hs |- *. rewrite <- (app_nil_r (rev r1)) in Hs |- *.
    pose proof (sql_delete_split (rev r2) (rev r1) [] Hs) as X.
    rewrite app_nil_r in X. rewrite app_nil_r in *. rewrite <- X at 2.
    unfold sql_delete_ids. apply filter_ext. intros r. f_equal.
    apply eq_true_iff_eq. rewrite !existsb_exists.
    split; intros [x [Hx Hx2]]; exists x; split; auto; rewrite in_map_iff in *;
      destruct Hx as [y [Hy Hy2]]; exists y; split; auto; now apply in_rev in Hy2 || apply -> in_rev.
  - reflexivity.
  - cbn [plist new_page app]. rewrite Hd, (map_app kv), map_app in Hn.
    apply NoDup_app_remove_l in Hn. rewrite !map_rev in Hn.
    eapply Permutation_NoDup; [|exact Hn]. symmetry. apply Permutation_rev.
Qed.

(** ** Opening a file *)
Lemma map_kv_firstn k t : map kv (firstn k t) = firstn k (map kv t).
Proof. symmetry. apply firstn_map. Qed.

(** The order in which a file's records come out after opening it with page size [ps]:
    the last up to [ps] records after the front page are reversed. *)
Definition limit_len (n : Z) (len : nat) : nat := if n <? 0 then len else Nat.min (Z.to_nat n) len.

Definition reopened_order (ps : Z) (l : list (N * V)) : list (N * V) :=
  let n := limit_len ps (List.length l) in
  let rest := skipn n l in
  let m := (List.length rest - limit_len ps (List.length rest))%nat in
  firstn n l ++ firstn m rest ++ rev (skipn m rest).

Lemma sql_limit_len n t : sql_limit n t = firstn (limit_len n (List.length t)) t.
Proof.
  unfold sql_limit, limit_len. destruct (n <? 0); [now rewrite firstn_all|].
  rewrite <- (firstn_all t) at 1. rewrite firstn_firstn. reflexivity.
Qed.

Lemma firstn_eq_len {A} (t : list A) a b :
  firstn a t = firstn b t -> (a <= List.length t)%nat -> (b <= List.length t)%nat -> a = b.
Proof.
  intros H Ha Hb. apply (f_equal (@List.length A)) in H. rewrite !firstn_length in H. lia.
Qed.

Lemma limit_len_le n k : (limit_len n k <= k)%nat.
Proof. unfold limit_len. destruct (n <? 0); lia. Qed.

Lemma open_queue_ok ps t : sorted t -> NoDup (map fst (map kv t)) ->
  inv (open_queue ps t) /\ contents (open_queue ps t) = reopened_order ps (map kv t) /\
  psz (open_queue ps t) = ps /\
  (0 <= ps -> Z.of_nat (List.length (plist (front (open_queue ps t)))) <= ps /\
              Z.of_nat (List.length (back_list (open_queue ps t))) <= ps).
Proof.
  intros Hs Hn. unfold open_queue, initial_load.
  set (q0 := mkQueue ps new_page None t).
  set (n := limit_len ps (List.length t)).
  assert (Hq1 : exists q1, (if 0 <? db_size q0 then load_front_page q0 else q0) = q1 /\
     q1 = mkQueue ps (mkPage (map kv (firstn n t)) (map kv (firstn n t))) None (skipn n t)).
  { eexists; split; [reflexivity|]. destruct (0 <? db_size q0) eqn:E.
    - destruct (load_front_ok q0) as [k [Hk1 Hk2]]; cbn; auto.
      cbn in Hk1, Hk2. rewrite Hk2.
      rewrite sql_limit_len in Hk1. fold n in Hk1. rewrite <- Hk1.
      replace (skipn k t) with (skipn n t); [auto|].
      assert (X : firstn n t ++ skipn n t = firstn k t ++ skipn k t) by now rewrite !firstn_skipn.
      rewrite Hk1 in X. now apply app_inv_head in X.
    - unfold db_size in E. cbn in E. destruct t; cbn in *; [|lia].
      unfold q0. rewrite firstn_nil, skipn_nil. reflexivity. }
  destruct Hq1 as [q1 [-> Hq1]]. rewrite Hq1. clear q1 Hq1. cbn [db psz front].
  assert (Hsk : sorted (skipn n t)).
  { rewrite <- (firstn_skipn n t) in Hs. now apply sorted_app_inv in Hs as [_ [? _]]. }
  assert (Hfn : (0 <= ps -> Z.of_nat (List.length (map kv (firstn n t))) <= ps)).
  { intros. rewrite map_length, firstn_length. unfold n, limit_len. destruct (ps <? 0) eqn:E; lia. }
  unfold db_size; cbn [db].
  destruct (0 <? Z.of_nat (Datatypes.length (skipn n t))) eqn:E.
  - assert (Hn2 : NoDup (map fst (map kv (skipn n t)))).
    { rewrite <- (firstn_skipn n t), (map_app kv), map_app in Hn. now apply NoDup_app_remove_l in Hn. }
    destruct (load_back_ok (mkQueue ps (mkPage (map kv (firstn n t)) (map kv (firstn n t)))
                (Some new_page) (skipn n t)) new_page eq_refl eq_refl Hsk Hn2) as [t1 [t2 [Ht [Hlim Hl]]]].
    cbn in Ht, Hlim. rewrite Hl.
    assert (Hc : contents (mkQueue ps (mkPage (map kv (firstn n t)) (map kv (firstn n t)))
                  (Some (mkPage (rev (map kv t2)) (rev (map kv t2)))) t1)
                 = reopened_order ps (map kv t)).
    { unfold contents, reopened_order, back_list. cbn. rewrite map_length. fold n.
      rewrite firstn_map, skipn_map. f_equal.
      rewrite sql_limit_len, rev_length in Hlim.
      rewrite !skipn_map, !map_length, !firstn_map.
      assert (Hl2 : List.length t2 = limit_len ps (List.length (skipn n t))).
      { apply (f_equal (@List.length _)) in Hlim. rewrite firstn_length, !rev_length in Hlim.
        pose proof (limit_len_le ps (List.length (skipn n t))). lia. }
      rewrite <- Hl2. rewrite Ht, app_length.
      replace (Datatypes.length t1 + Datatypes.length t2 - Datatypes.length t2)%nat
        with (Datatypes.length t1) by lia.
      rewrite firstn_app, firstn_all, Nat.sub_diag, skipn_app, skipn_all, Nat.sub_diag.
      cbn. now rewrite app_nil_r. }
    split; [|split; [exact Hc|split; [reflexivity|]]].
    + constructor; cbn [psz front back db plist pdict].
      * reflexivity.
      * intros b Hb. injection Hb as <-. reflexivity.
      * discriminate.
      * rewrite <- (firstn_skipn n t), Ht in Hn.
        eapply Permutation_NoDup; [|exact Hn]. unfold contents, back_list. cbn.
        rewrite !map_app. do 2 apply Permutation_app_head.
        rewrite map_rev. apply Permutation_rev.
      * rewrite Ht in Hsk. now apply sorted_app_inv in Hsk.
    + intros Hp. split; [now apply Hfn|]. unfold back_list. cbn. rewrite rev_length, map_length.
      rewrite sql_limit_len in Hlim. apply (f_equal (@List.length _)) in Hlim.
      rewrite firstn_length, !rev_length in Hlim. unfold limit_len in Hlim. destruct (ps <? 0) eqn:E2; lia.
  - assert (Hnil : skipn n t = []) by (destruct (skipn n t); [auto|cbn in E; lia]).
    split; [|split; [|split; [reflexivity|]]].
    + constructor; cbn [psz front back db plist pdict]; auto; try discriminate.
      unfold contents, back_list. cbn. rewrite Hnil. cbn. rewrite app_nil_r.
      rewrite <- (firstn_skipn n t), Hnil, app_nil_r in Hn. auto.
    + unfold contents, reopened_order, back_list. cbn. rewrite map_length. fold n.
      rewrite skipn_map, Hnil. cbn. rewrite !app_nil_r. rewrite firstn_map. reflexivity.
    + intros Hp. split; [now apply Hfn|cbn; lia].
Qed.

Lemma reopened_order_perm ps l : Permutation (reopened_order ps l) l.
Proof.
  unfold reopened_order. set (n := limit_len ps (List.length l)). set (r := skipn n l).
  set (m := (List.length r - limit_len ps (List.length r))%nat).
  transitivity (firstn n l ++ r); [|unfold r; now rewrite firstn_skipn].
  apply Permutation_app_head.
  transitivity (firstn m r ++ skipn m r); [|now rewrite firstn_skipn].
  apply Permutation_app_head. symmetry. apply Permutation_rev.
Qed.

(** ** Single calls *)
Lemma back_page_dict q : inv q -> pdict (back_page q) = plist (back_page q).
Proof.
  intros H. unfold back_page. destruct (back q) eqn:E; [eapply inv_back; eauto|apply inv_front; auto].
Qed.

Lemma nodup_front q : inv q -> NoDup (map fst (plist (front q))).
Proof.
  intros H. pose proof (inv_nodup q H) as X. unfold contents in X. rewrite map_app in X.
  now apply NoDup_app_remove_r in X.
Qed.

Lemma nodup_back q : inv q -> NoDup (map fst (plist (back_page q))).
Proof.
  intros H. pose proof (inv_nodup q H) as X. unfold contents, back_list in X. unfold back_page.
  destruct (back q).
  - rewrite app_assoc, map_app in X. now apply NoDup_app_remove_l in X.
  - now apply nodup_front.
Qed.

Lemma nodup_db q : inv q -> NoDup (map fst (map kv (db q))).
Proof.
  intros H. pose proof (inv_nodup q H) as X. unfold contents in X. rewrite !map_app in X.
  apply NoDup_app_remove_l in X. now apply NoDup_app_remove_r in X.
Qed.

Lemma has_contents q (k : N) : inv q ->
  has k (contents q) = page_has (back_page q) k || page_has (front q) k || db_has q k.
Proof.
  intros H. unfold page_has, db_has. rewrite back_page_dict, inv_front by auto.
  rewrite !has_dmem, key_used_has. unfold contents, back_list, back_page. rewrite !has_app.
  destruct (back q) eqn:E; cbn.
  - destruct (has k (plist (front q))), (has k (map kv (db q))), (has k (plist p)); auto.
  - rewrite orb_false_r. destruct (has k (plist (front q))); auto.
Qed.

Lemma NoDup_snoc l (k : N) (v : V) :
  NoDup (map fst l) -> ~ In k (map fst l) -> NoDup (map fst (l ++ [(k, v)])).
Proof.
  intros H1 H2. rewrite map_app. cbn. eapply Permutation_NoDup; [apply Permutation_cons_append|].
  now constructor.
Qed.

Definition room q : Prop :=
  Z.of_nat (List.length (plist (front q))) <= psz q /\ Z.of_nat (List.length (back_list q)) <= psz q.

Lemma push_ok q (k : N) (v : V) : inv q ->
  exists q', q_push q k v = Ok (q', k) /\ inv q' /\ psz q' = psz q /\
    contents q' = (if has k (contents q) then contents q else contents q ++ [(k, v)]) /\
    (1 <= psz q -> room q -> room q').
Proof.
  intros H. unfold q_push. rewrite <- has_contents by auto.
  destruct (has k (contents q)) eqn:Hh.
  { exists q. auto. }
  apply has_false in Hh.
  assert (Hf : ~ In k (map fst (plist (front q)))).
  { unfold contents in Hh. rewrite map_app, in_app_iff in Hh. tauto. }
  assert (Hb : ~ In k (map fst (plist (back_page q)))).
  { unfold back_page. destruct (back q) eqn:E; [|auto].
    unfold contents, back_list in Hh. rewrite E, !map_app, !in_app_iff in Hh. tauto. }
  pose proof (NoDup_snoc _ k v (inv_nodup q H) Hh) as Hn.
  destruct (page_size_of (back_page q) <? psz q) eqn:E.
  - rewrite page_append_ok by (auto using back_page_dict).
    unfold page_size_of in E.
    destruct (back q) as [b|] eqn:Eb.
    + exists (mkQueue (psz q) (front q) (Some (mkPage (plist b ++ [(k, v)]) (plist b ++ [(k, v)]))) (db q)).
      unfold update_back, back_page in *. rewrite Eb in *.
      assert (Hc : contents (mkQueue (psz q) (front q) (Some (mkPage (plist b ++ [(k, v)]) (plist b ++ [(k, v)]))) (db q))
                   = contents q ++ [(k, v)]).
      { unfold contents, back_list. rewrite Eb. cbn. now rewrite !app_assoc. }
      split; [auto|]. split; [|split; [auto|split; [auto|]]].
      * constructor; cbn [psz front back db plist pdict]; try (now destruct H); try discriminate.
        -- intros b' Hb'. injection Hb' as <-. reflexivity.
        -- rewrite Hc. auto.
      * intros _ [R1 R2]. split; cbn; [auto|]. unfold back_list. cbn. rewrite app_length. cbn. lia.
    + exists (mkQueue (psz q) (mkPage (plist (front q) ++ [(k, v)]) (plist (front q) ++ [(k, v)])) None (db q)).
      unfold update_back, back_page in *. rewrite Eb in *.
      pose proof (inv_alias q H Eb) as Hd.
      assert (Hc : contents (mkQueue (psz q) (mkPage (plist (front q) ++ [(k, v)]) (plist (front q) ++ [(k, v)])) None (db q))
                   = contents q ++ [(k, v)]).
      { unfold contents, back_list. rewrite Eb, Hd. cbn. now rewrite !app_nil_r. }
      split; [auto|]. split; [|split; [auto|split; [auto|]]].
      * constructor; cbn [psz front back db plist pdict]; try (now destruct H); try discriminate; auto.
        rewrite Hc. auto.
      * intros _ [R1 R2]. split; cbn; [|lia]. rewrite app_length. cbn. lia.
  - destruct (back q) as [b|] eqn:Eb.
    + destruct (write_back_ok q) as [t [A [B C]]].
      * now destruct H.
      * pose proof (inv_nodup q H) as X. unfold contents, back_list in X. rewrite Eb in X.
        unfold back_page. rewrite Eb. rewrite map_app in X. now apply NoDup_app_remove_l in X.
      * rewrite A. cbn [bind update_back back back_page].
        exists (mkQueue (psz q) (front q) (Some (mkPage [(k, v)] [(k, v)])) t).
        assert (Hc : contents (mkQueue (psz q) (front q) (Some (mkPage [(k, v)] [(k, v)])) t)
                     = contents q ++ [(k, v)]).
        { unfold contents, back_list. cbn. rewrite B, Eb. unfold back_page. rewrite Eb.
          now rewrite <- !app_assoc. }
        split; [reflexivity|]. split; [|split; [auto|split; [auto|]]].
        -- constructor; cbn [psz front back db plist pdict]; try (now destruct H); try discriminate; auto.
           ++ intros b' Hb'. injection Hb' as <-. reflexivity.
           ++ rewrite Hc. auto.
        -- intros Hp [R1 R2]. split; cbn; [auto|lia].
    + exists (mkQueue (psz q) (front q) (Some (mkPage [(k, v)] [(k, v)])) (db q)).
      pose proof (inv_alias q H Eb) as Hd.
      assert (Hc : contents (mkQueue (psz q) (front q) (Some (mkPage [(k, v)] [(k, v)])) (db q))
                   = contents q ++ [(k, v)]).
      { unfold contents, back_list. rewrite Eb, Hd. cbn. now rewrite app_nil_r. }
      split; [reflexivity|]. split; [|split; [auto|split; [auto|]]].
      * constructor; cbn [psz front back db plist pdict]; try (now destruct H); try discriminate; auto.
        -- intros b' Hb'. injection Hb' as <-. reflexivity.
        -- rewrite Hc. auto.
      * intros Hp [R1 R2]. split; cbn; [auto|lia].
Qed.

Lemma page_pop_front_ok p : pdict p = plist p ->
  page_pop_front p = Ok (mkPage (tl (plist p)) (tl (plist p)), hd_error (plist p)).
Proof.
  intros H. unfold page_pop_front. rewrite H.
  destruct p as [pl pd]; cbn in *; subst. destruct pl as [|[k v] r]; [reflexivity|].
  unfold dmem. cbn. rewrite N.eqb_refl. reflexivity.
Qed.

Lemma pop_ok q : inv q -> psz q <> 0 \/ db q = [] \/ plist (front q) <> [] ->
  exists q', q_pop q = Ok (q', hd_error (contents q)) /\ inv q' /\ psz q' = psz q /\
    contents q' = tl (contents q) /\ (1 <= psz q -> room q -> room q').
Proof.
  intros H Hps. pose proof (inv_nodup q H) as Hn. unfold q_pop.
  destruct (0 <? page_size_of (front q)) eqn:E.
  - unfold page_size_of in E. rewrite page_pop_front_ok by (now destruct H). cbn [bind].
    destruct (plist (front q)) as [|e r] eqn:El; [cbn in E; lia|]. cbn [tl hd_error].
    eexists. split; [unfold contents; rewrite El; reflexivity|].
    unfold contents in *; rewrite El in *; cbn in Hn; inversion_clear Hn.
    split; [|split; [reflexivity|split; [reflexivity|]]].
    + constructor; cbn [psz front back db plist pdict]; try (now destruct H); auto.
    + intros Hp [R1 R2]. rewrite El in R1. split; cbn in *; [lia|auto].
  - unfold page_size_of in E. destruct (plist (front q)) as [|e r] eqn:El; [|cbn in E; lia]. clear E.
    destruct (0 <? db_size q) eqn:Ed.
    + unfold db_size in Ed.
      destruct (load_front_ok q) as [k [Hk1 Hk2]].
      * rewrite El. rewrite <- El. now destruct H.
      * now destruct H.
      * unfold contents in Hn. rewrite app_assoc, map_app in Hn. now apply NoDup_app_remove_r in Hn.
      * rewrite El in Hk2. cbn [app] in Hk2. cbv zeta in Hk2. rewrite Hk2.
        cbn [front]. rewrite page_pop_front_ok by reflexivity. cbn [bind plist].
        assert (Hk0 : firstn k (db q) <> []).
        { rewrite sql_limit_len in Hk1. apply (f_equal (@List.length _)) in Hk1.
           rewrite !firstn_length in Hk1. unfold limit_len in Hk1.
           destruct (db q) as [|r0 t0]; [cbn in Ed; lia|].
           destruct k; [|discriminate].
           exfalso. destruct Hps as [Hps|[Hps|Hps]]; [|discriminate|congruence].
           destruct (psz q <? 0) eqn:Eps; cbn in Hk1; lia. }
        assert (Hhd : hd_error (map kv (firstn k (db q))) = hd_error (contents q)).
        { unfold contents. rewrite El. cbn [app]. destruct (db q), k; cbn in *; congruence. }
        rewrite Hhd. eexists. split; [reflexivity|]. split; [|split; [reflexivity|split]].
        -- unfold contents in Hn. rewrite El in Hn. cbn [app] in Hn.
           rewrite <- (firstn_skipn k (db q)), (map_app kv) in Hn.
           constructor; cbn [psz front back db plist pdict].
           ++ reflexivity.
           ++ now destruct H.
           ++ intros X. rewrite (inv_alias q H X). now rewrite skipn_nil.
           ++ unfold contents; cbn. rewrite <- app_assoc in Hn.
              destruct (map kv (firstn k (db q))); cbn in *; [auto|]. now inversion_clear Hn.
           ++ pose proof (inv_sorted q H) as Hs. rewrite <- (firstn_skipn k (db q)) in Hs.
              now apply sorted_app_inv in Hs.
        -- unfold contents. rewrite El. cbn [app front db plist].
           destruct (db q), k; cbn in *; try congruence.
           unfold back_list. cbn. rewrite app_assoc. f_equal. rewrite <- map_app. f_equal. apply firstn_skipn.
        -- intros Hp [R1 R2]. split; cbn; [|exact R2].
           rewrite sql_limit_len in Hk1. apply (f_equal (@List.length _)) in Hk1.
           rewrite !firstn_length in Hk1. unfold limit_len in Hk1.
           assert (HH : (List.length (map kv (firstn k (db q))) <= Z.to_nat (psz q))%nat).
           { rewrite map_length, firstn_length. destruct (psz q <? 0) eqn:Eps; lia. }
           destruct (map kv (firstn k (db q))); cbn in *; lia.
    + unfold db_size in Ed. destruct (db q) as [|r0 t0] eqn:Edb; [|cbn in Ed; lia]. clear Ed Hps.
      assert (Hc : contents q = plist (back_page q)).
      { unfold contents, back_list, back_page. rewrite El, Edb. cbn. destruct (back q); auto. }
      rewrite Hc in *.
      destruct (0 <? page_size_of (back_page q)) eqn:Eb.
      * cbn [front]. rewrite page_pop_front_ok by auto using back_page_dict. cbn [bind].
        eexists. split; [reflexivity|]. split; [|split; [reflexivity|split]].
        -- constructor; cbn [psz front back db plist pdict]; auto; try discriminate.
           ++ unfold contents, back_list. cbn. rewrite app_nil_r.
              destruct (plist (back_page q)); cbn in *; [auto|]. now inversion_clear Hn.
           ++ constructor.
        -- unfold contents, back_list. cbn. now rewrite app_nil_r.
        -- intros Hp [R1 R2]. split; cbn; [|lia].
           assert (HH : Z.of_nat (List.length (plist (back_page q))) <= psz q).
           { unfold back_list in R2. unfold back_page. destruct (back q); auto. }
           destruct (plist (back_page q)); cbn in *; lia.
      * unfold page_size_of in Eb. destruct (plist (back_page q)) eqn:Ep; [|cbn in Eb; lia].
        eexists. split; [reflexivity|]. split; [|split; [reflexivity|split]].
        -- constructor; cbn [psz front back db plist pdict]; auto; try discriminate.
           ++ auto using back_page_dict.
           ++ unfold contents, back_list. cbn. rewrite Ep. constructor.
           ++ constructor.
        -- unfold contents, back_list. cbn. now rewrite Ep.
        -- intros Hp [R1 R2]. split; cbn; [rewrite Ep; cbn; lia|lia].
Qed.

Lemma filter_key_db (k : N) t : NoDup (map fst (map kv t)) ->
  match dget k (map kv t) with
  | None => filter (fun r => N.eqb (rkey r) k) t = []
  | Some v => exists t1 r t2, t = t1 ++ r :: t2 /\ rkey r = k /\ rval r = v /\
       filter (fun r => N.eqb (rkey r) k) t = [r] /\ without k (map kv t) = map kv (t1 ++ t2)
  end.
Proof.
  induction t as [|r t IH]; cbn; [auto|]. intros Hn. inversion_clear Hn. specialize (IH H0).
  rewrite (N.eqb_sym k). destruct (N.eqb_spec (rkey r) k) as [<-|Hk].
  - exists [], r, t. cbn. repeat split; auto.
    + apply (proj2 (dget_None (rkey r) (map kv t))) in H. rewrite H in IH. now rewrite IH.
    + now apply without_fresh.
  - destruct (dget k (map kv t)); [|auto].
    destruct IH as [t1 [r' [t2 [A [B [C [D E]]]]]]]. exists (r :: t1), r', t2. subst t.
    repeat split; auto. cbn. f_equal. exact E.
Qed.

Lemma inspect_ok q (k : N) : inv q -> q_inspect q k = Ok (lookup k (contents q)).
Proof.
  intros H. unfold q_inspect, page_has, page_inspect, dmem.
  rewrite (inv_front q H), (back_page_dict q H), lookup_dget. unfold contents. rewrite !dget_app.
  destruct (dget k (plist (front q))) eqn:E1; [auto|].
  pose proof (filter_key_db k (db q) (nodup_db q H)) as F. unfold get_record.
  destruct (dget k (plist (back_page q))) eqn:E2.
  - unfold back_list. unfold back_page in E2. destruct (back q) eqn:Eb; [|congruence].
    destruct (dget k (map kv (db q))) eqn:E3; [|now rewrite E2].
    exfalso. pose proof (inv_nodup q H) as X. unfold contents, back_list in X. rewrite Eb in X.
    rewrite map_app in X. apply NoDup_app_remove_l in X.
    apply dget_In, (in_map fst) in E2, E3. cbn in E2, E3.
    rewrite map_app in X. apply in_split in E3 as [a [b E3]]. rewrite E3, <- app_assoc in X.
    cbn in X. apply NoDup_remove_2 in X. apply X. rewrite !in_app_iff. auto.
  - assert (E4 : dget k (back_list q) = None).
    { unfold back_list. unfold back_page in E2. destruct (back q); auto. }
    rewrite E4. destruct (dget k (map kv (db q))).
    + destruct F as [t1 [r [t2 [A [B [C [D _]]]]]]]. rewrite D. cbn. now rewrite C.
    + rewrite F. reflexivity.
Qed.

Lemma NoDup_without l (k : N) : NoDup (map fst l) -> NoDup (map fst (without k l)).
Proof.
  induction l as [|[k' v'] l IH]; cbn; [auto|]. intros H. inversion_clear H.
  destruct (N.eqb k' k); cbn; [auto|]. constructor; [|auto].
  intros X. apply H0. clear -X. induction l as [|[a b] l IH]; cbn in *; [auto|].
  destruct (N.eqb a k); cbn in *; tauto.
Qed.

Lemma length_without l (k : N) : (List.length (without k l) <= List.length l)%nat.
Proof. unfold without. induction l as [|x l IH]; cbn; [lia|]. destruct (negb _); cbn; lia. Qed.

Lemma NoDup_app_disj {A} (a b : list A) x : NoDup (a ++ b) -> In x a -> In x b -> False.
Proof.
  intros H Ha Hb. apply in_split in Ha as [a1 [a2 ->]]. rewrite <- app_assoc in H. cbn in H.
  apply NoDup_remove_2 in H. apply H. rewrite !in_app_iff. auto.
Qed.

Lemma sql_delete_one t1 (r : rec V) t2 : sorted (t1 ++ r :: t2) ->
  sql_delete_ids [rid r] (t1 ++ r :: t2) = t1 ++ t2.
Proof. intros H. apply (sql_delete_split t1 [r] t2). exact H. Qed.

Lemma pop_key_ok q (k : N) : inv q ->
  exists q', q_pop_key q k = Ok (q', lookup k (contents q)) /\ inv q' /\ psz q' = psz q /\
    contents q' = without k (contents q) /\ (room q -> room q').
Proof.
  intros H. unfold q_pop_key, page_has, dmem.
  rewrite (inv_front q H), (back_page_dict q H), lookup_dget. unfold contents. rewrite !dget_app.
  rewrite !without_app. pose proof (inv_nodup q H) as X. unfold contents in X. rewrite !map_app in X.
  destruct (dget k (plist (front q))) eqn:E1.
  - pose proof E1 as E1'. apply dget_In, (in_map fst) in E1'. cbn in E1'.
    rewrite page_pop_entry_ok by (try apply inv_front; auto using nodup_front). cbn [bind].
    rewrite lookup_dget, E1.
    assert (Hw : without k (map kv (db q)) ++ without k (back_list q) = map kv (db q) ++ back_list q).
    { rewrite <- without_app. apply without_fresh. rewrite map_app. intros Y.
      eapply NoDup_app_disj; eauto. }
    eexists. split; [reflexivity|]. split; [|split; [reflexivity|split]].
    + constructor; cbn [psz front back db plist pdict]; try (now destruct H).
      pose proof (NoDup_without _ k (inv_nodup q H)) as Y. unfold contents in Y.
      rewrite !without_app, Hw in Y. exact Y.
    + cbn [set_front front db plist]. unfold back_list at 1. cbn. fold (back_list q). now rewrite Hw.
    + intros [R1 R2]. split; cbn; [|auto]. pose proof (length_without (plist (front q)) k). lia.
  - assert (Hwf : without k (plist (front q)) = plist (front q)).
    { apply without_fresh. now apply dget_None. }
    destruct (dget k (plist (back_page q))) eqn:E2.
    + unfold back_page in E2. destruct (back q) as [b|] eqn:Eb; [|congruence].
      pose proof E2 as E2'. apply dget_In, (in_map fst) in E2'. cbn in E2'.
      assert (Hbl : back_list q = plist b) by (unfold back_list; now rewrite Eb).
      rewrite page_pop_entry_ok by (auto using back_page_dict, nodup_back).
      cbn [bind]. unfold update_back, back_page. rewrite Eb, lookup_dget, E2.
      rewrite Hbl in *.
      assert (Hdb : ~ In k (map fst (map kv (db q)))).
      { intros Y. apply NoDup_app_remove_l in X. eapply NoDup_app_disj; eauto. }
      rewrite (proj2 (dget_None k (map kv (db q))) Hdb).
      rewrite E2. eexists. split; [reflexivity|]. split; [|split; [reflexivity|split]].
      * constructor; cbn [psz front back db plist pdict]; try (now destruct H); try discriminate.
        -- intros b' Hb'. injection Hb' as <-. reflexivity.
        -- pose proof (NoDup_without _ k (inv_nodup q H)) as Y. unfold contents in Y.
           rewrite !without_app, Hwf, Hbl, (without_fresh k (map kv (db q))) in Y by auto. exact Y.
      * unfold back_list; cbn. now rewrite Hwf, (without_fresh k (map kv (db q))).
      * intros [R1 R2]. split; cbn; [auto|]. unfold back_list; cbn.
        rewrite Hbl in R2. pose proof (length_without (plist b) k). lia.
    + assert (E4 : dget k (back_list q) = None).
      { unfold back_list. unfold back_page in E2. destruct (back q); auto. }
      rewrite E4. assert (Hwb : without k (back_list q) = back_list q).
      { apply without_fresh. now apply dget_None. }
      pose proof (filter_key_db k (db q) (nodup_db q H)) as F. unfold get_record.
      destruct (dget k (map kv (db q))) eqn:E3.
      * destruct F as [t1 [r [t2 [A [B [C [D E]]]]]]]. rewrite D. cbn [bind].
        rewrite A, sql_delete_one, C by (rewrite <- A; now destruct H).
        eexists. split; [reflexivity|]. split; [|split; [reflexivity|split]].
        -- constructor; cbn [psz front back db plist pdict]; try (now destruct H).
           ++ intros Y. pose proof (inv_alias q H Y) as Z. rewrite A in Z. destruct t1; discriminate.
           ++ pose proof (NoDup_without _ k (inv_nodup q H)) as Y. unfold contents in Y.
              rewrite !without_app, Hwf, Hwb, E in Y. exact Y.
           ++ pose proof (inv_sorted q H) as Hs. rewrite A in Hs.
              change (r :: t2) with ([r] ++ t2) in Hs.
              apply sorted_app_inv in Hs as [S1 [S2 S3]]. apply sorted_app_inv in S2 as [_ [S2 _]].
              apply sorted_app; auto. intros a b Ha Hb. apply S3; auto. apply in_or_app; auto.
        -- rewrite <- A, Hwf, Hwb, E. reflexivity.
        -- intros [R1 R2]. split; auto.
      * rewrite F. cbn [bind]. exists q. split; [reflexivity|]. split; [auto|split; [auto|split]].
        -- rewrite Hwf, Hwb. f_equal. f_equal. symmetry. apply without_fresh. now apply dget_None.
        -- auto.
Qed.

Lemma clear_ok q : contents (q_clear q) = [] /\ inv (q_clear q) /\ psz (q_clear q) = psz q.
Proof.
  unfold q_clear.
  assert (Hd : filter (fun r => negb (rid r =? 0))
     (filter (fun r => negb (rid r <? 0)) (filter (fun r => negb (0 <? rid r)) (db q))) = []).
  { induction (db q) as [|r t IH]; cbn; [auto|].
    destruct (0 <? rid r) eqn:E1; cbn; [auto|]. destruct (rid r <? 0) eqn:E2; cbn; [auto|].
    destruct (rid r =? 0) eqn:E3; cbn; [auto|lia]. }
  rewrite Hd. split; [reflexivity|]. split; [|reflexivity].
  constructor; cbn [psz front back db plist pdict]; auto; try discriminate; constructor.
Qed.

Lemma size_ok q : inv q -> q_size q = Z.of_nat (List.length (contents q)).
Proof.
  intros H. unfold q_size, db_size, page_size_of, contents, back_list.
  rewrite !app_length, map_length. destruct (back q); cbn; lia.
Qed.

Lemma step_ok q (o : op V) : inv q -> psz q <> 0 ->
  exists q', step q o = Ok (q', snd (spec_step (contents q) o)) /\ inv q' /\ psz q' = psz q /\
    contents q' = fst (spec_step (contents q) o) /\ (1 <= psz q -> room q -> room q').
Proof.
  intros H Hp. destruct o; cbn [step spec_step].
  - destruct (push_ok q k v H) as [q' [A [B [C [D E]]]]]. exists q'. rewrite A. cbn. auto.
  - destruct (pop_ok q H (or_introl Hp)) as [q' [A [B [C [D E]]]]]. exists q'. rewrite A. cbn.
    destruct (contents q); cbn in *; auto.
  - exists q. rewrite inspect_ok by auto. cbn. auto 6.
  - destruct (pop_key_ok q k H) as [q' [A [B [C [D E]]]]]. exists q'. rewrite A. cbn. auto.
  - exists q. rewrite size_ok by auto. cbn. auto.
  - exists q. unfold q_is_empty. rewrite size_ok by auto. cbn.
    split; [|auto]. do 3 f_equal. destruct (contents q); cbn; lia.
  - destruct (clear_ok q) as [A [B C]]. exists (q_clear q). cbn [snd fst]. split; [auto|]. split; [auto|]. split; [auto|]. split; [auto|]. intros; split; cbn; lia.
Qed.

(** Without the assumption on the page size (page_size = 0) a call still succeeds and keeps the invariant. *)
Lemma pop_inv q : inv q -> exists q' e, q_pop q = Ok (q', e) /\ inv q' /\ psz q' = psz q /\
  Permutation (match e with Some x => x :: contents q' | None => contents q' end) (contents q).
Proof.
  intros H.
  destruct (Z.eq_dec (psz q) 0) as [Hz|Hz].
  2:{ destruct (pop_ok q H (or_introl Hz)) as [q' [A [B [C [D E]]]]].
      exists q', (hd_error (contents q)). do 3 (split; [auto; fail|]). rewrite D. destruct (contents q); cbn; auto. }
  destruct (plist (front q)) as [|x r] eqn:El.
  2:{ destruct (pop_ok q H) as [q' [A [B [C [D E]]]]]; [rewrite El; right; right; discriminate|].
      exists q', (hd_error (contents q)). do 3 (split; [auto; fail|]). rewrite D. destruct (contents q); cbn; auto. }
  destruct (db q) as [|r0 t0] eqn:Ed.
  { destruct (pop_ok q H) as [q' [A [B [C [D E]]]]]; [rewrite Ed; auto|].
      exists q', (hd_error (contents q)). do 3 (split; [auto; fail|]). rewrite D. destruct (contents q); cbn; auto. }
  exists (mkQueue (psz q) (mkPage [] []) (back q) (db q)), None.
  assert (Hf : front q = mkPage [] []).
  { pose proof (inv_front q H) as Y. rewrite El in Y. destruct (front q); cbn in *; congruence. }
  assert (Hq : mkQueue (psz q) (mkPage [] []) (back q) (db q) = q).
  { rewrite <- Hf. destruct q; reflexivity. }
  rewrite Hq. split; [|auto].
  unfold q_pop, page_size_of. rewrite Hf. cbn [plist]. cbn [Datatypes.length]. cbn [Z.of_nat].
  rewrite Z.ltb_irrefl. unfold db_size. rewrite Ed. cbn [Datatypes.length].
  destruct (0 <? Z.of_nat (S (Datatypes.length t0))) eqn:E; [|lia].
  unfold load_front_page. rewrite Hz. unfold sql_limit. cbn [Z.ltb Z.compare Z.to_nat firstn page_append_recs fold_left map].
  rewrite Hf. unfold set_front at 1 2 4 5. rewrite Hq.
  assert (Hdel : forall t : table V, sql_delete_ids [] t = t).
  { intros t. unfold sql_delete_ids. induction t; cbn in *; [auto|]. now f_equal. }
  rewrite Hdel. unfold set_db, set_front. cbn [psz front back db]. rewrite Hf. cbn. now rewrite Hq.
Qed.

Lemma step_inv q (o : op V) : inv q ->
  exists q' x, step q o = Ok (q', x) /\ inv q' /\ psz q' = psz q.
Proof.
  intros H. destruct o; cbn [step].
  - destruct (push_ok q k v H) as [q' [A [B [C _]]]]. rewrite A. cbn. eauto.
  - destruct (pop_inv q H) as [q' [e [A [B [C _]]]]]. rewrite A. cbn. eauto.
  - rewrite inspect_ok by auto. cbn. eauto.
  - destruct (pop_key_ok q k H) as [q' [A [B [C _]]]]. rewrite A. cbn. eauto.
  - eauto.
  - eauto.
  - destruct (clear_ok q) as [A [B C]]. eauto.
Qed.

Theorem behaves q : inv q -> psz q <> 0 -> behaves_as q (contents q).
Proof.
  intros H Hp ops. revert q H Hp. induction ops as [|o ops IH]; intros q H Hp; cbn; [auto|].
  destruct (step_ok q o H Hp) as [q' [A [B [C [D _]]]]]. rewrite A.
  destruct (spec_step (contents q) o) as [l' x]; cbn in *. subst l'. f_equal. apply IH; auto. congruence.
Qed.

(** ** Shut-down *)
Lemma shut_down_ok q : inv q ->
  exists q', q_shut_down q = Ok q' /\ map kv (db q') = contents q /\ sorted (db q').
Proof.
  intros H. unfold q_shut_down. pose proof (inv_nodup q H) as Hn. unfold contents, back_list in *.
  destruct (back q) as [b|] eqn:Eb.
  - set (r1 := if 0 <? page_size_of (front q) then write_front_page q else Ok q).
    assert (Hr : exists q1, r1 = Ok q1 /\ map kv (db q1) = plist (front q) ++ map kv (db q) /\
                sorted (db q1) /\ back_page q1 = b).
    { unfold r1. destruct (0 <? page_size_of (front q)) eqn:E.
      - destruct (write_front_ok q) as [t [A [B C]]].
        + now destruct H.
        + rewrite app_assoc, map_app in Hn. now apply NoDup_app_remove_r in Hn.
        + rewrite A. eexists. split; [reflexivity|]. cbn. repeat split; auto.
          unfold back_page. now rewrite Eb.
      - exists q. unfold page_size_of in E. destruct (plist (front q)); [|cbn in E; lia].
        repeat split; auto; [now destruct H|]. unfold back_page; now rewrite Eb. }
    destruct Hr as [q1 [-> [A [B C]]]]. cbn [bind].
    destruct (0 <? page_size_of (back_page q1)) eqn:E.
    + destruct (write_back_ok q1) as [t [D [F G]]]; auto.
      * rewrite A, C, <- app_assoc. auto.
      * rewrite D. eexists. split; [reflexivity|]. cbn. split; [|auto].
        rewrite F, A, C, <- app_assoc. reflexivity.
    + exists q1. split; [reflexivity|]. split; [|auto]. rewrite A.
      unfold page_size_of in E. rewrite C in E. destruct (plist b); [|cbn in E; lia].
      now rewrite !app_nil_r.
  - rewrite (inv_alias q H Eb) in *. cbn [map app] in *. rewrite app_nil_r in *.
    destruct (0 <? page_size_of (front q)) eqn:E.
    + destruct (write_front_ok q) as [t [A [B C]]].
      * now destruct H.
      * rewrite (inv_alias q H Eb). cbn. rewrite app_nil_r. auto.
      * rewrite A. eexists. split; [reflexivity|]. cbn. split; [|auto].
        rewrite B, (inv_alias q H Eb). cbn. now rewrite app_nil_r.
    + exists q. split; [auto|]. unfold page_size_of in E. destruct (plist (front q)); [|cbn in E; lia].
      rewrite (inv_alias q H Eb). cbn. split; [auto|constructor].
Qed.

Lemma reopen_ok ps q : inv q ->
  exists q', reopen ps q = Ok q' /\ inv q' /\ psz q' = ps /\
    contents q' = reopened_order ps (contents q) /\ (0 <= ps -> room q').
Proof.
  intros H. unfold reopen. destruct (shut_down_ok q H) as [q2 [A [B C]]]. rewrite A. cbn [bind].
  destruct (open_queue_ok ps (db q2) C) as [D [E [F G]]].
  { rewrite B. apply inv_nodup; auto. }
  eexists. split; [reflexivity|]. rewrite B in E. repeat split; auto.
  - now destruct D.
  - now destruct D.
  - now destruct D.
  - now destruct D.
  - now destruct D.
  - rewrite F. now apply G.
  - rewrite F. now apply G.
Qed.

(** ** Crash tables *)
Definition good t : Prop := sorted t /\ NoDup (map fst (map kv t)).

Lemma db_part q : incl (map kv (db q)) (contents q).
Proof. intros x Hx. unfold contents. rewrite !in_app_iff. auto. Qed.

Lemma good_db q : inv q -> good (db q).
Proof. intros H. split; [now destruct H|now apply nodup_db]. Qed.

Lemma crash_op_ok q (o : op V) t : inv q -> In t (crash_tables_op q o) ->
  good t /\ incl (map kv t) (contents q).
Proof.
  intros H [<-|Hin].
  - split; [now apply good_db|apply db_part].
  - destruct (step_inv q o H) as [q' [x [A [B C]]]]. rewrite A in Hin. destruct Hin as [<-|[]].
    split; [now apply good_db|]. unfold incl in *. intros e He.
    destruct o; cbn in A.
    + (* Push: only entries that were in the back page are written *)
      revert A. unfold q_push.
      destruct (page_has (back_page q) k || page_has (front q) k || db_has q k) eqn:E.
      { cbn. intros A. injection A as <- <-. now apply db_part. }
      destruct (page_size_of (back_page q) <? psz q).
      { cbn. intros A. injection A as <- <-. apply db_part. unfold update_back in He. destruct (back q); auto. }
      destruct (back q) as [b|] eqn:Eb.
      * destruct (write_back_ok q) as [t [A1 [B1 C1]]].
        { now destruct H. }
        { pose proof (inv_nodup q H) as X. unfold contents, back_list in X. rewrite Eb in X.
          unfold back_page. rewrite Eb. rewrite map_app in X. now apply NoDup_app_remove_l in X. }
        rewrite A1. cbn. intros A. injection A as <- <-. cbn in He. rewrite B1 in He.
        unfold contents, back_list. unfold back_page in He. rewrite Eb in *.
        rewrite !in_app_iff in *. tauto.
      * cbn. intros A. injection A as <- <-. cbn in He. now apply db_part.
    + destruct (pop_inv q H) as [q2 [e2 [A2 [B2 [C2 D2]]]]]. rewrite A2 in A. cbn in A.
      injection A as <- <-. apply (Permutation_in _ D2). apply db_part in He. destruct e2; cbn; auto.
    + rewrite inspect_ok in A by auto. cbn in A. injection A as <- <-. now apply db_part.
    + destruct (pop_key_ok q k H) as [q2 [A2 [B2 [C2 [D2 _]]]]]. rewrite A2 in A. cbn in A.
      injection A as <- <-. apply db_part in He. rewrite D2 in He. unfold without in He.
      apply filter_In in He. tauto.
    + injection A as <- <-. now apply db_part.
    + injection A as <- <-. now apply db_part.
    + injection A as <- <-. destruct (clear_ok q) as [X _]. apply db_part in He. rewrite X in He. destruct He.
Qed.

Lemma crash_shut_ok q t : inv q -> In t (crash_tables_shut_down q) ->
  good t /\ incl (map kv t) (contents q).
Proof.
  intros H. unfold crash_tables_shut_down. intros [<-|Hin].
  { split; [now apply good_db|apply db_part]. }
  pose proof (inv_nodup q H) as Hn.
  apply in_app_iff in Hin as [Hin|Hin].
  - destruct (0 <? page_size_of (front q)); [|destruct Hin].
    destruct (write_front_ok q) as [t1 [A [B C]]].
    + now destruct H.
    + unfold contents in Hn. rewrite app_assoc, map_app in Hn. now apply NoDup_app_remove_r in Hn.
    + rewrite A in Hin. destruct Hin as [<-|[]]. cbn. split; [split; [auto|]|].
      * rewrite B. unfold contents in Hn. rewrite app_assoc, map_app in Hn. now apply NoDup_app_remove_r in Hn.
      * rewrite B. unfold contents. intros x Hx. rewrite !in_app_iff in *. tauto.
  - destruct (shut_down_ok q H) as [q2 [A [B C]]]. rewrite A in Hin. destruct Hin as [<-|[]].
    split; [split; [auto|now rewrite B]|]. rewrite B. apply incl_refl.
Qed.

Lemma sorted_firstn_skipn n t : sorted t -> sorted (skipn n t).
Proof. intros H. rewrite <- (firstn_skipn n t) in H. now apply sorted_app_inv in H. Qed.

Lemma crash_open_ok ps t t' : good t -> In t' (crash_tables_open ps t) ->
  good t' /\ incl (map kv t') (map kv t).
Proof.
  intros [Hs Hn] Hin. unfold crash_tables_open in Hin.
  destruct (open_queue_ok ps t Hs Hn) as [A [B _]].
  destruct Hin as [<-|[<-|[<-|[]]]].
  - split; [split; auto|apply incl_refl].
  - set (q0 := mkQueue ps new_page None t).
    destruct (0 <? db_size q0).
    + destruct (load_front_ok q0) as [k [Hk1 Hk2]]; auto.
      cbn in Hk2. rewrite Hk2. cbn. split; [split|].
      * now apply sorted_firstn_skipn.
      * rewrite <- (firstn_skipn k t), (map_app kv), map_app in Hn. now apply NoDup_app_remove_l in Hn.
      * rewrite <- (firstn_skipn k t) at 2. rewrite (map_app kv). apply incl_appr, incl_refl.
    + cbn. split; [split; auto|apply incl_refl].
  - split; [now apply good_db|]. intros x Hx. apply db_part in Hx. rewrite B in Hx.
    apply (Permutation_in _ (reopened_order_perm _ _)) in Hx. exact Hx.
Qed.

(** ** Reachability *)
Scheme reachable_mut := Induction for reachable Sort Prop
with on_disk_mut := Induction for on_disk Sort Prop.
Combined Scheme reachable_disk_ind from reachable_mut, on_disk_mut.

Theorem reachable_both :
  (forall q : queue V, reachable q -> inv q /\ (1 <= psz q -> room q)) /\
  (forall t : table V, on_disk t -> good t).
Proof.
  apply reachable_disk_ind.
  - intros ps t _ [Hs Hn]. destruct (open_queue_ok ps t Hs Hn) as [A [B [C D]]].
    split; [auto|]. rewrite C. intros Hp. destruct D as [D1 D2]; [lia|]. split; rewrite C; auto.
  - intros q o q' x _ [A B] H0. destruct (Z.eq_dec (psz q) 0) as [Hz|Hz].
    + destruct (step_inv q o A) as [q2 [x2 [C [D E]]]]. rewrite C in H0. injection H0 as <- <-.
      split; [auto|lia].
    + destruct (step_ok q o A Hz) as [q2 [C [D [E [F G]]]]]. rewrite C in H0. injection H0 as <- <-.
      split; [auto|]. intros. rewrite E in *. auto.
  - split; constructor.
  - intros q q2 _ [A _] H0. destruct (shut_down_ok q A) as [q3 [C [D E]]].
    rewrite C in H0. injection H0 as <-. split; [auto|]. rewrite D. now apply inv_nodup.
  - intros q o t _ [A _] H0. eapply crash_op_ok; eauto.
  - intros q t _ [A _] H0. eapply crash_shut_ok; eauto.
  - intros t ps t' _ G H0. eapply crash_open_ok; eauto.
Qed.

Theorem reachable_inv q : reachable q -> inv q /\ (1 <= psz q -> room q).
Proof. apply reachable_both. Qed.
Lemma on_disk_good t : on_disk t -> good t.
Proof. apply reachable_both. Qed.

Lemma reach_fresh ps : reachable (@open_queue V ps []).
Proof. apply reach_open, disk_fresh. Qed.
Lemma reach_reopen (q : queue V) ps q' : reachable q -> reopen ps q = Ok q' -> reachable q'.
Proof.
  intros H E. unfold reopen in E. destruct (q_shut_down q) as [q2|] eqn:S; [|discriminate].
  cbn [bind] in E. injection E as <-. eapply reach_open, disk_shut; eauto.
Qed.
Lemma reach_crash_op (q : queue V) o t ps : reachable q -> In t (crash_tables_op q o) -> reachable (open_queue ps t).
Proof. intros. eapply reach_open, disk_crash_op; eauto. Qed.

End Proofs.
