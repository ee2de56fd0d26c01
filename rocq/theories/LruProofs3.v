(** The LRU cache refines the abstract cache on careful histories: operations and histories. *)
From Coq Require Import List ZArith NArith Bool String Lia Arith ZifyBool ZifyNat Permutation.
From Verif Require Import Base LruModel LruSpec LruProofs LruProofs2.
Import ListNotations.
Local Open Scope Z_scope.

Ltac wstep := rewrite ?write_eq; cbv beta iota; cbn [heap max_size items head tail fresh].
Section Refine.
Context {V : Type} (vnone : V).
Notation lru := (lru V).
Notation node := (node V).
Implicit Types (s : lru) (h : nat -> node).
Notation shape := (shape (V := V)).

Definition kv h (n : nat) : key * V := (nkey (h n), nvalue (h n)).
(** [ns]: the nodes of the entries, [ds]: the empty nodes behind them. *)
Record rep s (l : cache) (ns ds : list nat) : Prop := mkRep {
  r_list : map (kv (heap s)) ns = l;
  r_shape : shape (heap s) (head s) (ns ++ ds);
  r_items : forall k n, iget k (items s) = Some n <-> In n ns /\ nkey (heap s n) = k;
  r_len : List.length (items s) = List.length ns }.

Definition inj h (ns : list nat) : Prop := forall n m, In n ns -> In m ns -> nkey (h n) = nkey (h m) -> n = m.
Lemma rep_inj : forall s l ns ds, rep s l ns ds -> inj (heap s) ns.
Proof.
  intros s l ns ds R n m Hn Hm E. assert (A : iget (nkey (heap s n)) (items s) = Some n) by (apply R; auto).
  assert (B : iget (nkey (heap s n)) (items s) = Some m) by (apply R; auto). congruence.
Qed.
Lemma lookup_some : forall h ns n, inj h ns -> In n ns -> lookup (nkey (h n)) (map (kv h) ns) = Some (nvalue (h n)).
Proof.
  intros h. induction ns as [|m ns IH]; intros n J Hn; [contradiction|]. cbn [map lookup kv].
  destruct (keqb (nkey (h n)) (nkey (h m))) eqn:E.
  - apply keqb_eq in E. assert (n = m) by (apply J; auto; now left). now subst.
  - destruct Hn as [->|Hn]; [now rewrite keqb_refl in E|]. apply IH; auto. intros x y Hx Hy. apply J; now right.
Qed.
Lemma lookup_none : forall h ns k, (forall n, In n ns -> nkey (h n) <> k) -> lookup k (map (kv h) ns) = None.
Proof.
  intros h. induction ns as [|m ns IH]; intros k H; [reflexivity|]. cbn [map lookup kv].
  rewrite (proj2 (keqb_neq k (nkey (h m)))); [|intros X; apply (H m); [now left|auto]]. apply IH. intros n Hn. apply H. now right.
Qed.
Lemma lookup_rep : forall s l ns ds k, rep s l ns ds -> lookup k l = match iget k (items s) with Some n => Some (nvalue (heap s n)) | None => None end.
Proof.
  intros s l ns ds k R. rewrite <- (r_list _ _ _ _ R). destruct (iget k (items s)) as [n|] eqn:E.
  - apply R in E. destruct E as [Hn <-]. apply lookup_some; auto. eapply rep_inj; eauto.
  - apply lookup_none. intros n Hn X. assert (iget k (items s) = Some n) by (apply R; auto). congruence.
Qed.
Lemma without_none : forall h ns k, (forall n, In n ns -> nkey (h n) <> k) -> without k (map (kv h) ns) = map (kv h) ns.
Proof.
  intros h. induction ns as [|m ns IH]; intros k H; [reflexivity|]. unfold without in *. cbn [map filter kv fst].
  rewrite (proj2 (keqb_neq k (nkey (h m)))); [|intros X; apply (H m); [now left|auto]]. cbn [negb]. rewrite IH; auto. intros n Hn. apply H. now right.
Qed.
Lemma without_app : forall k (l1 l2 : @cache V), without k (l1 ++ l2) = without k l1 ++ without k l2.
Proof. intros. apply filter_app. Qed.
Lemma without_middle : forall h p a q, inj h (p ++ a :: q) -> NoDup (p ++ a :: q) ->
  without (nkey (h a)) (map (kv h) (p ++ a :: q)) = map (kv h) (p ++ q).
Proof.
  intros h p a q J ND. apply NoDup_remove in ND. destruct ND as [_ NI]. rewrite !map_app, without_app. cbn [map].
  assert (X : forall n, In n (p ++ q) -> nkey (h n) <> nkey (h a)).
  { intros n Hn E. apply NI. rewrite <- (J n a); auto; apply in_app_or in Hn; apply in_or_app; cbn; tauto. }
  change (kv h a :: map (kv h) q) with ([kv h a] ++ map (kv h) q). rewrite without_app.
  rewrite !without_none; try (intros n Hn; apply X, in_or_app; tauto).
  unfold without. cbn [filter kv fst]. rewrite keqb_refl. reflexivity.
Qed.
Lemma kv_same : forall h h', same_data h h' -> forall n, kv h' n = kv h n.
Proof. intros h h' S n. destruct (S n) as (_ & A & B). unfold kv. congruence. Qed.
Lemma nodup_left : forall (a b : list nat), NoDup (a ++ b) -> NoDup a.
Proof. induction a as [|x a IH]; intros b H; [constructor|]. inversion H as [|? ? X Y]; subst. constructor; [intros Z; apply X, in_or_app; auto|eauto]. Qed.
Lemma rep_nodup : forall s l ns ds, rep s l ns ds -> NoDup (ns ++ ds).
Proof. intros s l ns ds R. apply R. Qed.

(** Reading or overwriting an entry. *)
Lemma touch_rep : forall s l ns ds k a, rep s l ns ds -> iget k (items s) = Some a ->
  exists h' ns', move_to_front vnone a s = (Ok tt, mkLru (max_size s) (items s) (Some a) (tail s) h' (fresh s)) /\ same_data (heap s) h' /\
    rep (mkLru (max_size s) (items s) (Some a) (tail s) h' (fresh s)) ((k, nvalue (heap s a)) :: without k l) ns' ds /\ Permutation ns ns'.
Proof.
  intros s l ns ds k a R E. apply R in E. destruct E as [Hn <-]. apply in_split in Hn. destruct Hn as (p & q & ->).
  pose proof (r_shape _ _ _ _ R) as Sh. rewrite <- app_assoc in Sh. cbn [app] in Sh.
  destruct (mtf_ring vnone s p a (q ++ ds) Sh) as (h' & Em & S & Sh'). exists h', (a :: p ++ q). split; auto. split; auto.
  split; [|symmetry; apply Permutation_middle].
  constructor; cbn [heap items head].
  - rewrite <- (r_list _ _ _ _ R), without_middle.
    + cbn [map]. f_equal; [apply (kv_same _ _ S)|]. apply map_ext. apply (kv_same _ _ S).
    + eapply rep_inj; eauto.
    + eapply nodup_left, rep_nodup; eauto.
  - cbn [app]. rewrite <- app_assoc. exact Sh'.
  - intros k n. destruct (S n) as (_ & -> & _). rewrite (r_items _ _ _ _ R).
    assert (X : In n (p ++ a :: q) <-> In n (a :: p ++ q)) by (split; apply Permutation_in; [symmetry|]; apply Permutation_middle). tauto.
  - rewrite (r_len _ _ _ _ R), app_length. cbn [List.length]. rewrite app_length. lia.
Qed.
Lemma value_rep : forall s l ns ds k a v, rep s l ns ds -> iget k (items s) = Some a ->
  let s1 := mkLru (max_size s) (items s) (head s) (tail s) (W a (with_value v) (heap s)) (fresh s) in
  exists l1, rep s1 l1 ns ds /\ without k l1 = without k l.
Proof.
  intros s l ns ds k a v R E s1. exists (map (kv (heap s1)) ns). split.
  - constructor; auto.
    + cbn [s1 heap head]. eapply shape_data; [|apply R]. intros b. now rewrite W_value_next, W_value_prev.
    + intros j n. cbn [s1 heap items]. rewrite (r_items _ _ _ _ R). unfold W. destruct (Nat.eqb_spec n a); [subst; reflexivity|reflexivity].
    + apply R.
  - pose proof (proj1 (r_items _ _ _ _ R k a) E) as [Ha Hk]. rewrite <- (r_list _ _ _ _ R).
    assert (G : forall ms, without k (map (kv (heap s1)) ms) = without k (map (kv (heap s)) ms)); [|apply G].
    induction ms as [|m ms IH]; [reflexivity|]. unfold without in *. cbn [map filter]. cbn [s1 heap] in *.
    assert (K : fst (kv (W a (with_value v) (heap s)) m) = fst (kv (heap s) m)) by (unfold kv, W; destruct (Nat.eqb_spec m a); subst; reflexivity).
    rewrite K, IH. destruct (keqb k (fst (kv (heap s) m))) eqn:Q; cbn [negb]; auto. f_equal. unfold kv, W.
    destruct (Nat.eqb_spec m a) as [->|]; [|auto]. unfold kv in Q. cbn [fst] in Q. rewrite Hk, keqb_refl in Q. discriminate.
Qed.

(** Taking an entry out. *)
Lemma blank_rep : forall s ns ds a c' hd' h' k p q, rep s (map (kv (heap s)) ns) ns ds -> NoDup (map fst (items s)) -> ns = p ++ a :: q -> nkey (heap s a) = k -> same_data (heap s) h' -> shape h' hd' c' ->
  (c' = p ++ (q ++ ds) ++ [a] \/ (c' = [] /\ p = [] /\ q ++ ds = [])) ->
  exists ds', rep (mkLru (max_size s) (idel k (items s)) hd' (tail s) (W a (with_data true None vnone) h') (fresh s)) (without k (map (kv (heap s)) ns)) (p ++ q) ds'.
Proof.
  intros s ns ds a c' hd' h' k p q R NDi -> Hk S Sh Hc.
  assert (ND : NoDup (p ++ a :: q)) by (eapply nodup_left, rep_nodup; eauto).
  assert (J : inj (heap s) (p ++ a :: q)) by (eapply rep_inj; eauto).
  assert (NI : ~ In a (p ++ q)) by (apply NoDup_remove in ND; tauto).
  exists (match c' with [] => [] | _ => ds ++ [a] end).
  constructor; cbn [heap items head].
  - rewrite <- Hk, without_middle; auto. apply map_ext_in. intros n Hn. unfold kv, W. destruct (Nat.eqb_spec n a) as [->|]; [contradiction|]. apply (kv_same _ _ S).
  - eapply shape_data; [intros b; rewrite W_data_next, W_data_prev; split; reflexivity|].
    destruct Hc as [->|(-> & -> & Hq)].
    + replace (match p ++ (q ++ ds) ++ [a] with [] => [] | _ => ds ++ [a] end) with (ds ++ [a]) by (destruct p; cbn; auto; destruct ((q ++ ds) ++ [a]) eqn:Q; auto; destruct (q ++ ds); discriminate).
      rewrite <- !app_assoc in *. exact Sh.
    + apply app_eq_nil in Hq. destruct Hq as [-> ->]. exact Sh.
  - intros j n. unfold W. destruct (Nat.eqb_spec n a) as [->|NE].
    + split; [|intros [X _]; contradiction]. intros E. exfalso.
      destruct (key_dec j k) as [->|NJ]; [rewrite iget_idel_same in E; auto; discriminate|]. rewrite iget_idel_other in E; auto.
      apply R in E. destruct E as [_ E]. congruence.
    + destruct (S n) as (_ & -> & _).
      assert (X : In n (p ++ a :: q) <-> In n (p ++ q)). { rewrite !in_app_iff. cbn [In]. intuition congruence. }
      destruct (key_dec j k) as [->|NJ].
      * rewrite iget_idel_same by auto. split; [discriminate|]. intros [Hn E]. exfalso. apply NE. apply J; [tauto|apply in_or_app; right; now left|congruence].
      * rewrite iget_idel_other by auto. rewrite (r_items _ _ _ _ R). tauto.
  - assert (E : iget k (items s) = Some a) by (apply R; split; auto; apply in_or_app; right; now left).
    pose proof (length_idel _ _ _ E). rewrite (r_len _ _ _ _ R) in *. rewrite app_length in *. cbn [List.length] in *. lia.
Qed.
Lemma take_rep : forall s lst l ns ds k a, inv s lst -> rep s l ns ds -> iget k (items s) = Some a ->
  exists s' ns' ds', mbind (put_items (idel k (items s))) (fun _ => move_to_end vnone a true) s = (Ok tt, s') /\ rep s' (without k l) ns' ds' /\
    max_size s' = max_size s.
Proof.
  intros s lst l ns ds k a I R E. pose proof (proj1 (r_items _ _ _ _ R k a) E) as [Hn Hk]. apply in_split in Hn. destruct Hn as (p & q & Q).
  set (s1 := mkLru (max_size s) (idel k (items s)) (head s) (tail s) (heap s) (fresh s)).
  assert (Sh : shape (heap s1) (head s1) (p ++ a :: q ++ ds)). { pose proof (r_shape _ _ _ _ R) as Sh. rewrite Q, <- app_assoc in Sh. exact Sh. }
  destruct (mte_shape vnone s1 p a (q ++ ds) Sh) as (hd' & h' & c' & Em & S & Sh' & Hc).
  pose proof R as R'. rewrite <- (r_list _ _ _ _ R) in R'.
  destruct (blank_rep s ns ds a c' hd' h' k p q R' (proj1 (proj2 I)) Q Hk S Sh' Hc) as [ds' X].
  unfold mbind, put_items. fold s1. rewrite Em. eexists _, (p ++ q), ds'. split; [reflexivity|]. rewrite (r_list _ _ _ _ R) in X. split; [exact X|reflexivity].
Qed.
Lemma pop_rep : forall s lst l ns ds, inv s lst -> rep s l ns ds ->
  match l with
  | [] => pop vnone s = (Ok None, s)
  | kv :: r => exists s' ns' ds', pop vnone s = (Ok (Some kv), s') /\ rep s' r ns' ds' /\ max_size s' = max_size s
  end.
Proof.
  intros s lst l ns ds I R. destruct ns as [|a q].
  - rewrite <- (r_list _ _ _ _ R). cbn [map]. unfold pop. pose proof (r_len _ _ _ _ R) as L. destruct (items s); [reflexivity|discriminate].
  - pose proof R as R'. rewrite <- (r_list _ _ _ _ R) in R'. rewrite <- (r_list _ _ _ _ R). cbn [map].
    pose proof (r_shape _ _ _ _ R) as Sh. cbn [app] in Sh. pose proof Sh as (Hh & _). cbn [hd_error] in Hh.
    set (k := nkey (heap s a)). assert (E : iget k (items s) = Some a) by (apply R; split; auto; now left).
    destruct (mte_shape vnone s [] a (q ++ ds) Sh) as (hd' & h' & c' & Em & S & Sh' & Hc).
    (* for the head, moving to the end is dropping it from the front *)
    assert (hd' = nnext (heap s a) /\ h' = heap s) as [-> ->].
    { specialize (Em false). rewrite mte_head in Em by auto. inversion Em; auto. }
    destruct (blank_rep s (a :: q) ds a c' _ _ k [] q R' (proj1 (proj2 I)) eq_refl eq_refl S Sh' Hc) as [ds' X].
    eexists _, q, ds'. unfold pop. pose proof (r_len _ _ _ _ R) as L. destruct (items s) as [|i0 ir] eqn:Q; [discriminate|]. rewrite <- Q in *. clear Q.
    unfold mbind, get_head. rewrite Hh. cbn [the]. unfold ret, next_of, mbind, read, ret, put_head. wstep.
    fold k. rewrite E. unfold put_items. wstep. split; [reflexivity|]. split; [|reflexivity].
    replace (map (kv (heap s)) q) with (without k (map (kv (heap s)) (a :: q))); [exact X|].
    apply (without_middle (heap s) [] a q); [eapply rep_inj; eauto|eapply nodup_left, rep_nodup; eauto].
Qed.
Lemma iterator_rep : forall s l ns ds, rep s l ns ds -> iterator s = (Ok ns, s).
Proof.
  intros s l ns ds R. unfold iterator, mbind, get_head. rewrite (r_len _ _ _ _ R). pose proof (r_shape _ _ _ _ R) as (Hh & ND & C).
  destruct ns as [|a ns]; [reflexivity|]. rewrite Hh. cbn [app hd_error]. apply iterate_linked.
  cbn [app] in C. destruct ns as [|b ns]; [exact Logic.I|]. cbn [app cyc] in C. rewrite <- app_assoc in C.
  change (a :: b :: ns ++ ds ++ [a]) with ((a :: b :: ns) ++ ds ++ [a]) in C.
  destruct (ds ++ [a]) as [|y r] eqn:Q; [destruct ds; discriminate|]. apply linked_app in C. destruct C as [C _].
  destruct (@exists_last _ (a :: b :: ns) ltac:(discriminate)) as (p & z & E). rewrite E in *. rewrite <- app_assoc in C. apply linked_app in C. apply C.
Qed.
Lemma clear_rep : forall s l ns ds, rep s l ns ds ->
  exists s', clear vnone s = (Ok tt, s') /\ rep s' [] [] (ns ++ ds) /\ max_size s' = max_size s /\ tail s' = tail s.
Proof.
  intros s l ns ds R. unfold clear, mbind. rewrite (iterator_rep _ _ _ _ R). unfold put_items. cbn [max_size items head tail heap fresh].
  eexists. split; [reflexivity|]. split; [|split; reflexivity]. constructor; cbn [heap items head app]; auto.
  - eapply shape_data; [|apply R]. intros b. cbv beta. destruct (existsb (Nat.eqb b) ns); auto.
  - intros k n. cbn. split; [discriminate|tauto].
Qed.

(** Storing a new key while there is room: the oldest node is the list's [tail]. *)
Lemma insert_rep : forall s lst l ns k v, inv s lst -> rep s l ns [] -> iget k (items s) = None ->
  (ns = [] \/ exists q z, ns = q ++ [z] /\ tail s = Some z) ->
  exists s' ns', mbind (insert k v) (fun a => put_head (Some a)) s = (Ok tt, s') /\ rep s' ((k, v) :: l) ns' [] /\ max_size s' = max_size s /\
    ns' = fresh s :: ns /\ (forall n, In n ns -> nkey (heap s' n) = nkey (heap s n)) /\ nkey (heap s' (fresh s)) = k /\
    tail s' = match ns with [] => Some (fresh s) | _ => tail s end.
Proof.
  intros s lst l ns k v [M D] R E Ht. set (a := fresh s). set (new := mkNode false None None k v).
  assert (FR : forall n, In n ns -> (n < fresh s)%nat /\ n <> a).
  { intros n Hn. assert (X : iget (nkey (heap s n)) (items s) = Some n) by (apply R; auto). apply D in X. unfold a. lia. }
  pose proof (r_shape _ _ _ _ R) as (Hh & ND & C). rewrite app_nil_r in *.
  (* the data *)
  assert (KD : forall h' hd tl, same_data (W a (fun _ => new) (heap s)) h' -> shape h' hd (a :: ns) ->
    rep (mkLru (max_size s) (iset k a (items s)) hd tl h' (S a)) ((k, v) :: l) (a :: ns) []).
  { intros h' hd tl S Sh. constructor; cbn [heap items head].
    - cbn [map]. f_equal; [rewrite (kv_same _ _ S); unfold kv, W; now rewrite Nat.eqb_refl|].
      rewrite <- (r_list _ _ _ _ R). apply map_ext_in. intros n Hn. rewrite (kv_same _ _ S). unfold kv, W. destruct (Nat.eqb_spec n a) as [->|]; [now apply FR in Hn|auto].
    - now rewrite app_nil_r.
    - intros j n. destruct (S n) as (_ & -> & _). unfold W. destruct (key_dec j k) as [->|NE].
      + rewrite iget_iset_same. split.
        * intros X. inversion X; subst. split; [now left|]. now rewrite Nat.eqb_refl.
        * intros [[<-|Hn] X]; auto. exfalso. destruct (FR n Hn) as [_ NA]. destruct (Nat.eqb_spec n a); [contradiction|].
          assert (iget k (items s) = Some n) by (apply R; auto). congruence.
      + rewrite iget_iset_other by auto. rewrite (r_items _ _ _ _ R). split.
        * intros [Hn X]. split; [now right|]. destruct (FR n Hn) as [_ NA]. destruct (Nat.eqb_spec n a); [contradiction|auto].
        * intros [[<-|Hn] X]; [rewrite Nat.eqb_refl in X; cbn in X; congruence|]. destruct (FR n Hn) as [_ NA]. destruct (Nat.eqb_spec n a); [contradiction|auto].
    - rewrite iset_new by auto. rewrite app_length. cbn [List.length]. rewrite (r_len _ _ _ _ R). lia. }
  assert (KK : forall h', same_data (W a (fun _ => new) (heap s)) h' -> (forall n, In n ns -> nkey (h' n) = nkey (heap s n)) /\ nkey (h' a) = k).
  { intros h' S. split.
    - intros n Hn. destruct (S n) as (_ & -> & _). unfold W. destruct (Nat.eqb_spec n a) as [->|]; [now apply FR in Hn|auto].
    - destruct (S a) as (_ & -> & _). unfold W. now rewrite Nat.eqb_refl. }
  assert (NDa : NoDup (a :: ns)) by (constructor; auto; intros X; now apply FR in X).
  unfold insert, mbind at 1. cbv beta zeta. unfold mbind at 1. cbn [ret]. unfold mbind at 1. fold a. wstep. fold new. unfold mbind at 1 2, get_head. wstep.
  destruct ns as [|hd ns].
  - cbn [hd_error] in Hh. rewrite Hh. unfold mbind, put_head, put_tail, put_items, ret. wstep.
    eexists _, [a]. split; [reflexivity|]. split; [|split; [reflexivity|split; [reflexivity|split; [|split; [|reflexivity]]]]].
    + apply KD; [apply sd_refl|]. split; [reflexivity|]. split; auto. unfold W. now rewrite Nat.eqb_refl.
    + intros n [].
    + cbn [heap]. apply (KK _ (sd_refl _)).
  - destruct Ht as [|(q & z & Q & T)]; [discriminate|]. cbn [hd_error] in Hh. rewrite Hh. unfold mbind, get_tail. wstep. rewrite T.
    assert (Z : z = last (hd :: ns) hd) by (rewrite Q; now rewrite last_last).
    assert (Zin : In z (hd :: ns)) by (rewrite Z; apply last_in).
    assert (NZ : z <> a) by (apply FR in Zin; tauto). assert (NH : hd <> a) by (apply (FR hd); now left).
    cbn [is_same]. destruct (Nat.eqb_spec z hd) as [X|NE].
    + (* one node *)
      assert (ns = []) as ->.
      { destruct ns as [|b r]; auto. exfalso. cbn [last] in Z. change (z = last (b :: r) hd) in Z. inversion ND as [|? ? N1 N2]; subst.
        apply N1. rewrite <- X at 1. destruct (@exists_last _ (b :: r) ltac:(discriminate)) as (p & w & W'). rewrite W' in *. rewrite last_last in *. subst. apply in_or_app. right. now left. }
      subst z. rewrite X. clear X. unfold put_head, put_items, ret. wstep.
      set (h' := W hd (with_next (Some a)) (W hd (with_prev (Some a)) (W a (with_next (Some hd)) (W a (with_prev (Some hd)) (W a (fun _ => new) (heap s)))))).
      assert (SD : same_data (W a (fun _ => new) (heap s)) h').
      { eapply sd_trans; [|apply sd_next]. eapply sd_trans; [|apply sd_prev]. eapply sd_trans; [|apply sd_next]. apply sd_prev. }
      eexists _, [a; hd]. split; [reflexivity|]. split; [|split; [reflexivity|split; [reflexivity|split; [|split; [|cbn; congruence]]]]].
      * apply KD; auto. apply shape_cyc; auto. cbn [cyc app linked]. unfold h'. rewrite !W_next, !W_next_prev, !W_prev, !W_prev_next, !W_next, !W_next_prev, !W_prev, !Nat.eqb_refl.
        assert (X : Nat.eqb a hd = false) by (apply Nat.eqb_neq; auto). rewrite X. tauto.
      * cbn [heap]. apply (KK _ SD).
      * cbn [heap]. apply (KK _ SD).
    + cbn [the]. unfold put_head, put_items, ret. wstep.
      set (h' := W hd (with_prev (Some a)) (W z (with_next (Some a)) (W a (with_next (Some hd)) (W a (with_prev (Some z)) (W a (fun _ => new) (heap s)))))).
      assert (SD : same_data (W a (fun _ => new) (heap s)) h').
      { eapply sd_trans; [|apply sd_prev]. eapply sd_trans; [|apply sd_next]. eapply sd_trans; [|apply sd_next]. apply sd_prev. }
      assert (L : linked (heap s) (hd :: ns)). { destruct ns; [exact Logic.I|]. apply cyc_open in C. apply C. }
      eexists _, (a :: hd :: ns). split; [reflexivity|]. split; [|split; [reflexivity|split; [reflexivity|split; [|split; [|cbn; congruence]]]]].
      * apply KD; auto. apply shape_cyc; auto. apply (cyc_insert (heap s)); auto; rewrite <- ?Z.
        -- intros b Hb. unfold h'. rewrite W_prev_next, W_next, W_next, W_prev_next. destruct (Nat.eqb_spec b z); auto.
           destruct (Nat.eqb_spec b a) as [->|N]; [now apply FR in Hb|]. unfold W. destruct (Nat.eqb_spec b a); [contradiction|auto].
        -- intros b Hb. unfold h'. rewrite W_prev, W_next_prev, W_next_prev, W_prev. destruct (Nat.eqb_spec b hd); auto.
           destruct (Nat.eqb_spec b a) as [->|N]; [now apply FR in Hb|]. unfold W. destruct (Nat.eqb_spec b a); [contradiction|auto].
        -- unfold h'. rewrite W_prev, W_next_prev, W_next_prev, W_prev, Nat.eqb_refl. destruct (Nat.eqb_spec a hd); [congruence|auto].
        -- unfold h'. rewrite W_prev_next, W_next, W_next, Nat.eqb_refl. destruct (Nat.eqb_spec a z); [congruence|auto].
      * cbn [heap]. apply (KK _ SD).
      * cbn [heap]. apply (KK _ SD).
Qed.

(** Storing a new key in a full cache. *)
Lemma replace_rep : forall s lst l ns k v, inv s lst -> rep s l ns [] -> iget k (items s) = None -> (2 <= List.length ns)%nat ->
  exists s' ns', replace_least_recently_used k v s = (Ok tt, s') /\ rep s' ((k, v) :: removelast l) ns' [] /\ max_size s' = max_size s /\ tail s' = tail s /\
    Permutation ns ns'.
Proof.
  intros s lst l ns k v [M D] R E Len. pose proof (r_shape _ _ _ _ R) as (Hh & ND & C). rewrite app_nil_r in *.
  destruct ns as [|hd [|b r]]; cbn [List.length] in Len; try lia. cbn [hd_error] in Hh.
  pose proof C as C0. apply cyc_open in C0. destruct C0 as (L & _ & Ph).
  destruct (@exists_last _ (hd :: b :: r) ltac:(discriminate)) as (q & z & Q). rewrite Q in *. rewrite last_last in Ph.
  assert (NI : ~ In z q) by (apply nodup_last in ND; tauto).
  assert (Zin : In z (q ++ [z])) by (apply in_or_app; right; now left).
  assert (Ez : iget (nkey (heap s z)) (items s) = Some z) by (apply R; auto).
  assert (J : inj (heap s) (q ++ [z])) by (eapply rep_inj; eauto).
  set (j := nkey (heap s z)) in *. assert (Emp : nempty (heap s z) = false) by (apply D in Ez; tauto).
  assert (Kj : k <> j) by congruence.
  assert (ND1 : NoDup (z :: q)) by (apply (Permutation_NoDup (l := q ++ [z])); auto; symmetry; apply Permutation_cons_append).
  unfold replace_least_recently_used, mbind, get_head. rewrite Hh. cbn [the]. unfold ret, prev_of, mbind, read, ret. rewrite Ph. cbn [the]. unfold ret. cbv beta iota. rewrite Emp. fold j. rewrite Ez.
  unfold put_items, put_head. wstep. eexists _, (z :: q). split; [reflexivity|]. split; [|split; [reflexivity|split; [reflexivity|symmetry; apply Permutation_cons_append]]].
  constructor; cbn [heap items head].
  - rewrite <- (r_list _ _ _ _ R), map_app. cbn [map]. rewrite removelast_last. f_equal; [unfold kv, W; now rewrite Nat.eqb_refl|].
    apply map_ext_in. intros n Hn. unfold kv, W. destruct (Nat.eqb_spec n z) as [->|]; [contradiction|auto].
  - rewrite app_nil_r. eapply shape_data; [intros x; rewrite W_data_next, W_data_prev; split; reflexivity|].
    assert (Cz : cyc (heap s) (z :: q)) by (apply (cyc_rot _ q [z]); destruct q; exact C).
    destruct q as [|y q]; [discriminate|]. apply shape_cyc; auto.
  - intros i n. unfold W.
    assert (Ek : iget k (idel j (items s)) = None) by (rewrite iget_idel_other; auto).
    destruct (key_dec i k) as [->|Ni].
    + rewrite iget_iset_same. split.
      * intros X. inversion X; subst. split; [now left|]. now rewrite Nat.eqb_refl.
      * intros [[<-|Hn] X]; auto. exfalso. destruct (Nat.eqb_spec n z) as [->|]; [contradiction|].
        assert (iget k (items s) = Some n) by (apply R; split; auto; apply in_or_app; now left). congruence.
    + rewrite iget_iset_other by auto. destruct (Nat.eqb_spec n z) as [->|Nz].
      * split; [|intros [_ X]; cbn in X; congruence]. intros X. exfalso. destruct (key_dec i j) as [->|Nj]; [rewrite iget_idel_same in X; [discriminate|apply D]|].
        rewrite iget_idel_other in X by auto. apply R in X. destruct X as [_ X]. exact (Nj (eq_sym X)).
      * destruct (key_dec i j) as [->|Nj].
        -- rewrite iget_idel_same by apply D. split; [discriminate|]. intros [[X|Hn] X']; [congruence|]. exfalso. apply Nz. apply J; auto. apply in_or_app. now left.
        -- rewrite iget_idel_other by auto. rewrite (r_items _ _ _ _ R), in_app_iff. cbn [In]. intuition congruence.
  - rewrite iset_new by (rewrite iget_idel_other; auto). rewrite app_length. pose proof (length_idel _ _ _ Ez). rewrite (r_len _ _ _ _ R) in *. rewrite app_length in *. cbn [List.length] in *. lia.
Qed.

(** What is known of [tail] while nothing has been removed. *)
Definition tinv (max : Z) (first : option key) (removed : bool) s (ns ds : list nat) : Prop :=
  removed = false -> ds = [] /\ ((ns = [] /\ first = None) \/
    exists t k, tail s = Some t /\ In t ns /\ first = Some k /\ (Z.of_nat (List.length ns) < max -> nkey (heap s t) = k)).
Lemma tinv_same : forall max first removed s s' ns ns' ds, tinv max first removed s ns ds -> tail s' = tail s -> Permutation ns ns' ->
  (forall n, In n ns -> nkey (heap s' n) = nkey (heap s n)) -> tinv max first removed s' ns' ds.
Proof.
  intros max first removed s s' ns ns' ds T E P K Hr. destruct (T Hr) as [-> [[-> F]|(t & k & A & B & C & D)]]; (split; [auto|]).
  - left. split; auto. now apply Permutation_nil.
  - right. exists t, k. split; [congruence|]. split; [now apply (Permutation_in _ P)|]. split; auto. rewrite K by auto. rewrite <- (Permutation_length P). auto.
Qed.

Definition next_first (first : option key) (o : op V) : option key := match first with None => match o with Set_ k _ => Some k | _ => None end | _ => first end.
(** The condition on one operation in [careful]. *)
Definition allowed (max : Z) (l : cache) (first : option key) (removed : bool) (o : op V) : Prop :=
  match o with
  | Set_ k _ => match lookup k l with Some _ => True | None => removed = false /\ (full max l = true \/ l = [] \/ Some (fst (last l (None, vnone))) = first) end
  | _ => True
  end.
Lemma careful_cons : forall max l first removed o r, careful vnone max l first removed (o :: r) ->
  allowed max l first removed o /\
  careful vnone max (fst (spec_step max l o)) (next_first first o) (removed || Nat.ltb (List.length (fst (spec_step max l o))) (List.length l)) r.
Proof.
  intros max l first removed o r H. destruct o as [k v|k d|k|k d|k d| | |k| | |k]; cbn [careful] in H; unfold allowed, next_first; try (split; [exact I|destruct first; exact H]).
  destruct (lookup k l) eqn:E; [split; [exact I|exact H]|]. destruct H as (A & B & C). auto.
Qed.

Definition stepped_to (max : Z) (l : cache) (first : option key) (removed : bool) (o : op V) (r : lru * out V) : Prop :=
  snd r = snd (spec_step max l o) /\ exists ns' ds', rep (fst r) (fst (spec_step max l o)) ns' ds' /\
    tinv max (next_first first o) (removed || Nat.ltb (List.length (fst (spec_step max l o))) (List.length l)) (fst r) ns' ds'.

Lemma length_rep : forall s l ns ds, rep s l ns ds -> List.length l = List.length ns.
Proof. intros s l ns ds R. rewrite <- (r_list _ _ _ _ R). apply map_length. Qed.
Lemma first_none : forall max first removed s l ns ds o, tinv max first removed s ns ds -> removed = false -> rep s l ns ds ->
  (forall k v, o = Set_ k v -> lookup k l <> None) -> next_first first o = first.
Proof.
  intros max first removed s l ns ds o T Hr R N. unfold next_first. destruct first; auto. destruct o; auto. exfalso.
  destruct (T Hr) as [_ [[-> _]|(t & k' & _ & _ & X & _)]]; [|discriminate]. eapply N; eauto. rewrite <- (r_list _ _ _ _ R). reflexivity.
Qed.
Lemma unchanged : forall max l first removed o s ns ds x, tinv max first removed s ns ds -> rep s l ns ds -> (forall k v, o <> Set_ k v) ->
  spec_step max l o = (l, x) -> stepped_to max l first removed o (s, x).
Proof.
  intros max l first removed o s ns ds x T R N E. unfold stepped_to. rewrite E. cbn [fst snd]. split; auto. exists ns, ds. split; auto.
  rewrite Nat.ltb_irrefl, orb_false_r. intros Hr. rewrite (first_none _ _ _ _ _ _ _ o T Hr R); [exact (T Hr)|]. intros k v X. exfalso. eapply N; eauto.
Qed.
Lemma removed_ok : forall max l first removed o s ns ds x l', rep s l' ns ds -> spec_step max l o = (l', x) -> (List.length l' < List.length l)%nat ->
  stepped_to max l first removed o (s, x).
Proof.
  intros max l first removed o s ns ds x l' R E L. unfold stepped_to. rewrite E. cbn [fst snd]. split; auto. exists ns, ds. split; auto.
  intros Hr. exfalso. apply orb_false_iff in Hr. destruct Hr as [_ Hr]. apply Nat.ltb_ge in Hr. lia.
Qed.
Lemma without_length : forall k (l : @cache V), (List.length (without k l) <= List.length l)%nat.
Proof. intros k. induction l as [|p l IH]; [auto|]. unfold without in *. cbn [filter]. destruct (negb _); cbn [List.length]; lia. Qed.
Lemma without_length_some : forall k (l : @cache V) v, lookup k l = Some v -> (List.length (without k l) < List.length l)%nat.
Proof.
  intros k. induction l as [|[k' v'] l IH]; intros v; cbn [lookup]; [discriminate|]. unfold without in *. cbn [filter fst]. destruct (keqb k k'); cbn [negb List.length].
  - intros _. pose proof (without_length k l). unfold without in *. lia.
  - intros E. specialize (IH v E). lia.
Qed.
Lemma without_absent : forall k (l : @cache V), lookup k l = None -> without k l = l.
Proof.
  intros k. induction l as [|[k' v'] l IH]; cbn [lookup]; [auto|]. unfold without in *. cbn [filter fst]. destruct (keqb k k'); [discriminate|]. cbn [negb]. intros E. now rewrite IH.
Qed.
Lemma moved_ok : forall max l first removed o s s' ns ns' ds x l', tinv max first removed s ns ds -> rep s l ns ds -> rep s' l' ns' ds ->
  spec_step max l o = (l', x) -> tail s' = tail s -> Permutation ns ns' -> (forall n, In n ns -> nkey (heap s' n) = nkey (heap s n)) ->
  (forall k v, o = Set_ k v -> lookup k l <> None) -> stepped_to max l first removed o (s', x).
Proof.
  intros max l first removed o s s' ns ns' ds x l' T R R' E Et P K N. unfold stepped_to. rewrite E. cbn [fst snd]. split; auto. exists ns', ds. split; auto.
  rewrite (length_rep _ _ _ _ R), (length_rep _ _ _ _ R'), (Permutation_length P), Nat.ltb_irrefl, orb_false_r.
  intros Hr. rewrite (first_none _ _ _ _ _ _ _ o T Hr R N). eapply tinv_same; eauto.
Qed.

Lemma refine_step : forall max s lst l ns ds first removed o, inv s lst -> rep s l ns ds -> max_size s = max -> 2 <= max ->
  tinv max first removed s ns ds -> allowed max l first removed o -> stepped_to max l first removed o (step vnone s o).
Proof.
  intros max s lst l ns ds first removed o I R Mx Hm T Al.
  assert (Lk : forall k, lookup k l = match iget k (items s) with Some n => Some (nvalue (heap s n)) | None => None end) by (intros k; eapply lookup_rep; eauto).
  assert (GI : forall k a x, iget k (items s) = Some a -> (forall k' v', o <> Set_ k' v') ->
     spec_step max l o = ((k, nvalue (heap s a)) :: without k l, x) -> x = OVal (nvalue (heap s a)) ->
     stepped_to max l first removed o (match getitem vnone k s with (Ok v, s') => (s', OVal v) | (Raise e, s') => (s', OExc e) end)).
  { intros k a x E N Sp ->. destruct (touch_rep s l ns ds k a R E) as (h' & ns' & Em & S & R' & P). unfold getitem. rewrite E. unfold mbind. rewrite Em.
    unfold read, ret. cbn [heap]. destruct (S a) as (_ & _ & ->). eapply moved_ok; eauto.
    - cbn [heap]. intros n _. apply S.
    - intros k' v' X. exfalso. eapply N; eauto. }
  destruct o as [k v|k d|k|k d|k d| | |k| | |k]; cbn [step]; unfold wrap.
  - (* Set *)
    unfold setitem. destruct (iget k (items s)) as [a|] eqn:E.
    + unfold mbind. wstep. destruct (value_rep s l ns ds k a v R E) as (l1 & R1 & W1).
      set (s1 := mkLru (max_size s) (items s) (head s) (tail s) (W a (with_value v) (heap s)) (fresh s)) in *.
      destruct (touch_rep s1 l1 ns ds k a R1 E) as (h' & ns' & Em & S & R' & P). rewrite Em.
      assert (Va : nvalue (heap s1 a) = v) by (cbn [s1 heap]; unfold W; now rewrite Nat.eqb_refl). rewrite Va, W1 in R'.
      eapply moved_ok; [exact T|exact R|exact R'| |reflexivity|exact P| |].
      * cbn [spec_step]. rewrite Lk, E. reflexivity.
      * cbn [heap]. intros n _. destruct (S n) as (_ & -> & _). cbn [s1 heap]. unfold W. destruct (Nat.eqb_spec n a); [rewrite e; reflexivity|reflexivity].
      * intros k' v' X. inversion X as [[X1 X2]]. rewrite <- X1, Lk, E. discriminate.
    + cbn [allowed] in Al. rewrite Lk, E in Al. destruct Al as [-> Al]. destruct (T eq_refl) as [-> T'].
      assert (Fl : full max l = negb (length_of s <? max_size s)).
      { unfold full, length_of. rewrite (length_rep _ _ _ _ R), (r_len _ _ _ _ R), Mx. destruct (Z.ltb_spec (Z.of_nat (List.length ns)) max); cbn [negb]; lia. }
      destruct (Z.ltb_spec (length_of s) (max_size s)) as [Lt|Ge]; cbn [negb] in Fl.
      * destruct Al as [Al|Al]; [congruence|].
        assert (Ht : ns = [] \/ exists q z, ns = q ++ [z] /\ tail s = Some z).
        { destruct T' as [[-> _]|(t & k0 & A & B & C & D)]; [now left|]. destruct Al as [Al|Al].
          - left. apply length_rep in R. rewrite Al in R. destruct ns; [auto|discriminate].
          - right. destruct (@exists_last _ ns) as (q & z & ->); [intros X; subst ns; contradiction|]. exists q, z. split; auto.
            rewrite A. f_equal. rewrite <- (r_list _ _ _ _ R), map_app in Al. cbn [map] in Al. rewrite last_last in Al. cbn [kv fst] in Al.
            rewrite C in Al. inversion Al as [Al']. apply (rep_inj _ _ _ _ R); auto; [apply in_or_app; right; now left|].
            rewrite Al'. apply D. unfold length_of in Lt. rewrite (r_len _ _ _ _ R), Mx in Lt. exact Lt. }
        destruct (insert_rep s lst l ns k v I R E Ht) as (s' & ns' & -> & R' & M' & -> & K1 & K2 & Tl).
        unfold stepped_to. cbn [spec_step fst snd]. rewrite Lk, E, Fl. cbn [fst snd]. split; auto. exists (fresh s :: ns), []. split; auto.
        intros _. split; auto. right. rewrite Tl. destruct T' as [[-> ->]|(t & k0 & A & B & C & D)].
        -- exists (fresh s), k. repeat split; auto. now left.
        -- exists t, k0. rewrite C. cbn [next_first]. destruct ns as [|n0 ns]; [contradiction|]. split; [exact A|]. split; [now right|]. split; [reflexivity|].
           intros L. rewrite K1 by auto. apply D. cbn [List.length] in *. lia.
      * assert (Ge' : (2 <= List.length ns)%nat) by (unfold length_of in Ge; rewrite (r_len _ _ _ _ R) in Ge; lia).
        destruct (replace_rep s lst l ns k v I R E Ge') as (s' & ns' & -> & R' & M' & Tl & P).
        unfold stepped_to. cbn [spec_step fst snd]. rewrite Lk, E, Fl. cbn [fst snd]. split; auto. exists ns', []. split; auto.
        intros _. split; auto. right. destruct T' as [[-> _]|(t & k0 & A & B & C & D)]; [cbn in Ge'; lia|].
        exists t, k0. rewrite Tl, C. cbn [next_first]. repeat split; auto; [now apply (Permutation_in _ P)|].
        intros L. exfalso. rewrite <- (Permutation_length P) in L. unfold length_of in Ge. rewrite (r_len _ _ _ _ R) in Ge. lia.
  - (* Get *)
    unfold get. destruct (iget k (items s)) as [a|] eqn:E.
    + eapply (GI k a); eauto; [discriminate|]. cbn [spec_step]. now rewrite Lk, E.
    + unfold ret. eapply unchanged; eauto; [discriminate|]. cbn [spec_step]. now rewrite Lk, E.
  - (* Item *)
    destruct (iget k (items s)) as [a|] eqn:E.
    + eapply (GI k a); eauto; [discriminate|]. cbn [spec_step]. now rewrite Lk, E.
    + unfold getitem. rewrite E. unfold raise. eapply unchanged; eauto; [discriminate|]. cbn [spec_step]. now rewrite Lk, E.
  - (* Peek *)
    unfold peek. destruct (iget k (items s)) as [a|] eqn:E; unfold mbind, read, ret; (eapply unchanged; eauto; [discriminate|]; cbn [spec_step]; now rewrite Lk, E).
  - (* PopItem *)
    unfold pop_item. destruct (iget k (items s)) as [a|] eqn:E.
    + destruct (take_rep s lst l ns ds k a I R E) as (s' & ns' & ds' & Em & R' & M'). unfold mbind, put_items, read in *. cbn [heap] in *. rewrite Em. unfold ret.
      eapply removed_ok; [exact R'| |].
      * cbn [spec_step]. now rewrite Lk, E.
      * eapply without_length_some. rewrite Lk, E. reflexivity.
    + unfold ret. eapply unchanged; eauto; [discriminate|]. cbn [spec_step]. now rewrite Lk, E.
  - (* Pop *)
    pose proof (pop_rep s lst l ns ds I R) as Pp. destruct l as [|p r].
    + rewrite Pp. eapply unchanged; eauto. discriminate.
    + destruct Pp as (s' & ns' & ds' & -> & R' & M'). eapply removed_ok; [exact R'|reflexivity|]. cbn. lia.
  - (* Clear *)
    destruct (clear_rep s l ns ds R) as (s' & -> & R' & M' & Tl). destruct l as [|p r].
    + unfold stepped_to. cbn [spec_step fst snd]. split; auto. exists [], (ns ++ ds). split; auto. cbn [List.length]. rewrite Nat.ltb_irrefl, orb_false_r.
      intros Hr. destruct (T Hr) as [-> [[-> ->]|(t & k0 & A & B & C & D)]].
      * split; [reflexivity|]. left. auto.
      * exfalso. apply length_rep in R. destruct ns; [contradiction|discriminate].
    + eapply removed_ok; [exact R'|reflexivity|]. cbn. lia.
  - (* Del *)
    unfold delitem. destruct (iget k (items s)) as [a|] eqn:E.
    + destruct (take_rep s lst l ns ds k a I R E) as (s' & ns' & ds' & Em & R' & M'). rewrite Em.
      eapply removed_ok; [exact R'|reflexivity|]. eapply without_length_some. rewrite Lk, E. reflexivity.
    + unfold ret. eapply unchanged; eauto; [discriminate|]. cbn [spec_step]. rewrite without_absent; auto. now rewrite Lk, E.
  - (* Items *)
    unfold items_list, mbind. rewrite (iterator_rep _ _ _ _ R). unfold map_nodes. eapply unchanged; eauto; [discriminate|]. cbn [spec_step].
    rewrite <- (r_list _ _ _ _ R). reflexivity.
  - unfold len. eapply unchanged; eauto; [discriminate|]. cbn [spec_step]. unfold length_of. now rewrite (r_len _ _ _ _ R), (length_rep _ _ _ _ R).
  - unfold contains. eapply unchanged; eauto; [discriminate|]. cbn [spec_step]. rewrite Lk. now destruct (iget k (items s)).
Qed.

Lemma refine_run : forall max ops s lst l ns ds first removed, inv s lst -> rep s l ns ds -> max_size s = max -> 2 <= max ->
  tinv max first removed s ns ds -> careful vnone max l first removed ops -> snd (run vnone s ops) = snd (spec_run max l ops).
Proof.
  intros max. induction ops as [|o ops IH]; intros s lst l ns ds first removed I R Mx Hm T C; [reflexivity|].
  apply careful_cons in C. destruct C as [Al C].
  destruct (refine_step max s lst l ns ds first removed o I R Mx Hm T Al) as (Ex & ns' & ds' & R' & T').
  destruct (step_ok vnone s lst o I) as (I' & M' & _).
  specialize (IH _ _ _ _ _ _ _ I' R' (eq_trans M' Mx) Hm T' C). cbn [run spec_run].
  destruct (step vnone s o) as [s1 x]. destruct (spec_step max l o) as [l1 x']. cbn [fst snd] in *.
  destruct (run vnone s1 ops) as [s2 xs]. destruct (spec_run max l1 ops) as [l2 xs']. cbn [snd] in *. congruence.
Qed.
Lemma rep_create : forall max, rep (create vnone max) [] [] [].
Proof. intros max. constructor; auto. - split; [reflexivity|split; [constructor|exact I]]. - intros k n. cbn. split; [discriminate|tauto]. Qed.
Theorem refines : forall max ops, 2 <= max -> careful vnone max [] None false ops ->
  snd (run vnone (create vnone max) ops) = snd (spec_run max [] ops).
Proof.
  intros max ops Hm C. eapply refine_run; eauto using inv_create, rep_create. intros _. auto.
Qed.
End Refine.
