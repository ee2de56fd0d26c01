(** Histories without removals: no operation fails. *)
From Coq Require Import List ZArith NArith Bool String Lia Arith ZifyBool ZifyNat Permutation.
From Verif Require Import Base LruModel LruSpec LruProofs LruProofs2.
Import ListNotations.
Local Open Scope Z_scope.

Section NoFail.
Context {V : Type} (vnone : V).
Notation lru := (lru V).
Implicit Types (s : lru).

Definition keeps {A} (m : @M V A) : Prop := forall s, fresh (snd (m s)) = fresh s.
Lemma keeps_bind : forall A B (m : @M V A) (f : A -> @M V B), keeps m -> (forall a, keeps (f a)) -> keeps (mbind m f).
Proof. intros A B m f Hm Hf s. unfold mbind. specialize (Hm s). destruct (m s) as [[a|e] s1]; cbn [snd] in *; auto. rewrite Hf. auto. Qed.
Lemma keeps_read : forall A (f : lru -> res A), keeps (fun s => (f s, s)).
Proof. intros A f s. reflexivity. Qed.
Lemma keeps_the : forall o, keeps (the o).
Proof. intros [a|] s; reflexivity. Qed.
Lemma keeps_write : forall a f, keeps (write a f).
Proof. intros a f s. reflexivity. Qed.
Ltac kp := repeat (first [apply keeps_bind; [|intros ?] | apply keeps_write | apply keeps_the | (intros ?; reflexivity)]).
Lemma keeps_mte : forall a e, keeps (move_to_end vnone a e).
Proof.
  intros a e. unfold move_to_end. apply keeps_bind; [intros s; reflexivity|]. intros h. apply keeps_bind; [|intros _; destruct e; intros s; reflexivity].
  destruct (is_same h (Some a)); unfold next_of, prev_of; kp.
Qed.
Lemma keeps_mtf : forall a, keeps (move_to_front vnone a).
Proof.
  intros a. unfold move_to_front. apply keeps_bind; [intros s; reflexivity|]. intros h. destruct (is_same h (Some a)); [intros s; reflexivity|].
  apply keeps_bind; [apply keeps_mte|]. intros _ s. reflexivity.
Qed.
Lemma keeps_replace : forall k v, keeps (replace_least_recently_used (V := V) k v).
Proof.
  intros k v. unfold replace_least_recently_used, prev_of. kp.
  match goal with |- context [if nempty ?n then _ else _] => destruct (nempty n) end; intros s; [reflexivity|]. cbv beta. destruct (iget _ _); reflexivity.
Qed.
Lemma keeps_iterate : forall n o, keeps (iterate (V := V) n o).
Proof. induction n as [|n IH]; intros o; cbn [iterate]; [intros s; reflexivity|]. unfold next_of. kp. apply IH. Qed.
Lemma keeps_iterator : keeps (iterator (V := V)).
Proof. intros s. unfold iterator, mbind, get_head. apply keeps_iterate. Qed.
Lemma keeps_getitem : forall k, keeps (getitem vnone k).
Proof.
  intros k s. unfold getitem. destruct (iget k (items s)); [|reflexivity]. revert s. apply keeps_bind; [apply keeps_mtf|]. intros _. kp.
Qed.
Lemma insert_fresh : forall s lst k v, inv s lst -> iget k (items s) = None -> forall s' r,
  mbind (insert k v) (fun a => put_head (Some a)) s = (r, s') -> fresh s' = S (fresh s).
Proof.
  intros s lst k v I E s' r H. assert (X : fresh (snd (mbind (insert k v) (fun a => put_head (Some a)) s)) = S (fresh s)); [|now rewrite H in X].
  clear H. set (m := insert k v).
  assert (K : forall s, fresh (snd (m s)) = S (fresh s)).
  { intros s0. unfold m, insert. match goal with |- fresh (snd (?m0 ?s1)) = _ => assert (K : keeps m0); [|rewrite K; reflexivity] end.
    apply keeps_bind; [intros s1; reflexivity|]. intros n. apply keeps_bind; [apply keeps_write|]. intros _. apply keeps_bind; [intros s1; reflexivity|].
    intros h. apply keeps_bind; [|intros _; apply keeps_bind; [|intros _]; intros s1; reflexivity].
    destruct h; [|kp]. apply keeps_bind; [intros s1; reflexivity|]. intros t. apply keeps_bind; [apply keeps_write|]. intros _. apply keeps_bind; [apply keeps_write|]. intros _.
    destruct (is_same t (Some n0)); kp. }
  unfold mbind. specialize (K s). destruct (m s) as [[a|e] s1]; cbn [snd] in *; auto.
Qed.

(** Operations that take nothing out. *)
Definition keeping (o : op V) : bool := match o with Del _ | PopItem _ _ | Pop | Clear => false | _ => true end.
(** Every node holds an entry. *)
Definition allused s : Prop := fresh s = List.length (items s) /\ Eof s = 0.

Lemma allused_in : forall s lst n, inv s lst -> allused s -> (n < fresh s)%nat -> iget (nkey (heap s n)) (items s) = Some n.
Proof.
  intros s lst n [_ [ND D]] [F _] L.
  assert (Inc : incl (seq 0 (fresh s)) (map snd (items s))).
  { apply NoDup_length_incl.
    - assert (G : forall d : list (key * nat), NoDup (map fst d) -> (forall k m k' m', In (k, m) d -> In (k', m') d -> m = m' -> k = k') -> NoDup (map snd d)).
      { clear. induction d as [|[k m] d IH]; cbn [map fst snd]; intros N J; [constructor|]. inversion N as [|? ? N1 N2]; subst. constructor.
        - intros X. apply in_map_iff in X. destruct X as [[k' m'] [E X]]. cbn [snd] in E. subst m'. apply N1. rewrite (J k m k' m); auto; [|now left|now right].
          now apply (in_map fst _ (k', m)).
        - apply IH; auto. intros. eapply J; eauto; now right. }
      apply G; auto. intros k m k' m' X Y <-. apply in_iget in X; auto. apply in_iget in Y; auto. apply D in X. apply D in Y. intuition congruence.
    - rewrite map_length, seq_length. lia.
    - intros m X. apply in_map_iff in X. destruct X as [[k m'] [E X]]. cbn [snd] in E. subst m'. apply in_iget in X; auto. apply D in X. apply in_seq. lia. }
  assert (X : In n (map snd (items s))) by (apply Inc, in_seq; lia). apply in_map_iff in X. destruct X as [[k m] [E X]]. cbn [snd] in E. subst m.
  apply in_iget in X; auto. pose proof X as X'. apply D in X'. destruct X' as (_ & _ & -> & _). exact X.
Qed.

Lemma allused_step : forall s lst o, inv s lst -> 2 <= max_size s -> allused s -> keeping o = true ->
  allused (fst (step vnone s o)) /\ (forall e, snd (step vnone s o) = OExc e -> exists k, o = Item k /\ iget k (items s) = None).
Proof.
  intros s lst o I Hm AU K. pose proof AU as [F E0].
  assert (SAME : forall s' : lru, fresh s' = fresh s -> items s' = items s -> Eof s' = Eof s -> allused s').
  { intros s' A B C. split; congruence. }
  destruct o as [k v|k d|k|k d|k d| | |k| | |k]; try discriminate K; cbn [step]; unfold wrap.
  - unfold setitem. destruct (iget k (items s)) as [a|] eqn:E.
    + destruct (setitem_old_ok vnone s lst k a v I E) as (s' & Es & I' & M' & D' & E'). unfold setitem in Es. rewrite E in Es. rewrite Es. cbn [fst snd].
      split; [|discriminate]. apply SAME; auto.
      assert (X : keeps (mbind (write a (with_value v)) (fun _ => move_to_front vnone a))) by (apply keeps_bind; [apply keeps_write|intros _; apply keeps_mtf]).
      specialize (X s). now rewrite Es in X.
    + destruct (Z.ltb_spec (length_of s) (max_size s)) as [L|L].
      * destruct (insert_ok s lst k v I E) as (s' & Es & I' & M' & D' & E'). rewrite Es. cbn [fst snd]. split; [|discriminate].
        split; [|congruence]. rewrite (insert_fresh s lst k v I E _ _ Es), D', iset_new, app_length by auto. cbn [List.length]. lia.
      * destruct I as [M D]. pose proof (conj M D : inv s lst) as I. unfold length_of in L.
        inversion M as [t h fr A B X Y Z|d' b h fr L' P N I' A B X Y Z|d' hd t h fr G C L' Gh Gt I' A B X Y Z]; subst.
        -- exfalso. rewrite <- A in L. cbn in L. lia.
        -- exfalso. destruct (iterator_ok s lst I) as (l & El & Ll). unfold iterator, mbind, get_head in El. rewrite <- B in El.
           revert El. rewrite <- Ll in L. assert (2 <= List.length (items s))%nat by lia. destruct (List.length (items s)) as [|[|m]]; try lia.
           cbn [iterate]. unfold mbind, the, ret, next_of, read, mbind, ret. rewrite N. cbn. discriminate.
        -- destruct (C hd Gh) as [[p [Ep Gp]] _]. pose proof (allused_in s lst p I AU (L' p Gp)) as Ip.
           pose proof (replace_ok s lst k v I E) as Rp. pose proof (keeps_replace k v s) as Kr.
           assert (Em : nempty (heap s p) = false) by (apply D in Ip; tauto).
           assert (Ok : exists s', replace_least_recently_used k v s = (Ok tt, s')).
           { unfold replace_least_recently_used, mbind, get_head, the. rewrite <- B. unfold ret, prev_of, mbind, read, ret. rewrite Ep, Em, Ip. eexists. reflexivity. }
           destruct Ok as [s' Es]. rewrite Es in *. cbn [fst snd] in *. split; [|discriminate].
           inversion Rp as [|? j m n I2 M2' J D2 E2|? n I2 M2' D2 E2]; subst.
           ++ split; [|congruence]. rewrite Kr, D2, iset_new, app_length. 2:{ destruct (key_dec k j) as [->|]; [congruence|]. rewrite iget_idel_other; auto. }
              cbn [List.length]. pose proof (length_idel _ _ _ J). lia.
           ++ exfalso. assert (0 <= Eof s') by (unfold Eof; lia). lia.
  - unfold get. destruct (iget k (items s)) as [a|] eqn:E; [|split; [exact AU|discriminate]].
    destruct (getitem_ok vnone s lst k a I E) as (s' & Es & I' & M' & D' & E'). pose proof (keeps_getitem k s) as Kg. rewrite Es in *. cbn [fst snd] in *.
    split; [apply SAME; auto|discriminate].
  - destruct (iget k (items s)) as [a|] eqn:E.
    + destruct (getitem_ok vnone s lst k a I E) as (s' & Es & I' & M' & D' & E'). pose proof (keeps_getitem k s) as Kg. rewrite Es in *. cbn [fst snd] in *.
      split; [apply SAME; auto|discriminate].
    + unfold getitem. rewrite E. cbn. split; [exact AU|]. intros e _. now exists k.
  - unfold peek. destruct (iget k (items s)); cbn; (split; [exact AU|discriminate]).
  - unfold items_list, mbind. destruct (iterator_ok s lst I) as (l & -> & _). cbn. split; [exact AU|discriminate].
  - cbn. split; [exact AU|discriminate].
  - cbn. split; [exact AU|discriminate].
Qed.
Theorem no_failure : forall max before o, 2 <= max -> forallb keeping (before ++ [o]) = true -> let s := fst (run vnone (create vnone max) before) in
  size vnone s <= max /\ forall e, snd (step vnone s o) = OExc e -> exists k, o = Item k /\ ~ holds vnone s k.
Proof.
  intros max before o Hm K s. rewrite forallb_app in K. apply andb_true_iff in K. destruct K as [K1 K2]. cbn [forallb] in K2. rewrite andb_true_r in K2.
  assert (AU : allused s).
  { unfold s. clear s K2 o. induction before as [|o ops IH] using rev_ind; [split; reflexivity|]. rewrite forallb_app in K1. apply andb_true_iff in K1. destruct K1 as [K1 K2].
    cbn [forallb] in K2. rewrite andb_true_r in K2. rewrite run_snoc. eapply allused_step; eauto; [apply inv_run|]. now rewrite max_run. }
  split.
  - pose proof (size_bound vnone max before) as B. fold s in B.
    assert (Z0 : removals vnone (create vnone max) before = 0); [|lia].
    clear - K1. generalize (create vnone max). induction before as [|o ops IH]; intros s; [reflexivity|]. cbn [forallb] in K1. apply andb_true_iff in K1. destruct K1 as [A B].
    cbn [removals]. rewrite IH by auto. destruct o; cbn in *; try discriminate; reflexivity.
  - intros e He. destruct (allused_step s _ o (inv_run vnone max before)) as [_ X]; auto; [unfold s; now rewrite max_run|].
    destruct (X e He) as (k & -> & E). exists k. split; auto. now apply holds_none.
Qed.
End NoFail.
