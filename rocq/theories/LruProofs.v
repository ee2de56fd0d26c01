(** Proofs about the LRU cache that hold for every history. *)
From Coq Require Import List ZArith NArith Bool String Lia Arith ZifyBool ZifyNat.
From Verif Require Import Base LruModel LruSpec.
Import ListNotations.
Local Open Scope Z_scope.

Lemma keqb_eq : forall a b, keqb a b = true <-> a = b.
Proof.
  intros [a|] [b|]; cbn [keqb]; split; intros H; try congruence.
  - apply N.eqb_eq in H. congruence.
  - inversion H. apply N.eqb_refl.
Qed.
Lemma keqb_refl : forall a, keqb a a = true.
Proof. intros a. now apply keqb_eq. Qed.
Lemma keqb_neq : forall a b, keqb a b = false <-> a <> b.
Proof. intros a b. split; intros H; [intros E; apply keqb_eq in E; congruence|]. destruct (keqb a b) eqn:E; auto. apply keqb_eq in E. contradiction. Qed.
Lemma key_dec : forall a b : key, {a = b} + {a <> b}.
Proof. intros a b. destruct (keqb a b) eqn:E; [left; now apply keqb_eq|right; now apply keqb_neq]. Qed.

(** *** The dictionary *)
Lemma iget_in : forall d k n, iget k d = Some n -> In (k, n) d.
Proof.
  induction d as [|[k' m] d IH]; cbn [iget]; intros k n H; [discriminate|].
  destruct (keqb k k') eqn:E; [apply keqb_eq in E; inversion H; subst; now left|right; auto].
Qed.
Lemma iget_key : forall d k, (iget k d = None) <-> ~ In k (map fst d).
Proof.
  induction d as [|[k' m] d IH]; intros k; cbn [iget map fst In]; [intuition|].
  destruct (keqb k k') eqn:E.
  - apply keqb_eq in E. split; [discriminate|]. intros H. exfalso. apply H. left. congruence.
  - apply keqb_neq in E. rewrite IH. intuition congruence.
Qed.
Lemma in_iget : forall d k n, NoDup (map fst d) -> In (k, n) d -> iget k d = Some n.
Proof.
  induction d as [|[k' m] d IH]; cbn [map fst iget]; intros k n ND H; [contradiction|]. inversion ND as [|? ? N1 N2]; subst.
  destruct H as [H|H].
  - inversion H; subst. now rewrite keqb_refl.
  - destruct (keqb k k') eqn:E; [|auto]. apply keqb_eq in E. subst. exfalso. apply N1. now apply (in_map fst _ (k', n)).
Qed.
Lemma iget_idel_same : forall d k, NoDup (map fst d) -> iget k (idel k d) = None.
Proof.
  induction d as [|[k' m] d IH]; intros k ND; cbn [idel]; [reflexivity|]. inversion ND as [|? ? N1 N2]; subst.
  destruct (keqb k k') eqn:E.
  - apply keqb_eq in E. subst. now apply iget_key.
  - cbn [iget]. rewrite E. auto.
Qed.
Lemma iget_idel_other : forall d k j, j <> k -> iget j (idel k d) = iget j d.
Proof.
  induction d as [|[k' m] d IH]; intros k j H; cbn [idel iget]; [reflexivity|].
  destruct (keqb k k') eqn:E.
  - apply keqb_eq in E. subst. now rewrite (proj2 (keqb_neq j k') H).
  - cbn [iget]. now rewrite IH.
Qed.
Lemma in_idel : forall d k x, In x (idel k d) -> In x d.
Proof.
  induction d as [|[k' m] d IH]; intros k x; cbn [idel]; [auto|]. destruct (keqb k k'); cbn [In]; [auto|].
  intros [H|H]; eauto.
Qed.
Lemma nodup_idel : forall d k, NoDup (map fst d) -> NoDup (map fst (idel k d)).
Proof.
  induction d as [|[k' m] d IH]; intros k ND; cbn [idel]; [auto|]. inversion ND as [|? ? N1 N2]; subst.
  destruct (keqb k k'); [auto|]. cbn [map fst]. constructor; auto.
  intros H. apply N1. apply in_map_iff in H. destruct H as [y [E H]]. apply in_map_iff. exists y. split; auto. eapply in_idel; eauto.
Qed.
Lemma length_idel : forall d k n, iget k d = Some n -> S (List.length (idel k d)) = List.length d.
Proof.
  induction d as [|[k' m] d IH]; intros k n; cbn [iget idel]; [discriminate|]. destruct (keqb k k'); [reflexivity|].
  intros H. cbn [List.length]. erewrite IH; eauto.
Qed.
Lemma iget_iset_same : forall d k n, iget k (iset k n d) = Some n.
Proof.
  induction d as [|[k' m] d IH]; intros k n; cbn [iset iget]; [now rewrite keqb_refl|].
  destruct (keqb k k') eqn:E; cbn [iget]; rewrite E; auto.
Qed.
Lemma iget_iset_other : forall d k j n, j <> k -> iget j (iset k n d) = iget j d.
Proof.
  induction d as [|[k' m] d IH]; intros k j n H; cbn [iset iget].
  - now rewrite (proj2 (keqb_neq j k) H).
  - destruct (keqb k k') eqn:E; cbn [iget].
    + apply keqb_eq in E. subst. now rewrite (proj2 (keqb_neq j k') H).
    + now rewrite IH.
Qed.
Lemma iset_new : forall d k n, iget k d = None -> iset k n d = d ++ [(k, n)].
Proof.
  induction d as [|[k' m] d IH]; intros k n H; cbn [iset iget] in *; [reflexivity|].
  destruct (keqb k k'); [discriminate|]. cbn [app]. now rewrite IH.
Qed.
Lemma nodup_iset_new : forall d k n, iget k d = None -> NoDup (map fst d) -> NoDup (map fst (iset k n d)).
Proof.
  intros d k n H ND. rewrite iset_new; auto. rewrite map_app. cbn [map fst]. apply NoDup_rev in ND. rewrite <- (rev_involutive (map fst d ++ [k])).
  apply NoDup_rev. rewrite rev_app_distr. cbn [rev app]. constructor; auto. intros X. apply in_rev in X. now apply iget_key in H.
Qed.

Section Proofs.
Context {V : Type} (vnone : V).
Notation lru := (lru V).
Notation node := (node V).
Implicit Types (s : lru) (h : nat -> node).

(** *** The heap *)
Definition W (a : nat) (f : node -> node) h : nat -> node := fun b => if Nat.eqb b a then f (h a) else h b.
Lemma W_next : forall a o h b, nnext (W a (with_next o) h b) = if Nat.eqb b a then o else nnext (h b).
Proof. intros. unfold W. destruct (Nat.eqb_spec b a); reflexivity. Qed.
Lemma W_next_prev : forall a o h b, nprev (W a (with_next o) h b) = nprev (h b).
Proof. intros. unfold W. destruct (Nat.eqb_spec b a); subst; reflexivity. Qed.
Lemma W_prev : forall a o h b, nprev (W a (with_prev o) h b) = if Nat.eqb b a then o else nprev (h b).
Proof. intros. unfold W. destruct (Nat.eqb_spec b a); reflexivity. Qed.
Lemma W_prev_next : forall a o h b, nnext (W a (with_prev o) h b) = nnext (h b).
Proof. intros. unfold W. destruct (Nat.eqb_spec b a); subst; reflexivity. Qed.
Lemma W_data_next : forall a e k v h b, nnext (W a (with_data e k v) h b) = nnext (h b).
Proof. intros. unfold W. destruct (Nat.eqb_spec b a); subst; reflexivity. Qed.
Lemma W_data_prev : forall a e k v h b, nprev (W a (with_data e k v) h b) = nprev (h b).
Proof. intros. unfold W. destruct (Nat.eqb_spec b a); subst; reflexivity. Qed.
Lemma W_value_next : forall a v h b, nnext (W a (with_value v) h b) = nnext (h b).
Proof. intros. unfold W. destruct (Nat.eqb_spec b a); subst; reflexivity. Qed.
Lemma W_value_prev : forall a v h b, nprev (W a (with_value v) h b) = nprev (h b).
Proof. intros. unfold W. destruct (Nat.eqb_spec b a); subst; reflexivity. Qed.

(** Only links may differ. *)
Definition same_data h h' : Prop := forall b, nempty (h' b) = nempty (h b) /\ nkey (h' b) = nkey (h b) /\ nvalue (h' b) = nvalue (h b).
Lemma sd_refl : forall h, same_data h h.
Proof. intros h b. auto. Qed.
Lemma sd_trans : forall h1 h2 h3, same_data h1 h2 -> same_data h2 h3 -> same_data h1 h3.
Proof. intros h1 h2 h3 A B b. destruct (A b) as (?&?&?), (B b) as (?&?&?). repeat split; congruence. Qed.
Lemma sd_next : forall a o h, same_data h (W a (with_next o) h).
Proof. intros a o h b. unfold W. destruct (Nat.eqb_spec b a); subst; auto. Qed.
Lemma sd_prev : forall a o h, same_data h (W a (with_prev o) h).
Proof. intros a o h b. unfold W. destruct (Nat.eqb_spec b a); subst; auto. Qed.

(** Links stay inside [G] and are never None there. *)
Definition inG (G : nat -> Prop) (o : option nat) : Prop := exists p, o = Some p /\ G p.
Definition closed (G : nat -> Prop) h : Prop := forall g, G g -> inG G (nprev (h g)) /\ inG G (nnext (h g)).
Lemma closed_next : forall G h a o, closed G h -> inG G o -> closed G (W a (with_next o) h).
Proof. intros G h a o C Ho g Hg. rewrite W_next, W_next_prev. destruct (C g Hg). destruct (Nat.eqb_spec g a); auto. Qed.
Lemma closed_prev : forall G h a o, closed G h -> inG G o -> closed G (W a (with_prev o) h).
Proof. intros G h a o C Ho g Hg. rewrite W_prev, W_prev_next. destruct (C g Hg). destruct (Nat.eqb_spec g a); auto. Qed.
Lemma closed_data : forall G h a e k v, closed G h -> closed G (W a (with_data e k v) h).
Proof. intros G h a e k v C g Hg. rewrite W_data_next, W_data_prev. auto. Qed.
Lemma closed_value : forall G h a v, closed G h -> closed G (W a (with_value v) h).
Proof. intros G h a v C g Hg. rewrite W_value_next, W_value_prev. auto. Qed.

(** The three shapes of the list. *)
Inductive mode : list (key * nat) -> option nat -> option nat -> (nat -> node) -> nat -> Prop :=
| M0 : forall t h fr, mode [] None t h fr
| M1 : forall d a h fr, (a < fr)%nat -> nprev (h a) = None -> nnext (h a) = None -> (forall k n, In (k, n) d -> n = a) ->
    mode d (Some a) (Some a) h fr
| M2 : forall d hd t h fr (G : nat -> Prop), closed G h -> (forall g, G g -> (g < fr)%nat) -> G hd -> G t ->
    (forall k n, In (k, n) d -> G n) -> mode d (Some hd) (Some t) h fr.

(** The data of the nodes in the dictionary. *)
Definition dataok (d : list (key * nat)) h (fr : nat) (last : key -> option V) : Prop :=
  NoDup (map fst d) /\
  forall k n, iget k d = Some n -> (n < fr)%nat /\ nempty (h n) = false /\ nkey (h n) = k /\ last k = Some (nvalue (h n)).
Definition inv s (last : key -> option V) : Prop :=
  mode (items s) (head s) (tail s) (heap s) (fresh s) /\ dataok (items s) (heap s) (fresh s) last.

Lemma dataok_same : forall d h h' fr last, same_data h h' -> dataok d h fr last -> dataok d h' fr last.
Proof.
  intros d h h' fr last S [ND H]. split; auto. intros k n E. destruct (H k n E) as (A&B&C&D). destruct (S n) as (X&Y&Z).
  rewrite X, Y, Z. auto.
Qed.
Lemma dataok_unique : forall d h fr last k k' n, dataok d h fr last -> iget k d = Some n -> iget k' d = Some n -> k = k'.
Proof. intros d h fr last k k' n [_ H] A B. apply H in A. apply H in B. intuition congruence. Qed.
Lemma dataok_del : forall d h fr last k, dataok d h fr last -> dataok (idel k d) h fr last.
Proof.
  intros d h fr last k [ND H]. split; [now apply nodup_idel|]. intros j n E.
  destruct (key_dec j k) as [->|X]; [rewrite iget_idel_same in E; auto; discriminate|]. rewrite iget_idel_other in E; auto.
Qed.
(** Emptying a node that is not in the dictionary. *)
Lemma dataok_blank : forall d h fr last a e k v, dataok d h fr last -> (forall j, iget j d <> Some a) -> dataok d (W a (with_data e k v) h) fr last.
Proof.
  intros d h fr last a e k v [ND H] X. split; auto. intros j n E. unfold W. destruct (Nat.eqb_spec n a) as [->|]; [now apply X in E|auto].
Qed.
(** Filling a node that is not in the dictionary with a key that is not there either. *)
Lemma dataok_fill : forall d h fr last a k v, dataok d h fr last -> (forall j, iget j d <> Some a) -> iget k d = None -> (a < fr)%nat ->
  dataok (iset k a d) (W a (with_data false k v) h) fr (fun j => if keqb j k then Some v else last j).
Proof.
  intros d h fr last a k v [ND H] X E L. split; [now apply nodup_iset_new|]. intros j n E'.
  destruct (key_dec j k) as [->|Z].
  - rewrite iget_iset_same in E'. inversion E'; subst. rewrite keqb_refl. unfold W. rewrite Nat.eqb_refl. cbn. auto.
  - rewrite iget_iset_other in E'; auto. rewrite (proj2 (keqb_neq j k) Z). unfold W.
    destruct (Nat.eqb_spec n a) as [->|]; [now apply X in E'|auto].
Qed.
Lemma dataok_value : forall d h fr last a k v, dataok d h fr last -> iget k d = Some a ->
  dataok d (W a (with_value v) h) fr (fun j => if keqb j k then Some v else last j).
Proof.
  intros d h fr last a k v D E. pose proof D as [ND H]. split; auto. intros j n E'. destruct (H j n E') as (A&B&C&Z). unfold W.
  destruct (Nat.eqb_spec n a) as [->|NE]; cbn.
  - assert (X : j = k) by (eapply dataok_unique; eauto). rewrite X in *. rewrite keqb_refl. auto.
  - destruct (keqb j k) eqn:K; [apply keqb_eq in K; subst; congruence|auto].
Qed.

Lemma write_eq : forall a f s, write a f s = (Ok tt, mkLru (max_size s) (items s) (head s) (tail s) (W a f (heap s)) (fresh s)).
Proof. reflexivity. Qed.
Ltac wstep := rewrite ?write_eq; cbv beta iota; cbn [heap max_size items head tail fresh].

(** *** Moving a node *)
Lemma mte_head : forall s a, head s = Some a -> forall empty,
  move_to_end vnone a empty s = (Ok tt, mkLru (max_size s) (items s) (nnext (heap s a)) (tail s)
      (if empty then W a (with_data true None vnone) (heap s) else heap s) (fresh s)).
Proof.
  intros s a H empty. unfold move_to_end, mbind, get_head, next_of, mbind, read, ret, put_head. rewrite H. cbn [is_same]. rewrite Nat.eqb_refl.
  destruct empty; unfold write, W; cbn; destruct s; reflexivity.
Qed.
Lemma mte_other : forall s a hd p nx2 hp2 h1 h2 h3 h4, head s = Some hd -> hd <> a ->
  nprev (heap s a) = Some p ->
  h1 = W p (with_next (nnext (heap s a))) (heap s) ->
  nnext (h1 a) = Some nx2 ->
  h2 = W nx2 (with_prev (nprev (h1 a))) h1 ->
  h3 = W a (with_prev (nprev (h2 hd))) h2 ->
  h4 = W a (with_next (Some hd)) h3 ->
  nprev (h4 hd) = Some hp2 ->
  forall empty,
  move_to_end vnone a empty s = (Ok tt, mkLru (max_size s) (items s) (head s) (tail s)
      (let h' := W hd (with_prev (Some a)) (W hp2 (with_next (Some a)) h4) in
       if empty then W a (with_data true None vnone) h' else h') (fresh s)).
Proof.
  intros s a hd p nx2 hp2 h1 h2 h3 h4 H NE Hp E1 Hn E2 E3 E4 Hh empty.
  unfold move_to_end, mbind, get_head. rewrite H. cbn [is_same]. destruct (Nat.eqb_spec hd a) as [->|_]; [contradiction|].
  unfold next_of, prev_of, mbind, read, ret. wstep. rewrite Hp. cbn [the]. unfold ret. wstep. rewrite <- E1. wstep. rewrite Hn.
  cbn [the]. unfold ret. wstep. rewrite <- E2. wstep. rewrite <- E3. wstep. rewrite <- E4. wstep. rewrite Hh. cbn [the]. unfold ret. wstep.
  destruct empty; unfold ret; rewrite ?write_eq; rewrite <- ?H; reflexivity.
Qed.

Lemma mte_closed : forall s a hd (G : nat -> Prop), closed G (heap s) -> G hd -> G a -> head s = Some hd ->
  exists hd' h', (forall empty, move_to_end vnone a empty s = (Ok tt, mkLru (max_size s) (items s) (Some hd') (tail s)
      (if empty then W a (with_data true None vnone) h' else h') (fresh s)))
    /\ same_data (heap s) h' /\ closed G h' /\ G hd'.
Proof.
  intros s a hd G C Gh Ga H. destruct (Nat.eq_dec hd a) as [->|NE].
  - destruct (C a Ga) as [_ [x [Ex Gx]]]. exists x, (heap s). split; [|split; [apply sd_refl|auto]].
    intros empty. rewrite mte_head, Ex; auto.
  - destruct (C a Ga) as [[p [Ep Gp]] Inx].
    set (h1 := W p (with_next (nnext (heap s a))) (heap s)).
    assert (C1 : closed G h1) by (apply closed_next; auto).
    destruct (C1 a Ga) as [Ip [nx2 [En Gn]]].
    set (h2 := W nx2 (with_prev (nprev (h1 a))) h1).
    assert (C2 : closed G h2) by (apply closed_prev; auto).
    set (h3 := W a (with_prev (nprev (h2 hd))) h2).
    assert (C3 : closed G h3) by (apply closed_prev; auto; apply C2; auto).
    assert (Ihd : inG G (Some hd)) by (exists hd; auto). assert (Ia : inG G (Some a)) by (exists a; auto).
    set (h4 := W a (with_next (Some hd)) h3).
    assert (C4 : closed G h4) by (apply closed_next; auto).
    destruct (C4 hd Gh) as [[hp2 [Eh Ghp]] _].
    exists hd, (W hd (with_prev (Some a)) (W hp2 (with_next (Some a)) h4)). split; [|split; [|split]]; auto.
    + intros empty. rewrite <- H. eapply mte_other; eauto.
    + eapply sd_trans; [|apply sd_prev]. eapply sd_trans; [|apply sd_next]. eapply sd_trans; [|apply sd_next].
      eapply sd_trans; [|apply sd_prev]. eapply sd_trans; [|apply sd_prev]. apply sd_next.
    + apply closed_prev; auto. apply closed_next; auto.
Qed.

(** The node belongs to the list. *)
Definition member s (a : nat) : Prop :=
  (head s = Some a /\ tail s = Some a /\ nprev (heap s a) = None /\ nnext (heap s a) = None /\ items s = []) \/
  (exists hd t G, head s = Some hd /\ tail s = Some t /\ closed G (heap s) /\ (forall g, G g -> (g < fresh s)%nat) /\ G hd /\ G t /\ G a /\
     forall k n, In (k, n) (items s) -> G n).

Lemma mode_same_links : forall d o t h h' fr, (forall b, nnext (h' b) = nnext (h b) /\ nprev (h' b) = nprev (h b)) ->
  mode d o t h fr -> mode d o t h' fr.
Proof.
  intros d o t h h' fr E M. destruct M as [t h fr|d a h fr L P N I|d hd t h fr G C L Gh Gt I].
  - constructor.
  - destruct (E a) as [E1 E2]. constructor; auto; congruence.
  - econstructor; eauto. intros g Hg. destruct (E g) as [-> ->]. auto.
Qed.
Lemma mode_blank : forall d o t h fr a e k v, mode d o t h fr -> mode d o t (W a (with_data e k v) h) fr.
Proof. intros *. apply mode_same_links. intros b. now rewrite W_data_next, W_data_prev. Qed.
Lemma mode_value : forall d o t h fr a v, mode d o t h fr -> mode d o t (W a (with_value v) h) fr.
Proof. intros *. apply mode_same_links. intros b. now rewrite W_value_next, W_value_prev. Qed.

(** After its key was popped from the dictionary, the node is moved to the end and emptied. *)
Lemma mte_member : forall s a, member s a ->
  exists hd' h', (forall empty, move_to_end vnone a empty s = (Ok tt, mkLru (max_size s) (items s) hd' (tail s)
      (if empty then W a (with_data true None vnone) h' else h') (fresh s)))
    /\ same_data (heap s) h' /\ mode (items s) hd' (tail s) h' (fresh s).
Proof.
  intros s a [(H & T & P & N & D)|(hd & t & G & H & T & C & L & Gh & Gt & Ga & I)].
  - exists None, (heap s). split; [|split]; [|apply sd_refl|rewrite D; constructor].
    intros empty. rewrite mte_head, N; auto.
  - destruct (mte_closed s a hd G C Gh Ga H) as (hd' & h' & E & S & C' & G').
    exists (Some hd'), h'. split; [|split]; auto. rewrite T. apply (M2 _ _ _ _ _ G); auto.
Qed.
Lemma popped_member : forall s last k a d, inv s last -> iget k (items s) = Some a -> d = idel k (items s) ->
  member (mkLru (max_size s) d (head s) (tail s) (heap s) (fresh s)) a.
Proof.
  intros s last k a d [M [ND D]] E ->. unfold member. cbn [head tail heap fresh items].
  inversion M as [t h fr A B X Y Z|d' b h fr L P N I A B X Y Z|d' hd t h fr G C L Gh Gt I A B X Y Z]; subst.
  - rewrite <- A in E. discriminate.
  - left. assert (a = b) by (apply (I k); now apply iget_in). subst b. repeat split; auto.
    destruct (idel k (items s)) as [|[j n] r] eqn:Q; auto. exfalso.
    assert (J : iget j (idel k (items s)) = Some n) by (rewrite Q; cbn [iget]; now rewrite keqb_refl).
    destruct (key_dec j k) as [->|NE]; [rewrite iget_idel_same in J; auto; discriminate|].
    rewrite iget_idel_other in J; auto. assert (n = a) by (apply (I j); now apply iget_in). subst n.
    apply NE. apply D in J. apply D in E. intuition congruence.
  - right. exists hd, t, G. repeat split; auto; try apply C; auto.
    + apply (I k). now apply iget_in.
    + intros j n X'. apply (I j). eapply in_idel; eauto.
Qed.

(** Moving a node of the dictionary to the front. *)
Lemma mtf_ok : forall s last k a, inv s last -> iget k (items s) = Some a ->
  exists h', move_to_front vnone a s = (Ok tt, mkLru (max_size s) (items s) (Some a) (tail s) h' (fresh s))
    /\ same_data (heap s) h' /\ mode (items s) (Some a) (tail s) h' (fresh s).
Proof.
  intros s last k a [M [ND D]] E. unfold move_to_front, mbind, get_head.
  destruct (head s) as [hd|] eqn:Hh.
  - cbn [is_same]. destruct (Nat.eqb_spec hd a) as [->|NE].
    + exists (heap s). split; [|split]; auto using sd_refl. unfold ret. destruct s; cbn in *. now rewrite Hh.
    + inversion M as [t h fr A B X Y Z|d' b h fr L P N I A B X Y Z|d' hd' t h fr G C L Gh Gt I A B X Y Z]; subst.
      { exfalso. apply NE. symmetry. apply (I k). now apply iget_in. }
      assert (Ga : G a) by (apply (I k); now apply iget_in).
      destruct (mte_closed s a hd G C Gh Ga Hh) as (hd'' & h' & E' & S & C' & G'). rewrite E'.
      exists h'. unfold put_head. cbn [max_size items head tail heap fresh]. split; [rewrite <- X; reflexivity|split; [exact S|]].
      rewrite <- X in *. apply (M2 _ _ _ _ _ G); auto.
  - exfalso. inversion M as [t h fr A B| |]; subst. rewrite <- A in E. discriminate.
Qed.

Lemma iterate_closed : forall (G : nat -> Prop) n a s, closed G (heap s) -> G a -> exists l, iterate n (Some a) s = (Ok l, s) /\ List.length l = n.
Proof.
  intros G. induction n as [|n IH]; intros a s C Ga; cbn [iterate]; [exists []; auto|].
  destruct (C a Ga) as [_ [x [Ex Gx]]]. destruct (IH x s C Gx) as [l [El Ll]]. exists (a :: l). cbn [List.length]. split; [|lia].
  unfold mbind, the, ret, next_of, read, mbind, ret. rewrite Ex, El. reflexivity.
Qed.
Lemma iterator_ok : forall s last, inv s last -> exists l, iterator s = (Ok l, s) /\ List.length l = List.length (items s).
Proof.
  intros s last [M [ND D]]. unfold iterator, mbind, get_head.
  inversion M as [t h fr A B X Y Z|d' b h fr L P N I A B X Y Z|d' hd' t h fr G C L Gh Gt I A B X Y Z]; subst.
  - exists []. rewrite <- ?A. cbn. auto.
  - destruct (items s) as [|[k n] [|[k' n'] r]] eqn:Q.
    + exists []. auto.
    + exists [b]. cbn. auto.
    + exfalso. assert (n = b) by (apply (I k); now left). assert (n' = b) by (apply (I k'); right; now left). subst n n'.
      assert (k = k').
      { assert (E1 : iget k ((k, b) :: (k', b) :: r) = Some b) by (cbn [iget]; now rewrite keqb_refl).
        assert (E2 : iget k' ((k, b) :: (k', b) :: r) = Some b) by (cbn [iget]; rewrite keqb_refl; now destruct (keqb k' k)).
        apply D in E1. apply D in E2. intuition congruence. }
      subst. inversion ND as [|? ? N1 N2]. apply N1. now left.
  - eapply iterate_closed; eauto.
Qed.

(** *** The number of empty nodes *)
Fixpoint empties h (n : nat) : nat := match n with O => O | S m => (if nempty (h m) then 1 else 0) + empties h m end.
Lemma empties_ext : forall h h' n, (forall b, (b < n)%nat -> nempty (h' b) = nempty (h b)) -> empties h' n = empties h n.
Proof. induction n as [|n IH]; intros H; cbn [empties]; auto. rewrite (H n), IH; auto. Qed.
Lemma empties_same : forall h h' n, same_data h h' -> empties h' n = empties h n.
Proof. intros h h' n S. apply empties_ext. intros b _. apply S. Qed.
Lemma empties_W : forall a f h n, empties (W a f h) n = (empties h n + (if Nat.ltb a n then (if nempty (f (h a)) then 1 else 0) else 0) -
  (if Nat.ltb a n then (if nempty (h a) then 1 else 0) else 0))%nat.
Proof.
  intros a f h. induction n as [|n IH]; [reflexivity|]. cbn [empties]. rewrite IH. unfold W at 1.
  destruct (Nat.eqb_spec n a) as [->|NE].
  - rewrite Nat.ltb_irrefl. rewrite (proj2 (Nat.ltb_lt a (S a))) by lia. lia.
  - destruct (Nat.ltb_spec a n) as [L|L].
    + rewrite (proj2 (Nat.ltb_lt a (S n))) by lia.
      assert (P : (nempty (h a) = true -> 1 <= empties h n)%nat).
      { clear - L. induction n as [|n IH]; [lia|]. cbn [empties]. intros E. destruct (Nat.eq_dec n a) as [->|]; [rewrite E; lia|]. specialize (IH ltac:(lia) E). lia. }
      destruct (nempty (h a)); [specialize (P eq_refl)|]; lia.
    + rewrite (proj2 (Nat.ltb_ge a (S n))) by lia. lia.
Qed.
Lemma empties_pos : forall h n a, (a < n)%nat -> nempty (h a) = true -> (1 <= empties h n)%nat.
Proof. intros h n a. induction n as [|n IH]; [lia|]. cbn [empties]. intros L E. destruct (Nat.eq_dec n a) as [->|]; [rewrite E; lia|]. specialize (IH ltac:(lia) E). lia. Qed.
Definition Eof s : Z := Z.of_nat (empties (heap s) (fresh s)).

(** Storing in a node *)
Lemma mode_items : forall d d' o t h fr, mode d o t h fr -> (forall k n, In (k, n) d' -> In (k, n) d) -> mode d' o t h fr.
Proof.
  intros d d' o t h fr M H. destruct M as [t h fr|d a h fr L P N I|d hd t h fr G C L Gh Gt I].
  - destruct d' as [|[k n] r]; [constructor|]. exfalso. apply (H k n). now left.
  - constructor; auto. intros k n X. apply (I k). auto.
  - apply (M2 _ _ _ _ _ G); auto. intros k n X. apply (I k). auto.
Qed.
Lemma in_iset_new : forall d k a j n, iget k d = None -> In (j, n) (iset k a d) -> (j = k /\ n = a) \/ In (j, n) d.
Proof. intros d k a j n E X. rewrite iset_new in X; auto. apply in_app_or in X. destruct X as [X|[X|[]]]; [now right|inversion X; auto]. Qed.

Definition upd (last : key -> option V) (k : key) (v : V) : key -> option V := fun j => if keqb j k then Some v else last j.
Lemma inv_upd : forall s last k v, inv s last -> iget k (items s) = None -> inv s (upd last k v).
Proof.
  intros s last k v [M [ND D]] E. split; auto. split; auto. intros j n X. destruct (D j n X) as (A&B&C&F). repeat split; auto.
  unfold upd. destruct (keqb j k) eqn:K; auto. apply keqb_eq in K. congruence.
Qed.

(** __insert, for a new key *)
Lemma insert_ok : forall s last k v, inv s last -> iget k (items s) = None ->
  exists s', mbind (insert k v) (fun a => put_head (Some a)) s = (Ok tt, s') /\ inv s' (upd last k v) /\ max_size s' = max_size s /\
    items s' = iset k (fresh s) (items s) /\ Eof s' = Eof s.
Proof.
  intros s last k v [M D] E.
  set (a := fresh s). set (new := mkNode false None None k v).
  assert (NA : forall j, iget j (items s) <> Some a). { intros j X. apply D in X. unfold a in X. lia. }
  (* the data of the final state, whatever the links *)
  assert (FD : forall h', same_data (W a (fun _ => new) (heap s)) h' -> dataok (iset k a (items s)) h' (S a) (upd last k v)).
  { intros h' S. destruct D as [ND D]. split; [now apply nodup_iset_new|]. intros j n X. destruct (S n) as (S1&S2&S3). rewrite S1, S2, S3. unfold W, upd.
    destruct (key_dec j k) as [->|NE].
    - rewrite iget_iset_same in X. inversion X; subst. rewrite Nat.eqb_refl, keqb_refl. cbn. auto.
    - rewrite iget_iset_other in X; auto. destruct (Nat.eqb_spec n a) as [->|]; [now apply NA in X|]. apply D in X. rewrite (proj2 (keqb_neq j k) NE).
      unfold a. intuition lia. }
  assert (FE : forall h', same_data (W a (fun _ => new) (heap s)) h' -> empties h' (S a) = empties (heap s) a).
  { intros h' S. rewrite (empties_same _ _ _ S). cbn [empties]. unfold W at 1. rewrite Nat.eqb_refl. cbn. apply empties_ext.
    intros b Hb. unfold W. destruct (Nat.eqb_spec b a); [lia|auto]. }
  unfold insert, mbind at 1. cbv beta zeta. unfold mbind at 1. cbn [ret]. unfold mbind at 1. fold a. wstep. fold new. unfold mbind at 1 2, get_head. wstep.
  inversion M as [t h fr A B X Y Z|d' b h fr L P N I A B X Y Z|d' hd t h fr G C L Gh Gt I A B X Y Z]; subst.
  - eexists. unfold mbind, put_head, put_tail, put_items, ret. wstep. split; [reflexivity|]. unfold inv, Eof. cbn [items head tail heap fresh max_size].
    rewrite <- ?A. split; [split|split; [|split]]. 3,4: reflexivity.
    + apply M1; [unfold a; lia| | |]; try (unfold W; now rewrite Nat.eqb_refl).
      intros j n [Q|[]]; now inversion Q.
    + rewrite <- A in FD; apply FD, sd_refl.
    + fold a. rewrite (FE _ (sd_refl _)). reflexivity.
  - unfold mbind, get_tail, put_head, put_items, ret. wstep. rewrite <- ?X. cbn [is_same]. rewrite Nat.eqb_refl. wstep.
    eexists. split; [reflexivity|]. unfold inv, Eof. cbn [items head tail heap fresh max_size].
    assert (SD : same_data (W a (fun _ => new) (heap s)) (W b (with_next (Some a)) (W b (with_prev (Some a)) (W a (with_next (Some b)) (W a (with_prev (Some b)) (W a (fun _ => new) (heap s))))))).
    { eapply sd_trans; [|apply sd_next]. eapply sd_trans; [|apply sd_prev]. eapply sd_trans; [|apply sd_next]. apply sd_prev. }
    split; [split|split; [|split]]. 3,4: reflexivity.
    + apply (M2 _ _ _ _ _ (fun x => x = a \/ x = b)); auto.
      * intros g Hg. rewrite W_next, W_next_prev, W_prev, W_prev_next, W_next, W_next_prev, W_prev.
        assert (a <> b) by (unfold a; lia). assert (Ia : inG (fun x => x = a \/ x = b) (Some a)) by (exists a; auto).
        assert (Ib : inG (fun x => x = a \/ x = b) (Some b)) by (exists b; auto).
        destruct (Nat.eqb_spec g b); [auto|]. destruct (Nat.eqb_spec g a); [auto|]. destruct Hg; contradiction.
      * intros g [->| ->]; unfold a; lia.
      * intros j n Q. apply in_iset_new in Q; auto. destruct Q as [[_ ->]|Q]; auto. right. now apply (I j).
    + apply FD, SD.
    + fold a. rewrite (FE _ SD). reflexivity.
  - unfold mbind, get_tail. wstep. rewrite <- ?X.
    set (G' := fun x => x = a \/ G x).
    assert (C0 : closed G' (W a (with_next (Some hd)) (W a (with_prev (Some t)) (W a (fun _ => new) (heap s))))).
    { intros g Hg. rewrite W_next, W_next_prev, W_prev, W_prev_next. destruct (Nat.eqb_spec g a) as [->|NE].
      - split; [exists t|exists hd]; unfold G'; auto.
      - destruct Hg as [|Hg]; [contradiction|]. unfold W. destruct (Nat.eqb_spec g a); [contradiction|].
        destruct (C g Hg) as [(p & Ep & Gp) (q & Eq & Gq)]. split; [exists p|exists q]; unfold G'; auto. }
    assert (Ia : inG G' (Some a)) by (exists a; split; auto; now left).
    cbn [is_same]. destruct (Nat.eqb_spec t hd) as [->|NE].
    + unfold put_head, put_items, ret. wstep.
      eexists. split; [reflexivity|]. unfold inv, Eof. cbn [items head tail heap fresh max_size].
      assert (SD : same_data (W a (fun _ => new) (heap s)) (W hd (with_next (Some a)) (W hd (with_prev (Some a)) (W a (with_next (Some hd)) (W a (with_prev (Some hd)) (W a (fun _ => new) (heap s))))))).
      { eapply sd_trans; [|apply sd_next]. eapply sd_trans; [|apply sd_prev]. eapply sd_trans; [|apply sd_next]. apply sd_prev. }
      split; [split|split; [|split]]. 3,4: reflexivity.
      * apply (M2 _ _ _ _ _ G'); auto.
        -- apply closed_next; auto. apply closed_prev; auto.
        -- intros g [->|Hg]; [unfold a; lia|]. apply L in Hg. unfold a. lia.
        -- now left.
        -- now right.
        -- intros j n Q. apply in_iset_new in Q; auto. destruct Q as [[_ ->]|Q]; [now left|]. right. now apply (I j).
      * apply FD, SD.
      * fold a. rewrite (FE _ SD). reflexivity.
    + cbn [the]. unfold put_head, put_items, ret. wstep.
      eexists. split; [reflexivity|]. unfold inv, Eof. cbn [items head tail heap fresh max_size].
      assert (SD : same_data (W a (fun _ => new) (heap s)) (W hd (with_prev (Some a)) (W t (with_next (Some a)) (W a (with_next (Some hd)) (W a (with_prev (Some t)) (W a (fun _ => new) (heap s))))))).
      { eapply sd_trans; [|apply sd_prev]. eapply sd_trans; [|apply sd_next]. eapply sd_trans; [|apply sd_next]. apply sd_prev. }
      split; [split|split; [|split]]. 3,4: reflexivity.
      * apply (M2 _ _ _ _ _ G'); auto.
        -- apply closed_prev; auto. apply closed_next; auto.
        -- intros g [->|Hg]; [unfold a; lia|]. apply L in Hg. unfold a. lia.
        -- now left.
        -- now right.
        -- intros j n Q. apply in_iset_new in Q; auto. destruct Q as [[_ ->]|Q]; [now left|]. right. now apply (I j).
      * apply FD, SD.
      * fold a. rewrite (FE _ SD). reflexivity.
Qed.

(** __replace_least_recently_used, for a new key *)
Inductive replaced s (k : key) (v : V) (last : key -> option V) : res unit * lru -> Prop :=
| R_raise : forall e, replaced s k v last (Raise e, s)
| R_evict : forall s' j m n, inv s' (upd last k v) -> max_size s' = max_size s -> iget j (items s) = Some m ->
    items s' = iset k n (idel j (items s)) -> Eof s' = Eof s -> replaced s k v last (Ok tt, s')
| R_reuse : forall s' n, inv s' (upd last k v) -> max_size s' = max_size s ->
    items s' = iset k n (items s) -> Eof s' = Eof s - 1 -> replaced s k v last (Ok tt, s').
Lemma replace_ok : forall s last k v, inv s last -> iget k (items s) = None -> replaced s k v last (replace_least_recently_used k v s).
Proof.
  intros s last k v [M D] E. unfold replace_least_recently_used, mbind at 1, get_head.
  destruct (head s) as [hd|] eqn:Hh; [|constructor]. cbn [the]. unfold mbind at 1, ret at 1. unfold mbind at 1, prev_of, mbind at 1, read, ret at 1.
  destruct (nprev (heap s hd)) as [ex|] eqn:Hp; [|constructor]. cbn [the]. unfold mbind at 1, ret at 1, mbind at 1.
  inversion M as [t h fr A B X Y Z|d' b h fr L P N I A B X Y Z|d' hd' t h fr G C L Gh Gt I A B X Y Z]; subst; [congruence|].
  assert (Ge : G ex). { destruct (C hd Gh) as [[q [Eq Gq]] _]. rewrite Hp in Eq. now inversion Eq; subst. }
  destruct (nempty (heap s ex)) eqn:Em.
  - unfold mbind, ret, put_items, put_head. wstep.
    apply (R_reuse _ _ _ _ _ ex); cbn [max_size items]; auto.
    + split; cbn [items head tail heap fresh].
      * rewrite <- X. apply mode_blank. apply (M2 _ _ _ _ _ G); auto. intros j n Q. apply in_iset_new in Q; auto. destruct Q as [[_ ->]|Q]; auto. now apply (I j).
      * apply dataok_fill; auto. intros j Q. apply D in Q. intuition congruence.
    + unfold Eof. cbn [heap fresh]. rewrite empties_W. cbn [with_data nempty]. rewrite Em. pose proof (L ex Ge).
      rewrite (proj2 (Nat.ltb_lt ex (fresh s))) by auto. pose proof (empties_pos (heap s) (fresh s) ex H Em). lia.
  - unfold mbind, put_items, put_head, ret. destruct (iget (nkey (heap s ex)) (items s)) as [m|] eqn:Q; [|constructor]. wstep.
    set (j := nkey (heap s ex)) in *.
    assert (D' : dataok (idel j (items s)) (heap s) (fresh s) last) by now apply dataok_del.
    assert (NE : forall i, iget i (idel j (items s)) <> Some ex).
    { intros i Z. pose proof Z as Z'. apply D' in Z. destruct Z as (_&_&Z&_). fold j in Z. subst i. rewrite iget_idel_same in Z'; [discriminate|apply D]. }
    assert (Ek : iget k (idel j (items s)) = None).
    { destruct (key_dec k j) as [->|]; [apply iget_idel_same, D|]. rewrite iget_idel_other; auto. }
    assert (Il : forall i n, In (i, n) (iset k ex (idel j (items s))) -> G n).
    { intros i n Z. apply in_iset_new in Z; auto. destruct Z as [[_ ->]|Z]; auto. apply (I i). eapply in_idel; eauto. }
    assert (M' : mode (iset k ex (idel j (items s))) (Some ex) (tail s) (W ex (with_data false k v) (heap s)) (fresh s)).
    { rewrite <- X. apply mode_blank. now apply (M2 _ _ _ _ _ G). }
    assert (E' : empties (W ex (with_data false k v) (heap s)) (fresh s) = empties (heap s) (fresh s)).
    { rewrite empties_W. cbn [with_data nempty]. rewrite Em. destruct (Nat.ltb ex (fresh s)); lia. }
    apply (R_evict _ _ _ _ _ j m ex); cbn [max_size items]; auto.
    + split; auto. now apply dataok_fill; auto.
    + unfold Eof. cbn [heap fresh]. now rewrite E'.
Qed.

(** *** The operations *)
Lemma inv_links : forall s last hd' h', inv s last -> same_data (heap s) h' -> mode (items s) hd' (tail s) h' (fresh s) ->
  inv (mkLru (max_size s) (items s) hd' (tail s) h' (fresh s)) last.
Proof. intros s last hd' h' [M D] S M'. split; auto. cbn [items heap fresh]. eapply dataok_same; eauto. Qed.

Lemma getitem_ok : forall s last k a, inv s last -> iget k (items s) = Some a ->
  exists s', getitem vnone k s = (Ok (nvalue (heap s a)), s') /\ inv s' last /\ max_size s' = max_size s /\ items s' = items s /\ Eof s' = Eof s.
Proof.
  intros s last k a I E. destruct (mtf_ok s last k a I E) as (h' & Em & S & M). unfold getitem. rewrite E. unfold mbind. rewrite Em.
  eexists. unfold read, ret. cbn [heap]. destruct (S a) as (_&_&->). split; [reflexivity|]. split; [|split; [|split]]; [|reflexivity|reflexivity|].
  - now apply inv_links.
  - unfold Eof. cbn [heap fresh]. now rewrite (empties_same _ _ _ S).
Qed.
Lemma setitem_old_ok : forall s last k a v, inv s last -> iget k (items s) = Some a ->
  exists s', setitem vnone k v s = (Ok tt, s') /\ inv s' (upd last k v) /\ max_size s' = max_size s /\ items s' = items s /\ Eof s' = Eof s.
Proof.
  intros s last k a v [M D] E. unfold setitem. rewrite E. unfold mbind. wstep.
  set (s1 := mkLru (max_size s) (items s) (head s) (tail s) (W a (with_value v) (heap s)) (fresh s)).
  assert (I1 : inv s1 (upd last k v)).
  { split; cbn [s1 items head tail heap fresh]; [now apply mode_value|now apply dataok_value]. }
  destruct (mtf_ok s1 _ k a I1 E) as (h' & Em & S & M'). rewrite Em. eexists. split; [reflexivity|]. split; [|split; [|split]]; [|reflexivity|reflexivity|].
  - now apply inv_links.
  - unfold Eof. cbn [heap fresh]. rewrite (empties_same _ _ _ S). cbn [s1 heap]. f_equal. apply empties_ext. intros b _. unfold W. destruct (Nat.eqb_spec b a); subst; auto.
Qed.
(** Taking a key out of the dictionary, emptying its node. *)
Lemma take_ok : forall s last k a, inv s last -> iget k (items s) = Some a ->
  exists s', mbind (put_items (idel k (items s))) (fun _ => move_to_end vnone a true) s = (Ok tt, s') /\ inv s' last /\ max_size s' = max_size s /\
    items s' = idel k (items s) /\ Eof s' = Eof s + 1.
Proof.
  intros s last k a I E. pose proof (popped_member s last k a _ I E eq_refl) as Mb. destruct (mte_member _ _ Mb) as (hd' & h' & Em & S & M').
  cbn [max_size items head tail heap fresh] in *.
  unfold mbind, put_items. rewrite Em. eexists. split; [reflexivity|]. split; [|split; [|split]]; [|reflexivity|reflexivity|].
  - split; cbn [items head tail heap fresh]; [now apply mode_blank|]. destruct I as [M D]. apply dataok_blank.
    + apply (dataok_same _ _ _ _ _ S). now apply dataok_del.
    + intros j Q. destruct (key_dec j k) as [->|NE]; [rewrite iget_idel_same in Q; [discriminate|apply D]|].
      rewrite iget_idel_other in Q; auto. apply NE. eapply dataok_unique; eauto.
  - unfold Eof. cbn [heap fresh]. rewrite empties_W. cbn [with_data nempty]. rewrite (empties_same _ _ _ S).
    destruct I as [M [ND D]]. destruct (D k a E) as (L & Em' & _). rewrite (proj2 (Nat.ltb_lt a (fresh s))) by auto. destruct (S a) as [-> _]. rewrite Em'. lia.
Qed.
Lemma delitem_ok : forall s last k a, inv s last -> iget k (items s) = Some a ->
  exists s', delitem vnone k s = (Ok tt, s') /\ inv s' last /\ max_size s' = max_size s /\ items s' = idel k (items s) /\ Eof s' = Eof s + 1.
Proof. intros s last k a I E. unfold delitem. rewrite E. now apply take_ok. Qed.
Lemma pop_item_ok : forall s last k a d, inv s last -> iget k (items s) = Some a ->
  exists s', pop_item vnone k d s = (Ok (nvalue (heap s a)), s') /\ inv s' last /\ max_size s' = max_size s /\ items s' = idel k (items s) /\ Eof s' = Eof s + 1.
Proof.
  intros s last k a d I E. destruct (take_ok s last k a I E) as (s' & X & Y). exists s'. split; auto. unfold pop_item. rewrite E.
  unfold mbind, put_items, read in *. cbn [heap]. rewrite X. reflexivity.
Qed.

Inductive popped s (last : key -> option V) : res (option (key * V)) * lru -> Prop :=
| P_none : items s = [] -> popped s last (Ok None, s)
| P_raise : forall e s', inv s' last -> max_size s' = max_size s -> items s' = items s -> Eof s' <= Eof s + 1 -> popped s last (Raise e, s')
| P_some : forall k a v s', inv s' last -> max_size s' = max_size s -> iget k (items s) = Some a -> items s' = idel k (items s) -> Eof s' <= Eof s + 1 ->
    popped s last (Ok (Some (k, v)), s').
Lemma pop_ok : forall s last, inv s last -> popped s last (pop vnone s).
Proof.
  intros s last I. unfold pop. destruct (items s) as [|p r] eqn:Q; [now constructor|]. clear p r Q.
  pose proof I as [M D]. unfold mbind, get_head.
  destruct (head s) as [a|] eqn:Hh; [|cbn [the raise]; unfold raise; apply P_raise; auto; lia].
  cbn [the]. unfold ret, next_of, mbind, read, ret, put_head. wstep. set (k := nkey (heap s a)).
  assert (EE : Z.of_nat (empties (W a (with_data true None vnone) (heap s)) (fresh s)) <= Eof s + 1).
  { unfold Eof. rewrite empties_W. cbn [with_data nempty]. destruct (Nat.ltb a (fresh s)), (nempty (heap s a)); lia. }
  (* the node is blank, the key may still be in the dictionary, but not for this node *)
  destruct (iget k (items s)) as [m|] eqn:Q; unfold put_items; wstep.
  - eapply (P_some _ _ k m); cbn [max_size items]; auto.
    assert (D' : dataok (idel k (items s)) (heap s) (fresh s) last) by now apply dataok_del.
    assert (NE : forall i, iget i (idel k (items s)) <> Some a).
    { intros i Z. pose proof Z as Z'. apply D' in Z. destruct Z as (_&_&Z&_). fold k in Z. subst i. rewrite iget_idel_same in Z'; [discriminate|apply D]. }
    split; cbn [items head tail heap fresh]; [|now apply dataok_blank]. apply mode_blank.
    inversion M as [t h fr A B X Y Z|d' b h fr L P N I' A B X Y Z|d' hd' t h fr G C L Gh Gt I' A B X Y Z]; subst.
    + (* the only node: its key was the only one *)
      rewrite N. assert (idel k (items s) = []) as ->; [|constructor].
      destruct (idel k (items s)) as [|[j n] r] eqn:Z; auto. exfalso.
      assert (J : iget j (idel k (items s)) = Some n) by (rewrite Z; cbn [iget]; now rewrite keqb_refl).
      assert (n = a); [|subst n; rewrite <- Z in NE; now apply NE in J].
      apply (I' j). apply iget_in in J. eapply in_idel; eauto.
    + destruct (C a Gh) as [_ [x [-> Gx]]]. apply (M2 _ _ _ _ _ G); auto. intros j n Z. apply (I' j). eapply in_idel; eauto.
  - assert (NE : forall i, iget i (items s) <> Some a).
    { intros i Z. pose proof Z as Z'. apply D in Z. destruct Z as (_&_&Z&_). fold k in Z. subst i. congruence. }
    eapply P_raise; cbn [max_size items]; auto.
    split; cbn [items head tail heap fresh]; [|now apply dataok_blank]. apply mode_blank.
    inversion M as [t h fr A B X Y Z|d' b h fr L P N I' A B X Y Z|d' hd' t h fr G C L Gh Gt I' A B X Y Z]; subst.
    + rewrite N. destruct (items s) as [|[j n] r] eqn:Z; [constructor|]. exfalso. assert (n = a) by (apply (I' j); now left). subst n.
      apply (NE j). cbn [iget]. now rewrite keqb_refl.
    + destruct (C a Gh) as [_ [x [-> Gx]]]. apply (M2 _ _ _ _ _ G); auto.
Qed.

Lemma empties_le : forall (l : list nat) h h' n, (forall b, h' b = if existsb (Nat.eqb b) l then with_data true None vnone (h b) else h b) ->
  (empties h' n <= empties h n + List.length l)%nat.
Proof.
  intros l h h' n E.
  assert (X : (empties h' n <= empties h n + List.length (filter (fun b => existsb (Nat.eqb b) l) (seq 0 n)))%nat).
  { induction n as [|n IH]; [cbn; lia|]. rewrite seq_S, filter_app, app_length. cbn [empties filter Nat.add]. rewrite E.
    destruct (existsb (Nat.eqb n) l); cbn [List.length with_data nempty]; destruct (nempty (h n)); lia. }
  assert (Y : (List.length (filter (fun b => existsb (Nat.eqb b) l) (seq 0 n)) <= List.length l)%nat); [|lia].
  apply NoDup_incl_length; [apply NoDup_filter, seq_NoDup|]. intros b Hb. apply filter_In in Hb. destruct Hb as [_ Hb].
  apply existsb_exists in Hb. destruct Hb as [c [Hc Eq]]. apply Nat.eqb_eq in Eq. now subst.
Qed.
Lemma clear_ok : forall s last, inv s last ->
  exists s', clear vnone s = (Ok tt, s') /\ inv s' last /\ max_size s' = max_size s /\ items s' = [] /\ Eof s' <= Eof s + length_of s.
Proof.
  intros s last I. destruct (iterator_ok s last I) as (l & El & Ll). unfold clear, mbind. rewrite El. unfold put_items. cbn [max_size items head tail heap fresh].
  eexists. split; [reflexivity|]. split; [|split; [|split]]; [|reflexivity|reflexivity|].
  - destruct I as [M D]. split; cbn [items head tail heap fresh].
    + eapply mode_same_links; [|eapply mode_items; [exact M|intros ? ? []]].
      intros b. cbv beta. destruct (existsb (Nat.eqb b) l); auto.
    + split; [constructor|]. intros k n X. discriminate.
  - unfold Eof, length_of. cbn [heap fresh]. rewrite <- Ll.
    pose proof (empties_le l (heap s) (fun b => if existsb (Nat.eqb b) l then with_data true None vnone (heap s b) else heap s b) (fresh s) (fun _ => eq_refl)). lia.
Qed.

(** *** One operation *)
Inductive effect s : op V -> out V -> list (key * nat) -> Z -> Prop :=
| E_read : forall o x, (forall k v, o <> Set_ k v) -> o <> Clear -> (forall k, takes_out o x k -> iget k (items s) = None) -> effect s o x (items s) 0
| E_set_old : forall k v a, iget k (items s) = Some a -> effect s (Set_ k v) OUnit (items s) 0
| E_set_raise : forall k v e, iget k (items s) = None -> max_size s <= length_of s -> effect s (Set_ k v) (OExc e) (items s) 0
| E_insert : forall k v n, iget k (items s) = None -> length_of s < max_size s -> effect s (Set_ k v) OUnit (iset k n (items s)) 0
| E_evict : forall k v j m n, iget k (items s) = None -> max_size s <= length_of s -> iget j (items s) = Some m ->
    effect s (Set_ k v) OUnit (iset k n (idel j (items s))) 0
| E_reuse : forall k v n, iget k (items s) = None -> max_size s <= length_of s -> effect s (Set_ k v) OUnit (iset k n (items s)) (-1)
| E_take : forall o x k a, iget k (items s) = Some a -> takes_out o x k -> (forall j, takes_out o x j -> j = k) -> effect s o x (idel k (items s)) 1
| E_pop_raise : forall e, effect s Pop (OExc e) (items s) 1
| E_clear : effect s Clear OUnit [] (length_of s).

Definition upd_op (last : key -> option V) (o : op V) : key -> option V := match o with Set_ k v => upd last k v | _ => last end.
Definition stepped s (o : op V) (last : key -> option V) (r : lru * out V) : Prop :=
  inv (fst r) (upd_op last o) /\ max_size (fst r) = max_size s /\ exists dE, effect s o (snd r) (items (fst r)) dE /\ Eof (fst r) <= Eof s + dE.
Lemma read_stepped : forall s o last x s', (forall k v, o <> Set_ k v) -> o <> Clear -> (forall k, takes_out o x k -> iget k (items s) = None) ->
  inv s' last -> max_size s' = max_size s -> items s' = items s -> Eof s' = Eof s -> stepped s o last (s', x).
Proof.
  intros s o last x s' A B T I M D E. unfold stepped. cbn [fst snd]. split; [|split; auto].
  - destruct o; auto. exfalso. eapply A; eauto.
  - exists 0. rewrite D, E. split; [|lia]. now constructor.
Qed.
Lemma step_ok : forall s last o, inv s last -> stepped s o last (step vnone s o).
Proof.
  intros s last o I.
  assert (RD : forall x, (forall k v, o <> Set_ k v) -> o <> Clear -> (forall k, takes_out o x k -> iget k (items s) = None) -> stepped s o last (s, x)).
  { intros x A B T. now apply read_stepped. }
  destruct o as [k v|k d|k|k d|k d| | |k| | |k]; cbn [step]; unfold wrap.
  - (* Set *)
    destruct (iget k (items s)) as [a|] eqn:E.
    + destruct (setitem_old_ok s last k a v I E) as (s' & -> & I' & M' & D' & E'). split; auto. split; auto. exists 0. cbn [fst snd].
      rewrite D', E'. split; [|lia]. eapply E_set_old; eauto.
    + unfold setitem. rewrite E. destruct (Z.ltb_spec (length_of s) (max_size s)) as [L|L].
      * destruct (insert_ok s last k v I E) as (s' & -> & I' & M' & D' & E'). split; auto. split; auto. exists 0. cbn [fst snd]. rewrite D', E'.
        split; [|lia]. now apply E_insert.
      * destruct (replace_ok s last k v I E) as [e|s' j m n I' M' J D' E'|s' n I' M' D' E'].
        -- split; [now apply inv_upd|]. split; auto. exists 0. cbn [fst snd]. split; [|lia]. now apply E_set_raise.
        -- split; auto. split; auto. exists 0. cbn [fst snd]. rewrite D', E'. split; [|lia]. eapply E_evict; eauto.
        -- split; auto. split; auto. exists (-1). cbn [fst snd]. rewrite D', E'. split; [|lia]. now apply E_reuse.
  - (* Get *)
    unfold get. destruct (iget k (items s)) as [a|] eqn:E.
    + destruct (getitem_ok s last k a I E) as (s' & -> & I' & M' & D' & E'). apply read_stepped; auto; try discriminate. now cbn.
    + unfold ret. apply RD; try discriminate. now cbn.
  - (* Item *)
    destruct (iget k (items s)) as [a|] eqn:E.
    + destruct (getitem_ok s last k a I E) as (s' & -> & I' & M' & D' & E'). apply read_stepped; auto; try discriminate. now cbn.
    + unfold getitem. rewrite E. unfold raise. apply RD; try discriminate. now cbn.
  - (* Peek *)
    unfold peek. destruct (iget k (items s)) as [a|]; unfold mbind, read, ret; apply RD; try discriminate; now cbn.
  - (* PopItem *)
    destruct (iget k (items s)) as [a|] eqn:E.
    + destruct (pop_item_ok s last k a d I E) as (s' & -> & I' & M' & D' & E'). split; auto. split; auto. exists 1. cbn [fst snd]. rewrite D', E'. split; [|lia].
      eapply E_take; eauto; cbn; auto.
    + unfold pop_item. rewrite E. unfold ret. apply RD; try discriminate. cbn. intros j X. now subst j.
  - (* Pop *)
    destruct (pop_ok s last I) as [N|e s' I' M' D' E'|k a v s' I' M' J D' E'].
    + apply RD; try discriminate. cbn. intros k [v X]. discriminate.
    + split; auto. split; auto. exists 1. cbn [fst snd]. rewrite D'. split; auto. apply E_pop_raise.
    + split; auto. split; auto. exists 1. cbn [fst snd]. rewrite D'. split; auto. eapply E_take; eauto; cbn; [now exists v|].
      intros j [w X]. now inversion X.
  - (* Clear *)
    destruct (clear_ok s last I) as (s' & -> & I' & M' & D' & E'). split; auto. split; auto. exists (length_of s). cbn [fst snd]. rewrite D'. split; auto. apply E_clear.
  - (* Del *)
    destruct (iget k (items s)) as [a|] eqn:E.
    + destruct (delitem_ok s last k a I E) as (s' & -> & I' & M' & D' & E'). split; auto. split; auto. exists 1. cbn [fst snd]. rewrite D', E'. split; [|lia].
      eapply E_take; eauto; cbn; auto.
    + unfold delitem. rewrite E. unfold ret. apply RD; try discriminate. cbn. intros j X. now subst j.
  - (* Items *)
    unfold items_list, mbind. destruct (iterator_ok s last I) as (l & -> & _). unfold map_nodes. apply RD; try discriminate; now cbn.
  - apply RD; try discriminate; now cbn.
  - apply RD; try discriminate; now cbn.
Qed.

Definition lastof (ops : list (op V)) : key -> option V := fun k => last_stored k ops.
Lemma inv_create : forall max, inv (create vnone max) (fun _ => None).
Proof. intros max. split; [constructor|]. split; [constructor|]. intros k n X. discriminate. Qed.
Lemma run_app : forall ops1 ops2 s, run vnone s (ops1 ++ ops2) =
  let '(s1, x1) := run vnone s ops1 in let '(s2, x2) := run vnone s1 ops2 in (s2, x1 ++ x2).
Proof.
  induction ops1 as [|o r IH]; intros ops2 s; cbn [run app].
  - destruct (run vnone s ops2). reflexivity.
  - destruct (step vnone s o) as [s1 x]. rewrite IH. destruct (run vnone s1 r) as [s2 xs]. destruct (run vnone s2 ops2). reflexivity.
Qed.
Lemma run_snoc : forall ops o s, fst (run vnone s (ops ++ [o])) = fst (step vnone (fst (run vnone s ops)) o).
Proof. intros. rewrite run_app. destruct (run vnone s ops) as [s1 x1]. cbn [run fst]. destruct (step vnone s1 o) as [s2 x]. reflexivity. Qed.
Lemma last_stored_acc_app : forall (ops1 ops2 : list (op V)) k acc, last_stored_acc k acc (ops1 ++ ops2) = last_stored_acc k (last_stored_acc k acc ops1) ops2.
Proof. induction ops1 as [|o r IH]; intros; [reflexivity|]. destruct o; cbn [app last_stored_acc]; auto. Qed.
Lemma inv_run : forall max ops, inv (fst (run vnone (create vnone max) ops)) (fun k => last_stored k ops).
Proof.
  intros max ops. induction ops as [|o ops IH] using rev_ind; [apply inv_create|]. rewrite run_snoc.
  destruct (step_ok _ _ o IH) as [[M [ND D]] _]. split; auto. split; auto. intros k n E. destruct (D k n E) as (A&B&C&F). repeat split; auto. rewrite <- F.
  unfold last_stored. rewrite last_stored_acc_app. destruct o; cbn [last_stored_acc upd_op upd]; reflexivity.
Qed.
Lemma max_run : forall max ops, max_size (fst (run vnone (create vnone max) ops)) = max.
Proof.
  intros max ops. induction ops as [|o ops IH] using rev_ind; [reflexivity|]. rewrite run_snoc.
  destruct (step_ok _ _ o (inv_run max ops)) as (_ & -> & _). auto.
Qed.

(** *** What is in the cache *)
Lemma holds_iget : forall s k, holds vnone s k <-> exists n, iget k (items s) = Some n.
Proof.
  intros s k. unfold holds. cbn [step]. unfold wrap, contains. cbn [snd]. destruct (iget k (items s)) as [n|]; split; intros H; eauto; try discriminate.
  destruct H; discriminate.
Qed.
Lemma holds_none : forall s k, ~ holds vnone s k <-> iget k (items s) = None.
Proof.
  intros s k. rewrite holds_iget. destruct (iget k (items s)) as [n|]; split; intros H; auto; try discriminate.
  - exfalso. apply H. eauto.
  - intros [n E]. discriminate.
Qed.
Lemma size_eq : forall s, size vnone s = length_of s.
Proof. reflexivity. Qed.

Theorem returns_last : forall max ops k, let s := fst (run vnone (create vnone max) ops) in holds vnone s k ->
  exists v, last_stored k ops = Some v /\ snd (step vnone s (Item k)) = OVal v /\
    forall d, snd (step vnone s (Peek k d)) = OVal v /\ snd (step vnone s (Get k d)) = OVal v /\ snd (step vnone s (PopItem k d)) = OVal v.
Proof.
  intros max ops k s H. apply holds_iget in H. destruct H as [n E]. pose proof (inv_run max ops) as I. fold s in I.
  exists (nvalue (heap s n)). destruct (getitem_ok s _ k n I E) as (s1 & E1 & _).
  split; [|split]; [apply I; auto| |].
  - cbn [step]. unfold wrap. now rewrite E1.
  - intros d. destruct (pop_item_ok s _ k n d I E) as (s2 & E2 & _). cbn [step]. unfold wrap, peek, get. rewrite E, E1, E2. auto.
Qed.

(** A key is gained or lost in the ways listed, and in no other. *)
Theorem membership_step : forall max ops o, let s := fst (run vnone (create vnone max) ops) in
  let s' := fst (step vnone s o) in let x := snd (step vnone s o) in
  (forall k, holds vnone s' k -> (exists v, o = Set_ k v) \/ (holds vnone s k /\ ~ takes_out o x k)) /\
  (forall k v, o = Set_ k v -> x = OUnit -> holds vnone s' k) /\
  exists gone : list key, (List.length gone <= 1)%nat /\
    (gone <> [] -> max <= size vnone s /\ exists k v, o = Set_ k v /\ ~ holds vnone s k) /\
    forall k, holds vnone s k -> ~ takes_out o x k -> ~ In k gone -> holds vnone s' k.
Proof.
  intros max ops o s s' x. pose proof (inv_run max ops) as I. fold s in I. destruct (step_ok s _ o I) as (I' & M & dE & Ef & _).
  fold s' in Ef. fold x in Ef. fold s' in I'. assert (Mx : max_size s = max) by apply max_run.
  destruct I as [_ [ND _]].
  remember (items s') as d' eqn:Q.
  assert (HD : forall k, holds vnone s' k <-> exists n, iget k d' = Some n) by (intros k; rewrite holds_iget, Q; reflexivity).
  clearbody x s'. clear Q I' M. setoid_rewrite HD. clear HD s'. clearbody s. subst max.
  destruct Ef as [o x A B T|k v a E|k v e E L|k v n E L|k v j m n E L J|k v n E L|o x k a E T U|e|]; setoid_rewrite holds_iget.
  - split; [|split].
    + intros k [n E]. right. split; [eauto|]. intros X. apply T in X. congruence.
    + intros k v X. subst o. exfalso. eapply A; eauto.
    + exists []. split; [cbn; lia|]. split; [congruence|]. eauto.
  - split; [|split].
    + intros k' [n E']. right. split; eauto.
    + intros k' v' X. inversion X; subst. eauto.
    + exists []. split; [cbn; lia|]. split; [congruence|]. eauto.
  - split; [|split].
    + intros k' [n E']. right. split; eauto.
    + discriminate.
    + exists []. split; [cbn; lia|]. split; [congruence|]. eauto.
  - split; [|split].
    + intros k' [n' E']. destruct (key_dec k' k) as [->|NE]; [left; eauto|]. rewrite iget_iset_other in E'; auto. right. split; eauto.
    + intros k' v' X _. inversion X; subst. rewrite iget_iset_same. eauto.
    + exists []. split; [cbn; lia|]. split; [congruence|]. intros k' [n' E'] _ _. rewrite iget_iset_other; [eauto|congruence].
  - split; [|split].
    + intros k' [n' E']. destruct (key_dec k' k) as [->|NE]; [left; eauto|]. rewrite iget_iset_other in E'; auto.
      right. split; auto. destruct (key_dec k' j) as [->|NJ]; [rewrite iget_idel_same in E'; auto; discriminate|]. rewrite iget_idel_other in E'; eauto.
    + intros k' v' X _. inversion X; subst. rewrite iget_iset_same. eauto.
    + exists [j]. split; [cbn; lia|]. split.
      * intros _. rewrite size_eq. split; [lia|]. exists k, v. split; auto. intros [n' E']. congruence.
      * intros k' [n' E'] _ NI. rewrite iget_iset_other; [|congruence]. rewrite iget_idel_other; [eauto|]. intros ->. apply NI. now left.
  - split; [|split].
    + intros k' [n' E']. destruct (key_dec k' k) as [->|NE]; [left; eauto|]. rewrite iget_iset_other in E'; auto. right. split; eauto.
    + intros k' v' X _. inversion X; subst. rewrite iget_iset_same. eauto.
    + exists []. split; [cbn; lia|]. split; [congruence|]. intros k' [n' E'] _ _. rewrite iget_iset_other; [eauto|congruence].
  - split; [|split].
    + intros k' [n' E']. right. destruct (key_dec k' k) as [->|NE]; [rewrite iget_idel_same in E'; auto; discriminate|].
      rewrite iget_idel_other in E'; auto. split; eauto.
    + intros k' v' -> _. destruct T.
    + exists []. split; [cbn; lia|]. split; [congruence|]. intros k' [n' E'] NT _. rewrite iget_idel_other; [eauto|]. intros ->. contradiction.
  - split; [|split].
    + intros k' [n E']. right. split; eauto. intros [v X]. discriminate.
    + discriminate.
    + exists []. split; [cbn; lia|]. split; [congruence|]. eauto.
  - split; [|split].
    + intros k' [n E']. discriminate.
    + discriminate.
    + exists []. split; [cbn; lia|]. split; [congruence|]. intros k' _ X. exfalso. apply X. exact I.
Qed.

(** The history: a key in the cache was stored, and not taken out or lost since. *)
Theorem membership_history : forall max ops k, holds vnone (fst (run vnone (create vnone max) ops)) k ->
  exists before v after, ops = before ++ Set_ k v :: after /\
    forall mid o rest, after = mid ++ o :: rest ->
      let s := fst (run vnone (create vnone max) (before ++ Set_ k v :: mid)) in
      holds vnone s k /\ ~ takes_out o (snd (step vnone s o)) k /\ holds vnone (fst (step vnone s o)) k.
Proof.
  intros max ops k. induction ops as [|o ops IH] using rev_ind; intros H.
  - apply holds_iget in H. destruct H as [n E]. discriminate.
  - pose proof H as H1. rewrite run_snoc in H1. destruct (membership_step max ops o) as [A _]. destruct (A k H1) as [[v ->]|[Hk NT]].
    + exists ops, v, []. split; auto. intros mid o rest E. destruct mid; discriminate.
    + destruct (IH Hk) as (b & v & a & -> & R). exists b, v, (a ++ [o]). split; [rewrite <- app_assoc; reflexivity|].
      intros mid o' rest E s. destruct rest as [|o2 rest] using rev_ind.
      * apply app_inj_tail in E. destruct E as [<- <-]. subst s. repeat split; auto.
      * clear IHrest. rewrite app_comm_cons, app_assoc in E. apply app_inj_tail in E. destruct E as [-> <-]. apply (R mid o' rest eq_refl).
Qed.

(** The size: never more than max_size plus the number of removals asked for. *)
Lemma size_step : forall s last R o, inv s last -> Eof s <= R -> length_of s + Eof s <= Z.max (max_size s) 0 + R ->
  let s' := fst (step vnone s o) in
  let R' := R + removals1 vnone s o in Eof s' <= R' /\ length_of s' + Eof s' <= Z.max (max_size s') 0 + R'.
Proof.
  intros s last R o I A B s' R'. destruct (step_ok s last o I) as (I' & M & dE & Ef & Le). fold s' in Ef, Le, M.
  rewrite M. unfold length_of in *. assert (N0 : 0 <= Eof s') by (unfold Eof; lia). clearbody s'. assert (N1 : 0 <= Eof s) by (unfold Eof; lia). unfold R'. clear R' M.
  set (d' := items s') in *. clearbody d'. set (x := snd (step vnone s o)) in *. clearbody x.
  destruct Ef as [o x X Y T|k v a E|k v e E L|k v n E L|k v j m n E L J|k v n E L|o x k a E T U|e|]; unfold length_of in *; cbn [removals1]; try lia.
  - destruct o; cbn [removals1]; try lia. congruence.
  - rewrite iset_new by auto. rewrite app_length. cbn [List.length]. lia.
  - rewrite iset_new, app_length. 2:{ destruct (key_dec k j) as [->|]; [congruence|]. rewrite iget_idel_other; auto. }
    cbn [List.length]. pose proof (length_idel _ _ _ J). lia.
  - rewrite iset_new by auto. rewrite app_length. cbn [List.length]. lia.
  - pose proof (length_idel _ _ _ E). destruct o; cbn [removals1 takes_out] in *; try contradiction; rewrite ?size_eq; unfold length_of; try lia.
  - rewrite size_eq. unfold length_of. cbn [List.length]. lia.
Qed.
Theorem size_bound : forall max ops, size vnone (fst (run vnone (create vnone max) ops)) <= Z.max max 0 + removals vnone (create vnone max) ops.
Proof.
  intros max ops. rewrite size_eq.
  assert (G : forall ops s last R, inv s last -> Eof s <= R -> length_of s + Eof s <= Z.max (max_size s) 0 + R ->
    length_of (fst (run vnone s ops)) <= Z.max (max_size s) 0 + R + removals vnone s ops).
  { clear. induction ops as [|o ops IH]; intros s last R I A B; cbn [run removals fst].
    - unfold Eof in *. lia.
    - destruct (size_step s last R o I A B) as [A' B']. destruct (step_ok s last o I) as (I' & M & _).
      pose proof (IH _ _ _ I' A' B') as H. destruct (step vnone s o) as [s1 x]. cbn [fst] in *. destruct (run vnone s1 ops) as [s2 xs]. cbn [fst] in *. lia. }
  pose proof (G ops (create vnone max) _ 0 (inv_create max) ltac:(cbn; lia) ltac:(cbn; lia)) as H. cbn [create max_size] in H. lia.
Qed.

(** No AttributeError from a cache of two or more. *)
Lemma raises_key_error : forall s last o e, inv s last -> 2 <= max_size s -> snd (step vnone s o) = OExc e -> e = "KeyError"%string.
Proof.
  intros s last o e I Hm. destruct o as [k v|k d|k|k d|k d| | |k| | |k]; cbn [step]; unfold wrap.
  - destruct (iget k (items s)) as [a|] eqn:E.
    + destruct (setitem_old_ok s last k a v I E) as (s' & -> & _). discriminate.
    + unfold setitem. rewrite E. destruct (Z.ltb_spec (length_of s) (max_size s)) as [L|L].
      * destruct (insert_ok s last k v I E) as (s' & -> & _). discriminate.
      * destruct I as [M D]. unfold length_of in L.
        inversion M as [t h fr A B X Y Z|d' b h fr L' P N I' A B X Y Z|d' hd t h fr G C L' Gh Gt I' A B X Y Z]; subst.
        -- exfalso. rewrite <- A in L. cbn in L. lia.
        -- exfalso. destruct (iterator_ok s last (conj M D)) as (l & El & Ll). unfold iterator, mbind, get_head in El. rewrite <- B in El.
           revert El. rewrite <- Ll in L. assert (2 <= List.length (items s))%nat by lia. destruct (List.length (items s)) as [|[|m]]; try lia.
           cbn [iterate]. unfold mbind, the, ret, next_of, read, mbind, ret. rewrite N. cbn. discriminate.
        -- destruct (C hd Gh) as [[p [Ep Gp]] _].
           unfold replace_least_recently_used, mbind, get_head, the. rewrite <- B. unfold ret, prev_of, mbind, read, ret. rewrite Ep.
           destruct (nempty (heap s p)); [discriminate|].
           destruct (iget (nkey (heap s p)) (items s)); cbn; [discriminate|]. intros Q. now inversion Q.
  - unfold get. destruct (iget k (items s)) as [a|] eqn:E; [|discriminate]. destruct (getitem_ok s last k a I E) as (s' & -> & _). discriminate.
  - destruct (iget k (items s)) as [a|] eqn:E; [destruct (getitem_ok s last k a I E) as (s' & -> & _); discriminate|].
    unfold getitem. rewrite E. cbn. intros Q. now inversion Q.
  - unfold peek. destruct (iget k (items s)); cbn; discriminate.
  - destruct (iget k (items s)) as [a|] eqn:E; [destruct (pop_item_ok s last k a d I E) as (s' & -> & _); discriminate|].
    unfold pop_item. rewrite E. discriminate.
  - unfold pop. destruct (items s) eqn:Q; [discriminate|]. unfold mbind, get_head. destruct I as [M D].
    destruct (head s) as [hd|] eqn:Hh; [|inversion M; congruence]. cbn [the]. unfold ret, next_of, mbind, read, ret, put_head. wstep.
    destruct (iget _ _); cbn; [discriminate|]. intros X. now inversion X.
  - destruct (clear_ok s last I) as (s' & -> & _). discriminate.
  - destruct (iget k (items s)) as [a|] eqn:E; [destruct (delitem_ok s last k a I E) as (s' & -> & _); discriminate|].
    unfold delitem. rewrite E. discriminate.
  - unfold items_list, mbind. destruct (iterator_ok s last I) as (l & -> & _). discriminate.
  - discriminate.
  - discriminate.
Qed.
End Proofs.
