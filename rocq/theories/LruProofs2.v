(** The LRU cache refines the abstract cache on careful histories. *)
From Coq Require Import List ZArith NArith Bool String Lia Arith ZifyBool ZifyNat Permutation.
From Verif Require Import Base LruModel LruSpec LruProofs.
Import ListNotations.
Local Open Scope Z_scope.

Section Ring.
Context {V : Type} (vnone : V).
Notation lru := (lru V).
Notation node := (node V).
Implicit Types (s : lru) (h : nat -> node).

(** Consecutive nodes are linked both ways. *)
Fixpoint linked h (l : list nat) : Prop :=
  match l with
  | a :: (b :: _) as r => nnext (h a) = Some b /\ nprev (h b) = Some a /\ linked h r
  | _ => True
  end.
Lemma linked_app : forall h p x q, linked h (p ++ x :: q) <-> linked h (p ++ [x]) /\ linked h (x :: q).
Proof.
  intros h. induction p as [|a p IH]; intros x q; cbn [app].
  - destruct q; cbn [linked]; tauto.
  - destruct p as [|b p]; cbn [app] in *; [cbn [linked]; tauto|]. specialize (IH x q). cbn [linked] in *. tauto.
Qed.
Lemma linked_ext : forall h h' l, (forall a, In a (removelast l) -> nnext (h' a) = nnext (h a)) -> (forall a, In a (tl l) -> nprev (h' a) = nprev (h a)) ->
  linked h l -> linked h' l.
Proof.
  intros h h'. induction l as [|a l IH]; intros N P L; [exact I|]. destruct l as [|b l]; [exact I|].
  cbn [linked] in *. destruct L as (A & B & C). cbn [tl] in P. cbn [removelast] in N. split; [|split].
  - rewrite N; auto. now left.
  - rewrite P; auto. now left.
  - apply IH; auto.
    + intros x X. apply N. now right.
    + intros x X. apply P. now right.
Qed.
Definition cyc h (c : list nat) : Prop := match c with [] => True | x :: r => linked h (x :: r ++ [x]) end.
Lemma cyc_rot : forall h p q, cyc h (p ++ q) -> cyc h (q ++ p).
Proof.
  intros h p q. destruct p as [|x p]; [now rewrite app_nil_r|]. destruct q as [|y q]; [now rewrite app_nil_r|].
  cbn [app cyc]. rewrite <- !app_assoc. cbn [app]. intros H.
  apply (linked_app h (x :: p) y (q ++ [x])) in H. destruct H as [A B].
  apply (linked_app h (y :: q) x (p ++ [y])). auto.
Qed.
(** A cycle is a chain closed at its ends. *)
Lemma cyc_open : forall h x c, cyc h (x :: c) <-> linked h (x :: c) /\ nnext (h (last (x :: c) x)) = Some x /\ nprev (h x) = Some (last (x :: c) x).
Proof.
  intros h x c. destruct (@exists_last _ (x :: c) ltac:(discriminate)) as (p & z & E). 
  change (cyc h (x :: c)) with (linked h ((x :: c) ++ [x])). rewrite E, last_last, <- app_assoc. cbn [app].
  rewrite linked_app. cbn [linked]. tauto.
Qed.
Lemma nodup_last : forall (p : list nat) z, NoDup (p ++ [z]) -> NoDup p /\ ~ In z p.
Proof. intros p z N. apply NoDup_remove in N. rewrite app_nil_r in N. exact N. Qed.
Lemma last_in : forall (c : list nat) x, In (last (x :: c) x) (x :: c).
Proof. intros c x. destruct (@exists_last _ (x :: c) ltac:(discriminate)) as (p & z & ->). rewrite last_last. apply in_or_app. right. now left. Qed.

(** Changing only the two ends of a chain. *)
Lemma linked_ends : forall h h' x c, NoDup (x :: c) -> linked h (x :: c) ->
  (forall a, In a (x :: c) -> a <> last (x :: c) x -> nnext (h' a) = nnext (h a)) ->
  (forall a, In a (x :: c) -> a <> x -> nprev (h' a) = nprev (h a)) -> linked h' (x :: c).
Proof.
  intros h h' x c ND L N P. apply (linked_ext h); auto.
  - intros a Ha. destruct (@exists_last _ (x :: c) ltac:(discriminate)) as (p & z & E). rewrite E in *. rewrite removelast_last in Ha. rewrite last_last in N.
    apply N; [apply in_or_app; now left|]. intros ->. apply nodup_last in ND. tauto.
  - cbn [tl]. intros a Ha. apply P; [now right|]. intros ->. now inversion ND.
Qed.

(** Taking a node out of a cycle. *)
Lemma cyc_remove : forall h h' a x c, NoDup (a :: x :: c) -> cyc h (a :: x :: c) ->
  let z := last (x :: c) x in
  (forall b, In b (x :: c) -> nnext (h' b) = if Nat.eqb b z then Some x else nnext (h b)) ->
  (forall b, In b (x :: c) -> nprev (h' b) = if Nat.eqb b x then Some z else nprev (h b)) ->
  nprev (h a) = Some z /\ nnext (h a) = Some x /\ cyc h' (x :: c).
Proof.
  intros h h' a x c ND C z N P. apply cyc_open in C. destruct C as (L & A & B). cbn [linked] in L. destruct L as (L1 & L2 & L3).
  change (last (a :: x :: c) a) with (last (x :: c) a) in *.
  assert (E : last (x :: c) a = z). { unfold z. destruct (@exists_last _ (x :: c) ltac:(discriminate)) as (p & w & ->). now rewrite !last_last. }
  rewrite E in *. split; [|split]; auto. inversion ND as [|? ? N1 N2]; subst. apply cyc_open. split; [|split].
  - apply (linked_ends h); auto.
    + intros b Hb Nz. rewrite N; auto. destruct (Nat.eqb_spec b z); auto. contradiction.
    + intros b Hb Nx. rewrite P; auto. destruct (Nat.eqb_spec b x); auto. contradiction.
  - fold z. rewrite N; [now rewrite Nat.eqb_refl|apply last_in].
  - fold z. rewrite P; [now rewrite Nat.eqb_refl|now left].
Qed.
(** Putting a node at the end of a cycle. *)
Lemma cyc_insert : forall h h' a x c, NoDup (a :: x :: c) -> linked h (x :: c) ->
  let z := last (x :: c) x in
  (forall b, In b (x :: c) -> nnext (h' b) = if Nat.eqb b z then Some a else nnext (h b)) ->
  (forall b, In b (x :: c) -> nprev (h' b) = if Nat.eqb b x then Some a else nprev (h b)) ->
  nprev (h' a) = Some z -> nnext (h' a) = Some x -> cyc h' (a :: x :: c).
Proof.
  intros h h' a x c ND L z N P Pa Na. inversion ND as [|? ? N1 N2]; subst. apply cyc_open.
  change (last (a :: x :: c) a) with (last (x :: c) a) in *.
  assert (E : last (x :: c) a = z). { unfold z. destruct (@exists_last _ (x :: c) ltac:(discriminate)) as (p & w & ->). now rewrite !last_last. }
  rewrite E. split; [|split]; auto.
  - cbn [linked]. split; [|split]; auto.
    + rewrite P; [now rewrite Nat.eqb_refl|now left].
    + apply (linked_ends h); auto.
      * intros b Hb Nz. rewrite N; auto. destruct (Nat.eqb_spec b z); auto. contradiction.
      * intros b Hb Nx. rewrite P; auto. destruct (Nat.eqb_spec b x); auto. contradiction.
  - rewrite N; [now rewrite Nat.eqb_refl|apply last_in].
Qed.

(** The list of nodes, from the head. *)
Definition shape h (head : option nat) (c : list nat) : Prop :=
  head = hd_error c /\ NoDup c /\
  match c with [] => True | [a] => nprev (h a) = None /\ nnext (h a) = None | _ => cyc h c end.

(** Moving a node that is not the head to the end. *)
Lemma mte_ring : forall s hd p a q, head s = Some hd -> NoDup (hd :: p ++ a :: q) -> cyc (heap s) (hd :: p ++ a :: q) ->
  exists h', (forall empty, move_to_end vnone a empty s = (Ok tt, mkLru (max_size s) (items s) (head s) (tail s)
      (if empty then W a (with_data true None vnone) h' else h') (fresh s)))
    /\ same_data (heap s) h' /\ cyc h' (a :: hd :: p ++ q).
Proof.
  intros s hd p a q H ND C.
  assert (NE : hd <> a). { intros ->. inversion ND as [|? ? X _]. apply X. apply in_or_app. right. now left. }
  (* the ring seen from the moved node *)
  assert (C1 : cyc (heap s) (a :: q ++ hd :: p)) by (change (a :: q ++ hd :: p) with ((a :: q) ++ (hd :: p)); apply cyc_rot; exact C).
  assert (ND1 : NoDup (a :: q ++ hd :: p)).
  { change (a :: q ++ hd :: p) with ((a :: q) ++ (hd :: p)). apply (Permutation_NoDup (l := (hd :: p) ++ a :: q)); auto. apply Permutation_app_comm. }
  destruct (q ++ hd :: p) as [|x c] eqn:Q; [destruct q; discriminate|].
  set (z := last (x :: c) x).
  assert (Na : ~ In a (x :: c)) by now inversion ND1.
  assert (Zin : In z (x :: c)) by apply last_in. assert (Xin : In x (x :: c)) by now left.
  assert (Hin : In hd (x :: c)) by (rewrite <- Q; apply in_or_app; right; now left).
  set (h1 := W z (with_next (Some x)) (heap s)). set (h2 := W x (with_prev (Some z)) h1).
  assert (R : nprev (heap s a) = Some z /\ nnext (heap s a) = Some x /\ cyc h2 (x :: c)).
  { apply cyc_remove; auto.
    - intros b Hb. fold z. unfold h2, h1. now rewrite W_prev_next, W_next.
    - intros b Hb. fold z. unfold h2, h1. now rewrite W_prev, W_next_prev. }
  destruct R as (Pa & Nx & C2).
  assert (C3 : cyc h2 (hd :: p ++ q)). { change (hd :: p ++ q) with ((hd :: p) ++ q). apply cyc_rot. now rewrite Q. }
  pose proof C3 as C3'. apply cyc_open in C3'. destruct C3' as (L3 & _ & Ph). set (y := last (hd :: p ++ q) hd) in *.
  assert (Yin : In y (hd :: p ++ q)) by apply last_in.
  assert (ND2 : NoDup (a :: hd :: p ++ q)).
  { apply (Permutation_NoDup (l := (hd :: p) ++ a :: q)); auto. change (a :: hd :: p ++ q) with (a :: (hd :: p) ++ q). symmetry. apply Permutation_middle. }
  assert (Na2 : ~ In a (hd :: p ++ q)) by now inversion ND2.
  assert (NY : y <> a) by (intros ->; contradiction). assert (NZ : z <> a) by (intros ->; contradiction). assert (NX : x <> a) by (intros ->; contradiction).
  set (h3 := W a (with_prev (nprev (h2 hd))) h2). set (h4 := W a (with_next (Some hd)) h3).
  assert (A1 : h1 = W z (with_next (nnext (heap s a))) (heap s)) by (rewrite Nx; reflexivity).
  assert (B1 : nnext (h1 a) = Some x) by (unfold h1; rewrite W_next; destruct (Nat.eqb_spec a z); congruence).
  assert (B2 : nprev (h1 a) = Some z) by (unfold h1; now rewrite W_next_prev).
  assert (A2 : h2 = W x (with_prev (nprev (h1 a))) h1) by (rewrite B2; reflexivity).
  assert (B4 : nprev (h4 hd) = Some y). { unfold h4, h3. rewrite W_next_prev, W_prev. destruct (Nat.eqb_spec hd a); [contradiction|exact Ph]. }
  exists (W hd (with_prev (Some a)) (W y (with_next (Some a)) h4)). split; [|split].
  - intros empty. exact (mte_other vnone s a hd z x y h1 h2 h3 h4 H NE Pa A1 B1 A2 eq_refl eq_refl B4 empty).
  - eapply sd_trans; [|apply sd_prev]. eapply sd_trans; [|apply sd_next]. eapply sd_trans; [|apply sd_next].
    eapply sd_trans; [|apply sd_prev]. eapply sd_trans; [|apply sd_prev]. apply sd_next.
  - apply (cyc_insert h2); auto; fold y.
    + intros b Hb. rewrite W_prev_next, W_next. unfold h4, h3. rewrite W_next, W_prev_next.
      destruct (Nat.eqb_spec b y); auto. destruct (Nat.eqb_spec b a) as [->|]; [contradiction|auto].
    + intros b Hb. rewrite W_prev, W_next_prev. unfold h4, h3. rewrite W_next_prev, W_prev.
      destruct (Nat.eqb_spec b hd); auto. destruct (Nat.eqb_spec b a) as [->|]; [contradiction|auto].
    + rewrite W_prev, W_next_prev. unfold h4, h3. rewrite W_next_prev, W_prev, Nat.eqb_refl, Ph.
      destruct (Nat.eqb_spec a hd); [congruence|auto].
    + rewrite W_prev_next, W_next. unfold h4, h3. rewrite W_next, Nat.eqb_refl.
      destruct (Nat.eqb_spec a y); [congruence|auto].
Qed.
Lemma shape_middle_nodup : forall (p : list nat) a q, NoDup (p ++ a :: q) -> NoDup (a :: p ++ q).
Proof. intros p a q N. apply (Permutation_NoDup (l := p ++ a :: q)); auto. symmetry. apply Permutation_middle. Qed.
Lemma shape_cyc : forall h a b c, NoDup (a :: b :: c) -> cyc h (a :: b :: c) -> shape h (Some a) (a :: b :: c).
Proof. intros. split; [|split]; auto. Qed.

Lemma mtf_ring : forall s p a q, shape (heap s) (head s) (p ++ a :: q) ->
  exists h', move_to_front vnone a s = (Ok tt, mkLru (max_size s) (items s) (Some a) (tail s) h' (fresh s))
    /\ same_data (heap s) h' /\ shape h' (Some a) (a :: p ++ q).
Proof.
  intros s p a q (Hh & ND & C). destruct p as [|hd p].
  - cbn [app hd_error] in *. exists (heap s). unfold move_to_front, mbind, get_head. rewrite Hh. cbn [is_same]. rewrite Nat.eqb_refl.
    split; [unfold ret; rewrite <- Hh; now destruct s|]. split; [apply sd_refl|]. split; auto.
  - cbn [app hd_error] in Hh. assert (C' : cyc (heap s) (hd :: p ++ a :: q)) by (cbn [app] in C; destruct p; exact C).
    destruct (mte_ring s hd p a q Hh ND C') as (h' & E & S & Cy). exists h'. unfold move_to_front, mbind, get_head. rewrite Hh. cbn [is_same].
    assert (NE : hd <> a). { intros ->. inversion ND as [|? ? X _]. apply X. apply in_or_app. right. now left. }
    destruct (Nat.eqb_spec hd a); [contradiction|]. rewrite E. unfold put_head. cbn [max_size items head tail heap fresh]. split; [reflexivity|split; auto].
    apply shape_cyc; auto. apply (shape_middle_nodup (hd :: p)). exact ND.
Qed.
(** Taking a node out: it goes to the end, or the list is empty if it was the only one. *)
Lemma mte_shape : forall s p a q, shape (heap s) (head s) (p ++ a :: q) ->
  exists hd' h' c', (forall empty, move_to_end vnone a empty s = (Ok tt, mkLru (max_size s) (items s) hd' (tail s)
      (if empty then W a (with_data true None vnone) h' else h') (fresh s)))
    /\ same_data (heap s) h' /\ shape h' hd' c' /\ (c' = p ++ q ++ [a] \/ (c' = [] /\ p = [] /\ q = [])).
Proof.
  intros s p a q (Hh & ND & C). destruct p as [|hd p].
  - cbn [app hd_error] in *. exists (nnext (heap s a)), (heap s). destruct q as [|b q].
    + exists []. split; [intros empty; now apply mte_head|]. split; [apply sd_refl|]. split; [|right; auto].
      destruct C as [_ ->]. split; [reflexivity|split; [constructor|exact I]].
    + exists ((b :: q) ++ [a]). split; [intros empty; now apply mte_head|]. split; [apply sd_refl|]. split; [|left; auto].
      pose proof C as C0. cbn [cyc app linked] in C0. destruct C0 as (-> & _). split; [reflexivity|split].
      * apply (Permutation_NoDup (l := [a] ++ b :: q)); auto. apply Permutation_app_comm.
      * assert (X : cyc (heap s) ((b :: q) ++ [a])) by (apply cyc_rot; exact C). cbn [app] in *. destruct q; exact X.
  - cbn [app hd_error] in Hh. assert (C' : cyc (heap s) (hd :: p ++ a :: q)) by (cbn [app] in C; destruct p; exact C).
    destruct (mte_ring s hd p a q Hh ND C') as (h' & E & S & Cy). exists (head s), h', ((hd :: p) ++ q ++ [a]). split; auto. split; auto. split; auto.
    rewrite Hh. split; [reflexivity|]. rewrite app_assoc. split.
    + apply (Permutation_NoDup (l := a :: (hd :: p) ++ q)); [apply Permutation_cons_append|]. now apply shape_middle_nodup.
    + assert (X : cyc h' (((hd :: p) ++ q) ++ [a])) by (apply (cyc_rot h' [a]); exact Cy).
      cbn [app] in *. destruct (p ++ q); exact X.
Qed.
Lemma shape_data : forall h h' o c, (forall b, nnext (h' b) = nnext (h b) /\ nprev (h' b) = nprev (h b)) -> shape h o c -> shape h' o c.
Proof.
  intros h h' o c E (A & B & C). split; [|split]; auto. destruct c as [|a [|b c]]; auto.
  - destruct (E a) as [-> ->]. auto.
  - unfold cyc in *. eapply linked_ext; [| |exact C]; intros x _; apply E.
Qed.
Lemma iterate_linked : forall l s a, linked (heap s) (a :: l) -> iterate (List.length (a :: l)) (Some a) s = (Ok (a :: l), s).
Proof.
  induction l as [|b l IH]; intros s a L.
  - cbn. reflexivity.
  - cbn [linked] in L. destruct L as (A & B & L). cbn [List.length iterate]. unfold mbind, the, ret, next_of, read, mbind, ret. rewrite A.
    specialize (IH s b L). cbn [List.length iterate] in IH. unfold mbind, the, ret, next_of, read, mbind, ret in IH. rewrite IH. reflexivity.
Qed.
End Ring.
