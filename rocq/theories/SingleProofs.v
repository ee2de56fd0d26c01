(** Proofs about singletons. *)
From Coq Require Import List Arith String Lia.
From Verif Require Import Base SingleModel SingleSpec.
Import ListNotations.

Section P.
Context {A : Type} (init : nat -> nat -> A -> script A) (height : nat -> nat).
Hypothesis L : layered init height.

Record inv (w : world) : Prop := mkInv {
  inv_ret : forall c o, In (c, o) (returned w) -> lookup c (instances w) = Some o;
  inv_same : initialised w = instances w;
  inv_nd : NoDup (map fst (instances w));
  inv_lt : forall c o, In (c, o) (instances w) -> o < created w;
  inv_own : NoDup (map snd (instances w)) }.

Lemma lookup_in c o l : lookup c l = Some o -> In (c, o) l.
Proof. induction l as [|(c', o') l IH]; cbn; [discriminate|]. destruct (Nat.eqb_spec c c') as [->|]; [intros [= ->]; auto|auto]. Qed.
Lemma lookup_none c l : lookup c l = None -> ~ In c (map fst l).
Proof. induction l as [|(c', o') l IH]; cbn; [auto|]. destruct (Nat.eqb_spec c c') as [->|]; [discriminate|]. intros H [X|X]; [congruence|tauto]. Qed.

(** What a step keeps: the invariant, the number of objects, the entries, and the classes it does not call *)
Definition keeps (P : nat -> Prop) (w w' : world) : Prop :=
  inv w' /\ created w <= created w' /\ (forall c o, lookup c (instances w) = Some o -> lookup c (instances w') = Some o) /\
  (forall c, ~ P c -> lookup c (instances w') = lookup c (instances w)) /\
  incl (returned w) (returned w') /\
  (forall c o, In (c, o) (instances w') -> In (c, o) (instances w) \/ created w <= o).
Definition good (call : nat -> A -> world -> res nat * world) : Prop :=
  forall c a w, inv w -> keeps (fun c' => height c' <= height c) w (snd (call c a w)).

Lemma give_keeps c o w : inv w -> lookup c (instances w) = Some o -> inv (snd (give c o w)).
Proof.
  intros [R S N T O] H. constructor; cbn [give snd instances created returned initialised]; auto.
  intros c' o' [X|X]; [injection X as <- <-; exact H|auto].
Qed.

Lemma exec_keeps call h : good call -> forall s w, only (fun c => height c < h) s -> inv w ->
  keeps (fun c => height c < h) w (snd (exec call s w)).
Proof.
  intros G s. induction s as [|e|c a k IH]; intros w O I; cbn [exec].
  - repeat split; auto; apply I || apply incl_refl.
  - repeat split; auto; apply I || apply incl_refl.
  - inversion_clear O as [| |? ? ? Hc Hk]. destruct (call c a w) as (r, w1) eqn:E.
    pose proof (G c a w I) as K. rewrite E in K. cbn [snd] in K. destruct K as (I1 & C1 & S1 & U1 & R1 & F1).
    destruct (IH r w1 (Hk r) I1) as (I2 & C2 & S2 & U2 & R2 & F2).
    split; [exact I2|]. split; [lia|]. split; [auto|]. split; [|split; [eapply incl_tran; eassumption|]].
    + intros c' Hc'. rewrite (U2 c' Hc'). apply U1. lia.
    + intros c' o' H. destruct (F2 c' o' H) as [X|X]; [apply F1, X|right; lia].
Qed.

Lemma call_good : forall d, good (call init d).
Proof.
  assert (HIT : forall P c o w, inv w -> lookup c (instances w) = Some o -> keeps P w (snd (give c o w))).
  { intros P c o w I H. split; [apply give_keeps; assumption|]. cbn. repeat split; auto. intros x X. right. exact X. }
  assert (ID : forall P w, inv w -> keeps P w w) by (intros P w I; repeat split; auto; apply I || apply incl_refl).
  induction d as [|d IH]; intros c a w I; cbn [call]; destruct (lookup c (instances w)) as [o|] eqn:E; try (apply HIT; assumption); [apply ID, I|].
  assert (I0 : inv (create w)).
  { destruct I as [R S N T O]. constructor; cbn [create instances created returned initialised]; auto. intros c' o' X. specialize (T c' o' X). lia. }
  destruct (exec_keeps (call init d) (height c) IH (init (created w) c a) (create w) (L _ _ _) I0) as (I1 & C1 & S1 & U1 & R1 & F1).
  destruct (exec (call init d) (init (created w) c a) (create w)) as (r, w1) eqn:X. cbn [snd] in *.
  cbn [create instances created returned] in C1, S1, U1, R1, F1.
  assert (N1 : lookup c (instances w1) = None) by (rewrite (U1 c ltac:(lia)); exact E).
  destruct r as [e|].
  - cbn [snd]. split; [exact I1|]. split; [lia|]. split; [auto|]. split; [intros c' H; apply U1; lia|]. split; [exact R1|]. intros c' o' H. destruct (F1 c' o' H); [auto|right; lia].
  - cbn [record instances lookup]. rewrite Nat.eqb_refl.
    assert (FRESH : ~ In (created w) (map snd (instances w1))).
    { intros H. apply in_map_iff in H. destruct H as ((c', o') & Ho & H). cbn [snd] in Ho. subst o'. destruct (F1 _ _ H) as [Y|Y]; [|lia]. pose proof (inv_lt w I _ _ Y). lia. }
    assert (I2 : inv (record c (created w) w1)).
    { destruct I1 as [R S N T O]. constructor; cbn [record instances created returned initialised].
      - intros c' o' H. cbn [lookup]. pose proof (R c' o' H) as Y. destruct (Nat.eqb_spec c' c) as [->|]; [congruence|exact Y].
      - f_equal. exact S.
      - cbn [map]. constructor; [apply lookup_none, N1|exact N].
      - intros c' o' [H|H]; [injection H as <- <-; lia|eauto].
      - cbn [map]. constructor; [exact FRESH|exact O]. }
    assert (H2 : lookup c (instances (record c (created w) w1)) = Some (created w)) by (cbn; now rewrite Nat.eqb_refl).
    split; [apply (give_keeps c (created w) (record c (created w) w1) I2 H2)|]. cbn [give snd record instances created returned].
    split; [lia|]. split.
    + intros c' o' H. cbn [lookup]. destruct (Nat.eqb_spec c' c) as [->|]; [congruence|auto].
    + split; [|split; [intros x Hx; right; apply R1, Hx|]].
      * intros c' H. cbn [lookup]. destruct (Nat.eqb_spec c' c) as [->|]; [exfalso; apply H; lia|]. apply U1. lia.
      * intros c' o' [H|H]; [injection H as <- <-; right; lia|]. destruct (F1 c' o' H); [auto|right; lia].
Qed.

Lemma empty_inv : inv empty.
Proof. constructor; cbn; try constructor; tauto. Qed.
Lemma calls_inv d : forall l w, inv w -> inv (snd (calls init d l w)) /\ incl (returned w) (returned (snd (calls init d l w))) /\
  (forall c o, lookup c (instances w) = Some o -> lookup c (instances (snd (calls init d l w))) = Some o).
Proof.
  induction l as [|(c, a) l IH]; intros w I; cbn [calls]; [auto using incl_refl|].
  pose proof (call_good d c a w I) as (I1 & _ & S1 & _ & R1 & _). destruct (call init d c a w) as (x, w1). cbn [snd] in *.
  destruct (IH w1 I1) as (I2 & R2 & S2). destruct (calls init d l w1) as (xs, w2). cbn [snd] in *.
  split; [exact I2|]. split; [eapply incl_tran; eassumption|auto].
Qed.

Lemma nd_snd (l : list (nat * nat)) c1 c2 o : NoDup (map snd l) -> In (c1, o) l -> In (c2, o) l -> c1 = c2.
Proof.
  induction l as [|(c, x) l IH]; cbn [map]; intros N H1 H2; [destruct H1|]. inversion_clear N as [|? ? N1 N2].
  assert (X : forall c', In (c', o) l -> In o (map snd l)) by (intros c' H; apply in_map_iff; exists (c', o); auto).
  destruct H1 as [H1|H1], H2 as [H2|H2].
  - congruence.
  - injection H1 as -> ->. elim N1. eapply X, H2.
  - injection H2 as -> ->. elim N1. eapply X, H1.
  - auto.
Qed.
Lemma inv_spec w : inv w -> one_object w /\ own_object w /\ made_once w.
Proof.
  intros [R S N T O]. split; [|split; [|split]].
  - intros c o1 o2 H1 H2. apply R in H1, H2. congruence.
  - intros c1 c2 o H1 H2. apply R, lookup_in in H1. apply R, lookup_in in H2. eapply nd_snd; eassumption.
  - rewrite S. exact N.
  - intros c o H. rewrite S. apply lookup_in, R, H.
Qed.

(** A call that returns is noted as having returned. *)
Lemma call_returned d c a w o w' : call init d c a w = (Ok o, w') -> In (c, o) (returned w').
Proof.
  destruct d as [|d]; cbn [call]; destruct (lookup c (instances w)) as [o'|] eqn:E.
  - unfold give. intros [= <- <-]. left. reflexivity.
  - discriminate.
  - unfold give. intros [= <- <-]. left. reflexivity.
  - destruct (exec (call init d) (init (created w) c a) (create w)) as ([e|], w1); [discriminate|].
    cbn [record instances lookup]. rewrite Nat.eqb_refl. unfold give. intros [= <- <-]. left. reflexivity.
Qed.
Lemma calls_returned d : forall l w xs w', calls init d l w = (xs, w') -> inv w ->
  forall i c a o, nth_error l i = Some (c, a) -> nth_error xs i = Some (Ok o) -> In (c, o) (returned w').
Proof.
  induction l as [|(c, a) l IH]; intros w xs w' E I i c' a' o' Hl Hx; [destruct i; discriminate|].
  cbn [calls] in E. pose proof (call_good d c a w I) as (I1 & _). destruct (call init d c a w) as (x, w1) eqn:Ec. cbn [snd] in I1.
  pose proof (calls_inv d l w1 I1) as (_ & R & _). destruct (calls init d l w1) as (ys, w2) eqn:Es. injection E as <- <-. cbn [snd] in R.
  destruct i as [|i]; cbn [nth_error] in Hl, Hx.
  - injection Hl as -> ->. injection Hx as ->. apply R. eapply call_returned, Ec.
  - eapply IH; eauto.
Qed.

(** ** Calls return *)
Lemma exec_fine (call : nat -> A -> world -> res nat * world) h : (forall c a w, height c < h -> exists o w', call c a w = (Ok o, w')) ->
  forall s w, only (fun c => height c < h) s -> fine s -> exists w', exec call s w = (None, w').
Proof.
  intros C s. induction s as [|e|c a k IH]; intros w O F; cbn [exec].
  - eauto.
  - inversion F.
  - inversion_clear O as [| |? ? ? Hc Hk]. inversion_clear F as [|? ? ? Hf].
    destruct (C c a w Hc) as (o & w1 & ->). apply IH; auto.
Qed.
Lemma call_returns : (forall o c a, fine (init o c a)) -> forall d c a w, height c < d -> exists o w', call init d c a w = (Ok o, w').
Proof.
  intros F. induction d as [|d IH]; intros c a w H; [lia|]. cbn [call]. destruct (lookup c (instances w)) as [o|]; [unfold give; eauto|].
  destruct (exec_fine (call init d) (height c)) with (s := init (created w) c a) (w := create w) as (w1 & E); auto.
  { intros c' a' w' H'. apply IH. lia. }
  rewrite E. cbn [record instances lookup]. rewrite Nat.eqb_refl. unfold give. eauto.
Qed.
End P.

(** ** Whatever the classes call *)
Section Q.
Context {A : Type} (init : nat -> nat -> A -> script A).
Definition done (w : world) : Prop := incl (returned w) (initialised w) /\ incl (instances w) (initialised w).
Lemma give_done c o w : done w -> lookup c (instances w) = Some o -> done (snd (give c o w)).
Proof.
  intros (R & I) H. split; cbn [give snd returned instances initialised]; [|exact I].
  intros x [<-|X]; [apply I, lookup_in, H|apply R, X].
Qed.
Lemma exec_done (call : nat -> A -> world -> res nat * world) : (forall c a w, done w -> done (snd (call c a w))) -> forall (s : script A) w, done w -> done (snd (exec call s w)).
Proof.
  intros C s. induction s as [|e|c a k IH]; intros w D; cbn [exec]; auto.
  pose proof (C c a w D). destruct (call c a w) as (r, w1). apply IH. assumption.
Qed.
Lemma call_done : forall d c a w, done w -> done (snd (call init d c a w)).
Proof.
  induction d as [|d IH]; intros c a w D; cbn [call]; destruct (lookup c (instances w)) as [o|] eqn:E; try (apply give_done; assumption); [exact D|].
  assert (D0 : done (create w)) by exact D.
  pose proof (exec_done (call init d) IH (init (created w) c a) (create w) D0) as D1.
  destruct (exec (call init d) (init (created w) c a) (create w)) as ([e|], w1); [exact D1|]. cbn [snd] in D1.
  cbn [record instances lookup]. rewrite Nat.eqb_refl. destruct D1 as (R & I).
  split; cbn [give snd returned instances initialised].
  - intros x [<-|X]; [left; reflexivity|right; apply R, X].
  - intros x [<-|X]; [left; reflexivity|right; apply I, X].
Qed.
Lemma calls_done d : forall l w, done w -> done (snd (calls init d l w)).
Proof.
  induction l as [|(c, a) l IH]; intros w D; cbn [calls]; [exact D|]. pose proof (call_done d c a w D) as D1.
  destruct (call init d c a w) as (x, w1). specialize (IH w1 D1). destruct (calls init d l w1). exact IH.
Qed.
End Q.

Section F.
Context {A : Type} (init : nat -> nat -> A -> script A) (c0 : nat).
Hypothesis F : forall o a, raises (init o c0 a).
Definition without (w : world) : Prop := lookup c0 (instances w) = None /\ forall o, ~ In (c0, o) (returned w).
Lemma exec_raises (call : nat -> A -> world -> res nat * world) s w : raises s -> exists e, fst (exec call s w) = Some e.
Proof.
  revert w. induction s as [|e|c a k IH]; intros w R; cbn [exec]; [inversion R|exists e; reflexivity|].
  destruct (call c a w) as (r, w1). apply IH. inversion_clear R. auto.
Qed.
Lemma exec_without (call : nat -> A -> world -> res nat * world) :
  (forall c a w, without w -> without (snd (call c a w))) -> forall s w, without w -> without (snd (exec call s w)).
Proof.
  intros C s. induction s as [|e|c a k IH]; intros w D; cbn [exec]; auto.
  pose proof (C c a w D). destruct (call c a w) as (r, w1). apply IH. assumption.
Qed.
Lemma call_without : forall d c a w, without w -> without (snd (call init d c a w)).
Proof.
  assert (GIVE : forall c o w, without w -> c <> c0 -> without (snd (give c o w))).
  { intros c o w (I & R) N. split; cbn [give snd instances returned]; [exact I|]. intros o' [X|X]; [congruence|exact (R o' X)]. }
  assert (HIT : forall c o w, without w -> lookup c (instances w) = Some o -> without (snd (give c o w))).
  { intros c o w W H. apply GIVE; [exact W|]. intros ->. destruct W. congruence. }
  induction d as [|d IH]; intros c a w D; cbn [call]; destruct (lookup c (instances w)) as [o|] eqn:E; try (apply HIT; assumption); [exact D|].
  assert (D0 : without (create w)) by exact D.
  pose proof (exec_without (call init d) IH (init (created w) c a) (create w) D0) as D1.
  assert (X : raises (init (created w) c a) -> exists e, fst (exec (call init d) (init (created w) c a) (create w)) = Some e) by (apply exec_raises).
  destruct (exec (call init d) (init (created w) c a) (create w)) as ([e|], w1); [exact D1|]. cbn [fst snd] in D1, X.
  assert (N : c <> c0) by (intros ->; destruct (X (F _ _)) as (e & Y); discriminate).
  cbn [record instances lookup]. rewrite Nat.eqb_refl. apply GIVE; [|exact N]. destruct D1 as (I & R).
  split; cbn [record instances returned lookup]; [|exact R]. destruct (Nat.eqb_spec c0 c) as [X2|X2]; [congruence|exact I].
Qed.
Lemma calls_without d : forall l w, without w -> without (snd (calls init d l w)).
Proof.
  induction l as [|(c, a) l IH]; intros w D; cbn [calls]; [exact D|]. pose proof (call_without d c a w D) as D1.
  destruct (call init d c a w) as (x, w1). specialize (IH w1 D1). destruct (calls init d l w1). exact IH.
Qed.
End F.
