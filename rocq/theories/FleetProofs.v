(** Invariants of the whole log shipper. *)
From Coq Require Import Bool Lia List Arith.
From Verif Require Import ShipperModel ShipperSpec ShipperProofs ShipperProofs2 FleetModel FleetSpec.
Import ListNotations.

Section Fleet.
Context (good : line -> bool) (np : nat).
Notation fstep := (fstep good np).
Notation frun := (frun good np).
Notation step := (ShipperModel.step good).

Definition resting (x : sys) : Prop := match ship x with Down | Idle _ _ => True | _ => False end.
Definition coming (x : sys) : Prop := match ship x with Attach _ _ | Open0 _ => True | _ => False end.
Definition busy (x : sys) : Prop := match ship x with Down | Attach _ _ | Open0 _ => False | _ => True end.
Definition LInv (s : fleet) : Prop :=
  match at_ s with
  | Off => forall p, ship (file s p) = Down
  | Top => forall p, resting (file s p)
  | Attaching todo _ => NoDup todo /\ (forall p, In p todo -> p < np) /\ (forall p, resting (file s p) \/ (In p todo /\ coming (file s p))) /\
      (forall p, In p todo -> ship (file s p) <> Down)
  | Pass todo => NoDup todo /\ (forall p, In p todo -> p < np /\ busy (file s p)) /\
      (forall p, resting (file s p) \/ (exists r, todo = p :: r))
  end.
Lemma upd_same {A} (f : nat -> A) i x : upd f i x i = x.
Proof. unfold upd. rewrite Nat.eqb_refl. reflexivity. Qed.
Lemma upd_other {A} (f : nat -> A) i j x : j <> i -> upd f i x j = f j.
Proof. intros H. unfold upd. destruct (Nat.eqb_spec j i); [contradiction|reflexivity]. Qed.
Lemma write_ship x e : writes e = true -> ship (step x e) = ship x.
Proof. intros H. destruct e; try discriminate H; cbn [step]; destruct (path x); try reflexivity; [destruct (free_ino x n); reflexivity|destruct (Nat.eqb i n); reflexivity]. Qed.
Lemma kill_down x : ship (step x Kill) = Down.
Proof. reflexivity. Qed.
Lemma boot_ship x : match ship x with Down => match path x with Some _ => coming (step x Boot) | None => step x Boot = x end | _ => step x Boot = x end.
Proof. cbn [step]. unfold coming. destruct (ship x) eqn:S; try reflexivity. destruct (path x); [|reflexivity]. destruct (saved x) as [(i, o)|]; exact I. Qed.
Lemma listing_in s order p : In p (listing np s order) <-> p < np /\ path (file s p) <> None.
Proof.
  unfold listing. rewrite filter_In, nodup_In, in_app_iff, filter_In, in_seq, Nat.ltb_lt. unfold present.
  destruct (path (file s p)) as [f|]; split; intros H; try (destruct H; congruence); [destruct H as ([(_ & H)|H] & _); (split; [lia|discriminate])|].
  destruct H as (H & _). split; [right; lia|reflexivity].
Qed.
Lemma listing_nodup s order : NoDup (listing np s order).
Proof. apply NoDup_filter, NoDup_nodup. Qed.
Lemma existsb_in p l : existsb (Nat.eqb p) l = true <-> In p l.
Proof.
  rewrite existsb_exists. split; [intros (x & H & E); apply Nat.eqb_eq in E; now subst|intros H; exists p; now rewrite Nat.eqb_refl].
Qed.
Lemma watched_in s p : In p (watched np s) <-> p < np /\ ship (file s p) <> Down.
Proof.
  unfold watched. rewrite filter_In, in_seq. unfold down. destruct (ship (file s p)); cbn [negb]; split; intros (A & B); split; try lia; try congruence; try reflexivity.
Qed.
Lemma ext_linv s s' : LInv s -> at_ s' = at_ s -> (forall p, ship (file s' p) = ship (file s p)) -> LInv s'.
Proof.
  intros L A E. unfold LInv, resting, coming, busy in *. rewrite A. destruct (at_ s) as [|todo b| |todo].
  - intros p. rewrite E. apply L.
  - destruct L as (L1 & L2 & L3 & L4). split; [exact L1|]. split; [exact L2|]. split; intros p; rewrite E; auto.
  - intros p. rewrite E. apply L.
  - destruct L as (L1 & L2 & L3). split; [exact L1|]. split; intros p; rewrite E; auto.
Qed.
Lemma die_linv f : LInv (die good f).
Proof. intros p. reflexivity. Qed.
Lemma list_linv s order b : (forall p, resting (file s p)) -> LInv (list_files good np s order b).
Proof.
  intros R. unfold LInv, list_files. cbn [at_ file]. split; [apply listing_nodup|]. split; [intros p H; apply listing_in in H; tauto|].
  assert (Q : forall p, In p (listing np s order) -> existsb (Nat.eqb p) (listing np s order) = true) by (intros p H; now apply existsb_in).
  split.
  - intros p. destruct (existsb (Nat.eqb p) (listing np s order)) eqn:E; [|left; apply R]. apply existsb_in in E. pose proof (proj1 (listing_in s order p) E) as (E1 & E2).
    specialize (R p). pose proof (boot_ship (file s p)) as B. unfold resting in R |- *. destruct (ship (file s p)) eqn:S; try (rewrite B, S; now left).
    destruct (path (file s p)); [|congruence]. right. auto.
  - intros p H. rewrite (Q p H). pose proof (proj1 (listing_in s order p) H) as (E1 & E2). pose proof (boot_ship (file s p)) as B. destruct (ship (file s p)) eqn:S; try (rewrite B, S; discriminate).
    destruct (path (file s p)); [|congruence]. unfold coming in B. destruct (ship (step (file s p) Boot)); try contradiction; discriminate.
Qed.
(** What the steps of one file do to it. *)
Lemma coming_step x : coming x -> match ship (step x Step) with Down | Idle _ _ | Open0 _ => True | _ => False end.
Proof. cbn [step]. unfold coming, ship_step. destruct (ship x); try contradiction; intros _; [exact I|]. destruct (path x); exact I. Qed.
Lemma deliver_busy t und : match deliver good t und with Down | Idle _ _ | Post _ _ => True | _ => False end.
Proof. unfold deliver. destruct und; [exact I|]. destruct (forallb _ _); exact I. Qed.
Lemma busy_step x : busy x -> ship (step x Step) = Down \/ busy (step x Step).
Proof.
  cbn [step]. unfold busy, ship_step. destruct (ship x) as [|i o|o|t [|l und]|t|t ls|t ls|t und|t und] eqn:S; try contradiction; intros _; try (right; rewrite ?S; exact I).
  - right. cbn [ship with_ship]. destruct (path x); [destruct (Nat.eqb _ _)|]; exact I.
  - cbn [ship with_ship]. pose proof (deliver_busy t (l :: und)) as D. destruct (deliver good t (l :: und)); auto; contradiction.
  - right. destruct (read_lines x t); exact I.
  - destruct (path x); [right; exact I|left; reflexivity].
  - destruct (read_lines x t) as (t', ls'). cbn [ship with_ship]. pose proof (deliver_busy t' (ls ++ ls')) as D. destruct (deliver good t' (ls ++ ls')); auto; contradiction.
Qed.
Lemma reply_busy x a b : busy x -> busy (step x (Reply a b)).
Proof. cbn [step]. unfold busy. destruct (ship x) eqn:S; try contradiction; intros _; rewrite ?S; try exact I. cbn. destruct b; exact I. Qed.
Lemma act_pass s p r e : LInv s -> at_ s = Pass (p :: r) -> e = Step \/ (exists a b, e = Reply a b) -> LInv (act good s p e (Pass (p :: r)) (Pass r)).
Proof.
  intros L A He. unfold LInv in L. rewrite A in L. destruct L as (L1 & L2 & L3). destruct (L2 p (or_introl eq_refl)) as (Lp & B).
  assert (Q : ship (step (file s p) e) = Down \/ busy (step (file s p) e)).
  { destruct He as [->|(a & b & ->)]; [now apply busy_step|right; now apply reply_busy]. }
  unfold act. rewrite upd_same. destruct (ship (step (file s p) e)) eqn:S; try apply die_linv; try (destruct Q as [Q|Q]; [discriminate|unfold busy in Q; rewrite S in Q; contradiction]).
  all: inversion L1 as [|? ? N1 N2]; subst.
  all: unfold LInv; cbn [at_ file].
  2,3,4,5,6: (split; [exact L1|]; split; [intros q H; destruct (Nat.eq_dec q p) as [->|D]; [split; [exact Lp|rewrite upd_same; unfold busy; rewrite S; exact I]|rewrite upd_other by exact D; now apply L2]|
    intros q; destruct (Nat.eq_dec q p) as [->|D]; [right; eauto|rewrite upd_other by exact D; destruct (L3 q) as [H|(r' & H)]; [now left|injection H as ->; congruence]]]).
  split; [exact N2|]. split.
  - intros q H. assert (D : q <> p) by (intros ->; contradiction). rewrite upd_other by exact D. apply L2. now right.
  - intros q. left. destruct (Nat.eq_dec q p) as [->|D]; [rewrite upd_same; unfold resting; rewrite S; exact I|]. rewrite upd_other by exact D.
    destruct (L3 q) as [H|(r' & H)]; [exact H|injection H as ->; congruence].
Qed.
Lemma act_attach s p r b : LInv s -> at_ s = Attaching (p :: r) b -> coming (file s p) -> LInv (act good s p Step (Attaching (p :: r) b) (Attaching r b)).
Proof.
  intros L A B. unfold LInv in L. rewrite A in L. destruct L as (L1 & L2 & L3 & L4). pose proof (coming_step _ B) as Q.
  unfold act. rewrite upd_same. inversion L1 as [|? ? N1 N2]; subst. destruct (ship (step (file s p) Step)) eqn:S; try contradiction; try apply die_linv.
  - unfold LInv; cbn [at_ file]. split; [exact L1|]. split; [exact L2|]. split.
    + intros q. destruct (Nat.eq_dec q p) as [->|D]; [right; rewrite upd_same; unfold coming; rewrite S; split; [now left|exact I]|rewrite upd_other by exact D; apply L3].
    + intros q H. destruct (Nat.eq_dec q p) as [->|D]; [rewrite upd_same, S; discriminate|rewrite upd_other by exact D; now apply L4].
  - unfold LInv; cbn [at_ file]. split; [exact N2|]. split; [intros q H; apply L2; now right|]. split.
    + intros q. destruct (Nat.eq_dec q p) as [->|D]; [left; rewrite upd_same; unfold resting; rewrite S; exact I|rewrite upd_other by exact D].
      destruct (L3 q) as [H|(H & H')]; [now left|]. right. split; [destruct H; congruence|exact H'].
    + intros q H. assert (D : q <> p) by (intros ->; contradiction). rewrite upd_other by exact D. apply L4. now right.
Qed.
Lemma linv_step s e : LInv s -> LInv (fstep s e).
Proof.
  intros L. destruct e as [p e|order| |order|came ok]; cbn [FleetModel.fstep].
  - destruct (Nat.ltb p np && writes e) eqn:C; [|exact L]. apply andb_true_iff in C as (_ & C). apply (ext_linv s); [exact L|reflexivity|].
    intros q. cbn [file]. destruct (Nat.eq_dec q p) as [->|D]; [rewrite upd_same; now apply write_ship|rewrite upd_other by exact D; reflexivity].
  - pose proof L as L0. unfold LInv in L. destruct (at_ s) eqn:A; try exact L0. apply list_linv. intros p. unfold resting. rewrite L. exact I.
  - apply die_linv.
  - pose proof L as L0. unfold LInv in L. destruct (at_ s) as [|[|p r] b| |[|p r]] eqn:A.
    + exact L0.
    + destruct L as (_ & _ & L3 & _). assert (R : forall p, resting (file s p)) by (intros p; destruct (L3 p) as [H|([] & _)]; exact H).
      destruct b; [exact R|]. unfold LInv. cbn [at_ file]. split; [apply NoDup_filter, seq_NoDup|]. split; [|intros p; left; apply R].
      intros p H. apply watched_in in H as (H1 & H2). split; [exact H1|]. specialize (R p). unfold resting in R. unfold busy. destruct (ship (file s p)); try contradiction; exact I.
    + assert (B : coming (file s p) \/ ~ coming (file s p)) by (unfold coming; destruct (ship (file s p)); auto).
      assert (SK : ~ coming (file s p) -> LInv (mkF (file s) (Attaching r b))).
      { intros NB. destruct L as (L1 & L2 & L3 & L4). inversion L1; subst. unfold LInv. cbn [at_ file]. split; [assumption|]. split; [intros q H; apply L2; now right|].
        split; [|intros q H; apply L4; now right]. intros q. destruct (L3 q) as [H|(H & H')]; [now left|]. destruct H as [<-|H]; [contradiction|now right]. }
      unfold coming in B, SK. destruct (ship (file s p)) eqn:S; try (apply SK; exact (fun f => f)); (apply act_attach; [exact L0|exact A|unfold coming; rewrite S; exact I]).
    + apply list_linv. exact L.
    + unfold LInv. cbn [at_ file]. destruct L as (_ & _ & L3). intros p. destruct (L3 p) as [H|(r & H)]; [exact H|discriminate].
    + destruct (ship (file s p)) eqn:S; try exact L0; (apply act_pass; [exact L0|exact A|now left]).
  - destruct (at_ s) as [| | |[|p r]] eqn:A; try exact L. destruct (ship (file s p)) eqn:S; try exact L. apply act_pass; [exact L|exact A|right; eauto].
Qed.
Lemma linv_run es : forall s, LInv s -> LInv (frun s es).
Proof. induction es as [|e es IH]; intros s L; [exact L|]. apply IH, linv_step, L. Qed.
Lemma linv_fresh : LInv ffresh.
Proof. intros p. reflexivity. Qed.

(** Each file keeps the invariant it has alone. *)
Section Alone.
Context (R : nat -> nat -> Prop) (R_refl : forall n, R n n) (R_le : forall m n, R m n -> m <= n)
  (R_max : forall m n k, R m n -> R (m + k) (Nat.max n (m + k))).
Notation Inv := (Inv R).
Definition All (s : fleet) : Prop := forall p, exists n, Inv (file s p) n.
Lemma kill_ok x n : Inv x n -> match ship x with Save _ _ => False | _ => True end -> Inv (step x Kill) n.
Proof. intros V H. cbn [ShipperModel.step]. apply inv_ship; auto; exact I. Qed.
Lemma die_all f : (forall p, exists n, Inv (f p) n) -> (forall p, match ship (f p) with Save _ _ => False | _ => True end) -> All (die good f).
Proof. intros A S p. destruct (A p) as (n & V). exists n. apply kill_ok; [exact V|apply S]. Qed.
Lemma die_le f : (forall p, exists n, Inv (f p) n) -> (forall a b, a <= b -> R a b) -> All (die good f).
Proof. intros A L p. destruct (A p) as (n & V). exists n. apply inv_kill; assumption. Qed.
Lemma list_all s order b : All s -> (forall p, p < np -> ship (file s p) = Down -> same_file (file s p)) -> All (list_files good np s order b).
Proof.
  intros A C p. unfold list_files. cbn [file]. destruct (A p) as (n & V). exists n. destruct (existsb (Nat.eqb p) (listing np s order)) eqn:E; [|exact V].
  apply existsb_in, listing_in in E as (E & _). pose proof (boot_ship (file s p)) as B. destruct (ship (file s p)) eqn:S; try (rewrite B; exact V).
  apply (inv_boot good R R_le); [exact V|]. now apply C.
Qed.
Lemma act_all s p e stay next : All s -> (exists n, Inv (step (file s p) e) n) -> (forall q, q <> p -> match ship (file s q) with Save _ _ => False | _ => True end) ->
  All (act good s p e stay next).
Proof.
  intros A V O. set (f := upd (file s) p (step (file s p) e)).
  assert (B : forall q, exists n, Inv (f q) n).
  { intros q. unfold f. destruct (Nat.eq_dec q p) as [->|D]; [rewrite upd_same; exact V|rewrite upd_other by exact D; apply A]. }
  unfold act. fold f. destruct (ship (f p)) eqn:S; try exact B. apply die_all; [exact B|]. intros q.
  destruct (Nat.eq_dec q p) as [->|D]; [rewrite S; exact I|]. unfold f. rewrite upd_other by exact D. now apply O.
Qed.
Lemma all_step s e : LInv s -> All s -> fcalm np s e -> (forall a b, a <= b -> R a b) \/ fclean e -> All (fstep s e).
Proof.
  intros L A (C1 & C2) K. destruct e as [p e|order| |order|came ok]; cbn [FleetModel.fstep].
  - destruct (Nat.ltb p np && writes e) eqn:W; [|exact A]. apply andb_true_iff in W as (_ & W). intros q. cbn [file].
    destruct (Nat.eq_dec q p) as [->|D]; [rewrite upd_same|rewrite upd_other by exact D; apply A]. destruct (A p) as (n & V). exists n.
    destruct e; try discriminate W; [apply inv_append|apply inv_rename|apply inv_create|apply inv_delete]; try assumption. apply C1. reflexivity.
  - destruct (at_ s) eqn:At; try exact A. apply list_all; [exact A|]. apply C2. cbn [lists]. rewrite At. reflexivity.
  - destruct K as [K|[]]. now apply die_le.
  - unfold LInv in L. destruct (at_ s) as [|[|p r] b| |[|p r]] eqn:At; try exact A.
    + destruct b; exact A.
    + assert (St : All (act good s p Step (Attaching (p :: r) b) (Attaching r b))).
      { destruct (A p) as (n & V). apply act_all; [exact A|exists n; now apply (inv_ship_step good R R_le)|]. intros q _. destruct L as (_ & _ & L3 & _).
        specialize (L3 q). unfold resting, coming in L3. destruct (ship (file s q)); auto. destruct L3 as [[]|(_ & [])]. }
      destruct (ship (file s p)); try exact A; exact St.
    + apply list_all; [exact A|]. apply C2. cbn [lists]. rewrite At. reflexivity.
    + assert (St : All (act good s p Step (Pass (p :: r)) (Pass r))).
      { destruct (A p) as (n & V). apply act_all; [exact A|exists n; now apply (inv_ship_step good R R_le)|]. intros q D. destruct L as (_ & _ & L3).
        destruct (L3 q) as [H|(r' & H)]; [|injection H as ->; congruence]. unfold resting in H. destruct (ship (file s q)); auto. }
      destruct (ship (file s p)); try exact A; exact St.
  - unfold LInv in L. destruct (at_ s) as [| | |[|p r]] eqn:At; try exact A.
    assert (St : All (act good s p (Reply came ok) (Pass (p :: r)) (Pass r))).
    { destruct (A p) as (n & V). destruct (inv_reply good R R_le R_max _ n came ok V K) as (n' & _ & V'). apply act_all; [exact A|exists n'; exact V'|]. intros q D. destruct L as (_ & _ & L3).
      destruct (L3 q) as [H|(r' & H)]; [|injection H as ->; congruence]. unfold resting in H. destruct (ship (file s q)); auto. }
    destruct (ship (file s p)); try exact A; exact St.
Qed.
Lemma all_run es : forall s, LInv s -> All s -> falways (fcalm np) good np s es -> (forall a b, a <= b -> R a b) \/ Forall fclean es -> All (frun s es).
Proof.
  induction es as [|e es IH]; intros s L A C K; [exact A|]. destruct C as (C & Cs). cbn [FleetModel.frun fold_left]. apply IH; [now apply linv_step| |exact Cs|].
  - apply all_step; auto. destruct K as [K|K]; [now left|right; inversion K; assumption].
  - destruct K as [K|K]; [now left|right; inversion K; assumption].
Qed.
Lemma all_fresh : All ffresh.
Proof. intros p. exists 0. now apply inv_fresh. Qed.
End Alone.
End Fleet.
