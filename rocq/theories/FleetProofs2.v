(** The whole shipper, left alone, delivers everything; a line it cannot convert, in one file, stops it for others too. *)
From Coq Require Import Bool Lia List Arith.
From Verif Require Import ShipperModel ShipperSpec ShipperProofs ShipperProofs2 FleetModel FleetSpec FleetProofs.
Import ListNotations.

Section Live.
Context (good : line -> bool) (np : nat).
Notation fstep := (fstep good np).
Notation frun := (frun good np).
Notation step := (ShipperModel.step good).
Notation tick := (tick good).
Notation LInv := (LInv np).
Notation Inv := (ShipperProofs.Inv le).
Notation All := (All le).

Definition pair (s : fleet) (order : list nat) : fleet := fstep (fstep s (FStep order)) (FReply true true).
Definition cost (x : sys) : nat :=
  match ship x with Idle _ _ => 5 | Drain _ => 4 | Reopen _ _ => 3 | Read _ _ | Post _ _ => 2 | Save _ _ => 1 | _ => 6 end.
Definition acost (x : sys) : nat := match ship x with Attach _ _ => 3 | Open0 _ => 2 | _ => 1 end.
Fixpoint sum (c : sys -> nat) (f : nat -> sys) (l : list nat) : nat := match l with [] => 0 | q :: r => c (f q) + sum c f r end.
Fixpoint upto (c : sys -> nat) (f : nat -> sys) (p : nat) (l : list nat) : nat :=
  match l with [] => 0 | q :: r => if Nat.eqb q p then 0 else c (f q) + upto c f p r end.
Definition mem (p : nat) (l : list nat) : bool := existsb (Nat.eqb p) l.
Definition CT : nat := 9 * np + 2.
Definition comingb (x : sys) : bool := match ship x with Attach _ _ | Open0 _ => true | _ => false end.
Definition W (p : nat) (s : fleet) : nat :=
  match at_ s with
  | Off => 0
  | Top => CT
  | Pass todo => if mem p todo then upto cost (file s) p todo else sum cost (file s) todo + 1 + CT
  | Attaching todo b =>
      if mem p todo && comingb (file s p) then upto acost (file s) p todo
      else sum acost (file s) todo + 1 + (if b then CT else if down (file s p) then 6 * np + 2 + CT else 6 * np)
  end.
Lemma mem_in p l : mem p l = true <-> In p l.
Proof. apply existsb_in. Qed.
Lemma upto_le c f p l : upto c f p l <= sum c f l.
Proof. induction l as [|q l IH]; cbn; [lia|]. destruct (Nat.eqb q p); lia. Qed.
Lemma sum_max c f l k : (forall q, c (f q) <= k) -> sum c f l <= k * length l.
Proof. intros H. induction l as [|q l IH]; cbn [sum length]; [lia|]. specialize (H q). lia. Qed.
Lemma len_todo l : NoDup l -> (forall q, In q l -> q < np) -> length l <= np.
Proof. intros N H. rewrite <- (seq_length np 0) at 1. apply NoDup_incl_length; [exact N|]. intros q Q. apply in_seq. specialize (H q Q). lia. Qed.
Lemma sum_ext c f g l : (forall q, In q l -> c (g q) = c (f q)) -> sum c g l = sum c f l.
Proof. intros H. induction l as [|q l IH]; cbn; [reflexivity|]. rewrite H by (now left). rewrite IH; [reflexivity|]. intros r R. apply H. now right. Qed.
Lemma upto_ext c f g p l : (forall q, In q l -> c (g q) = c (f q)) -> upto c g p l = upto c f p l.
Proof. intros H. induction l as [|q l IH]; cbn; [reflexivity|]. rewrite H by (now left). rewrite IH; [reflexivity|]. intros r R. apply H. now right. Qed.
Lemma cost_6 x : 1 <= cost x <= 6.
Proof. unfold cost. destruct (ship x); lia. Qed.
Lemma acost_3 x : 1 <= acost x <= 3.
Proof. unfold acost. destruct (ship x); lia. Qed.

(** A tick of the file whose turn it is. *)
Definition fine (x : sys) : Prop := (exists n, Inv x n) /\ Forall (fun l => good l = true) (written x).
Lemma tick_up x : fine x -> ship x <> Down -> ship (tick x) <> Down /\ ship (step x Step) <> Down.
Proof.
  intros ((n & V) & G) U. destruct (tick_rank good x n V G U) as (n' & _ & _ & U' & _). split; [exact U'|]. intros D. apply U'. unfold ShipperProofs2.tick. cbn [ShipperModel.step] in *. rewrite D. exact D.
Qed.
Lemma tick_fine x : fine x -> fine (tick x).
Proof. intros ((n & V) & G). split; [destruct (inv_tick good x n V) as (n' & _ & V'); eauto|rewrite tick_written; exact G]. Qed.
Lemma reply_other x : (forall t u, ship x <> Post t u) -> step x (Reply true true) = x.
Proof. intros H. cbn [ShipperModel.step]. destruct (ship x) eqn:S; try reflexivity. now elim (H t und). Qed.
Lemma busy_cost x : busy x -> ship (tick x) <> Down -> (exists t u, ship (tick x) = Idle t u) \/ cost (tick x) < cost x.
Proof.
  unfold busy, ShipperProofs2.tick, cost at 2. cbn [ShipperModel.step]. unfold ship_step. destruct (ship x) as [|i o|o|t [|l und]|t|t ls|t ls|t und|t und] eqn:S; try contradiction; intros _ U.
  - right. unfold cost. cbn [ship with_ship]. destruct (path x); [destruct (Nat.eqb _ _)|]; cbn; lia.
  - unfold deliver in *. destruct (forallb good (l :: und)); cbn in U |- *; [right; unfold cost; cbn; lia|congruence].
  - right. destruct (read_lines x t). unfold cost; cbn; lia.
  - destruct (path x); [right; unfold cost; cbn; lia|cbn in U; congruence].
  - destruct (read_lines x t) as (t', ls'). unfold deliver in *. destruct (ls ++ ls') as [|l r]; [left; cbn; eauto|]. destruct (forallb good (l :: r)); cbn in U |- *; [right; unfold cost; cbn; lia|congruence].
  - right. rewrite S. unfold cost; cbn; lia.
  - left. cbn. eauto.
Qed.
Lemma coming_cost x : coming x -> ship (tick x) <> Down -> (exists t u, ship (tick x) = Idle t u) \/ (coming (tick x) /\ acost (tick x) < acost x).
Proof.
  unfold coming, ShipperProofs2.tick, acost. cbn [ShipperModel.step]. unfold ship_step. destruct (ship x) eqn:S; try contradiction; intros _ U; cbn.
  - right. split; [exact I|lia].
  - destruct (path x); cbn in *; [left; eauto|congruence].
Qed.
Lemma idle_no_post x t u : resting x -> ship x <> Post t u.
Proof. unfold resting. destruct (ship x); try contradiction; discriminate. Qed.

Lemma pair_pass s order q r : LInv s -> at_ s = Pass (q :: r) -> fine (file s q) ->
  let s' := pair s order in file s' q = tick (file s q) /\ (forall p, p <> q -> file s' p = file s p) /\
  (at_ s' = Pass r \/ (at_ s' = Pass (q :: r) /\ cost (file s' q) < cost (file s q))).
Proof.
  intros L A F s'. pose proof L as L0. unfold FleetProofs.LInv in L. rewrite A in L. destruct L as (L1 & L2 & L3). destruct (L2 q (or_introl eq_refl)) as (Lq & B).
  assert (U : ship (file s q) <> Down) by (unfold busy in B; destruct (ship (file s q)); try contradiction; discriminate).
  destruct (tick_up _ F U) as (U1 & U2). pose proof (busy_cost _ B U1) as BC. inversion L1 as [|? ? N1 N2]; subst.
  assert (Q : forall t u, ship (step (file s q) Step) <> Post t u -> step (file s q) Step = tick (file s q) \/ True) by auto. clear Q.
  destruct (busy_step good _ B) as [X|BS]; [contradiction|].
  assert (Case : (exists t u, ship (file s q) = Post t u) \/ (forall t u, ship (file s q) <> Post t u)) by (destruct (ship (file s q)); eauto; right; discriminate).
  destruct Case as [(t & u & P)|P].
  - assert (E : fstep s (FStep order) = s) by (cbn [FleetModel.fstep]; rewrite A, P; reflexivity).
    assert (St : step (file s q) Step = file s q) by (cbn [ShipperModel.step]; unfold ship_step; rewrite P; reflexivity).
    unfold s', pair. rewrite E. cbn [FleetModel.fstep]. rewrite A, P. unfold act. rewrite upd_same. unfold ShipperProofs2.tick in BC |- *. rewrite St in BC |- *.
    assert (S' : ship (step (file s q) (Reply true true)) = Save t u) by (cbn [ShipperModel.step]; rewrite P; reflexivity). rewrite S'. cbn [file at_].
    split; [apply upd_same|]. split; [intros p D; now apply upd_other|]. right. split; [reflexivity|]. rewrite upd_same. unfold cost. rewrite S', P. lia.
  - assert (E : fstep s (FStep order) = act good s q Step (Pass (q :: r)) (Pass r)).
    { cbn [FleetModel.fstep]. rewrite A. destruct (ship (file s q)); try reflexivity. now elim (P t und). }
    unfold s', pair. rewrite E. unfold act. rewrite upd_same.
    assert (Case : (exists t u, ship (step (file s q) Step) = Idle t u) \/ (exists t u, ship (step (file s q) Step) = Post t u) \/
      match ship (step (file s q) Step) with Down | Idle _ _ | Post _ _ => False | _ => True end) by (destruct (ship (step (file s q) Step)); eauto).
    destruct Case as [(t & u & I1)|[(t & u & I1)|I1]].
    + rewrite I1. assert (T : tick (file s q) = step (file s q) Step) by (unfold ShipperProofs2.tick; apply reply_other; rewrite I1; discriminate).
      assert (NoP : fstep (mkF (upd (file s) q (step (file s q) Step)) (Pass r)) (FReply true true) = mkF (upd (file s) q (step (file s q) Step)) (Pass r)).
      { cbn [FleetModel.fstep at_ file]. destruct r as [|q' r']; [reflexivity|]. assert (D : q' <> q) by (intros ->; apply N1; now left). rewrite upd_other by exact D.
        destruct (L3 q') as [R|(r0 & R)]; [|injection R as -> _; congruence]. destruct (ship (file s q')) eqn:S'; try reflexivity. unfold resting in R. rewrite S' in R. destruct R. }
      rewrite NoP. cbn [file at_]. rewrite T. split; [apply upd_same|]. split; [intros p D; now apply upd_other|]. now left.
    + rewrite I1. cbn [FleetModel.fstep at_ file]. rewrite upd_same, I1. unfold act. rewrite upd_same. cbn [file]. rewrite upd_same.
      assert (S' : ship (step (step (file s q) Step) (Reply true true)) = Save t u) by (cbn [ShipperModel.step] in *; rewrite I1; reflexivity).
      change (step (step (file s q) Step) (Reply true true)) with (tick (file s q)) in *. rewrite S'. cbn [file at_].
      split; [apply upd_same|]. split; [intros p D; rewrite !upd_other by exact D; reflexivity|]. right. split; [reflexivity|]. rewrite upd_same.
      destruct BC as [(t' & u' & BC)|BC]; [congruence|exact BC].
    + assert (T : tick (file s q) = step (file s q) Step) by (unfold ShipperProofs2.tick; apply reply_other; intros t u; destruct (ship (step (file s q) Step)); try contradiction; discriminate).
      assert (Q : (match ship (step (file s q) Step) with Down => die good (upd (file s) q (step (file s q) Step)) | Idle _ _ => mkF (upd (file s) q (step (file s q) Step)) (Pass r) | _ => mkF (upd (file s) q (step (file s q) Step)) (Pass (q :: r)) end)
        = mkF (upd (file s) q (step (file s q) Step)) (Pass (q :: r))) by (destruct (ship (step (file s q) Step)); try contradiction; reflexivity).
      rewrite Q. cbn [FleetModel.fstep at_ file]. rewrite upd_same.
      assert (Q2 : forall (X : fleet), (match ship (step (file s q) Step) with Post _ _ => X | _ => mkF (upd (file s) q (step (file s q) Step)) (Pass (q :: r)) end) = mkF (upd (file s) q (step (file s q) Step)) (Pass (q :: r)))
        by (intros X; destruct (ship (step (file s q) Step)); try contradiction; reflexivity).
      rewrite Q2. cbn [file at_]. rewrite T in BC |- *. split; [apply upd_same|]. split; [intros p D; now apply upd_other|]. right. split; [reflexivity|]. rewrite upd_same.
      destruct BC as [(t' & u' & BC)|BC]; [rewrite BC in I1; contradiction|exact BC].
Qed.
Lemma pair_attach s order q r b : LInv s -> at_ s = Attaching (q :: r) b -> fine (file s q) ->
  let s' := pair s order in (forall p, p <> q -> file s' p = file s p) /\
  ((coming (file s q) /\ file s' q = tick (file s q) /\
    (at_ s' = Attaching r b \/ (at_ s' = Attaching (q :: r) b /\ coming (file s' q) /\ acost (file s' q) < acost (file s q)))) \/
   (~ coming (file s q) /\ file s' q = file s q /\ at_ s' = Attaching r b)).
Proof.
  intros L A F s'. unfold FleetProofs.LInv in L. rewrite A in L. destruct L as (L1 & L2 & L3 & L4).
  assert (NR : forall f l, fstep (mkF f (Attaching l b)) (FReply true true) = mkF f (Attaching l b)) by reflexivity.
  assert (Case : coming (file s q) \/ ~ coming (file s q)) by (unfold coming; destruct (ship (file s q)); auto). destruct Case as [C|C].
  - assert (U : ship (file s q) <> Down) by (apply L4; now left). destruct (tick_up _ F U) as (U1 & U2). pose proof (coming_cost _ C U1) as CC. pose proof (coming_step good _ C) as CS.
    assert (E : fstep s (FStep order) = act good s q Step (Attaching (q :: r) b) (Attaching r b)).
    { cbn [FleetModel.fstep]. rewrite A. unfold coming in C. destruct (ship (file s q)); try contradiction; reflexivity. }
    assert (T : tick (file s q) = step (file s q) Step).
    { unfold ShipperProofs2.tick. apply reply_other. intros t u H. rewrite H in CS. exact CS. }
    unfold s', pair. rewrite E. unfold act. rewrite upd_same. rewrite T in CC. destruct (ship (step (file s q) Step)) eqn:S; try contradiction; rewrite NR; cbn [file at_].
    + split; [intros p D; now apply upd_other|]. left. split; [exact C|]. rewrite upd_same. split; [now rewrite T|]. right. split; [reflexivity|].
      destruct CC as [(t & u & CC)|CC]; [congruence|exact CC].
    + split; [intros p D; now apply upd_other|]. left. split; [exact C|]. rewrite upd_same. split; [now rewrite T|]. now left.
  - assert (E : fstep s (FStep order) = mkF (file s) (Attaching r b)).
    { cbn [FleetModel.fstep]. rewrite A. unfold coming in C. destruct (ship (file s q)); try reflexivity; elim C; exact I. }
    unfold s', pair. rewrite E, NR. cbn [file at_]. split; [reflexivity|]. right. auto.
Qed.

Definition frank (x : sys) : nat := match ship x with Down => 7 | _ => rank x end.
Definition done (x : sys) : Prop := exists n, Inv x n /\ length (written x) <= n.
Definition reachable_file (x : sys) : Prop := ship x <> Down \/ path x <> None.
Lemma boot_fine x : fine x -> same_file x \/ ship x <> Down -> fine (step x Boot) /\ written (step x Boot) = written x /\ path (step x Boot) = path x.
Proof.
  intros ((n & V) & G) SF. assert (P : written (step x Boot) = written x /\ path (step x Boot) = path x).
  { cbn [ShipperModel.step]. destruct (ship x); try (split; reflexivity). destruct (path x) eqn:P; [split; [reflexivity|exact P]|split; [reflexivity|exact P]]. }
  split; [|exact P]. split; [|destruct P as (-> & _); exact G]. exists n. destruct SF as [SF|U]; [now apply (inv_boot good le (fun m n H => H))|].
  pose proof (boot_ship good x) as B. destruct (ship x); try (rewrite B; exact V); congruence.
Qed.
(** Everything is fine, for the files that have turns. *)
Definition Fine (s : fleet) : Prop := LInv s /\ (forall p, p < np -> fine (file s p)).
Lemma upto_head c f p q r : p <> q -> upto c f p (q :: r) = c (f q) + upto c f p r.
Proof. intros D. cbn. destruct (Nat.eqb_spec q p); [congruence|reflexivity]. Qed.
Lemma mem_head p q r : p <> q -> mem p (q :: r) = mem p r.
Proof. intros D. unfold mem. cbn. destruct (Nat.eqb_spec p q); [contradiction|reflexivity]. Qed.
Lemma mem_self p r : mem p (p :: r) = true.
Proof. unfold mem. cbn. now rewrite Nat.eqb_refl. Qed.
Lemma coming_b x : comingb x = true <-> coming x.
Proof. unfold comingb, coming. destruct (ship x); split; try contradiction; auto; discriminate. Qed.

Lemma pair_progress s order p : Fine s -> at_ s <> Off -> (lists s (FStep order) = true -> forall q, q < np -> ship (file s q) = Down -> same_file (file s q)) ->
  p < np -> reachable_file (file s p) ->
  let s' := pair s order in Fine s' /\ at_ s' <> Off /\ (forall q, written (file s' q) = written (file s q)) /\ reachable_file (file s' p) /\
  ((ship (file s p) <> Down /\ file s' p = tick (file s p)) \/ (file s' p = file s p /\ W p s' < W p s) \/ (ship (file s p) = Down /\ file s' p = step (file s p) Boot /\ ship (file s' p) <> Down /\ same_file (file s p))).
Proof.
  intros (L & F) NO C Hp RF s'. assert (L' : LInv s') by (unfold s', pair; apply linv_step, linv_step, L).
  destruct (at_ s) as [|[|q r] b| |[|q r]] eqn:A.
  - congruence.
  - (* the end of attaching *)
    unfold FleetProofs.LInv in L. rewrite A in L. destruct L as (_ & _ & L3 & _).
    assert (R : forall q, resting (file s q)) by (intros q; destruct (L3 q) as [H|([] & _)]; exact H).
    assert (E : s' = mkF (file s) (if b then Top else Pass (watched np s))).
    { unfold s', pair. cbn [FleetModel.fstep]. rewrite A. destruct b; cbn [FleetModel.fstep at_ file]; [reflexivity|]. destruct (watched np s) as [|q r]; [reflexivity|].
      specialize (R q). unfold resting in R. destruct (ship (file s q)); try contradiction; reflexivity. }
    rewrite E in *. cbn [file at_]. split; [split; [exact L'|exact F]|]. split; [destruct b; discriminate|]. split; [reflexivity|]. split; [exact RF|]. right. left. split; [reflexivity|].
    unfold W. rewrite A. cbn [mem existsb andb sum file at_]. destruct b; [lia|].
    destruct (mem p (watched np s)) eqn:M.
    + pose proof (upto_le cost (file s) p (watched np s)) as U. pose proof (sum_max cost (file s) (watched np s) 6 (fun q => proj2 (cost_6 (file s q)))) as SM.
      assert (LW : length (watched np s) <= np) by (apply len_todo; [apply NoDup_filter, seq_NoDup|intros q H; apply watched_in in H; tauto]).
      destruct (down (file s p)); lia.
    + assert (D : down (file s p) = true).
      { destruct (down (file s p)) eqn:D; [reflexivity|]. exfalso. assert (X : In p (watched np s)) by (apply watched_in; split; [exact Hp|unfold down in D; destruct (ship (file s p)); discriminate]).
        apply mem_in in X. congruence. }
      rewrite D. pose proof (sum_max cost (file s) (watched np s) 6 (fun q => proj2 (cost_6 (file s q)))) as SM.
      assert (LW : length (watched np s) <= np) by (apply len_todo; [apply NoDup_filter, seq_NoDup|intros q H; apply watched_in in H; tauto]). lia.
  - (* attaching a file *)
    pose proof L as L0. unfold FleetProofs.LInv in L0. rewrite A in L0. destruct L0 as (N & Hq & L3 & L4). pose proof (Hq q (or_introl eq_refl)) as Hq0.
    destruct (pair_attach s order q r b L A (F q Hq0)) as (O & D). fold s' in O, D.
    assert (Wr : forall p, written (file s' p) = written (file s p)).
    { intros p0. destruct (Nat.eq_dec p0 q) as [->|X]; [|now rewrite O]. destruct D as [(_ & -> & _)|(_ & -> & _)]; [apply tick_written|reflexivity]. }
    assert (Fi : forall p, p < np -> fine (file s' p)).
    { intros p0 H0. destruct (Nat.eq_dec p0 q) as [->|X]; [|rewrite O by exact X; now apply F]. destruct D as [(_ & -> & _)|(_ & -> & _)]; [apply tick_fine|]; now apply F. }
    assert (NO' : at_ s' <> Off) by (destruct D as [(_ & _ & [->|(-> & _)])|(_ & _ & ->)]; discriminate).
    inversion N as [|? ? N1 N2]; subst.
    destruct (Nat.eq_dec p q) as [->|X].
    + destruct D as [(Cm & E & _)|(NC & E & A')].
      * assert (U : ship (file s q) <> Down) by (apply L4; now left). destruct (tick_up _ (F q Hp) U) as (U1 & _).
        split; [split; assumption|]. split; [exact NO'|]. split; [exact Wr|]. split; [left; rewrite E; exact U1|]. left. auto.
      * split; [split; assumption|]. split; [exact NO'|]. split; [exact Wr|]. split; [rewrite E; exact RF|]. right. left. split; [exact E|].
        unfold W. rewrite A, A', E. assert (Cb : comingb (file s q) = false) by (destruct (comingb (file s q)) eqn:Cb; [apply coming_b in Cb; contradiction|reflexivity]).
        rewrite Cb, !andb_false_r. cbn [sum]. pose proof (acost_3 (file s q)). rewrite (sum_ext acost (file s) (file s') r); [lia|].
        intros q0 H0. rewrite O; [reflexivity|]. intros ->. contradiction.
    + rewrite (O p X). split; [split; assumption|]. split; [exact NO'|]. split; [exact Wr|]. split; [exact RF|]. right. left. split; [reflexivity|].
      unfold W. rewrite A, (O p X). rewrite mem_head by exact X. rewrite upto_head by exact X. cbn [sum]. pose proof (acost_3 (file s q)) as AC.
      assert (R1 : sum acost (file s') r = sum acost (file s) r) by (apply sum_ext; intros q0 H0; rewrite O; [reflexivity|intros ->; contradiction]).
      assert (R2 : upto acost (file s') p r = upto acost (file s) p r) by (apply upto_ext; intros q0 H0; rewrite O; [reflexivity|intros ->; contradiction]).
      destruct D as [(_ & _ & [A'|(A' & _ & AC')])|(_ & _ & A')]; rewrite A'; rewrite ?mem_head, ?upto_head by exact X; cbn [sum]; destruct (mem p r && comingb (file s p)); lia.
  - (* listing *)
    assert (E : s' = list_files good np s order false) by (unfold s', pair; cbn [FleetModel.fstep]; rewrite A; reflexivity).
    unfold FleetProofs.LInv in L. rewrite A in L. specialize (C ltac:(cbn [lists]; rewrite A; reflexivity)).
    assert (Q : forall q, file s' q = file s q \/ (file s' q = step (file s q) Boot /\ q < np)).
    { intros q. rewrite E. unfold list_files. cbn [file]. destruct (existsb _ _) eqn:X; [right|now left]. apply existsb_in, listing_in in X. tauto. }
    assert (SFq : forall q, q < np -> same_file (file s q) \/ ship (file s q) <> Down).
    { intros q H. destruct (ship (file s q)) eqn:S; [left; now apply C| | | | | | | |]; right; discriminate. }
    split; [split; [exact L'|]|].
    { intros q H. destruct (Q q) as [->|(-> & _)]; [now apply F|]. apply boot_fine; [now apply F|now apply SFq]. }
    split; [rewrite E; discriminate|]. split.
    { intros q. destruct (Q q) as [->|(-> & H)]; [reflexivity|]. apply boot_fine; [now apply F|now apply SFq]. }
    destruct (ship (file s p)) eqn:S.
    1: { (* it is attached *)
      assert (P : path (file s p) <> None) by (destruct RF as [RF|RF]; [congruence|exact RF]).
      assert (E1 : file s' p = step (file s p) Boot).
      { rewrite E. unfold list_files. cbn [file]. assert (X : existsb (Nat.eqb p) (listing np s order) = true) by (apply existsb_in, listing_in; auto). now rewrite X. }
      pose proof (boot_ship good (file s p)) as B. rewrite S in B.
      assert (U : ship (file s' p) <> Down).
      { rewrite E1. destruct (path (file s p)); [|congruence]. unfold coming in B. destruct (ship (step (file s p) Boot)); try contradiction; discriminate. }
      split; [now left|]. right. right. split; [reflexivity|]. split; [exact E1|]. split; [exact U|]. now apply C. }
    all: assert (E1 : file s' p = file s p) by (destruct (Q p) as [X|(X & _)]; [exact X|]; rewrite X; pose proof (boot_ship good (file s p)) as B; rewrite S in B; exact B).
    all: split; [rewrite E1; exact RF|]; right; left; split; [exact E1|].
    all: specialize (L p); unfold resting in L; rewrite S in L; try contradiction.
    unfold W. rewrite A. assert (A' : at_ s' = Attaching (listing np s order) false) by (rewrite E; reflexivity). rewrite A', E1.
    assert (Cb : comingb (file s p) = false) by (unfold comingb; rewrite S; reflexivity). assert (Db : down (file s p) = false) by (unfold down; rewrite S; reflexivity).
    rewrite Cb, Db, andb_false_r. pose proof (sum_max acost (file s') (listing np s order) 3 (fun q => proj2 (acost_3 (file s' q)))) as SM.
    assert (LW : length (listing np s order) <= np) by (apply len_todo; [apply listing_nodup|intros q H; apply listing_in in H; tauto]). unfold CT. lia.
  - (* the end of a pass *)
    assert (E : s' = mkF (file s) Top) by (unfold s', pair; cbn [FleetModel.fstep]; rewrite A; reflexivity).
    rewrite E in *. cbn [file at_]. split; [split; [exact L'|exact F]|]. split; [discriminate|]. split; [reflexivity|]. split; [exact RF|]. right. left. split; [reflexivity|].
    unfold W. rewrite A. cbn. lia.
  - (* a turn *)
    pose proof L as L0. unfold FleetProofs.LInv in L0. rewrite A in L0. destruct L0 as (N & Hq & L3). destruct (Hq q (or_introl eq_refl)) as (Hq0 & B).
    destruct (pair_pass s order q r L A (F q Hq0)) as (Eq & O & D). fold s' in Eq, O, D.
    assert (Wr : forall p, written (file s' p) = written (file s p)).
    { intros p0. destruct (Nat.eq_dec p0 q) as [->|X]; [rewrite Eq; apply tick_written|now rewrite O]. }
    assert (Fi : forall p, p < np -> fine (file s' p)).
    { intros p0 H0. destruct (Nat.eq_dec p0 q) as [->|X]; [rewrite Eq; now apply tick_fine, F|rewrite O by exact X; now apply F]. }
    assert (NO' : at_ s' <> Off) by (destruct D as [->|(-> & _)]; discriminate).
    inversion N as [|? ? N1 N2]; subst.
    split; [split; assumption|]. split; [exact NO'|]. split; [exact Wr|].
    destruct (Nat.eq_dec p q) as [->|X].
    + assert (U : ship (file s q) <> Down) by (unfold busy in B; destruct (ship (file s q)); try contradiction; discriminate). destruct (tick_up _ (F q Hp) U) as (U1 & _).
      split; [left; rewrite Eq; exact U1|]. left. auto.
    + rewrite (O p X). split; [exact RF|]. right. left. split; [reflexivity|].
      unfold W. rewrite A. rewrite mem_head by exact X. rewrite upto_head by exact X. cbn [sum]. pose proof (cost_6 (file s q)) as AC.
      assert (R1 : sum cost (file s') r = sum cost (file s) r) by (apply sum_ext; intros q0 H0; rewrite O; [reflexivity|intros ->; contradiction]).
      assert (R2 : upto cost (file s') p r = upto cost (file s) p r) by (apply upto_ext; intros q0 H0; rewrite O; [reflexivity|intros ->; contradiction]).
      destruct D as [A'|(A' & AC')]; rewrite A'; rewrite ?mem_head, ?upto_head by exact X; cbn [sum]; destruct (mem p r); lia.
Qed.

Definition K : nat := 18 * np + 6.
Lemma W_max s p : LInv s -> W p s < K.
Proof.
  intros L. unfold W, K, CT. unfold FleetProofs.LInv in L. destruct (at_ s) as [|todo b| |todo].
  - lia.
  - destruct L as (L1 & L2 & _). pose proof (len_todo todo L1 L2). pose proof (sum_max acost (file s) todo 3 (fun q => proj2 (acost_3 (file s q)))) as SM.
    pose proof (upto_le acost (file s) p todo). destruct (mem p todo && comingb (file s p)); [lia|]. destruct b; [lia|]. destruct (down (file s p)); lia.
  - lia.
  - destruct L as (L1 & L2 & _). pose proof (len_todo todo L1 (fun q H => proj1 (L2 q H))). pose proof (sum_max cost (file s) todo 6 (fun q => proj2 (cost_6 (file s q)))) as SM.
    pose proof (upto_le cost (file s) p todo). destruct (mem p todo); lia.
Qed.
Lemma frank_pos x : 1 <= frank x <= 7.
Proof. unfold frank. pose proof (rank_max x). unfold rank in *. destruct (ship x) as [| | |t [|]| | |t ls| |]; try lia. destruct (last_open x t); lia. Qed.
Lemma lives p orders : p < np -> forall k s, Fine s -> at_ s <> Off -> falways (fcalm np) good np s (fquiet orders k) -> reachable_file (file s p) ->
  (done (file s p) \/ frank (file s p) * K + W p s <= k) -> done (file (frun s (fquiet orders k)) p) /\ written (file (frun s (fquiet orders k)) p) = written (file s p).
Proof.
  intros Hp. induction k as [|k IH]; intros s F NO C RF H.
  - split; [|reflexivity]. destruct H as [H|H]; [exact H|]. exfalso. pose proof (frank_pos (file s p)) as FP. unfold K in H. nia.
  - cbn [fquiet] in C |- *. destruct C as (C1 & _ & C3).
    change (frun s (FStep (orders k) :: FReply true true :: fquiet orders k)) with (frun (pair s (orders k)) (fquiet orders k)).
    destruct (pair_progress s (orders k) p F NO (fun E => proj2 C1 E) Hp RF) as (F' & NO' & Wr & RF' & D). rewrite <- (Wr p).
    apply IH; auto. clear IH. destruct (proj2 F p Hp) as ((n0 & V0) & G). pose proof (W_max (pair s (orders k)) p (proj1 F')) as WM. pose proof (frank_pos (file s p)) as FP.
    destruct D as [(U & E)|[(E & L)|(U & E & U' & SF)]].
    + rewrite E. destruct H as [(n & V & Ln)|H].
      * left. destruct (tick_rank good (file s p) n V G U) as (n' & Le & V' & _). exists n'. split; [exact V'|]. rewrite tick_written. lia.
      * destruct (tick_rank good (file s p) n0 V0 G U) as (n' & Le & V' & U' & [Dn|Dn]); [left; exists n'; split; [exact V'|rewrite tick_written; lia]|]. right.
        assert (R1 : frank (tick (file s p)) = rank (tick (file s p))) by (unfold frank; destruct (ship (tick (file s p))); congruence).
        assert (R2 : frank (file s p) = rank (file s p)) by (unfold frank; destruct (ship (file s p)); congruence). rewrite R1. rewrite R2 in H. nia.
    + rewrite E. destruct H as [H|H]; [now left|right; lia].
    + rewrite E. destruct H as [(n & V & Ln)|H].
      * left. exists n. split; [now apply (inv_boot good le (fun m n H => H))|]. rewrite <- E, Wr. exact Ln.
      * right. assert (R1 : frank (file s p) = 7) by (unfold frank; rewrite U; reflexivity). rewrite R1 in H.
        assert (R2 : frank (step (file s p) Boot) <= 6) by (rewrite E in U'; unfold frank; pose proof (rank_max (step (file s p) Boot)); destruct (ship (step (file s p) Boot)); [congruence|lia..]). nia.
Qed.

(** ** A line that cannot be converted *)
Definition early (x : sys) : Prop := match ship x with Down | Attach _ _ | Open0 _ | Idle _ [] => True | _ => False end.
Definition Jam (p f o : nat) (s0 s : fleet) : Prop :=
  jammed good (file s p) f o /\ (forall q, p <= q -> arrived (file s q) = arrived (file s0 q)) /\
  (forall q, p < q -> early (file s q)) /\
  match at_ s with
  | Attaching _ _ => ship (file s p) <> Down
  | Pass todo => busy (file s p) /\ exists pre post, todo = pre ++ p :: post /\ (forall q, In q pre -> q < p)
  | _ => True
  end.
Lemma write_arrived x e : writes e = true -> arrived (step x e) = arrived x.
Proof. intros H. destruct e; try discriminate H; cbn [ShipperModel.step]; destruct (path x); try reflexivity; [destruct (free_ino x n); reflexivity|destruct (Nat.eqb i n); reflexivity]. Qed.
Lemma step_arrived x : arrived (step x Step) = arrived x.
Proof.
  cbn [ShipperModel.step]. unfold ship_step. destruct (ship x) as [|i o|o|t [|l und]|t|t ls|t ls|t und|t und]; try reflexivity; try (destruct (path x); reflexivity); destruct (read_lines x t); reflexivity.
Qed.
Lemma boot_arrived x : arrived (step x Boot) = arrived x.
Proof. cbn [ShipperModel.step]. destruct (ship x); try reflexivity. destruct (path x); reflexivity. Qed.
Lemma coming_early x : coming x -> early (step x Step).
Proof. unfold coming, early. cbn [ShipperModel.step]. unfold ship_step. destruct (ship x); try contradiction; intros _; [exact I|]. destruct (path x); exact I. Qed.
Lemma boot_early x : early x -> early (step x Boot).
Proof.
  intros E. pose proof (boot_ship good x) as B. unfold early in *. destruct (ship x) eqn:S; try contradiction; try (rewrite B, S; exact E).
  destruct (path x); [|rewrite B, S; exact E]. unfold coming in B. destruct (ship (step x Boot)); try contradiction; exact I.
Qed.
Lemma die_jam p f o s0 g : jammed good (g p) f o -> (forall q, p <= q -> arrived (g q) = arrived (file s0 q)) -> Jam p f o s0 (die good g).
Proof.
  intros J A. split; [apply (jam_step good (g p) f o Kill J); discriminate|]. split; [intros q H; exact (A q H)|]. split; [intros q _; exact I|exact I].
Qed.
Lemma list_jam p f o s0 s order b : p < np -> Jam p f o s0 s -> Jam p f o s0 (list_files good np s order b).
Proof.
  intros Hp (J & A & E & _). unfold list_files, Jam. cbn [file at_].
  assert (X : existsb (Nat.eqb p) (listing np s order) = true) by (apply existsb_in, listing_in; split; [exact Hp|destruct J as (-> & _); discriminate]).
  rewrite X. split; [apply (jam_step good (file s p) f o Boot J); discriminate|]. split.
  - intros q H. destruct (existsb (Nat.eqb q) (listing np s order)); [rewrite boot_arrived|]; now apply A.
  - split; [intros q H; destruct (existsb (Nat.eqb q) (listing np s order)); [apply boot_early|]; now apply E|].
    pose proof (boot_ship good (file s p)) as B. destruct J as (P & _). rewrite P in B. destruct (ship (file s p)) eqn:S; try (rewrite B, S; discriminate).
    unfold coming in B. destruct (ship (step (file s p) Boot)); try contradiction; discriminate.
Qed.
Lemma jam_turn x f o : jammed good x f o -> busy x -> ship (step x Step) = Down \/ (exists t l, ship (step x Step) = Read t l).
Proof.
  intros J B. destruct (jam_step good x f o Step J) as (J' & _); [discriminate|]. destruct J as (P & L & Bd & SV & PC). unfold busy in B. cbn [ShipperModel.step] in *. unfold ship_step in *.
  destruct (ship x) as [|i o'|o'|t [|]|t|t ls|t [|]|t und|t und] eqn:S; try contradiction.
  - right. subst t. rewrite P. cbn [open_at inode]. rewrite Nat.eqb_refl. cbn. eauto.
  - left. subst t. unfold read_lines. cbn [open_at pending pos fd app]. rewrite split_ok. cbn [ship with_ship].
    destruct Bd as (l & H & Bl). unfold deliver. destruct (complete (skipn o (content x f))) as [|y r] eqn:E; [destruct H|].
    destruct (forallb good (y :: r)) eqn:F; [|reflexivity]. rewrite forallb_forall in F. rewrite (F l H) in Bl. discriminate.
Qed.
Lemma watched_split s p : p < np -> ship (file s p) <> Down -> exists pre post, watched np s = pre ++ p :: post /\ (forall q, In q pre -> q < p).
Proof.
  intros H U. unfold watched. replace np with (p + S (np - S p)) by lia. rewrite seq_app, filter_app. cbn [seq filter Nat.add].
  assert (D : negb (down (file s p)) = true) by (unfold down; destruct (ship (file s p)); try reflexivity; congruence). rewrite D.
  eexists; eexists. split; [reflexivity|]. intros q Q. apply filter_In in Q as (Q & _). apply in_seq in Q. lia.
Qed.
Lemma jam_fstep p f o s0 s e : p < np -> LInv s -> Jam p f o s0 s -> e <> FWrite p Rename -> Jam p f o s0 (fstep s e).
Proof.
  intros Hp L Jm NR. pose proof Jm as (J & A & E & PC). destruct e as [q e|order| |order|came ok]; cbn [FleetModel.fstep].
  - destruct (Nat.ltb q np && writes e) eqn:Wr; [|exact Jm]. apply andb_true_iff in Wr as (_ & Wr). unfold Jam. cbn [file at_].
    assert (Sh : forall q', ship (upd (file s) q (step (file s q) e) q') = ship (file s q')).
    { intros q'. destruct (Nat.eq_dec q' q) as [->|D]; [rewrite upd_same; now apply write_ship|now rewrite upd_other]. }
    split; [|split; [|split]].
    + destruct (Nat.eq_dec p q) as [->|D]; [|now rewrite upd_other]. rewrite upd_same. apply (jam_step good (file s q) f o e J). intros ->. now apply NR.
    + intros q' H. destruct (Nat.eq_dec q' q) as [->|D]; [rewrite upd_same, write_arrived by exact Wr; now apply A|rewrite upd_other by exact D; now apply A].
    + intros q' H. unfold early. rewrite Sh. now apply E.
    + unfold busy in *. rewrite Sh. exact PC.
  - destruct (at_ s) eqn:At; try exact Jm. now apply list_jam.
  - now apply die_jam.
  - destruct (at_ s) as [|[|q r] b| |[|q r]] eqn:At.
    + exact Jm.
    + destruct b; unfold Jam; cbn [file at_]; (split; [exact J|]; split; [exact A|]; split; [exact E|]); [exact I|].
      split; [|now apply watched_split]. unfold FleetProofs.LInv in L. rewrite At in L. destruct L as (_ & _ & L3 & _). destruct (L3 p) as [R|([] & _)].
      unfold resting in R. unfold busy. destruct (ship (file s p)); try contradiction; exact I.
    + assert (SK : Jam p f o s0 (mkF (file s) (Attaching r b))) by (unfold Jam; cbn [file at_]; auto).
      assert (CO : coming (file s q) -> Jam p f o s0 (act good s q Step (Attaching (q :: r) b) (Attaching r b))).
      { intros C. set (g := upd (file s) q (step (file s q) Step)).
        assert (G1 : jammed good (g p) f o) by (unfold g; destruct (Nat.eq_dec p q) as [->|D]; [rewrite upd_same; apply (jam_step good (file s q) f o Step J); discriminate|now rewrite upd_other]).
        assert (G2 : forall q', p <= q' -> arrived (g q') = arrived (file s0 q')).
        { intros q' H. unfold g. destruct (Nat.eq_dec q' q) as [->|D]; [rewrite upd_same, step_arrived|rewrite upd_other by exact D]; now apply A. }
        assert (G3 : forall q', p < q' -> early (g q')).
        { intros q' H. unfold g. destruct (Nat.eq_dec q' q) as [->|D]; [rewrite upd_same; now apply coming_early|rewrite upd_other by exact D; now apply E]. }
        unfold act. fold g. destruct (ship (g q)) eqn:S; [now apply die_jam|..]; unfold Jam; cbn [file at_]; (split; [exact G1|]; split; [exact G2|]; split; [exact G3|]);
          (destruct (Nat.eq_dec p q) as [->|D]; [rewrite S; discriminate|unfold g; rewrite upd_other by exact D; exact PC]). }
      unfold coming in CO. destruct (ship (file s q)); try exact SK; apply CO; exact I.
    + now apply list_jam.
    + destruct PC as (_ & pre & post & Q & _). destruct pre; discriminate.
    + destruct PC as (B & pre & post & Q & Pre).
      assert (AC : forall e', e' = Step -> Jam p f o s0 (act good s q e' (Pass (q :: r)) (Pass r))).
      { intros e' ->. set (g := upd (file s) q (step (file s q) Step)).
        assert (G1 : jammed good (g p) f o) by (unfold g; destruct (Nat.eq_dec p q) as [->|D]; [rewrite upd_same; apply (jam_step good (file s q) f o Step J); discriminate|now rewrite upd_other]).
        assert (G2 : forall q', p <= q' -> arrived (g q') = arrived (file s0 q')).
        { intros q' H. unfold g. destruct (Nat.eq_dec q' q) as [->|D]; [rewrite upd_same, step_arrived|rewrite upd_other by exact D]; now apply A. }
        unfold act. fold g. destruct pre as [|q0 pre]; injection Q as -> ->.
        - assert (G3 : forall q', p < q' -> early (g q')) by (intros q' H; unfold g; rewrite upd_other by lia; now apply E).
          assert (GS : g p = step (file s p) Step) by apply upd_same.
          destruct (jam_turn _ f o J B) as [S|(t & l & S)]; rewrite GS, S; [now apply die_jam|]. unfold Jam. cbn [file at_]. split; [exact G1|]. split; [exact G2|]. split; [exact G3|].
          split; [rewrite GS; unfold busy; rewrite S; exact I|]. exists [], post. split; [reflexivity|intros ? []].
        - pose proof (Pre q0 (or_introl eq_refl)) as Lt.
          assert (G3 : forall q', p < q' -> early (g q')) by (intros q' H; unfold g; rewrite upd_other by lia; now apply E).
          assert (GP : g p = file s p) by (unfold g; apply upd_other; lia).
          destruct (ship (g q0)) eqn:S; [now apply die_jam|..]; unfold Jam; cbn [file at_]; (split; [exact G1|]; split; [exact G2|]; split; [exact G3|]; split; [rewrite GP; exact B|]);
            try (exists (q0 :: pre), post; split; [reflexivity|exact Pre]). exists pre, post. split; [reflexivity|]. intros q' H. apply Pre. now right. }
      destruct (ship (file s q)); try (apply AC; reflexivity). exact Jm.
  - destruct (at_ s) as [| | |[|q r]] eqn:At; try exact Jm. destruct (ship (file s q)) eqn:S; try exact Jm.
    destruct PC as (B & pre & post & Q & Pre). destruct pre as [|q0 pre]; injection Q as -> ->.
    + destruct J as (_ & _ & _ & _ & PC). rewrite S in PC. contradiction.
    + pose proof (Pre q0 (or_introl eq_refl)) as Lt. set (g := upd (file s) q0 (step (file s q0) (Reply came ok))).
      assert (GP : forall q', p <= q' -> g q' = file s q') by (intros q' H; unfold g; apply upd_other; lia).
      assert (G1 : jammed good (g p) f o) by (rewrite GP by lia; exact J).
      assert (G2 : forall q', p <= q' -> arrived (g q') = arrived (file s0 q')) by (intros q' H; rewrite GP by lia; now apply A).
      assert (G3 : forall q', p < q' -> early (g q')) by (intros q' H; rewrite GP by lia; now apply E).
      unfold act. fold g. destruct (ship (g q0)) eqn:S'; [now apply die_jam|..]; unfold Jam; cbn [file at_]; (split; [exact G1|]; split; [exact G2|]; split; [exact G3|]; split; [rewrite GP by lia; exact B|]);
            try (exists (q0 :: pre), post; split; [reflexivity|exact Pre]). exists pre, post. split; [reflexivity|]. intros q' H. apply Pre. now right.
Qed.
Lemma jam_frun p f o s0 : p < np -> forall es s, LInv s -> Jam p f o s0 s -> ~ In (FWrite p Rename) es -> Jam p f o s0 (frun s es).
Proof.
  intros Hp. induction es as [|e es IH]; intros s L J N; [exact J|]. apply (IH (fstep s e)); [now apply linv_step| |].
  - apply jam_fstep; auto. intros ->. apply N. now left.
  - intros H. apply N. now right.
Qed.
End Live.
