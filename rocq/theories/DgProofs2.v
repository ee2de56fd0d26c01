(** Calls over UDP: how often a request is handled, whose answer a call gets, how many sockets there are. *)
From Coq Require Import String Ascii ZArith NArith Bool List Arith Lia.
From Verif Require Import Base SpanKeyModel SpanKeySpec RouterModel JsonModel JsonSpec StreamModel ClientModel WireModel WireProofs AskModel AskSpec DgModel DgSpec DgProofs.
Import ListNotations.
Local Open Scope Z_scope.

(** ** Counting *)
Section Count.
Context {X : Type} (f : addr -> bool).
Definition cnt (l : list (X * addr)) : nat := List.length (filter (fun x => f (snd x)) l).
Definition one (a : addr) : nat := if f a then 1 else 0.
Lemma cnt_app l m : cnt (l ++ m) = (cnt l + cnt m)%nat.
Proof. unfold cnt. now rewrite filter_app, app_length. Qed.
Lemma cnt_one x a : cnt [(x, a)] = one a.
Proof. unfold cnt, one. cbn. now destruct (f a). Qed.
Lemma cnt_drop k : forall l x a, nth_error l k = Some (x, a) -> cnt l = (cnt (drop_nth k l) + one a)%nat.
Proof.
  intros l x a H. destruct (nth_error_split l k H) as (p & q & -> & <-). unfold drop_nth.
  rewrite firstn_app, firstn_all, Nat.sub_diag. cbn [firstn]. rewrite app_nil_r.
  replace (skipn (S (List.length p)) (p ++ (x, a) :: q)) with q.
  - change ((x, a) :: q) with ([(x, a)] ++ q). rewrite !cnt_app, cnt_one. lia.
  - change ((x, a) :: q) with ([(x, a)] ++ q). rewrite app_assoc, skipn_app, skipn_all2 by (rewrite app_length; cbn; lia). rewrite app_length. cbn [List.length].
    replace (S (List.length p) - (List.length p + 1))%nat with 0%nat by lia. reflexivity.
Qed.
Lemma cnt_drop_le k l : (cnt (drop_nth k l) <= cnt l)%nat.
Proof.
  destruct (nth_error l k) as [[x a]|] eqn:E; [rewrite (cnt_drop k l x a E); lia|]. apply nth_error_None in E.
  unfold drop_nth. rewrite firstn_all2, skipn_all2 by lia. now rewrite app_nil_r.
Qed.
Lemma cnt_zero l x a : cnt l = 0%nat -> In (x, a) l -> f a = false.
Proof.
  intros H I. destruct (f a) eqn:E; [|reflexivity]. assert (Q : In (x, a) (filter (fun x => f (snd x)) l)) by (apply filter_In; auto).
  unfold cnt in H. destruct (filter _ l); [destruct Q|discriminate].
Qed.
Lemma cnt_pos l : cnt l <> 0%nat -> exists x a, In (x, a) l /\ f a = true.
Proof.
  unfold cnt. intros H. destruct (filter _ l) as [|[x a] m] eqn:E; [now destruct H|]. exists x, a.
  assert (Q : In (x, a) (filter (fun x => f (snd x)) l)) by (rewrite E; now left). now apply filter_In in Q.
Qed.
End Count.

Section Dg.
Context {D V : Type} (utf8 : list N -> bool) (dump : V -> json) (max : Z) (accepted_resp : span_key -> V) (app : nat -> code D V).
Notation gstep := (gstep utf8 dump max accepted_resp app).
Notation grun := (grun utf8 dump max accepted_resp app).
Notation ganswer := (ganswer dump accepted_resp app).
Notation decode := (decode utf8).
Notation ustep := (ustep decode ganswer).
Notation cl_step := (cl_step max).
Notation serve_ev := (serve_ev utf8 dump accepted_resp app).
Notation CInv := (CInv max).
Notation Inv := (Inv utf8 dump max accepted_resp app).

Definition tag (i : nat) (a : addr) : bool := match a with Mine _ j => Nat.eqb j i | Other _ => false end.
Definition bt (known : bool) (t : gstate) : Z :=
  match t with GOpen n | GWait n | GSleep n => n | GSent n _ => n + 1 | GDone _ => if known then Z.max 0 max else 0 end.
Definition budget (c : dcl) (i : nat) : Z := bt (Nat.ltb i (gn c)) (tasks c i).
Definition Costs (c : dcl) (r : dcl * list parcel) : Prop :=
  forall i, Z.of_nat (cnt (tag i) (snd r)) + budget c i <= budget (fst r) i.
Lemma cost_set c i t rd pr ne rs l q m ak : (m = gn c \/ (m = S (gn c) /\ i = gn c)) -> budget c i <= bt (Nat.ltb i m) t ->
  Costs c (set_task (mkCl rd pr ne rs l q m (tasks c) ak) i t, []).
Proof.
  intros Hm Hb j. unfold budget. cbn [fst snd set_task gn tasks]. change (cnt (tag j) []) with 0%nat. destruct (Nat.eq_dec j i) as [->|Hn].
  - rewrite fupd_eq. unfold budget in Hb. lia.
  - rewrite fupd_ne by exact Hn. replace (Nat.ltb j m) with (Nat.ltb j (gn c)); [lia|].
    destruct Hm as [->|[-> ->]]; [reflexivity|]. destruct (Nat.ltb_spec j (gn c)), (Nat.ltb_spec j (S (gn c))); try reflexivity; lia.
Qed.
Lemma cost_transmit c i n rd pr ne rs l q m ak : (m = gn c \/ (m = S (gn c) /\ i = gn c)) -> budget c i <= n ->
  Costs c (transmit (mkCl rd pr ne rs l q m (tasks c) ak) i n).
Proof.
  intros Hm Hb j. unfold budget. cbn [fst snd transmit gn tasks proto]. rewrite cnt_one. unfold one. cbn [tag]. destruct (Nat.eq_dec j i) as [->|Hn].
  - rewrite fupd_eq, Nat.eqb_refl. cbn [bt]. unfold budget in Hb. lia.
  - rewrite fupd_ne by exact Hn. destruct (Nat.eqb_spec i j); [congruence|]. replace (Nat.ltb j m) with (Nat.ltb j (gn c)); [lia|].
    destruct Hm as [->|[-> ->]]; [reflexivity|]. destruct (Nat.ltb_spec j (gn c)), (Nat.ltb_spec j (S (gn c))); try reflexivity; lia.
Qed.
Lemma cost_acquire c i n rd pr ne rs l q m ak : (m = gn c \/ (m = S (gn c) /\ i = gn c)) -> budget c i <= n ->
  Costs c (acquire (mkCl rd pr ne rs l q m (tasks c) ak) i n).
Proof.
  intros Hm Hb. unfold acquire. cbn [lock queue]. cbn [ready proto nends resp gn tasks gasked]. destruct l; [apply (cost_set c); auto|]. destruct q; [apply (cost_transmit c); auto|apply (cost_set c); auto].
Qed.
Lemma cost_attempt c i n rd pr ne rs l q m ak : (m = gn c \/ (m = S (gn c) /\ i = gn c)) -> budget c i <= n ->
  Costs c (attempt (mkCl rd pr ne rs l q m (tasks c) ak) i n).
Proof. intros Hm Hb. unfold attempt. cbn [ready]. destruct rd; [apply (cost_acquire c); auto|apply (cost_set c); auto]. Qed.
Lemma cost_self c : Costs c (c, []).
Proof. intros i. cbn [fst snd]. change (cnt (tag i) []) with 0%nat. lia. Qed.
Lemma known_true (c : dcl) i : CInv c -> (forall o, tasks c i <> GDone o) -> Nat.ltb i (gn c) = true.
Proof. intros I H. apply Nat.ltb_lt. eapply known; eauto. Qed.
Lemma cl_step_costs c ev : CInv c -> Costs c (cl_step c ev).
Proof.
  intros I. pose proof (cost_self c) as Z0.
  assert (S : forall i t, budget c i <= bt (Nat.ltb i (gn c)) t -> Costs c (set_task c i t, [])).
  { intros i t H. rewrite <- (eta c) at 2. now apply cost_set; [left|]. }
  assert (K : forall i, (forall o, tasks c i <> GDone o) -> Nat.ltb i (gn c) = true /\ TaskOk max c i).
  { intros i H. pose proof (known_true c i I H) as L. split; [exact L|]. apply (c_ok max c I). now apply Nat.ltb_lt. }
  assert (AF : forall n, 0 <= n < max -> bt true (if max <=? n + 1 then GDone OMax else GSleep (n + 1)) >= n + 1).
  { intros n Hn. destruct (Z.leb_spec max (n + 1)); cbn [bt]; lia. }
  destruct ev as [r|i x| |k|k|k|d a| |k|k|k|i|i|i]; cbn [DgModel.cl_step]; try exact Z0.
  - assert (B : budget c (gn c) = 0). { unfold budget. rewrite (c_new max c I) by lia. now rewrite Nat.ltb_irrefl. }
    destruct (0 <? max); [apply cost_attempt; auto; lia|]. apply cost_set; auto. rewrite B. cbn [bt]. destruct (Nat.ltb_spec (gn c) (Datatypes.S (gn c))); lia.
  - destruct (tasks c i) as [n|n|n e|n|o] eqn:E; try exact Z0. destruct (K i ltac:(rewrite E; discriminate)) as [L T]. unfold TaskOk in T. rewrite E in T.
    assert (B : budget c i = n) by (unfold budget; now rewrite E).
    destruct x as [x|]; [|apply cost_acquire; auto; lia]. specialize (AF n T).
    destruct x; apply S; rewrite L; try (cbn [bt]; lia).
  - destruct (lock c) eqn:Lk; [exact Z0|]. destruct (queue c) as [|i q]; [exact Z0|]. destruct (tasks c i) as [n|n|n e|n|o] eqn:E; try exact Z0.
    apply cost_transmit; auto. unfold budget. rewrite E. cbn [bt]. lia.
  - destruct (tasks c i) as [n|n|n e|n|o] eqn:E; try exact Z0. destruct (K i ltac:(rewrite E; discriminate)) as [L T]. unfold TaskOk in T. rewrite E in T.
    apply cost_set; auto. rewrite L. unfold budget. rewrite E. cbn [bt]. specialize (AF n T). lia.
  - destruct (tasks c i) as [n|n|n e|n|o] eqn:E; try exact Z0. destruct (K i ltac:(rewrite E; discriminate)) as [L T]. unfold TaskOk in T. rewrite E in T.
    assert (B : budget c i = n) by (unfold budget; now rewrite E).
    destruct (n <? max); [|apply S; rewrite L; cbn [bt]; lia]. rewrite <- (eta c) at 2. apply cost_attempt; auto. lia.
  - destruct (tasks c i) as [n|n|n e|n|o] eqn:E; try exact Z0; destruct (K i ltac:(rewrite E; discriminate)) as [L T]; unfold TaskOk in T; rewrite E in T;
      [apply S|apply cost_set; auto|apply cost_set; auto|apply S]; rewrite L; unfold budget; rewrite E; cbn [bt]; lia.
Qed.
Definition load (s : dg) (i : nat) : nat := (cnt (tag i) (up s) + cnt (tag i) (pending (srv s)) + cnt (tag i) (ran s))%nat.
Lemma load_datagram s d a i : (load (serve_ev s (UDatagram d a)) i <= load s i + one (tag i) a)%nat.
Proof.
  unfold DgModel.serve_ev, load. destruct (srv_datagram utf8 dump accepted_resp app (srv s) d a) as (_ & _ & P). cbn [srv up ran]. rewrite app_nil_r.
  destruct P as [->|(t & _ & ->)]; [lia|]. rewrite cnt_app, cnt_one. lia.
Qed.
Lemma load_served s i : load (serve_ev s UDone) i = load s i.
Proof.
  unfold DgModel.serve_ev, load. pose proof (srv_done utf8 dump accepted_resp app (srv s)) as P. cbn [srv up ran].
  destruct (uheld (srv s)) as [[t a]|] eqn:E; [|rewrite P, app_nil_r; reflexivity]. destruct P as (_ & -> & _). unfold pending. rewrite E, !cnt_app, cnt_one. lia.
Qed.
Lemma handled_bound es i : Z.of_nat (load (grun es) i) <= budget (me (grun es)) i + Z.of_nat (up_copies es).
Proof.
  unfold DgModel.grun. induction es as [|ev es IH] using rev_ind; [cbn; lia|]. rewrite fold_left_app. cbn [fold_left].
  pose proof (grun_inv utf8 dump max accepted_resp app es) as I. unfold DgModel.grun in I. set (s := fold_left gstep es gfresh) in *.
  unfold up_copies. rewrite filter_app, app_length, Nat2Z.inj_add. fold (up_copies es).
  assert (CL : Z.of_nat (load (let (c, ps) := cl_step (me s) ev in mkDg (srv s) (up s ++ ps) (down s) c (ran s)) i) <= budget (me (let (c, ps) := cl_step (me s) ev in mkDg (srv s) (up s ++ ps) (down s) c (ran s))) i + Z.of_nat (up_copies es)).
  { pose proof (cl_step_costs (me s) ev (v_c _ _ _ _ _ _ I) i) as C. destruct (cl_step (me s) ev) as [c ps]. cbn [fst snd] in C. unfold load. cbn [srv up me ran]. rewrite cnt_app.
    unfold load in IH. lia. }
  destruct ev as [r|j x| |k|k|k|d a| |k|k|k|j|j|j]; cbn [DgModel.gstep filter List.length]; try (rewrite Z.add_0_r; exact CL); try (rewrite Z.add_0_r).
  - destruct (nth_error (up s) k) as [[d a]|] eqn:E; [|exact IH]. pose proof (load_datagram (set_up s (drop_nth k (up s))) d a i) as L.
    assert (Q : load s i = (load (set_up s (drop_nth k (up s))) i + one (tag i) a)%nat).
    { unfold load. cbn [set_up srv up ran]. rewrite (cnt_drop (tag i) k (up s) d a E). lia. }
    change (me (serve_ev (set_up s (drop_nth k (up s))) (UDatagram d a))) with (me s). lia.
  - change (me (set_up s (drop_nth k (up s)))) with (me s). pose proof (cnt_drop_le (tag i) k (up s)). unfold load in *. cbn [set_up srv up ran]. lia.
  - destruct (nth_error (up s) k) as [[d a]|] eqn:E; [|cbn [List.length]; lia]. unfold load in *. cbn [set_up srv up ran me]. rewrite cnt_app, cnt_one. unfold one. destruct (tag i a); lia.
  - pose proof (load_datagram s d (Other a) i) as L. unfold one in L. cbn [tag] in L. change (me (serve_ev s (UDatagram d (Other a)))) with (me s). lia.
  - rewrite load_served. exact IH.
  - destruct (nth_error (down s) k) as [[b [e j|]]|] eqn:E; [|exact IH|exact IH]. change (load (mkDg (srv s) (up s) (drop_nth k (down s)) (received utf8 (me s) e b) (ran s)) i) with (load s i).
    cbn [me]. destruct (received_cases utf8 (me s) e b) as [->|(i' & n & t & L & T & _ & ->)]; [exact IH|].
    enough (budget (me s) i <= budget (set_task (unlock (me s) e None) i' (GDone (OText t))) i) by lia.
    pose proof (cost_set (me s) i' (GDone (OText t)) (ready (me s)) (proto (me s)) (nends (me s)) (fupd (resp (me s)) e None) None (queue (me s)) (gn (me s)) (gasked (me s)) (or_introl eq_refl)) as Q.
    assert (N : forall o, tasks (me s) i' <> GDone o) by (rewrite T; discriminate). pose proof (known_true (me s) i' (v_c _ _ _ _ _ _ I) N) as KT.
    assert (TO : TaskOk max (me s) i') by (apply (c_ok max _ (v_c _ _ _ _ _ _ I)); now apply Nat.ltb_lt). unfold TaskOk in TO. rewrite T in TO.
    unfold Costs in Q. rewrite KT in Q. unfold budget at 1 in Q. rewrite T, KT in Q. cbn [bt] in Q. specialize (Q ltac:(lia) i). cbn [fst snd] in Q. change (cnt (tag i) []) with 0%nat in Q.
    unfold unlock. lia.
  - exact IH.
  - destruct (nth_error (down s) k) as [p|] eqn:E; exact IH.
Qed.
End Dg.
