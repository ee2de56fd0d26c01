(** Calls over UDP: whose answer a call gets, and how many sockets a client has. *)
From Coq Require Import String Ascii ZArith NArith Bool List Arith Lia.
From Verif Require Import Base SpanKeyModel SpanKeySpec RouterModel RouterProofs JsonModel JsonSpec JsonProofs JsonProofs2 StreamModel ClientModel WireModel WireProofs AskModel AskSpec AskProofs3 DgModel DgSpec DgProofs DgProofs2.
Import ListNotations.
Local Open Scope Z_scope.

Section Dg.
Context {D V : Type} (utf8 : list N -> bool) (dump : V -> json) (max : Z) (accepted_resp : span_key -> V) (app : nat -> code D V).
Notation gstep := (gstep utf8 dump max accepted_resp app).
Notation grun := (grun utf8 dump max accepted_resp app).
Notation ganswer := (ganswer dump accepted_resp app).
Notation decode := (decode utf8).
Notation ustep := (ustep decode ganswer).
Notation cl_step := (cl_step max).
Notation serve_ev := (serve_ev utf8 dump accepted_resp app).
Notation CInv := (CInv max).
Notation Inv := (Inv utf8 dump max accepted_resp app).
Notation AnsweredAt := (AnsweredAt dump accepted_resp app).

(** ** Own answers *)
Definition mine (a : addr) : bool := match a with Mine _ _ => true | Other _ => false end.
Definition flights (s : dg) : nat := (cnt mine (up s) + cnt mine (pending (srv s)) + cnt mine (down s))%nat.
Definition flies (s : dg) (e j : nat) : Prop :=
  (exists d, In (d, Mine e j) (up s)) \/ (exists t, In (t, Mine e j) (pending (srv s))) \/ (exists b, In (b, Mine e j) (down s)).
Record PInv (s : dg) : Prop := {
  p_one : (flights s <= 1)%nat;
  p_lock : forall e j, flies s e j -> lock (me s) = Some j;
  p_own : forall i t, tasks (me s) i = GDone (OText t) -> exists e k b, AnsweredAt (me s) (ran s) b e i k /\ decode b = Some t }.
Lemma no_flights s : (forall e j, ~ flies s e j) -> flights s = 0%nat.
Proof.
  intros H. unfold flights.
  assert (A : forall X (l : list (X * addr)), (forall e j x, ~ In (x, Mine e j) l) -> cnt mine l = 0%nat).
  { intros X l Hl. destruct (Nat.eq_dec (cnt mine l) 0) as [|N]; [assumption|]. destruct (cnt_pos mine l N) as (x & [e j|a] & I & M); [destruct (Hl _ _ _ I)|discriminate M]. }
  rewrite !A; [reflexivity| | |]; intros e j x I; apply (H e j); [right; right|right; left|left]; eauto.
Qed.
Lemma cl_step_lock c ev : CInv c -> snd (cl_step c ev) = [] ->
  lock (fst (cl_step c ev)) = lock c \/
  exists i n e, tasks c i = GSent n e /\ (ev = GTimeout i \/ ev = GCancel i) /\ lock (fst (cl_step c ev)) = None.
Proof.
  intros I.
  assert (A : forall i n rd pr ne rs q m ak, snd (acquire (mkCl rd pr ne rs (lock c) q m (tasks c) ak) i n) = [] -> lock (fst (acquire (mkCl rd pr ne rs (lock c) q m (tasks c) ak) i n)) = lock c).
  { intros i n rd pr ne rs q m ak. unfold acquire. cbn [lock queue]. destruct (lock c); [reflexivity|]. destruct q; [discriminate|reflexivity]. }
  assert (B : forall i n rd pr ne rs q m ak, snd (attempt (mkCl rd pr ne rs (lock c) q m (tasks c) ak) i n) = [] -> lock (fst (attempt (mkCl rd pr ne rs (lock c) q m (tasks c) ak) i n)) = lock c).
  { intros i n rd pr ne rs q m ak. unfold attempt. cbn [ready]. destruct rd; [apply A|reflexivity]. }
  destruct ev as [r|i x| |k|k|k|d a| |k|k|k|i|i|i]; cbn [DgModel.cl_step fst snd]; auto.
  - destruct (0 <? max); intros H; left; [now apply B|reflexivity].
  - destruct (tasks c i) as [n|n|n e|n|o]; auto. destruct x as [[]|]; auto.
  - destruct (lock c) eqn:L; cbn [fst]; auto. destruct (queue c) as [|i q]; cbn [fst]; auto. destruct (tasks c i); cbn [fst]; auto. discriminate.
  - destruct (tasks c i) as [n|n|n e|n|o] eqn:E; auto. intros _. right. exists i, n, e. auto.
  - destruct (tasks c i) as [n|n|n e|n|o] eqn:E; auto. destruct (n <? max); [|auto]. rewrite <- (eta c). intros H. left. now apply B.
  - destruct (tasks c i) as [n|n|n e|n|o] eqn:E; auto. intros _. right. exists i, n, e. auto.
Qed.
Lemma flies_under s e j : flies s e j -> under_way s j.
Proof.
  intros [(d & H)|[(t & H)|(b & H)]]; exists e.
  - left. apply in_or_app. left. apply in_map_iff. now exists (d, Mine e j).
  - unfold pending in H. apply in_app_or in H as [H|H].
    + right. exists t. destruct (uheld (srv s)); [|destruct H]. destruct H as [->|[]]. reflexivity.
    + left. apply in_or_app. right. apply in_or_app. left. apply in_map_iff. now exists (t, Mine e j).
  - left. apply in_or_app. right. apply in_or_app. right. apply in_map_iff. now exists (b, Mine e j).
Qed.
Lemma one_mine e j : one mine (Mine e j) = 1%nat.
Proof. reflexivity. Qed.
Lemma srv_datagram_mine u d a : match a with Mine _ j => hd 0%N d = 123%N | Other _ => True end ->
  let v := ustep u (UDatagram d a) in
  (exists x, usent v = usent u ++ x /\ forall p, In p x -> mine (snd p) = false) /\
  (exists x, pending v = pending u ++ x /\ (x = [] \/ exists t, x = [(t, a)])).
Proof.
  intros H. destruct (srv_datagram utf8 dump accepted_resp app u d a) as (_ & P2 & P3). split.
  - destruct P2 as [->|(Hd & ->)]; [exists []; rewrite app_nil_r; split; [reflexivity|intros p []]|]. exists [(ACK_response, a)]. split; [reflexivity|].
    intros p [<-|[]]. cbn [snd]. destruct a; [congruence|reflexivity].
  - destruct P3 as [->|(t & _ & ->)]; [exists []; rewrite app_nil_r; auto|]. exists [(t, a)]. eauto.
Qed.
Lemma cnt_none {X} (l : list (X * addr)) : (forall p, In p l -> mine (snd p) = false) -> cnt mine l = 0%nat.
Proof.
  intros H. destruct (Nat.eq_dec (cnt mine l) 0) as [|N]; [assumption|]. destruct (cnt_pos mine l N) as (x & a & I & M). specialize (H _ I). cbn in H. congruence.
Qed.
(** Fewer datagrams of this client, and none that is new. *)
Lemma fewer s s' : PInv s -> me s' = me s -> (exists x, ran s' = ran s ++ x) -> (flights s' <= flights s)%nat -> (forall e j, flies s' e j -> flies s e j) -> PInv s'.
Proof.
  intros [P1 P2 P3] Em [x Er] F G. constructor; rewrite ?Em; [lia|eauto|].
  intros i t H. destruct (P3 i t H) as (e & k & b & H1 & H2). exists e, k, b. split; [|exact H2]. revert H1. apply answered_kept; auto. eauto.
Qed.
Lemma datagram_p s d a : PInv s -> match a with Mine _ j => hd 0%N d = 123%N | Other _ => True end ->
  (flights s + one mine a <= 1)%nat -> (forall e j, a = Mine e j -> lock (me s) = Some j) -> PInv (serve_ev s (UDatagram d a)).
Proof.
  intros [P1 P2 P3] H F L. unfold DgModel.serve_ev. rewrite app_nil_r.
  destruct (srv_datagram_mine (srv s) d a H) as [(x & Ux & Nx) (y & Py & Hy)]. set (v := ustep (srv s) (UDatagram d a)) in *.
  rewrite Ux, skipn_more. constructor; cbn [srv up down me ran].
  - unfold flights in *. cbn [srv up down]. rewrite Py, !cnt_app, (cnt_none x Nx).
    assert (cnt mine y <= one mine a)%nat by (destruct Hy as [->|(t & ->)]; [cbn; lia|rewrite cnt_one; lia]). lia.
  - intros e j [(d' & Hd)|[(t & Ht)|(b & Hb)]]; cbn [srv up down] in *.
    + apply (P2 e j). left. eauto.
    + rewrite Py in Ht. apply in_app_or in Ht as [Ht|Ht]; [apply (P2 e j); right; left; eauto|]. destruct Hy as [->|(t' & ->)]; [destruct Ht|].
      destruct Ht as [Ht|[]]. injection Ht as _ ->. eauto.
    + apply in_app_or in Hb as [Hb|Hb]; [apply (P2 e j); right; right; eauto|]. specialize (Nx _ Hb). discriminate Nx.
  - exact P3.
Qed.
Lemma in_drop_nth {A} k (l : list A) x : In x (drop_nth k l) -> In x l.
Proof. apply in_drop. Qed.
Lemma gstep_p s ev : Inv s -> PInv s -> patient s ev -> PInv (gstep s ev).
Proof.
  intros I P PT. assert (Same : forall u d, (cnt mine u <= cnt mine (up s))%nat -> (cnt mine d <= cnt mine (down s))%nat ->
     (forall p, In p u -> In p (up s)) -> (forall p, In p d -> In p (down s)) -> PInv (mkDg (srv s) u d (me s) (ran s))).
  { intros u d Cu Cd Hu Hd. apply (fewer s); auto.
    - exists []. cbn. now rewrite app_nil_r.
    - unfold flights. cbn [srv up down]. lia.
    - intros e j [(x & H)|[H|(x & H)]]; cbn [srv up down] in *; [left|right; left; exact H|right; right]; eauto. }
  assert (CL : PInv (let (c, ps) := cl_step (me s) ev in mkDg (srv s) (up s ++ ps) (down s) c (ran s))).
  { pose proof (cl_step_keeps max app (me s) ev) as K. pose proof (cl_step_lock (me s) ev (v_c _ _ _ _ _ _ I)) as L.
    destruct (cl_step (me s) ev) as [c ps] eqn:E. cbn [fst snd] in *. destruct K as (K1 & K2 & K3 & K4). specialize (K3 (v_c _ _ _ _ _ _ I)). destruct P as [P1 P2 P3].
    assert (Own : forall i t, tasks c i = GDone (OText t) -> exists e k b, AnsweredAt c (ran s) b e i k /\ decode b = Some t).
    { intros i t H. apply K4 in H. destruct (P3 i t H) as (e & k & b & H1 & H2). exists e, k, b. split; [|exact H2]. revert H1. apply answered_kept; auto. exists []. now rewrite app_nil_r. }
    destruct ps as [|p ps].
    - rewrite app_nil_r. destruct (L eq_refl) as [Lk|(i & n & e & T & Ev & Lk)].
      + constructor; cbn [srv up down me ran]; auto. intros e j H. rewrite Lk. apply (P2 e j). exact H.
      + assert (NF : forall e j, ~ flies s e j).
        { intros e' j F. pose proof (P2 _ _ F) as Hl. destruct (c_lock max (me s) (v_c _ _ _ _ _ _ I) i n e T) as [Hl' _]. assert (j = i) by congruence. subst j.
          assert (Q : ~ under_way s i) by (destruct Ev as [->| ->]; cbn in PT; apply PT; eauto). apply Q. exact (flies_under _ _ _ F). }
        constructor; cbn [srv up down me ran]; auto. intros e' j H. destruct (NF e' j). exact H.
    - destruct (K3 p (or_introl eq_refl)) as (e & j & Ep & Hj & Ln & Eps & Lc). injection Eps as ->. subst p.
      assert (NF : forall e j, ~ flies s e j) by (intros e' j' F; specialize (P2 _ _ F); congruence).
      constructor; cbn [srv up down me ran]; auto.
      + pose proof (no_flights s NF) as F0. unfold flights in *. cbn [srv up down]. rewrite cnt_app, cnt_one. change (one mine (Mine e j)) with 1%nat. lia.
      + intros e' j' [(d & H)|[H|H]]; cbn [srv up down] in *.
        * apply in_app_or in H as [H|[H|[]]]; [destruct (NF e' j'); left; eauto|]. injection H as _ _ <-. exact Lc.
        * destruct (NF e' j'). right. left. exact H.
        * destruct (NF e' j'). right. right. exact H. }
  destruct ev as [r|i x| |k|k|k|d a| |k|k|k|i|i|i]; cbn [DgModel.gstep]; try exact CL; try contradiction.
  - destruct (nth_error (up s) k) as [[d a]|] eqn:E; [|exact P]. pose proof (nth_error_In _ _ E) as IE. pose proof (v_up _ _ _ _ _ _ I _ IE) as U. cbn [fst snd] in U.
    apply datagram_p.
    + apply Same; auto; [apply cnt_drop_le|intros p; apply in_drop].
    + destruct a; [|exact Logic.I]. destruct U as [_ ->]. apply gsent_head.
    + pose proof (p_one s P) as P1. unfold flights in *. cbn [set_up srv up down]. rewrite (cnt_drop mine k (up s) d a E) in P1. lia.
    + intros e j ->. apply (p_lock s P e j). left. eauto.
  - apply Same; auto; [apply cnt_drop_le|intros p; apply in_drop].
  - apply datagram_p; auto; [|discriminate]. change (one mine (Other a)) with 0%nat. pose proof (p_one s P). lia.
  - (* the server answers *)
    unfold DgModel.serve_ev. pose proof (srv_done utf8 dump accepted_resp app (srv s)) as Q. destruct (uheld (srv s)) as [[t a]|] eqn:E.
    + destruct Q as (_ & Q2 & Q3). rewrite Q3, skipn_more. set (v := ustep (srv s) UDone) in *.
      set (nw := match ganswer (uprev (srv s)) t with Some r => [(r, a)] | None => [] end).
      assert (Hn : (cnt mine nw <= one mine a)%nat) by (subst nw; destruct (ganswer _ _); [rewrite cnt_one; lia|cbn; lia]).
      apply (fewer s); auto; [cbn; eauto| |].
      * unfold flights. cbn [srv up down]. rewrite Q2. unfold pending. rewrite E, !cnt_app, cnt_one. lia.
      * intros e j [(x & H)|[(x & H)|(x & H)]]; cbn [srv up down] in *; [left; eauto| |].
        -- rewrite Q2 in H. right. left. exists x. unfold pending. apply in_or_app. now right.
        -- apply in_app_or in H as [H|H]; [right; right; eauto|]. right. left. exists t. unfold pending. rewrite E. left. f_equal.
           subst nw. destruct (ganswer _ _); [|destruct H]. destruct H as [H|[]]. congruence.
    + rewrite Q, skipn_all, !app_nil_r. apply Same; auto.
  - destruct (nth_error (down s) k) as [[b [e j|]]|] eqn:E; [|exact P|exact P]. pose proof (nth_error_In _ _ E) as IE.
    assert (Fl : flies s e j) by (right; right; eauto).
    assert (P' : PInv (mkDg (srv s) (up s) (drop_nth k (down s)) (me s) (ran s))) by (apply Same; auto; [apply cnt_drop_le|intros p; apply in_drop]).
    destruct (received_cases utf8 (me s) e b) as [->|(i & n & t & L & T & Dc & ->)]; [exact P'|].
    assert (j = i) by (pose proof (p_lock s P _ _ Fl); congruence). subst j.
    assert (F0 : flights (mkDg (srv s) (up s) (drop_nth k (down s)) (me s) (ran s)) = 0%nat).
    { pose proof (p_one s P) as P1. unfold flights in *. cbn [srv up down]. rewrite (cnt_drop mine k (down s) b _ E) in P1. change (one mine (Mine e i)) with 1%nat in P1. lia. }
    constructor; cbn [srv up down me ran].
    + unfold flights in *. cbn [srv up down] in *. lia.
    + unfold flights in F0. cbn [srv up down] in F0.
      intros e' j' [(x & H)|[(x & H)|(x & H)]]; cbn [srv up down] in H.
      * pose proof (cnt_zero mine (up s) x _ ltac:(lia) H). discriminate.
      * pose proof (cnt_zero mine (pending (srv s)) x _ ltac:(lia) H). discriminate.
      * pose proof (cnt_zero mine (drop_nth k (down s)) x _ ltac:(lia) H). discriminate.
    + intros i' x. cbn [set_task unlock tasks]. destruct (Nat.eq_dec i' i) as [->|Hne].
      * rewrite fupd_eq. intros Q. injection Q as <-. pose proof (v_down _ _ _ _ _ _ I _ IE) as A. unfold Answered in A. cbn [fst snd] in A. destruct A as [k' A].
        exists e, k', b. split; [exact A|exact Dc].
      * rewrite fupd_ne by exact Hne. intros Q. exact (p_own s P i' x Q).
  - apply Same; auto; [apply cnt_drop_le|intros p; apply in_drop].
Qed.
Lemma throughout_app P es fs s : throughout gstep P s (es ++ fs) <-> throughout gstep P s es /\ throughout gstep P (fold_left gstep es s) fs.
Proof. revert s. induction es as [|e es IH]; intros s; cbn [List.app throughout fold_left]; [tauto|]. rewrite IH. tauto. Qed.
Theorem grun_p es : throughout gstep patient gfresh es -> PInv (grun es).
Proof.
  unfold DgModel.grun. induction es as [|e es IH] using rev_ind; intros H.
  - constructor; cbn; try discriminate; [lia|]. intros e j [(x & [])|[(x & [])|(x & [])]].
  - apply throughout_app in H as [H [He _]]. rewrite fold_left_app. apply gstep_p; auto. exact (grun_inv utf8 dump max accepted_resp app es).
Qed.

(** ** Sockets *)
Definition SInv (c : dcl) : Prop :=
  (ready c = false /\ nends c = 0%nat /\ forall i j n m, tasks c i = GOpen n -> tasks c j = GOpen m -> i = j) \/
  (ready c = true /\ nends c = 1%nat /\ forall i n, tasks c i <> GOpen n).
Lemma s_set c i t rs l q m ak : SInv c -> (forall n, t <> GOpen n) -> SInv (set_task (mkCl (ready c) (proto c) (nends c) rs l q m (tasks c) ak) i t).
Proof.
  intros [(R & E & U)|(R & E & U)] Ht; [left|right]; cbn [set_task ready nends tasks]; (split; [exact R|]); (split; [exact E|]).
  - intros a b n k. destruct (Nat.eq_dec a i) as [->|Ha]; [rewrite fupd_eq; intros X; now apply Ht in X|]. rewrite (fupd_ne _ i a) by exact Ha. intros Ea.
    destruct (Nat.eq_dec b i) as [->|Hb]; [rewrite fupd_eq; intros X; now apply Ht in X|]. rewrite fupd_ne by exact Hb. eauto.
  - intros a n. destruct (Nat.eq_dec a i) as [->|Ha]; [rewrite fupd_eq; auto|]. rewrite fupd_ne by exact Ha. apply U.
Qed.
Lemma s_acquire c i n rs l q m ak : SInv c -> SInv (fst (acquire (mkCl (ready c) (proto c) (nends c) rs l q m (tasks c) ak) i n)).
Proof.
  intros I. unfold acquire. cbn [lock queue]. destruct l; [apply s_set; auto; discriminate|]. destruct q; [|apply s_set; auto; discriminate].
  apply (s_set c i (GSent n (proto c)) (fupd rs (proto c) (Some false)) (Some i) [] m ak I). discriminate.
Qed.
Lemma s_attempt c i n rs l q m ak : SInv c -> (forall j k, tasks c j <> GOpen k) -> SInv (fst (attempt (mkCl (ready c) (proto c) (nends c) rs l q m (tasks c) ak) i n)).
Proof.
  intros I H. unfold attempt. cbn [ready]. destruct (ready c) eqn:R; [rewrite <- R; now apply s_acquire|].
  destruct I as [(_ & E & U)|(R' & _)]; [|congruence]. left. cbn [fst set_task ready nends tasks]. split; [reflexivity|]. split; [exact E|].
  intros a b x y. destruct (Nat.eq_dec a i) as [->|Ha]; [|rewrite fupd_ne by exact Ha; intros X; now apply H in X].
  destruct (Nat.eq_dec b i) as [->|Hb]; [reflexivity|rewrite (fupd_ne _ i b) by exact Hb; intros _ X; now apply H in X].
Qed.
Lemma s_step c ev : SInv c -> match ev with GStart _ | GWake _ => forall j n, tasks c j <> GOpen n | _ => True end -> SInv (fst (cl_step c ev)).
Proof.
  intros I O.
  assert (S : forall i t, (forall n, t <> GOpen n) -> SInv (set_task c i t)).
  { intros i t H. rewrite <- (eta c). now apply s_set. }
  destruct ev as [r|i x| |k|k|k|d a| |k|k|k|i|i|i]; cbn [DgModel.cl_step fst]; auto.
  - destruct (0 <? max); [now apply s_attempt|]. apply s_set; auto. discriminate.
  - destruct (tasks c i) as [n|n|n e|n|o] eqn:E; auto. destruct x as [x|].
    + destruct x; apply S; try discriminate. destruct (max <=? n + 1); discriminate.
    + destruct I as [(R & En & U)|(R & En & U)]; [|now apply U in E].
      assert (N : forall j k, j <> i -> tasks c j <> GOpen k) by (intros j k Hj Hk; apply Hj; eauto).
      rewrite En. unfold acquire. cbn [lock queue].
      assert (Q : forall t rs l q, (forall k, t <> GOpen k) -> SInv (set_task (mkCl true 0 1 rs l q (gn c) (tasks c) (gasked c)) i t)).
      { intros t rs l q Ht. right. cbn [set_task ready nends tasks]. split; [reflexivity|]. split; [reflexivity|]. intros j k.
        destruct (Nat.eq_dec j i) as [->|Hj]; [rewrite fupd_eq; apply Ht|rewrite fupd_ne by exact Hj; now apply N]. }
      destruct (lock c); [apply Q; discriminate|]. destruct (queue c); [|apply Q; discriminate].
      apply (Q (GSent n 0) (fupd (fupd (resp c) 0 None) 0 (Some false)) (Some i) []). discriminate.
  - destruct (lock c) eqn:L; auto. destruct (queue c) as [|i q]; auto. destruct (tasks c i) as [n|n|n e|n|o] eqn:E; auto.
    apply (s_set c i (GSent n (proto c)) (fupd (resp c) (proto c) (Some false)) (Some i) q (gn c) (gasked c) I). discriminate.
  - destruct (tasks c i) as [n|n|n e|n|o] eqn:E; auto. apply s_set; auto. destruct (max <=? n + 1); discriminate.
  - destruct (tasks c i) as [n|n|n e|n|o] eqn:E; auto. destruct (n <? max); [|apply S; discriminate]. rewrite <- (eta c). now apply s_attempt.
  - destruct (tasks c i) as [n|n|n e|n|o] eqn:E; auto; try (apply S; discriminate); apply s_set; auto; discriminate.
Qed.
Theorem one_socket es : throughout gstep one_opens gfresh es -> (nends (me (grun es)) <= 1)%nat.
Proof.
  intros H. enough (Q : SInv (me (grun es))) by (destruct Q as [(_ & -> & _)|(_ & -> & _)]; lia).
  unfold DgModel.grun in *. induction es as [|ev es IH] using rev_ind.
  - left. cbn. repeat split. discriminate.
  - apply throughout_app in H as [H [He _]]. rewrite fold_left_app. cbn [fold_left]. specialize (IH H). set (s := fold_left gstep es gfresh) in *.
    assert (CL : SInv (me (let (c, ps) := cl_step (me s) ev in mkDg (srv s) (up s ++ ps) (down s) c (ran s)))).
    { pose proof (s_step (me s) ev IH) as Q. destruct (cl_step (me s) ev). apply Q. destruct ev; try exact Logic.I; exact He. }
    destruct ev as [r|i x| |k|k|k|d a| |k|k|k|i|i|i]; cbn [DgModel.gstep]; try exact CL; try exact IH.
    + destruct (nth_error (up s) k) as [[d a]|]; exact IH.
    + destruct (nth_error (up s) k); exact IH.
    + destruct (nth_error (down s) k) as [[b [e j|]]|]; [|exact IH|exact IH]. cbn [me].
      destruct (received_cases utf8 (me s) e b) as [->|(i & n & t & L & T & Dc & ->)]; [exact IH|]. apply s_set; [exact IH|discriminate].
    + destruct (nth_error (down s) k); exact IH.
Qed.

(** ** What the caller gets *)
Context {R : Type} (str_of : json -> string) (build : list (string * json) -> option R).
Lemma answered_told s e j k b t : (forall v, JsonSpec.proper (dump v)) -> sendable (me s) j -> AnsweredAt (me s) (ran s) b e j k -> decode b = Some t ->
  exists r h, handled_for accepted_resp app s j k r h /\ receive parse client_int client_span_ok str_of build (OText t) = told str_of build (pstatus r) (data_of dump r).
Proof.
  intros DP [Vk Pr] (L & Rn & An) Dc. unfold AskModel.answer in An. destruct (serve accepted_resp app k (gasks (me s) j)) as [[r|x] h] eqn:S; cbn [fst] in An; [|discriminate].
  injection An as <-. unfold AskModel.decode in Dc. rewrite of_bytes_bytes in Dc. destruct (utf8 _); [|discriminate]. injection Dc as <-.
  exists r, h. split; [split; [exact L|]; exists e; split; [exact Rn|exact S]|].
  apply receive_fields with (k := rspan (gasked (me s) j)); auto.
  - eapply serve_span; eauto. unfold gasks in S. rewrite S. reflexivity.
  - rewrite <- (sapp_nil (body dump r)), body_fields. apply (round_trip _ EmptyString EmptyString (fields_proper dump r DP) blank_nil blank_nil).
Qed.
End Dg.
