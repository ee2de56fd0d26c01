(** Proofs about messages between two applications: a run of both, seen from each, and what the connections know. *)
From Coq Require Import List ZArith NArith Bool String Lia Permutation.
From Verif Require Import Base PermTac PQueueModel PQueueSpec PendingModel PendingSpec
  SenderModel SenderSpec SenderProofs SenderProofs3 HandlerModel HandlerSpec HandlerProofs HandlerProofs2 HandlerProofs5
  DeliveryModel DeliverySpec DeliveryProofs DeliveryProofs2.
Import ListNotations.
Local Open Scope Z_scope.

(** ** Lists *)
Lemma nth_del {A} i j (l : list A) : nth_error (del_nth i l) j = nth_error l (if (j <? i)%nat then j else S j).
Proof.
  revert i j. induction l as [|x l IH]; intros [|i] [|j]; try reflexivity.
  - cbn [del_nth]. destruct (S j <? S i)%nat; reflexivity.
  - cbn [del_nth nth_error]. rewrite IH. change (S j <? S i)%nat with (j <? i)%nat. destruct (j <? i)%nat; reflexivity.
Qed.
Lemma del_none {A} i (l : list A) : nth_error l i = None -> del_nth i l = l.
Proof. revert i. induction l as [|x l IH]; intros [|i] H; cbn in *; try discriminate; auto. f_equal; auto. Qed.
Definition somes {A} (l : list (option A)) : list A := flat_map (fun x => match x with Some y => [y] | None => [] end) l.
Lemma somes_app {A} (l l' : list (option A)) : somes (l ++ l') = somes l ++ somes l'. Proof. apply flat_map_app. Qed.
Lemma somes_in {A} (l : list (option A)) x : In x (somes l) <-> In (Some x) l.
Proof.
  unfold somes. rewrite in_flat_map. split.
  - intros [[y|] [H I]]; [|destruct I]. destruct I as [->|[]]; auto.
  - intros H. exists (Some x). split; [auto|now left].
Qed.

Section World.
Context {D MA MB : Type}.
Variables (meta_a : MA) (dto_a truthy_a : D -> bool) (wait : bool) (max_a cmax : Z).
Variables (meta_b : MB) (dto_b truthy_b : D -> bool) (max_b : Z).
Notation world := (world D MA MB). Notation wev := (wev D MB). Notation wout := (wout D). Notation conn := (conn D). Notation msg := (msg D).
Notation wstep := (@wstep D MA MB meta_a dto_a truthy_a wait max_a cmax meta_b dto_b truthy_b max_b).
Notation wrun := (@wrun D MA MB meta_a dto_a truthy_a wait max_a cmax meta_b dto_b truthy_b max_b).
Notation sstep := (@sstep D MA meta_a dto_a truthy_a wait max_a).
Notation srun := (@srun D MA meta_a dto_a truthy_a wait max_a).
Notation hstep := (@hstep D MB meta_b dto_b truthy_b max_b).
Notation hrun := (@hrun D MB meta_b dto_b truthy_b max_b).
Notation end_call := (@end_call D MA MB meta_a dto_a truthy_a wait max_a).
Implicit Types (w : world).

(** ** A run of both is a run of each *)
Lemma srun_one s e : srun s [e] = sstep s e.
Proof. cbn [SenderModel.srun]. destruct (sstep s e) as [s1 o1]. now rewrite app_nil_r. Qed.
Lemma hrun_one s e : hrun s [e] = hstep s e.
Proof. cbn [HandlerModel.hrun]. destruct (hstep s e) as [s1 o1]. now rewrite app_nil_r. Qed.

Definition a_part w w' (ea : list (sev D)) : Prop := exists o, srun (wa w) ea = (wa w', o) /\ ao w' = ao w ++ o.
Definition b_part w w' (eb : list (hev D MB)) : Prop := exists o, hrun (wb w) eb = (wb w', o) /\ bo w' = bo w ++ o.
Lemma a_none w w' : wa w' = wa w -> ao w' = ao w -> a_part w w' [].
Proof. intros A B. exists []. rewrite app_nil_r, A. auto. Qed.
Lemma b_none w w' : wb w' = wb w -> bo w' = bo w -> b_part w w' [].
Proof. intros A B. exists []. rewrite app_nil_r, A. auto. Qed.

Lemma step_a w e w' : (let (s, o) := sstep (wa w) e in w' = set_a w s o (wcalls w')) -> a_part w w' [e] /\ b_part w w' [].
Proof.
  intros H. destruct (sstep (wa w) e) as [s o] eqn:E. rewrite H. split; [|now apply b_none].
  exists o. rewrite srun_one, E. auto.
Qed.
Lemma step_end w i cn r w' : w' = end_call w i cn r -> a_part w w' [STask i r] /\ b_part w w' [].
Proof.
  unfold DeliveryModel.end_call. intros ->. destruct (sstep (wa w) (STask i r)) as [s o] eqn:E. split; [|now apply b_none].
  exists o. rewrite srun_one, E. auto.
Qed.
Lemma step_b w e w' cn cl : (let (s, o) := hstep (wb w) e in w' = set_b w s o cn cl) -> a_part w w' [] /\ b_part w w' [e].
Proof.
  intros H. destruct (hstep (wb w) e) as [s o] eqn:E. rewrite H. split; [now apply a_none|].
  exists o. rewrite hrun_one, E. auto.
Qed.

Lemma wstep_parts w ev w' l : wstep w ev = (w', l) -> exists ea eb, a_part w w' ea /\ b_part w w' eb /\
  (calm ev = true -> forallb (fun e => negb (cancels e)) ea = true /\ forallb (fun e => negb (failure e)) eb = true).
Proof.
  assert (Id : w' = w -> exists ea eb, a_part w w' ea /\ b_part w w' eb /\
    (calm ev = true -> forallb (fun e => negb (cancels e)) ea = true /\ forallb (fun e => negb (failure e)) eb = true)).
  { intros ->. exists [], []. split; [now apply a_none|split; [now apply b_none|auto]]. }
  assert (Net : forall cn cs, w' = set_net w cn cs -> exists ea eb, a_part w w' ea /\ b_part w w' eb /\
    (calm ev = true -> forallb (fun e => negb (cancels e)) ea = true /\ forallb (fun e => negb (failure e)) eb = true)).
  { intros cn cs ->. exists [], []. split; [now apply a_none|split; [now apply b_none|auto]]. }
  assert (End : forall i cn r, w' = end_call w i cn r -> exists ea eb, a_part w w' ea /\ b_part w w' eb /\
    (calm ev = true -> forallb (fun e => negb (cancels e)) ea = true /\ forallb (fun e => negb (failure e)) eb = true)).
  { intros i cn r H. exists [STask i r], []. destruct (step_end _ _ _ _ _ H). auto. }
  intros E. destruct ev as [e|i|i x|i|c|c|e|k d]; cbn [DeliveryModel.wstep] in E.
  - assert (X : w' = w \/ let (s, o) := sstep (wa w) e in w' = set_a w s o (wcalls w')).
    { destruct e as [k d|i r|i| | | |k|k|k| |]; try (right; destruct (sstep (wa w) _) as [s o]; injection E as <- <-; reflexivity).
      destruct (sending w i); [left; now injection E|]. right. destruct (sstep (wa w) _) as [s o]; injection E as <- <-; reflexivity. }
    destruct X as [X|X]; [now apply Id|]. destruct (step_a _ _ _ X). exists [e], []. split; [auto|split; [auto|]].
    cbn [calm forallb]. intros C. now rewrite C.
  - destruct (sending w i) as [e|]; [|injection E as <- <-; now apply Id]. destruct (wcalls w i) as [n [c|]]; [injection E as <- <-; now apply Id|].
    destruct (n <? cmax); injection E as <- <-; [eapply Net; reflexivity|eapply End; reflexivity].
  - destruct (sending w i) as [e|]; [|injection E as <- <-; now apply Id]. destruct (wcalls w i) as [n c].
    destruct (n <? cmax); [|injection E as <- <-; now apply Id]. injection E as <- <-.
    destruct x as [m|]; [eapply End; reflexivity|]. destruct (cmax <=? n + 1); [eapply End; reflexivity|eapply Net; reflexivity].
  - destruct (sending w i) as [e|]; [|injection E as <- <-; now apply Id]. destruct (wcalls w i) as [n [c|]]; [|injection E as <- <-; now apply Id].
    destruct (nth_error (conns w) c) as [n'|]; [|injection E as <- <-; now apply Id].
    destruct (c_state n'); try (injection E as <- <-; now apply Id). injection E as <- <-. eapply End; reflexivity.
  - destruct (nth_error (conns w) c) as [n|]; [|injection E as <- <-; now apply Id].
    destruct (c_state n); try (injection E as <- <-; now apply Id). destruct (dto_b (c_data n)).
    + assert (X : exists cn cl, let (s, o) := hstep (wb w) (ERequest (c_key n) (c_data n)) in w' = set_b w s o cn cl).
      { destruct (hstep (wb w) _) as [s o]. destruct (recv_paused (wb w)); injection E as <- <-; eauto. }
      destruct X as [cn [cl X]]. destruct (step_b _ _ _ _ _ X). exists [], [ERequest (c_key n) (c_data n)]. auto.
    + injection E as <- <-. exists [], []. split; [now apply a_none|split; [|auto]]. apply b_none; [reflexivity|apply app_nil_r].
  - destruct (nth_error (conns w) c) as [n|]; [|injection E as <- <-; now apply Id].
    destruct (c_state n); try (injection E as <- <-; now apply Id); injection E as <- <-; eapply Net; reflexivity.
  - assert (X : w' = w \/ exists cn cl, let (s, o) := hstep (wb w) e in w' = set_b w s o cn cl).
    { destruct e; try (right; do 2 eexists; destruct (hstep (wb w) _) as [s o]; injection E as <- <-; reflexivity).
      left. now injection E. }
    destruct X as [X|[cn [cl X]]]; [now apply Id|]. destruct (step_b _ _ _ _ _ X). exists [], [e]. split; [auto|split; [auto|]].
    cbn [calm forallb]. intros C. now rewrite C.
  - destruct (dto_b d); [|injection E as <- <-; now apply Id].
    assert (X : exists cn cl, let (s, o) := hstep (wb w) (ERequest k d) in w' = set_b w s o cn cl).
    { destruct (hstep (wb w) _) as [s o]. injection E as <- <-; eauto. }
    destruct X as [cn [cl X]]. destruct (step_b _ _ _ _ _ X). exists [], [ERequest k d]. auto.
Qed.

Lemma a_part_trans w w1 w2 e1 e2 : a_part w w1 e1 -> a_part w1 w2 e2 -> a_part w w2 (e1 ++ e2).
Proof.
  intros [o1 [A1 B1]] [o2 [A2 B2]]. exists (o1 ++ o2). rewrite srun_app, A1, A2. split; [auto|]. now rewrite B2, B1, app_assoc.
Qed.
Lemma b_part_trans w w1 w2 e1 e2 : b_part w w1 e1 -> b_part w1 w2 e2 -> b_part w w2 (e1 ++ e2).
Proof.
  intros [o1 [A1 B1]] [o2 [A2 B2]]. exists (o1 ++ o2). rewrite hrun_app, A1, A2. split; [auto|]. now rewrite B2, B1, app_assoc.
Qed.

Theorem wrun_parts evs : forall w w' l, wrun w evs = (w', l) -> exists ea eb, a_part w w' ea /\ b_part w w' eb /\
  (forallb calm evs = true -> forallb (fun e => negb (cancels e)) ea = true /\ forallb (fun e => negb (failure e)) eb = true).
Proof.
  induction evs as [|ev r IH]; intros w w' l E; cbn [DeliveryModel.wrun] in E.
  - injection E as <- <-. exists [], []. split; [now apply a_none|split; [now apply b_none|auto]].
  - destruct (wstep w ev) as [w1 l1] eqn:E1. destruct (wrun w1 r) as [w2 l2] eqn:E2. injection E as <- <-.
    destruct (wstep_parts _ _ _ _ E1) as [ea [eb [A [B C]]]]. destruct (IH _ _ _ E2) as [ea2 [eb2 [A2 [B2 C2]]]].
    exists (ea ++ ea2), (eb ++ eb2). split; [eapply a_part_trans; eauto|]. split; [eapply b_part_trans; eauto|].
    cbn [forallb]. intros H. apply andb_prop in H as [H1 H2]. rewrite !forallb_app.
    destruct (C H1) as [-> ->]. destruct (C2 H2) as [-> ->]. auto.
Qed.

(** From the start: a run of the sender and a run of the endpoint. *)
Theorem wrun_start qa qb evs w l : wrun (wstart qa qb) evs = (w, l) -> exists ea eb,
  srun (s_setup qa) ea = (wa w, ao w) /\ hrun (setup qb) eb = (wb w, bo w) /\
  (forallb calm evs = true -> forallb (fun e => negb (cancels e)) ea = true /\ forallb (fun e => negb (failure e)) eb = true).
Proof.
  intros E. destruct (wrun_parts _ _ _ _ E) as [ea [eb [[o1 [A B]] [[o2 [F G]] C]]]]. exists ea, eb.
  cbn [wstart wa wb ao bo app] in *. rewrite B, G. auto.
Qed.

(** ** The connections *)
Definition pair_of (n : conn) : msg := (c_key n, c_data n).
Definition acc_conn (n : conn) : list msg :=
  match c_state n with CAnswered AAccepted | CRead AAccepted | CNoAnswer AAccepted => [pair_of n] | _ => [] end.
Definition read_conn (n : conn) : list msg := match c_state n with CRead AAccepted => [pair_of n] | _ => [] end.

Record J (L : list msg) w : Prop := mkJ {
  j_len : List.length (collectors w) = List.length (collecting (wb w));
  j_col : forall i c, nth_error (collectors w) i = Some (Some c) -> exists n, nth_error (conns w) c = Some n /\
            nth_error (collecting (wb w)) i = Some (pair_of n) /\ c_state n = CArrived;
  j_oth : forall i x, nth_error (collectors w) i = Some None -> nth_error (collecting (wb w)) i = Some x -> In x L;
  j_nd : NoDup (somes (collectors w));
  j_dto : Forall (fun x => dto_b (snd x) = true) (collecting (wb w)) /\
          Forall (fun x => dto_b (data_of x) = true) (accepted (bo w));
  j_call : forall i n c, wcalls w i = (n, Some c) -> exists e k, sending w i = Some e /\ nth_error (conns w) c = Some k /\
             pair_of k = (pe_key e, pe_data e);
  j_acc : exists ot, incl ot L /\ Permutation (map msg_of (accepted (bo w))) (flat_map acc_conn (conns w) ++ ot);
  j_del : Permutation (delivered (ao w)) (flat_map read_conn (conns w));
  j_src : Forall (fun n => In (OSend (c_key n) (c_data n)) (ao w)) (conns w);
  j_snd : forall i e, sending w i = Some e -> In (OSend (pe_key e) (pe_data e)) (ao w) }.

Lemma J_start qa qb : J [] (wstart qa qb).
Proof.
  assert (C : collecting (setup (D:=D) (M:=MB) qb) = []).
  { unfold setup. rewrite (proj2 (HandlerProofs6.check_recv _)). cbn [set_proc collecting]. now rewrite (proj2 (HandlerProofs6.check_recv _)). }
  assert (S : forall i e, nth_error (stasks (s_setup (D:=D) (M:=MA) qa)) i <> Some (SSending e)).
  { intros i e H. unfold s_setup in H. apply s_check_sending, s_check_sending in H. cbn in H. destruct i; discriminate. }
  constructor; cbn [wstart wa wb ao bo conns collectors wcalls]; try rewrite C.
  - reflexivity.
  - intros [|i] c H; discriminate.
  - intros [|i] x H; discriminate.
  - constructor.
  - split; constructor.
  - discriminate.
  - exists []. split; [apply incl_refl|constructor].
  - constructor.
  - constructor.
  - intros i e H. unfold sending in H. cbn [wstart wa] in H. destruct (nth_error _ i) as [t|] eqn:T; [|discriminate].
    destruct t; try discriminate. now apply S in T.
Qed.

Lemma J_more L L' w : incl L L' -> J L w -> J L' w.
Proof.
  intros I [A1 A2 A3 A4 A5 A6 [ot [A7 A7']] A8 A9 A10]. constructor; auto.
  - intros i x H1 H2. apply I. eauto.
  - exists ot. split; [eapply incl_tran; eauto|auto].
Qed.

(** Connection [c] is in the middle of the list. *)
Lemma set_conn_split (l : list conn) c n : nth_error l c = Some n -> exists l1 l2, l = l1 ++ n :: l2 /\
  forall x, set_conn l c x = l1 ++ mkConn (c_key n) (c_data n) x :: l2.
Proof.
  intros H. destruct (nth_error_split _ _ H) as [l1 [l2 [E Ln]]]. exists l1, l2. split; [auto|]. intros x.
  unfold set_conn. rewrite H, E. rewrite <- Ln. clear. induction l1 as [|y l1 IH]; [reflexivity|]. cbn. now rewrite IH.
Qed.
Lemma set_conn_other (l : list conn) c c' x : c' <> c -> nth_error (set_conn l c x) c' = nth_error l c'.
Proof. intros H. unfold set_conn. destruct (nth_error l c); [now apply put_nth_other|auto]. Qed.
Lemma set_conn_same (l : list conn) c x n : nth_error l c = Some n -> nth_error (set_conn l c x) c = Some (mkConn (c_key n) (c_data n) x).
Proof. intros H. unfold set_conn. rewrite H. eapply put_nth_same; eauto. Qed.

(** Connections keep what was sent over them, and what [run] works on. *)
Definition ext (l l' : list conn) : Prop := forall c n, nth_error l c = Some n -> exists n', nth_error l' c = Some n' /\
  pair_of n' = pair_of n /\ (c_state n = CArrived -> c_state n' = CArrived).
Lemma ext_refl l : ext l l. Proof. intros c n H. eauto. Qed.
Lemma ext_set l c n x : nth_error l c = Some n -> c_state n <> CArrived -> ext l (set_conn l c x).
Proof.
  intros H S c' n' H'. destruct (Nat.eq_dec c' c) as [->|Ne].
  - rewrite (set_conn_same _ _ _ _ H). eexists. split; [reflexivity|]. assert (n' = n) as -> by congruence. split; [reflexivity|]. now intros.
  - rewrite set_conn_other by auto. eauto.
Qed.
Lemma ext_snoc l n : ext l (l ++ [n]).
Proof. intros c n' H. exists n'. rewrite nth_error_app1; [auto|]. apply nth_error_Some. congruence. Qed.

Lemma src_set (P : N -> D -> Prop) l c x : Forall (fun n => P (c_key n) (c_data n)) l -> Forall (fun n => P (c_key n) (c_data n)) (set_conn l c x).
Proof.
  intros F. destruct (nth_error l c) as [n|] eqn:H; [|unfold set_conn; now rewrite H].
  destruct (set_conn_split _ _ _ H) as [l1 [l2 [E S]]]. rewrite S. rewrite E in F. apply Forall_app in F as [F1 F2]. inversion F2; subst.
  apply Forall_app. split; [auto|]. constructor; auto.
Qed.

Lemma acc_set l c n x : nth_error l c = Some n ->
  Permutation (acc_conn n ++ flat_map acc_conn (set_conn l c x)) (acc_conn (mkConn (c_key n) (c_data n) x) ++ flat_map acc_conn l).
Proof.
  intros H. destruct (set_conn_split _ _ _ H) as [l1 [l2 [E S]]]. rewrite S, E, !flat_map_app. cbn [flat_map]. perm.
Qed.
Lemma read_set l c n x : nth_error l c = Some n ->
  Permutation (read_conn n ++ flat_map read_conn (set_conn l c x)) (read_conn (mkConn (c_key n) (c_data n) x) ++ flat_map read_conn l).
Proof.
  intros H. destruct (set_conn_split _ _ _ H) as [l1 [l2 [E S]]]. rewrite S, E, !flat_map_app. cbn [flat_map]. perm.
Qed.

(** Steps of the sending side and of the network. *)
Lemma J_a L w s o cn cs : J L w -> ext (conns w) cn -> Permutation (flat_map acc_conn cn) (flat_map acc_conn (conns w)) ->
  Permutation (delivered (ao w ++ o)) (flat_map read_conn cn) ->
  Forall (fun n => In (OSend (c_key n) (c_data n)) (ao w ++ o)) cn ->
  (forall i e, nth_error (stasks s) i = Some (SSending e) -> In (OSend (pe_key e) (pe_data e)) (ao w ++ o)) ->
  (forall i n c, cs i = (n, Some c) -> exists e k, nth_error (stasks s) i = Some (SSending e) /\ nth_error cn c = Some k /\
             pair_of k = (pe_key e, pe_data e)) ->
  J L (mkW s (ao w ++ o) (wb w) (bo w) cn (collectors w) cs).
Proof.
  intros [A1 A2 A3 A4 A5 A6 [ot [A7 A7']] A8 A9 A10] X Ac De Sr Sn Ca.
  constructor; cbn [wa wb ao bo conns collectors wcalls]; auto.
  - intros i c H. destruct (A2 _ _ H) as [n [B1 [B2 B3]]]. destruct (X _ _ B1) as [n' [C1 [C2 C3]]]. exists n'. rewrite C2. auto.
  - intros i n c H. destruct (Ca _ _ _ H) as [e [k [B1 [B2 B3]]]]. exists e, k. unfold sending. cbn [wa]. rewrite B1. auto.
  - exists ot. split; [auto|]. now rewrite Ac.
  - intros i e H. apply (Sn i). unfold sending in H. cbn [wa] in H. destruct (nth_error (stasks s) i) as [t|]; [|discriminate].
    destruct t; try discriminate. congruence.
Qed.

(** The sending application makes a step; the connections stay. *)
Lemma sending_some w i e : sending w i = Some e <-> nth_error (stasks (wa w)) i = Some (SSending e).
Proof.
  unfold sending. destruct (nth_error (stasks (wa w)) i) as [t|]; [|split; discriminate]. destruct t; split; try discriminate; congruence.
Qed.
Lemma J_sender L w e s o cn cs : J L w -> sstep (wa w) e = (s, o) -> ext (conns w) cn ->
  Permutation (flat_map acc_conn cn) (flat_map acc_conn (conns w)) ->
  Permutation (flat_map read_conn cn) (flat_map read_conn (conns w) ++ delivers (wa w) e) ->
  Forall (fun n => In (OSend (c_key n) (c_data n)) (ao w)) cn ->
  (forall i n c, cs i = (n, Some c) -> target e <> Some i /\ wcalls w i = (n, Some c)) ->
  J L (mkW s (ao w ++ o) (wb w) (bo w) cn (collectors w) cs).
Proof.
  intros Hj E X Ac Re Sr Ca. destruct (sstep_tasks _ _ _ _ _ _ _ _ _ E) as [T1 [T2 T3]]. apply J_a; auto.
  - rewrite delivered_cat, T3, Re. apply Permutation_app_tail, (j_del _ _ Hj).
  - eapply Forall_impl; [|exact Sr]. intros n H. apply in_or_app. auto.
  - intros i e' H. apply in_or_app. destruct (T2 _ _ H) as [[_ B]|B]; [left|now right]. apply (j_snd _ _ Hj i). now apply sending_some.
  - intros i n c H. destruct (Ca _ _ _ H) as [B1 B2]. destruct (j_call _ _ Hj _ _ _ B2) as [e' [k [C1 [C2 C3]]]].
    destruct (X _ _ C2) as [k' [F1 [F2 _]]]. exists e', k'. rewrite F2. apply sending_some in C1. auto.
Qed.

Lemma wcalls_task L w i : J L w -> sending w i = None -> forall n c, wcalls w i <> (n, Some c).
Proof. intros Hj S n c H. destruct (j_call _ _ Hj _ _ _ H) as [e [k [A _]]]. congruence. Qed.

Lemma upd_some f i (x : Z) j m c : call_upd f i (x, None) j = (m, Some c) -> Some i <> Some j /\ f j = (m, Some c).
Proof. unfold call_upd. destruct (Nat.eqb j i) eqn:E; [discriminate|]. apply Nat.eqb_neq in E. intros H. split; [congruence|auto]. Qed.

Lemma J_end L w i cn r : J L w -> ext (conns w) cn ->
  Permutation (flat_map acc_conn cn) (flat_map acc_conn (conns w)) ->
  Permutation (flat_map read_conn cn) (flat_map read_conn (conns w) ++ delivers (wa w) (STask i r)) ->
  Forall (fun n => In (OSend (c_key n) (c_data n)) (ao w)) cn -> J L (end_call w i cn r).
Proof.
  intros Hj X Ac Re Sr. unfold DeliveryModel.end_call. destruct (sstep (wa w) (STask i r)) as [s o] eqn:E.
  eapply J_sender; eauto. intros j n c H. cbn [target]. now apply upd_some in H.
Qed.

(** ** One step *)
Definition other_of (ev : wev) : list msg := match ev with WOther k d => [(k, d)] | _ => [] end.

Lemma J_b L w s o cn cl : J L w -> (forall c n, nth_error (conns w) c = Some n -> exists n', nth_error cn c = Some n' /\ pair_of n' = pair_of n) ->
  Permutation (flat_map read_conn cn) (flat_map read_conn (conns w)) ->
  Forall (fun n => In (OSend (c_key n) (c_data n)) (ao w)) cn ->
  List.length cl = List.length (collecting s) ->
  (forall i c, nth_error cl i = Some (Some c) -> exists n, nth_error cn c = Some n /\ nth_error (collecting s) i = Some (pair_of n) /\ c_state n = CArrived) ->
  (forall i x, nth_error cl i = Some None -> nth_error (collecting s) i = Some x -> In x L) ->
  NoDup (somes cl) -> Forall (fun x => dto_b (snd x) = true) (collecting s) ->
  Forall (fun x => dto_b (data_of x) = true) (accepted o) ->
  (exists ot, incl ot L /\ Permutation (map msg_of (accepted o) ++ flat_map acc_conn (conns w)) (flat_map acc_conn cn ++ ot)) ->
  J L (set_b w s o cn cl).
Proof.
  intros [A1 A2 A3 A4 [A5 A5'] A6 [ot [A7 A7']] A8 A9 A10] X Re Sr Le Co Ot Nd D1 D2 [ot2 [B1 B2]].
  constructor; cbn [set_b wa wb ao bo conns collectors wcalls]; auto.
  - split; [auto|]. rewrite accepted_app. apply Forall_app. auto.
  - intros i n c H. destruct (A6 _ _ _ H) as [e [k [C1 [C2 C3]]]]. destruct (X _ _ C2) as [k' [F1 F2]]. exists e, k'. rewrite F2. auto.
  - exists (ot ++ ot2). split; [now apply incl_app|]. rewrite accepted_app, map_app, A7'.
    transitivity ((map msg_of (accepted o) ++ flat_map acc_conn (conns w)) ++ ot); [perm|]. rewrite B2. perm.
  - now rewrite Re.
Qed.

Lemma ext_pair l l' : ext l l' -> forall c n, nth_error l c = Some n -> exists n', nth_error l' c = Some n' /\ pair_of n' = pair_of n.
Proof. intros X c n H. destruct (X _ _ H) as [n' [A [B _]]]. eauto. Qed.

Lemma wstep_J L w ev w' l : J L w -> wstep w ev = (w', l) -> J (L ++ other_of ev) w'.
Proof.
  intros Hj E.
  destruct ev as [e|i|i x|i|c|c|e|k d]; cbn [DeliveryModel.wstep other_of] in *; rewrite ?app_nil_r.
  - assert (St : forall s o cs, sstep (wa w) e = (s, o) -> delivers (wa w) e = [] ->
      (forall i n c, cs i = (n, Some c) -> target e <> Some i /\ wcalls w i = (n, Some c)) -> J L (set_a w s o cs)).
    { intros s o cs H Dl Ca. eapply J_sender; eauto; [apply ext_refl|now rewrite Dl, app_nil_r|apply (j_src _ _ Hj)]. }
    destruct e as [k d|i r|i| | | |k|k|k| |];
      try (destruct (sstep (wa w) _) as [s o] eqn:S; injection E as <- <-; apply (St _ _ _ eq_refl eq_refl); intros; split; [discriminate|auto]).
    + destruct (sending w i) as [e|] eqn:Sn; [injection E as <- <-; auto|].
      destruct (sstep (wa w) _) as [s o] eqn:S; injection E as <- <-. apply (St _ _ _ eq_refl).
      * cbn [delivers]. unfold sending in Sn. destruct r; try reflexivity. destruct (nth_error _ i) as [[]|]; try reflexivity. discriminate.
      * intros j n c H. split; [|auto]. cbn [target]. intros Hi. injection Hi as <-. eapply wcalls_task in Hj; eauto.
    + destruct (sstep (wa w) _) as [s o] eqn:S; injection E as <- <-. apply (St _ _ _ eq_refl); [reflexivity|].
      intros j n c H. cbn [target]. now apply upd_some in H.
  - destruct (sending w i) as [e|] eqn:Sn; [|injection E as <- <-; auto].
    destruct (wcalls w i) as [n [c|]] eqn:Wc; [injection E as <- <-; auto|].
    destruct (n <? cmax); injection E as <- <-.
    + pose proof (J_a L w (wa w) [] (conns w ++ [mkConn (pe_key e) (pe_data e) CTravelling])
        (call_upd (wcalls w) i (n, Some (List.length (conns w)))) Hj) as G. unfold set_net. rewrite app_nil_r in G. apply G; clear G.
      * apply ext_snoc.
      * rewrite flat_map_app. cbn [flat_map acc_conn c_state app]. now rewrite app_nil_r.
      * rewrite flat_map_app. cbn [flat_map read_conn c_state app]. rewrite app_nil_r. apply (j_del _ _ Hj).
      * apply Forall_app. split; [apply (j_src _ _ Hj)|]. constructor; [|constructor]. cbn [c_key c_data]. now apply (j_snd _ _ Hj i).
      * intros j e' H. apply (j_snd _ _ Hj j). now apply sending_some.
      * intros j m c H. unfold call_upd in H. destruct (Nat.eqb j i) eqn:Ji.
        -- apply Nat.eqb_eq in Ji as ->. injection H as <- <-. exists e. eexists. apply sending_some in Sn. split; [auto|].
           rewrite nth_error_app2, Nat.sub_diag by auto. split; reflexivity.
        -- destruct (j_call _ _ Hj _ _ _ H) as [e' [k [A [B C]]]]. exists e', k. apply sending_some in A. split; [auto|].
           rewrite nth_error_app1; [auto|]. apply nth_error_Some. congruence.
    + apply J_end; auto; [apply ext_refl|now rewrite app_nil_r|apply (j_src _ _ Hj)].
  - destruct (sending w i) as [e|] eqn:Sn; [|injection E as <- <-; auto]. destruct (wcalls w i) as [n c] eqn:Wc.
    destruct (n <? cmax); [|injection E as <- <-; auto]. injection E as <- <-.
    destruct x as [m|]; [apply J_end; auto; [apply ext_refl|now rewrite app_nil_r|apply (j_src _ _ Hj)]|].
    destruct (cmax <=? n + 1); [apply J_end; auto; [apply ext_refl|now rewrite app_nil_r|apply (j_src _ _ Hj)]|].
    pose proof (J_a L w (wa w) [] (conns w) (call_upd (wcalls w) i (n + 1, None)) Hj) as G. unfold set_net. rewrite app_nil_r in G. apply G; clear G.
    + apply ext_refl.
    + reflexivity.
    + apply (j_del _ _ Hj).
    + apply (j_src _ _ Hj).
    + intros j e' H. apply (j_snd _ _ Hj j). now apply sending_some.
    + intros j m c' H. apply upd_some in H as [_ H].
      destruct (j_call _ _ Hj _ _ _ H) as [e' [k [A [B C]]]]. exists e', k. apply sending_some in A. auto.
  - destruct (sending w i) as [e|] eqn:Sn; [|injection E as <- <-; auto].
    destruct (wcalls w i) as [n [c|]] eqn:Wc; [|injection E as <- <-; auto].
    destruct (nth_error (conns w) c) as [k|] eqn:Nc; [|injection E as <- <-; auto].
    destruct (c_state k) as [| |a|a| |a] eqn:Sk; try (injection E as <- <-; auto; fail). injection E as <- <-.
    destruct (j_call _ _ Hj _ _ _ Wc) as [e' [k' [A [B C]]]]. assert (e' = e) as -> by congruence. assert (k' = k) as -> by congruence.
    assert (X : ext (conns w) (set_conn (conns w) c (CRead a))) by (eapply ext_set; eauto; congruence).
    pose proof (acc_set _ _ _ (CRead a) Nc) as P1. pose proof (read_set _ _ _ (CRead a) Nc) as P2.
    apply J_end; auto.
    + unfold acc_conn in P1 at 1 3. cbn [c_state] in P1. rewrite Sk in P1. change (pair_of (mkConn (c_key k) (c_data k) (CRead a))) with (pair_of k) in P1.
      destruct a; cbn [app] in P1; auto. now apply Permutation_cons_inv in P1.
    + unfold read_conn in P2 at 1 3. cbn [c_state] in P2. rewrite Sk in P2. cbn [delivers].
      apply sending_some in Sn. rewrite Sn.
      replace (msg_p e) with (pair_of k) by exact C. change (pair_of (mkConn (c_key k) (c_data k) (CRead a))) with (pair_of k) in P2.
      destruct a; cbn [app outcome_of] in *; rewrite P2; perm.
    + apply (src_set (fun k d => In (OSend k d) (ao w))), (j_src _ _ Hj).
  - destruct (nth_error (conns w) c) as [n|] eqn:Nc; [|injection E as <- <-; auto].
    destruct (c_state n) as [| |a|a| |a] eqn:Sk; try (injection E as <- <-; auto; fail).
    assert (Nar : c_state n <> CArrived) by congruence.
    assert (Keep : forall x, match x with CAnswered AAccepted | CRead _ | CNoAnswer _ => False | _ => True end ->
      ext (conns w) (set_conn (conns w) c x) /\ Permutation (flat_map acc_conn (set_conn (conns w) c x)) (flat_map acc_conn (conns w)) /\
      Permutation (flat_map read_conn (set_conn (conns w) c x)) (flat_map read_conn (conns w))).
    { intros x Hx. split; [eapply ext_set; eauto|]. pose proof (acc_set _ _ _ x Nc) as P1. pose proof (read_set _ _ _ x Nc) as P2.
      unfold acc_conn in P1 at 1 3. unfold read_conn in P2 at 1 3. cbn [c_state] in P1, P2. rewrite Sk in P1, P2.
      destruct x as [| |[]|[]| |[]]; try contradiction; auto. }
    destruct (dto_b (c_data n)) eqn:Dn.
    + destruct (hstep (wb w) (ERequest (c_key n) (c_data n))) as [s o] eqn:H.
      pose proof (hstep_collecting _ _ _ _ _ _ _ _ H) as [Hc Ha]. destruct (recv_paused (wb w)); injection E as <- <-.
      * destruct (Keep (CAnswered ABusy) I) as [K1 [K2 K3]].
        apply J_b; auto; rewrite ?Hc, ?Ha; try apply Hj; try (constructor; fail).
        -- now apply ext_pair.
        -- apply (src_set (fun k d => In (OSend k d) (ao w))), (j_src _ _ Hj).
        -- intros i c' Hi. destruct (j_col _ _ Hj _ _ Hi) as [n' [A [B C]]]. exists n'. rewrite set_conn_other by congruence. auto.
        -- exists []. split; [easy|]. rewrite app_nil_r. now symmetry.
      * destruct (Keep CArrived I) as [K1 [K2 K3]].
        assert (Nin : ~ In c (somes (collectors w))).
        { rewrite somes_in. intros Hi. apply In_nth_error in Hi as [i Hi]. destruct (j_col _ _ Hj _ _ Hi) as [n' [A [B C]]]. congruence. }
        apply J_b; auto; rewrite ?Hc, ?Ha; try (constructor; fail).
        -- now apply ext_pair.
        -- apply (src_set (fun k d => In (OSend k d) (ao w))), (j_src _ _ Hj).
        -- rewrite !app_length. cbn. now rewrite (j_len _ _ Hj).
        -- intros i c' Hi. destruct (Nat.lt_ge_cases i (List.length (collectors w))) as [Li|Li].
           ++ rewrite nth_error_app1 in Hi by auto. destruct (j_col _ _ Hj _ _ Hi) as [n' [A [B C]]]. exists n'.
              rewrite set_conn_other by congruence. rewrite nth_error_app1 by (rewrite <- (j_len _ _ Hj); auto). auto.
           ++ rewrite nth_error_app2 in Hi by auto. destruct (i - List.length (collectors w))%nat as [|[|z]] eqn:Iz; try discriminate.
              injection Hi as <-. rewrite (set_conn_same _ _ _ _ Nc). eexists. split; [reflexivity|].
              rewrite nth_error_app2 by (rewrite <- (j_len _ _ Hj); auto). rewrite <- (j_len _ _ Hj), Iz. split; reflexivity.
        -- intros i x Hi Hx. destruct (Nat.lt_ge_cases i (List.length (collectors w))) as [Li|Li].
           ++ rewrite nth_error_app1 in Hi by auto. rewrite nth_error_app1 in Hx by (rewrite <- (j_len _ _ Hj); auto). eapply (j_oth _ _ Hj); eauto.
           ++ rewrite nth_error_app2 in Hi by auto. destruct (i - List.length (collectors w))%nat as [|[|z]] eqn:Iz; discriminate.
        -- rewrite somes_app. cbn [somes flat_map app]. apply NoDup_app_intro; [apply (j_nd _ _ Hj)|constructor; [intros []|constructor]|].
           intros x Hx [<-|[]]. auto.
        -- apply Forall_app. split; [apply (j_dto _ _ Hj)|constructor; [auto|constructor]].
        -- exists []. split; [easy|]. rewrite app_nil_r. now symmetry.
    + injection E as <- <-. destruct (Keep (CAnswered (AError "validation")) I) as [K1 [K2 K3]].
      apply J_b; auto; try apply Hj; try (constructor; fail).
      -- now apply ext_pair.
      -- apply (src_set (fun k d => In (OSend k d) (ao w))), (j_src _ _ Hj).
      -- intros i c' Hi. destruct (j_col _ _ Hj _ _ Hi) as [n' [A [B C]]]. exists n'. rewrite set_conn_other by congruence. auto.
      -- exists []. split; [easy|]. rewrite app_nil_r. now symmetry.
  - destruct (nth_error (conns w) c) as [n|] eqn:Nc; [|injection E as <- <-; auto].
    assert (Net : forall x, c_state n <> CArrived ->
      acc_conn (mkConn (c_key n) (c_data n) x) = acc_conn n -> read_conn (mkConn (c_key n) (c_data n) x) = read_conn n ->
      J L (set_net w (set_conn (conns w) c x) (wcalls w))).
    { intros x Na P Q. pose proof (acc_set _ _ _ x Nc) as P1. pose proof (read_set _ _ _ x Nc) as P2. rewrite P in P1. rewrite Q in P2.
      apply Permutation_app_inv_l in P1. apply Permutation_app_inv_l in P2.
      assert (X : ext (conns w) (set_conn (conns w) c x)) by (eapply ext_set; eauto).
      pose proof (J_a L w (wa w) [] (set_conn (conns w) c x) (wcalls w) Hj X P1) as G. unfold set_net. rewrite app_nil_r in G. apply G; clear G.
      - rewrite P2. apply (j_del _ _ Hj).
      - apply (src_set (fun k d => In (OSend k d) (ao w))), (j_src _ _ Hj).
      - intros j e' H. apply (j_snd _ _ Hj j). now apply sending_some.
      - intros j m c' H. destruct (j_call _ _ Hj _ _ _ H) as [e' [k [A [B C]]]]. destruct (X _ _ B) as [k' [F1 [F2 _]]].
        exists e', k'. apply sending_some in A. rewrite F2. auto. }
    destruct (c_state n) as [| |a|a| |a] eqn:Sk; try (injection E as <- <-; auto; fail); injection E as <- <-; apply Net; try discriminate;
      unfold acc_conn, read_conn; cbn [c_state]; rewrite Sk; destruct a || idtac; reflexivity.
  - assert (Plain : forall s o, hstep (wb w) e = (s, o) -> collecting s = collecting (wb w) -> accepted o = [] -> J L (set_b w s o (conns w) (collectors w))).
    { intros s o H Hc Ha. apply J_b; auto; rewrite ?Hc, ?Ha; try apply Hj; try (constructor; fail); [apply ext_pair, ext_refl|].
      exists []. split; [easy|]. rewrite app_nil_r. reflexivity. }
    assert (Del : forall s o i a ac, hstep (wb w) e = (s, o) -> collecting s = del_nth i (collecting (wb w)) -> accepted o = ac ->
      (forall k d, nth_error (collecting (wb w)) i = Some (k, d) ->
         map msg_of ac = match a with AAccepted => [(k, d)] | _ => [] end) ->
      (nth_error (collecting (wb w)) i = None -> ac = []) ->
      J L (set_b w s o (answered w i a) (del_nth i (collectors w)))).
    { intros s o i a ac H Hc Ha Hac Hno. unfold answered.
      assert (Len : List.length (del_nth i (collectors w)) = List.length (del_nth i (collecting (wb w)))).
      { destruct (nth_error (collectors w) i) as [y|] eqn:Y.
        - destruct (nth_error (collecting (wb w)) i) as [z|] eqn:Z.
          2:{ apply nth_error_None in Z. rewrite <- (j_len _ _ Hj) in Z. apply nth_error_None in Z. congruence. }
          destruct (del_nth_split _ _ _ Y) as [l1 [l2 [E1 E2]]]. destruct (del_nth_split _ _ _ Z) as [l3 [l4 [E3 E4]]].
          pose proof (j_len _ _ Hj) as Ln. rewrite E1, E3 in Ln. rewrite E2, E4. rewrite !app_length in *. cbn in Ln. lia.
        - rewrite (del_none _ _ Y). rewrite del_none; [apply (j_len _ _ Hj)|]. apply nth_error_None. rewrite <- (j_len _ _ Hj). now apply nth_error_None. }
      assert (Oth : forall j x, nth_error (del_nth i (collectors w)) j = Some None -> nth_error (del_nth i (collecting (wb w))) j = Some x -> In x L).
      { intros j x. rewrite !nth_del. apply (j_oth _ _ Hj). }
      assert (Nd : NoDup (somes (del_nth i (collectors w)))).
      { destruct (nth_error (collectors w) i) as [y|] eqn:Y; [|rewrite del_none by auto; apply (j_nd _ _ Hj)].
        destruct (del_nth_split _ _ _ Y) as [l1 [l2 [E1 E2]]]. pose proof (j_nd _ _ Hj) as N. rewrite E1 in N. rewrite E2.
        rewrite somes_app in *. destruct y as [c|]; [|exact N]. cbn [somes flat_map app] in N. fold (somes l2) in N. now apply NoDup_remove_1 in N. }
      assert (Dt : Forall (fun x => dto_b (snd x) = true) (del_nth i (collecting (wb w)))).
      { destruct (nth_error (collecting (wb w)) i) as [y|] eqn:Y; [|rewrite del_none by auto; apply (j_dto _ _ Hj)].
        destruct (del_nth_split _ _ _ Y) as [l1 [l2 [E1 E2]]]. pose proof (proj1 (j_dto _ _ Hj)) as N. rewrite E1 in N. rewrite E2.
        apply Forall_app in N as [N1 N2]. inversion N2; subst. apply Forall_app. auto. }
      assert (Da : Forall (fun x => dto_b (data_of x) = true) ac).
      { destruct (nth_error (collecting (wb w)) i) as [[k d]|] eqn:Y; [|rewrite Hno by auto; constructor].
        specialize (Hac _ _ eq_refl). rewrite Forall_forall. intros x Hx. apply (in_map msg_of) in Hx. rewrite Hac in Hx.
        destruct a; [|destruct Hx..]. destruct Hx as [Hx|[]]. unfold msg_of in Hx. injection Hx as _ <-.
        pose proof (proj1 (j_dto _ _ Hj)) as N. rewrite Forall_forall in N. apply nth_error_In in Y. now apply (N (k, d)). }
      destruct (nth_error (collectors w) i) as [[c|]|] eqn:Y.
      - destruct (j_col _ _ Hj _ _ Y) as [n [A [B C]]]. specialize (Hac _ _ B).
        apply J_b; auto; rewrite ?Hc, ?Ha; auto.
        + intros c' n' H'. destruct (Nat.eq_dec c' c) as [->|Ne].
          * rewrite (set_conn_same _ _ _ _ A). eexists. split; [reflexivity|]. assert (n' = n) as -> by congruence. reflexivity.
          * rewrite set_conn_other by auto. eauto.
        + pose proof (read_set _ _ _ (CAnswered a) A) as P2. unfold read_conn in P2 at 1 3. cbn [c_state] in P2. rewrite C in P2. exact P2.
        + apply (src_set (fun k d => In (OSend k d) (ao w))), (j_src _ _ Hj).
        + intros j c' Hi. assert (Cn : c' <> c).
          { intros ->. destruct (del_nth_split _ _ _ Y) as [l1 [l2 [E1 E2]]]. pose proof (j_nd _ _ Hj) as N. rewrite E1 in N. rewrite somes_app in N.
            cbn [somes flat_map app] in N. fold (somes l2) in N. apply NoDup_remove_2 in N. apply N. rewrite <- somes_app, <- E2, somes_in.
            eapply nth_error_In; eauto. }
          rewrite nth_del in Hi. rewrite nth_del. destruct (j_col _ _ Hj _ _ Hi) as [n' [A' [B' C']]]. exists n'. rewrite set_conn_other by auto. auto.
        + exists []. split; [easy|]. rewrite app_nil_r, Hac.
          pose proof (acc_set _ _ _ (CAnswered a) A) as P2. unfold acc_conn in P2 at 1 3. cbn [c_state] in P2. rewrite C in P2. cbn [app] in P2.
          rewrite P2. destruct a; reflexivity.
      - apply J_b; auto; rewrite ?Hc, ?Ha; auto; [apply ext_pair, ext_refl|apply (j_src _ _ Hj)| |].
        + intros j c' Hi. rewrite nth_del in Hi. rewrite nth_del. apply (j_col _ _ Hj _ _ Hi).
        + exists (map msg_of ac). split; [|perm]. intros x Hx.
          destruct (nth_error (collecting (wb w)) i) as [[k d]|] eqn:Z; [|now rewrite Hno in Hx].
          rewrite (Hac _ _ eq_refl) in Hx. destruct a; [|destruct Hx..]. destruct Hx as [<-|[]]. eapply (j_oth _ _ Hj); eauto.
      - assert (Z : nth_error (collecting (wb w)) i = None). { apply nth_error_None. rewrite <- (j_len _ _ Hj). now apply nth_error_None. }
        apply J_b; auto; rewrite ?Hc, ?Ha; auto; [apply ext_pair, ext_refl|apply (j_src _ _ Hj)| |].
        + intros j c' Hi. rewrite nth_del in Hi. rewrite nth_del. apply (j_col _ _ Hj _ _ Hi).
        + exists []. split; [easy|]. rewrite Hno, app_nil_r by auto. reflexivity. }
    destruct e; try (destruct (hstep (wb w) _) as [s o] eqn:H; injection E as <- <-; pose proof (hstep_collecting _ _ _ _ _ _ _ _ H) as [Hc Ha];
      now apply Plain); try (injection E as <- <-; exact Hj).
    + destruct (hstep (wb w) _) as [s o] eqn:H; injection E as <- <-; pose proof (hstep_collecting _ _ _ _ _ _ _ _ H) as [Hc Ha].
      eapply Del; eauto.
      * intros k d N. rewrite N. reflexivity.
      * intros N. now rewrite N.
    + destruct (hstep (wb w) _) as [s o] eqn:H; injection E as <- <-; pose proof (hstep_collecting _ _ _ _ _ _ _ _ H) as [Hc Ha].
      eapply Del; eauto.
  - destruct (dto_b d) eqn:Dd; [|injection E as <- <-; eapply J_more; [|exact Hj]; now apply incl_appl].
    destruct (hstep (wb w) (ERequest k d)) as [s o] eqn:H. pose proof (hstep_collecting _ _ _ _ _ _ _ _ H) as [Hc Ha].
    assert (Hj' : J (L ++ [(k, d)]) w) by (eapply J_more; [|exact Hj]; now apply incl_appl).
    injection E as <- <-. destruct (recv_paused (wb w)).
    + apply J_b; auto; rewrite ?Hc, ?Ha; try apply Hj'; try (constructor; fail); [apply ext_pair, ext_refl|].
      exists []. split; [easy|]. rewrite app_nil_r. reflexivity.
    + apply J_b; auto; rewrite ?Hc, ?Ha; try (constructor; fail); [apply ext_pair, ext_refl|apply (j_src _ _ Hj)| | | | | |].
      * rewrite !app_length. cbn. now rewrite (j_len _ _ Hj).
      * intros i c' Hi. destruct (Nat.lt_ge_cases i (List.length (collectors w))) as [Li|Li].
        -- rewrite nth_error_app1 in Hi by auto. rewrite nth_error_app1 by (rewrite <- (j_len _ _ Hj); auto). now apply (j_col _ _ Hj).
        -- rewrite nth_error_app2 in Hi by auto. destruct (i - List.length (collectors w))%nat as [|[|z]]; discriminate.
      * intros i x Hi Hx. destruct (Nat.lt_ge_cases i (List.length (collectors w))) as [Li|Li].
        -- rewrite nth_error_app1 in Hi by auto. rewrite nth_error_app1 in Hx by (rewrite <- (j_len _ _ Hj); auto). eapply (j_oth _ _ Hj'); eauto.
        -- rewrite nth_error_app2 in Hx by (rewrite <- (j_len _ _ Hj); auto). rewrite <- (j_len _ _ Hj) in Hx.
           destruct (i - List.length (collectors w))%nat as [|[|z]]; try discriminate. injection Hx as <-. apply in_or_app. right. now left.
      * rewrite somes_app. cbn [somes flat_map app]. rewrite app_nil_r. apply (j_nd _ _ Hj).
      * apply Forall_app. split; [apply (j_dto _ _ Hj)|constructor; [auto|constructor]].
      * exists []. split; [easy|]. rewrite app_nil_r. reflexivity.
Qed.

Theorem wrun_J evs : forall L w w' l, J L w -> wrun w evs = (w', l) -> J (L ++ others evs) w'.
Proof.
  induction evs as [|ev r IH]; intros L w w' l Hj E; cbn [DeliveryModel.wrun] in E.
  - injection E as <- <-. now rewrite app_nil_r.
  - destruct (wstep w ev) as [w1 l1] eqn:E1. destruct (wrun w1 r) as [w2 l2] eqn:E2. injection E as <- <-.
    apply (wstep_J _ _ _ _ _ Hj) in E1. apply (IH _ _ _ _ E1) in E2. rewrite <- app_assoc in E2. exact E2.
Qed.
End World.
