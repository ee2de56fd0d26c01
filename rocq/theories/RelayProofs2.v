(** Proofs about an application that passes requests on: what its sender was given, and that nothing is lost. *)
From Coq Require Import List ZArith NArith Bool String Lia Permutation.
From Verif Require Import Base PermTac PQueueModel PQueueSpec PQueueProofs PendingModel PendingSpec PendingProofs
  SenderModel SenderSpec SenderProofs SenderProofs2 SenderProofs3 HandlerModel HandlerSpec HandlerProofs HandlerProofs2 HandlerProofs3 HandlerProofs5
  DeliveryModel DeliverySpec DeliveryProofs DeliveryProofs3 DeliveryProofs4 RelayModel RelaySpec RelayProofs.
Import ListNotations.
Local Open Scope Z_scope.

Section Lists.
Context {A B : Type}.
Implicit Types (f : nat -> A -> list B).
Fixpoint idx f (n : nat) (l : list A) : list B := match l with [] => [] | x :: r => f n x ++ idx f (S n) r end.
Lemma idx_ext f f' n l : (forall j x, (n <= j)%nat -> f' j x = f j x) -> idx f' n l = idx f n l.
Proof. revert n. induction l as [|x l IH]; intros n H; [reflexivity|]. cbn [idx]. rewrite H by lia. f_equal. apply IH. intros. apply H. lia. Qed.
Lemma idx_set f f' l : forall n i u t, nth_error l i = Some u -> (forall j x, j <> (n + i)%nat -> f' j x = f j x) ->
  Permutation (f (n + i)%nat u ++ idx f' n (set_nth i t l)) (f' (n + i)%nat t ++ idx f n l).
Proof.
  induction l as [|x l IH]; intros n [|i] u t H F; try discriminate; cbn [set_nth idx nth_error] in *.
  - injection H as ->. rewrite Nat.add_0_r in *. rewrite (idx_ext f f'); [perm|]. intros j y L. apply F. lia.
  - replace (n + S i)%nat with (S n + i)%nat in * by lia. rewrite (F n x) by lia.
    transitivity (f n x ++ (f (S n + i)%nat u ++ idx f' (S n) (set_nth i t l))); [perm|].
    rewrite (IH (S n) i u t H F). perm.
Qed.
Lemma idx_snoc f l : forall n x, f (n + List.length l)%nat x = [] -> idx f n (l ++ [x]) = idx f n l.
Proof.
  induction l as [|y l IH]; intros n x H; cbn [app idx List.length] in *.
  - rewrite Nat.add_0_r in H. now rewrite H.
  - f_equal. apply IH. now replace (S n + List.length l)%nat with (n + S (List.length l))%nat by lia.
Qed.
End Lists.

Section Relay.
Context {DH MH D MA MB : Type}.
Variables (meta_h : MH) (dto_h truthy_h : DH -> bool) (max_h : Z).
Variables (meta_a : MA) (dto_a truthy_a : D -> bool) (wait : bool) (max_a cmax : Z).
Variables (meta_b : MB) (dto_b truthy_b : D -> bool) (max_b : Z).
Notation relay := (relay DH MH D MA MB). Notation rev := (rev DH MH D MB).
Notation rstep := (@rstep DH MH D MA MB meta_h dto_h truthy_h max_h meta_a dto_a truthy_a wait max_a cmax meta_b dto_b truthy_b max_b).
Notation rrun := (@rrun DH MH D MA MB meta_h dto_h truthy_h max_h meta_a dto_a truthy_a wait max_a cmax meta_b dto_b truthy_b max_b).
Notation hstep := (@hstep DH MH meta_h dto_h truthy_h max_h).
Notation hrun := (@hrun DH MH meta_h dto_h truthy_h max_h).
Notation wstep := (@wstep D MA MB meta_a dto_a truthy_a wait max_a cmax meta_b dto_b truthy_b max_b).
Notation wrun := (@wrun D MA MB meta_a dto_a truthy_a wait max_a cmax meta_b dto_b truthy_b max_b).
Notation sstep := (@sstep D MA meta_a dto_a truthy_a wait max_a).
Variable g : DH -> D.
Implicit Types (s : relay) (ev : rev).

(** ** What a step gives the sender *)
Definition w_enq (ev : wev D MB) : list (msg D) := match ev with WSender e => enq_of e | _ => [] end.
Lemma end_enq (w : world D MA MB) i cn r : enqueued (ao (end_call meta_a dto_a truthy_a wait max_a w i cn r)) = enqueued (ao w).
Proof.
  unfold end_call. pose proof (sstep_enq meta_a dto_a truthy_a wait max_a (wa w) (STask i r)) as X.
  destruct (sstep (wa w) (STask i r)) as [s o]. cbn [ao snd enq_of] in *. now rewrite enq_app, X, app_nil_r.
Qed.
Lemma wstep_enq w (ev : wev D MB) : enqueued (ao (fst (wstep w ev))) = enqueued (ao w) ++ w_enq ev.
Proof.
  destruct ev as [e|i|i x|i|c|c|e|k d]; cbn [DeliveryModel.wstep w_enq]; rewrite ?app_nil_r.
  - assert (X : forall cs, enqueued (ao (fst (let (s, o) := sstep (wa w) e in (set_a w s o cs, @nil (wout D))))) = enqueued (ao w) ++ enq_of e).
    { intros cs. pose proof (sstep_enq meta_a dto_a truthy_a wait max_a (wa w) e) as X. destruct (sstep (wa w) e) as [s o].
      cbn [fst snd set_a ao] in *. now rewrite enq_app, X. }
    destruct e; try apply X. destruct (sending w i); [|apply X]. cbn [fst enq_of]. now rewrite app_nil_r.
  - destruct (sending w i) as [e|]; [|reflexivity]. destruct (wcalls w i) as [n [c|]]; [reflexivity|].
    destruct (n <? cmax); cbn [fst]; [reflexivity|apply end_enq].
  - destruct (sending w i) as [e|]; [|reflexivity]. destruct (wcalls w i) as [n c].
    destruct (n <? cmax); cbn [fst]; [|reflexivity]. destruct x as [m|]; [apply end_enq|]. destruct (cmax <=? n + 1); [apply end_enq|reflexivity].
  - destruct (sending w i) as [e|]; [|reflexivity]. destruct (wcalls w i) as [n [c|]]; [|reflexivity].
    destruct (nth_error (conns w) c) as [n'|]; [|reflexivity]. destruct (c_state n'); try reflexivity. cbn [fst]. apply end_enq.
  - destruct (nth_error (conns w) c) as [n|]; [|reflexivity]. destruct (c_state n); try reflexivity. destruct (dto_b (c_data n)); [|reflexivity].
    match goal with |- context [HandlerModel.hstep ?a ?b ?c ?d ?e ?f] => destruct (HandlerModel.hstep a b c d e f) as [s o] end.
    destruct (recv_paused (wb w)); reflexivity.
  - destruct (nth_error (conns w) c) as [n|]; [|reflexivity]. destruct (c_state n); reflexivity.
  - destruct e; try reflexivity;
      match goal with |- context [HandlerModel.hstep ?a ?b ?c ?d ?e ?f] => destruct (HandlerModel.hstep a b c d e f) as [s o] end; reflexivity.
  - destruct (dto_b d); [|reflexivity].
    match goal with |- context [HandlerModel.hstep ?a ?b ?c ?d ?e ?f] => destruct (HandlerModel.hstep a b c d e f) as [s o] end. reflexivity.
Qed.

(** ** The runs of the parts *)
Lemma relay_parts evs : forall s s' l, rrun s evs = (s', l) ->
  (exists o, hrun (rh s) (at_first evs) = (rh s', o) /\ ro s' = ro s ++ o) /\
  exists ew, wrun (rw s) ew = (rw s', l) /\ others ew = others (beyond evs) /\ (forallb calm (beyond evs) = true -> forallb calm ew = true).
Proof.
  induction evs as [|ev r IH]; intros s s' l E; cbn [RelayModel.rrun] in E.
  - injection E as <- <-. split; [exists []; split; [reflexivity|now rewrite app_nil_r]|]. exists []. auto.
  - destruct (rstep s ev) as [s1 l1] eqn:E1. destruct (rrun s1 r) as [s2 l2] eqn:E2. injection E as <- <-.
    destruct (IH _ _ _ E2) as [[o [Eh Eo]] [ew [Ew [Ot Cm]]]]. destruct ev as [e|i k d|e]; cbn [RelayModel.rstep] in E1.
    + destruct (hstep (rh s) e) as [h oh] eqn:Es. injection E1 as <- <-. cbn [rh ro rw app] in *. split.
      * exists (oh ++ o). cbn [at_first flat_map app HandlerModel.hrun]. rewrite Es.
        change (flat_map _ r) with (at_first (D:=D) (MB:=MB) r). rewrite Eh. split; [reflexivity|]. now rewrite Eo, app_assoc.
      * exists ew. auto.
    + destruct (calling s i).
      * destruct (wstep (rw s) (WSender (SEnqueue k d))) as [w lw] eqn:Es. injection E1 as <- <-. cbn [rh ro rw] in *. split.
        -- exists o. auto.
        -- exists (WSender (SEnqueue k d) :: ew). cbn [DeliveryModel.wrun]. rewrite Es, Ew. split; [reflexivity|]. split; [exact Ot|]. exact Cm.
      * injection E1 as <- <-. split; [exists o; auto|]. exists ew. auto.
    + destruct (wstep (rw s) e) as [w lw] eqn:Es. injection E1 as <- <-. cbn [rh ro rw] in *. split; [exists o; auto|].
      exists (e :: ew). cbn [DeliveryModel.wrun]. rewrite Es, Ew. split; [reflexivity|]. split.
      * cbn [others beyond flat_map app]. unfold others in Ot. rewrite Ot. reflexivity.
      * cbn [beyond flat_map app forallb]. intros C. apply andb_prop in C as [-> C]. apply Cm, C.
Qed.

(** ** The link: what the sender was given *)
Definition gone_on s (i : nat) (t : tstate DH MH) : list (item DH MH) :=
  match t with
  | TCall e => match rsent s i with [] => [] | _ => [item_p e] end
  | TAfter e true => [item_p e]
  | _ => []
  end.
Lemma gone_idle s i t : idle t -> gone_on s i t = [].
Proof. destruct t; cbn; try reflexivity; intros []. Qed.
Definition Link (past : list (msg D)) s : Prop := exists la lr,
  Permutation (lost (ro s)) (la ++ lr) /\
  Permutation (enqueued (ao (rw s))) (map (passed g) (finished (ro s) ++ idx (gone_on s) 0 (tasks (rh s)) ++ la) ++ past).

Definition by_others ev : list (msg D) := match ev with RWorld (WSender (SEnqueue k d)) => [(k, d)] | _ => [] end.

Lemma link_step past s ev : Link past s -> keeps g s ev -> Link (past ++ by_others ev) (fst (rstep s ev)).
Proof.
  intros [la [lr [Pl Pe]]] K. destruct ev as [e|i k d|e]; cbn [RelayModel.rstep by_others].
  - rewrite app_nil_r. destruct (hstep (rh s) e) as [h o] eqn:E. cbn [fst].
    match goal with |- Link _ (mkR h _ ?f _) => set (sn := f) end.
    set (s' := mkR h (ro s ++ o) sn (rw s)).
    assert (Stay : forall j, (forall r b, e = ETask j r -> nth_error (tasks (rh s)) j = Some (TBefore b) -> False) -> sn j = rsent s j).
    { intros j H. subst sn. destruct e as [| | | | |i r| | | | | | | | | | |]; try reflexivity.
      destruct (nth_error (tasks (rh s)) i) as [[]|] eqn:T; try reflexivity. unfold sent_upd. destruct (Nat.eqb j i) eqn:Q; [|reflexivity].
      apply Nat.eqb_eq in Q as ->. exfalso. eapply H; eauto. }
    assert (Gs : forall j t, sn j = rsent s j -> gone_on s' j t = gone_on s j t).
    { intros j t H. destruct t; cbn [gone_on]; try reflexivity. subst s'. cbn [rsent]. now rewrite H. }
    (* the general step: task [i] goes from [t] to [t'] *)
    assert (Gen : forall i t t' la' lr', nth_error (tasks (rh s)) i = Some t -> tasks h = set_nth i t' (tasks (rh s)) ->
      (forall j r b, e = ETask j r -> nth_error (tasks (rh s)) j = Some (TBefore b) -> j = i) ->
      Permutation (lost o) (la' ++ lr') -> Permutation (finished o ++ gone_on s' i t' ++ la') (gone_on s i t) -> Link past s').
    { intros i t t' la' lr' N T B Lo P. exists (la ++ la'), (lr ++ lr'). cbn [ro s' rw rh]. split.
      - rewrite lost_app, Pl, Lo. perm.
      - rewrite finished_app. rewrite Pe. apply Permutation_app; [|reflexivity]. apply Permutation_map. rewrite T.
        pose proof (idx_set (gone_on s) (gone_on s') (tasks (rh s)) 0 i t t' N) as Q. cbn [Nat.add] in Q.
        assert (Q' : Permutation (gone_on s i t ++ idx (gone_on s') 0 (set_nth i t' (tasks (rh s)))) (gone_on s' i t' ++ idx (gone_on s) 0 (tasks (rh s)))).
        { apply Q. intros j x Ne. apply Gs, Stay. intros r b X Y. apply Ne. eapply B; eauto. }
        clear Q. apply Permutation_app_inv_l with (l := gone_on s' i t').
        transitivity (finished (ro s) ++ (gone_on s' i t' ++ idx (gone_on s) 0 (tasks (rh s))) ++ la); [perm|]. rewrite <- Q', <- P. perm. }
    destruct (hstep_change _ _ _ _ _ _ _ _ E) as [F B C T|i t t' F N I1 I2 T B C|i r x Ev F N T|i b x Ev F N T|i x t Ev F N W Lo T|i r x b t' Ev N I2 F T].
    + exists la, (lr ++ lost o). cbn [ro s' rw rh]. split; [rewrite lost_app, Pl; perm|].
      rewrite finished_app, F, app_nil_r. rewrite Pe. apply Permutation_app; [|reflexivity]. apply Permutation_map.
      assert (X : idx (gone_on s') 0 (tasks h) = idx (gone_on s) 0 (tasks (rh s))); [|now rewrite X].
      assert (Y : idx (gone_on s') 0 (tasks (rh s)) = idx (gone_on s) 0 (tasks (rh s))).
      { apply idx_ext. intros j y _. apply Gs, Stay. intros r b X Y. eapply B; eauto. }
      destruct T as [->| ->]; [auto|]. rewrite idx_snoc by reflexivity. auto.
    + apply (Gen i t t' [] (lost o)); auto. rewrite F, !gone_idle by auto. reflexivity.
    + apply (Gen i (TBefore x) (TCall x) [] (lost o)); auto.
      * intros j r' b X Y. congruence.
      * rewrite F. cbn [gone_on app]. subst s' sn. cbn [rsent]. rewrite Ev, N. unfold sent_upd. rewrite Nat.eqb_refl. reflexivity.
    + apply (Gen i (TCall x) (TAfter x b) [] (lost o)); auto.
      * intros j r' b' X Y. congruence.
      * rewrite F. subst e. cbn [keeps] in K. unfold calling in K. rewrite N in K. cbn [gone_on app]. rewrite K. destruct b; reflexivity.
    + apply (Gen i t TDone (gone_on s i t) (match gone_on s i t with [] => [item_p x] | _ => [] end)); auto.
      * intros j r' b X Y. destruct Ev as [Ev|Ev]; [|congruence]. destruct W as [W|[b' W]]; congruence.
      * rewrite Lo. destruct W as [->|[b ->]]; cbn [gone_on]; [destruct (rsent s i)|destruct b]; reflexivity.
      * rewrite F. reflexivity.
    + apply (Gen i (TAfter x b) t' [] (lost o)); auto.
      * intros j r' b' X Y. congruence.
      * rewrite F, gone_idle by auto. destruct b; reflexivity.
  - rewrite app_nil_r. cbn [keeps] in K. destruct (calling s i) as [x|] eqn:Cl; [|exists la, lr; auto].
    destruct K as [K1 K2]. pose proof (wstep_enq (rw s) (WSender (SEnqueue k d))) as W. destruct (wstep (rw s) (WSender (SEnqueue k d))) as [w lw].
    cbn [fst] in *. exists la, lr. cbn [ro rw rh]. split; [auto|]. rewrite W, Pe. cbn [w_enq enq_of]. rewrite K2, K1. cbn [app].
    unfold calling in Cl. destruct (nth_error (tasks (rh s)) i) as [[| |e| |]|] eqn:N; try discriminate. injection Cl as <-.
    set (s' := mkR (rh s) (ro s) (sent_upd (rsent s) i [passed g (item_p e)]) w).
    pose proof (idx_set (gone_on s) (gone_on s') (tasks (rh s)) 0 i (TCall e) (TCall e) N) as Q. cbn [Nat.add] in Q.
    assert (R : gone_on s i (TCall e) = []) by (cbn [gone_on]; now rewrite K1).
    assert (R' : gone_on s' i (TCall e) = [item_p e]) by (cbn [gone_on]; subst s'; cbn [rsent]; unfold sent_upd; now rewrite Nat.eqb_refl).
    assert (Ss : set_nth i (TCall e) (tasks (rh s)) = tasks (rh s)).
    { clear -N. revert i N. induction (tasks (rh s)) as [|t l IH]; intros [|i] N; cbn in *; try discriminate; [now injection N as ->|]. f_equal. auto. }
    rewrite R, R', Ss in Q. cbn [app] in Q.
    assert (Q' : Permutation (idx (gone_on s') 0 (tasks (rh s))) (item_p e :: idx (gone_on s) 0 (tasks (rh s)))).
    { apply Q. intros j y Ne. destruct y; cbn [gone_on]; try reflexivity. subst s'. cbn [rsent]. unfold sent_upd.
      destruct (Nat.eqb_spec j i); [contradiction|reflexivity]. }
    clear Q. transitivity (map (passed g) (finished (ro s) ++ (item_p e :: idx (gone_on s) 0 (tasks (rh s))) ++ la) ++ past).
    + rewrite !map_app. cbn [map]. perm.
    + apply Permutation_app; [|reflexivity]. apply Permutation_map. rewrite <- Q'. reflexivity.
  - pose proof (wstep_enq (rw s) e) as W. destruct (wstep (rw s) e) as [w lw]. cbn [fst] in *. exists la, lr. cbn [ro rw rh]. split; [auto|].
    rewrite W, Pe. change (idx (gone_on (mkR (rh s) (ro s) (rsent s) w))) with (idx (gone_on s)).
    rewrite <- app_assoc. apply Permutation_app; [reflexivity|]. apply Permutation_app; [reflexivity|].
    destruct e as [e| | | | | | |]; reflexivity.
Qed.

Lemma link_run evs : forall past s s' l, Link past s -> passes_on rstep g s evs -> rrun s evs = (s', l) -> Link (past ++ sent_by_others evs) s'.
Proof.
  induction evs as [|ev r IH]; intros past s s' l L P E; cbn [RelayModel.rrun] in E.
  - injection E as <- <-. cbn. now rewrite app_nil_r.
  - destruct P as [K P]. pose proof (link_step past s ev L K) as L1. destruct (rstep s ev) as [s1 l1]. cbn [fst] in *.
    destruct (rrun s1 r) as [s2 l2] eqn:E2. injection E as <- <-. pose proof (IH _ _ _ _ L1 P E2) as G.
    rewrite <- app_assoc in G. exact G.
Qed.
Lemma link_start qh qa qb : Link [] (rstart qh qa qb : relay).
Proof. exists [], []. split; [constructor|]. constructor. Qed.

Lemma gone_held s l : forall n, exists r, Permutation (flat_map held l) (idx (gone_on s) n l ++ r).
Proof.
  induction l as [|t l IH]; intros n; [exists []; reflexivity|]. destruct (IH (S n)) as [r P]. cbn [flat_map idx].
  assert (X : exists r1, Permutation (held t) (gone_on s n t ++ r1)).
  { destruct t as [|e|e|e b|]; cbn [held gone_on].
    - exists []. reflexivity.
    - exists [item_p e]. reflexivity.
    - destruct (rsent s n); [exists [item_p e]|exists []]; reflexivity.
    - destruct b; [exists []|exists [item_p e]]; reflexivity.
    - exists []. reflexivity. }
  destruct X as [r1 P1]. exists (r1 ++ r). rewrite P, P1. perm.
Qed.

(** ** Nothing is lost *)
Lemma passed_keys (l : list (item DH MH)) : map fst (map (passed g) l) = map key_of l.
Proof. rewrite map_map. reflexivity. Qed.
Lemma NoDup_part {A} (l l' r : list A) : Permutation l (l' ++ r) -> NoDup l -> NoDup l'.
Proof. intros P N. rewrite P in N. clear P. induction l' as [|x l' IH]; [constructor|]. cbn in N. inversion N; subst. constructor; [|auto].
  intros H. apply H1. apply in_or_app. auto. Qed.

(** Facts about what the sender had in a run in which the function passes requests on. *)
Lemma relay_mine qh qa qb lph leh evs s l (init : list (msg D)) :
  preachable meta_h qh -> usable qh -> holds qh lph leh ->
  rrun (rstart qh qa qb) evs = (s, l) -> closed (rh s) = 0%nat -> passes_on rstep g (rstart qh qa qb) evs ->
  let requests := accepted (ro s) ++ items_p lph ++ items_e leh in
  let mine := map (passed g) requests ++ sent_by_others evs ++ init in
  (exists rest, Permutation mine ((enqueued (ao (rw s)) ++ init) ++ rest)) /\
  (forall x, In x (finished (ro s)) -> In (passed g x) (enqueued (ao (rw s)))).
Proof.
  intros Rh Uh Hh E Ch Po requests mine.
  destruct (relay_parts _ _ _ _ E) as [[o [Eh Eo]] _]. cbn [rstart rh ro rw app] in Eh, Eo. subst o.
  destruct (conservation meta_h dto_h truthy_h max_h qh lph leh _ _ _ Rh Uh Hh Eh Ch) as [lp1 [le1 [_ P1]]]. fold requests in P1.
  destruct (link_run _ _ _ _ _ (link_start qh qa qb) Po E) as [la [lr [Pl Pe]]]. cbn [app] in Pe.
  destruct (gone_held s (tasks (rh s)) 0) as [rh' Ph]. split.
  - exists (map (passed g) (pushing (rh s) ++ items_p lp1 ++ rh' ++ items_e le1 ++ removed (ro s) ++ dropped (ro s) ++ lr)).
    unfold mine. rewrite Pe, P1. unfold in_process. rewrite Ph, Pl, !map_app. perm.
  - intros x H. rewrite Pe. apply in_or_app. left. apply in_map. apply in_or_app. auto.
Qed.

(** What the sender was given, for every run. *)
Theorem relay_given qh qa qb evs s l : rrun (rstart qh qa qb) evs = (s, l) -> passes_on rstep g (rstart qh qa qb) evs ->
  exists more, Permutation (enqueued (ao (rw s))) (map (passed g) (finished (ro s) ++ more) ++ sent_by_others evs) /\
    exists rest, Permutation (in_process (rh s) ++ lost (ro s)) (more ++ rest).
Proof.
  intros E Po. destruct (link_run _ _ _ _ _ (link_start qh qa qb) Po E) as [la [lr [Pl Pe]]]. cbn [app] in Pe.
  destruct (gone_held s (tasks (rh s)) 0) as [rh' Ph].
  exists (idx (gone_on s) 0 (tasks (rh s)) ++ la). split; [exact Pe|].
  exists (rh' ++ lr). unfold in_process. rewrite Ph, Pl. perm.
Qed.

Theorem relay_accounting qh qa qb lph leh lpa lea lpb leb evs s l :
  preachable meta_h qh -> usable qh -> holds qh lph leh -> preachable meta_a qa -> usable qa -> holds qa lpa lea ->
  preachable meta_b qb -> usable qb -> holds qb lpb leb ->
  rrun (rstart qh qa qb) evs = (s, l) -> closed (rh s) = 0%nat -> sclosed (wa (rw s)) = 0%nat -> closed (wb (rw s)) = 0%nat ->
  passes_on rstep g (rstart qh qa qb) evs -> forallb calm (beyond evs) = true ->
  let requests := accepted (ro s) ++ items_p lph ++ items_e leh in
  let mine := map (passed g) requests ++ sent_by_others evs ++ msgs_p lpa ++ msgs_e lea in
  let theirs := map msg_of (items_p lpb ++ items_e leb) ++ others (beyond evs) in
  Forall (fun x => dto_a (snd x) = true) mine -> NoDup (map fst mine) ->
  Forall (fun x => dto_b (data_of x) = true) (items_p lpb ++ items_e leb) ->
  (forall x y, In x mine -> In y theirs -> fst x = fst y -> x = y) ->
  exists lp1 le1 lp le lp' le', holds (hq (rh s)) lp1 le1 /\ holds (sq (wa (rw s))) lp le /\ holds (hq (wb (rw s))) lp' le' /\
    forall x, In x requests -> In x (with_first s lp1 le1) \/ In x (lost (ro s)) \/
      In (passed g x) (with_sender (rw s) lp le) \/ In (passed g x) (with_receiver (rw s) lp' le').
Proof.
  intros Rh Uh Hh Ra Ua Ha Rb Ub Hb E Ch Ca Cb Po Cm requests mine theirs Va Nd Vb Same.
  destruct (relay_parts _ _ _ _ E) as [[o [Eh Eo]] [ew [Ew [Ot Ce]]]]. cbn [rstart rh ro rw app] in Eh, Eo, Ew. subst o.
  destruct (conservation meta_h dto_h truthy_h max_h qh lph leh _ _ _ Rh Uh Hh Eh Ch) as [lp1 [le1 [Hl1 P1]]]. fold requests in P1.
  assert (Nk : NoDup (map key_of requests)).
  { unfold mine in Nd. rewrite map_app, passed_keys in Nd. eapply NoDup_part; [reflexivity|exact Nd]. }
  assert (Dr : dropped (ro s) = []).
  { destruct (run_facts meta_h dto_h truthy_h max_h qh _ _ _ Rh Uh Eh Ch) as [_ [Ms [W I]]].
    apply (micros_no_drop dto_h truthy_h max_h _ _ _ Ms W). rewrite I.
    destruct (holds_unique qh lph leh (preachable_inv meta_h qh Rh) Uh Hh) as [<- <-]. exact Nk. }
  destruct (relay_mine qh qa qb lph leh evs s l (msgs_p lpa ++ msgs_e lea) Rh Uh Hh E Ch Po) as [[r Sub] Fin].
  fold requests in Sub. fold mine in Sub.
  assert (Inc : forall x, In x (enqueued (ao (rw s)) ++ msgs_p lpa ++ msgs_e lea) -> In x mine).
  { intros x H. rewrite Sub. apply in_or_app. auto. }
  destruct (at_least_once meta_a dto_a truthy_a wait max_a cmax meta_b dto_b truthy_b max_b qa qb lpa lea lpb leb ew (rw s) l
    Ra Ua Ha Rb Ub Hb Ew Ca Cb (Ce Cm)) as [lp [le [lp' [le' [H1 [H2 G]]]]]].
  - apply Forall_forall. intros x H. rewrite Forall_forall in Va. auto.
  - eapply (NoDup_part (map fst mine) _ (map fst r)); [|exact Nd]. rewrite <- map_app. now apply Permutation_map.
  - auto.
  - intros x y Hx Hy. rewrite Ot in Hy. apply Same; auto.
  - exists lp1, le1, lp, le, lp', le'. split; [auto|split; [auto|split; [auto|]]]. intros x Hx. rewrite P1 in Hx. rewrite Dr in Hx. cbn [app] in Hx.
    unfold with_first. rewrite !in_app_iff in *.
    assert (F : In x (finished (ro s)) -> In (passed g x) (with_sender (rw s) lp le) \/ In (passed g x) (with_receiver (rw s) lp' le')).
    { intros H. apply G. apply in_or_app. auto. }
    intuition.
Qed.

Theorem relay_keeps qh qa qb lph leh lpa lea lpb leb evs s l :
  preachable meta_h qh -> usable qh -> holds qh lph leh -> preachable meta_a qa -> usable qa -> holds qa lpa lea ->
  preachable meta_b qb -> usable qb -> holds qb lpb leb ->
  rrun (rstart qh qa qb) evs = (s, l) -> closed (rh s) = 0%nat -> sclosed (wa (rw s)) = 0%nat -> closed (wb (rw s)) = 0%nat ->
  passes_on rstep g (rstart qh qa qb) evs -> forallb (fun e => negb (failure e)) (at_first evs) = true -> forallb calm (beyond evs) = true ->
  let requests := accepted (ro s) ++ items_p lph ++ items_e leh in
  let mine := map (passed g) requests ++ sent_by_others evs ++ msgs_p lpa ++ msgs_e lea in
  let theirs := map msg_of (items_p lpb ++ items_e leb) ++ others (beyond evs) in
  Forall (fun x => dto_h (data_of x) = true) requests ->
  Forall (fun x => dto_a (snd x) = true) mine -> NoDup (map fst mine) ->
  Forall (fun x => dto_b (data_of x) = true) (items_p lpb ++ items_e leb) ->
  (forall x y, In x mine -> In y theirs -> fst x = fst y -> x = y) ->
  exists lp1 le1 lp le lp' le', holds (hq (rh s)) lp1 le1 /\ holds (sq (wa (rw s))) lp le /\ holds (hq (wb (rw s))) lp' le' /\
    forall x, In x requests -> In x (with_first s lp1 le1) \/
      In (passed g x) (with_sender (rw s) lp le) \/ In (passed g x) (with_receiver (rw s) lp' le').
Proof.
  intros Rh Uh Hh Ra Ua Ha Rb Ub Hb E Ch Ca Cb Po Fl Cm requests mine theirs Vh Va Nd Vb Same.
  destruct (relay_accounting qh qa qb lph leh lpa lea lpb leb evs s l Rh Uh Hh Ra Ua Ha Rb Ub Hb E Ch Ca Cb Po Cm Va Nd Vb Same)
    as [lp1 [le1 [lp [le [lp' [le' [H1 [H2 [H3 G]]]]]]]]].
  exists lp1, le1, lp, le, lp', le'. split; [auto|split; [auto|split; [auto|]]]. intros x Hx.
  destruct (G x Hx) as [X|[X|X]]; [auto| |auto]. exfalso.
  destruct (relay_parts _ _ _ _ E) as [[o [Eh Eo]] _]. cbn [rstart rh ro rw app] in Eh, Eo. subst o.
  destruct (setup_ok meta_h qh Rh Uh) as [H0 [_ C0]].
  assert (B : Forall (bad dto_h) (lost (ro s))).
  { apply (hrun_lost meta_h dto_h truthy_h max_h _ _ _ _ H0 Eh); [congruence|exact Fl]. }
  rewrite Forall_forall in B. apply B in X. rewrite Forall_forall in Vh. apply Vh in Hx. unfold bad in X. congruence.
Qed.

(** ** How often the second application handles a request *)
Theorem relay_at_most qh qa qb lph leh lpa lea lpb leb evs s l k :
  preachable meta_h qh -> usable qh -> holds qh lph leh -> preachable meta_a qa -> usable qa -> holds qa lpa lea ->
  preachable meta_b qb -> usable qb -> holds qb lpb leb ->
  rrun (rstart qh qa qb) evs = (s, l) -> closed (rh s) = 0%nat -> sclosed (wa (rw s)) = 0%nat -> closed (wb (rw s)) = 0%nat ->
  passes_on rstep g (rstart qh qa qb) evs -> forallb calm (beyond evs) = true ->
  let requests := accepted (ro s) ++ items_p lph ++ items_e leh in
  let mine := map (passed g) requests ++ sent_by_others evs ++ msgs_p lpa ++ msgs_e lea in
  Forall (fun x => dto_a (snd x) = true) mine -> NoDup (map fst mine) ->
  ~ In k (map fst (map msg_of (items_p lpb ++ items_e leb) ++ others (beyond evs))) ->
  (times k (map msg_of (accepted (bo (rw s)))) <= 1 + attempts_failed k l)%nat /\
  (times k (map msg_of (finished (bo (rw s)))) <= 1 + attempts_failed k l)%nat.
Proof.
  intros Rh Uh Hh Ra Ua Ha Rb Ub Hb E Ch Ca Cb Po Cm requests mine Va Nd Nk.
  destruct (relay_parts _ _ _ _ E) as [_ [ew [Ew [Ot Ce]]]]. cbn [rstart rh ro rw app] in Ew.
  destruct (relay_mine qh qa qb lph leh evs s l (msgs_p lpa ++ msgs_e lea) Rh Uh Hh E Ch Po) as [[r Sub] _].
  fold requests in Sub. fold mine in Sub.
  apply (at_most meta_a dto_a truthy_a wait max_a cmax meta_b dto_b truthy_b max_b qa qb lpa lea lpb leb ew (rw s) l k
    Ra Ua Ha Rb Ub Hb Ew Ca Cb (Ce Cm)).
  - apply Forall_forall. intros x H. rewrite Forall_forall in Va. apply Va. rewrite Sub. apply in_or_app. auto.
  - eapply (NoDup_part (map fst mine) _ (map fst r)); [|exact Nd]. rewrite <- map_app. now apply Permutation_map.
  - now rewrite Ot.
Qed.

End Relay.
