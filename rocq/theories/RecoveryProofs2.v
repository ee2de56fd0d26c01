(** Recovery after an outage, second part: the endpoint processes what it has. *)
From Coq Require Import List ZArith NArith Bool String Lia Permutation.
From Coq Require Import ZifyBool ZifyNat ZifyN.
From Verif Require Import Base PermTac PQueueModel PQueueSpec PQueueProofs PendingModel PendingSpec PendingProofs
  SenderModel SenderSpec SenderProofs SenderProofs2 SenderProofs3 RecoverySpec
  DeliveryModel DeliverySpec DeliveryProofs DeliveryProofs2 DeliveryProofs3 DeliveryProofs4 RecoveryProofs
  HandlerModel HandlerSpec HandlerProofs HandlerProofs2 HandlerProofs3 HandlerProofs4 ProgressSpec ProgressProofs.
Import ListNotations.
Local Open Scope Z_scope.

Section World.
Context {D MA MB : Type}.
Variables (meta_a : MA) (dto_a truthy_a : D -> bool) (wait : bool) (max_a cmax : Z).
Variables (meta_b : MB) (dto_b truthy_b : D -> bool) (max_b : Z).
Notation world := (world D MA MB). Notation wev := (wev D MB). Notation wout := (wout D). Notation msg := (msg D).
Notation hstep := (@HandlerModel.hstep D MB meta_b dto_b truthy_b max_b).
Notation hrun := (@HandlerModel.hrun D MB meta_b dto_b truthy_b max_b).
Notation wstep := (@DeliveryModel.wstep D MA MB meta_a dto_a truthy_a wait max_a cmax meta_b dto_b truthy_b max_b).
Notation wrun := (@DeliveryModel.wrun D MA MB meta_a dto_a truthy_a wait max_a cmax meta_b dto_b truthy_b max_b).
Notation going := (@ProgressProofs.going D MB meta_b).
Implicit Types (w : world) (s : hstate D MB).

(** The endpoint's own steps. *)
Definition own (ev : hev D MB) : bool := match ev with EPush _ | ETask _ (RRet true) => true | _ => false end.
Lemma lift hevs : forall w s o, forallb own hevs = true -> hrun (wb w) hevs = (s, o) ->
  exists w', wrun w (map WHandler hevs) = (w', []) /\ wb w' = s /\ bo w' = bo w ++ o /\ wa w' = wa w /\ ao w' = ao w.
Proof.
  induction hevs as [|ev r IH]; intros w s o F E; cbn [HandlerModel.hrun] in E.
  - injection E as <- <-. exists w. rewrite app_nil_r. auto.
  - cbn [forallb] in F. apply andb_prop in F as [F1 F2].
    destruct (hstep (wb w) ev) as [s1 o1] eqn:E1. destruct (hrun s1 r) as [s2 o2] eqn:E2. injection E as <- <-.
    assert (E3 : wstep w (WHandler ev) = (set_b w s1 o1 (conns w) (collectors w), [])).
    { cbn [DeliveryModel.wstep]. destruct ev; try discriminate F1; rewrite E1; reflexivity. }
    destruct (IH (set_b w s1 o1 (conns w) (collectors w)) s2 o2 F2 E2) as (w' & A1 & A2 & A3 & A4 & A5).
    exists w'. cbn [map DeliveryModel.wrun]. rewrite E3, A1. cbn [set_b wa ao wb bo] in *. rewrite A3, <- app_assoc. auto.
Qed.
Lemma own_healthy hevs : forallb own hevs = true -> forallb healthy (map (@WHandler D MB) hevs) = true.
Proof.
  induction hevs as [|ev r IH]; cbn [forallb map]; [auto|]. intros F. apply andb_prop in F as [F1 F2]. rewrite (IH F2), andb_true_r.
  destruct ev; try discriminate F1; [reflexivity|]. destruct r0 as [|[|]|]; try discriminate F1; reflexivity.
Qed.
Lemma healthy_calm (evs : list wev) : forallb healthy evs = true -> forallb calm evs = true /\ others evs = [].
Proof.
  induction evs as [|ev r IH]; cbn [forallb]; [auto|]. intros F. apply andb_prop in F as [F1 F2]. destruct (IH F2) as [A B].
  unfold others in *. cbn [flat_map]. rewrite A, B. destruct ev as [e|i|i x|i|c|c|e|k d]; try discriminate F1; auto;
    destruct e; try discriminate F1; auto. destruct r0 as [|[|]|]; try discriminate F1; auto.
Qed.

(** Everything that is about to be queued is queued. *)
Lemma push_all n : forall s i t, going s i t -> List.length (pushing s) = n ->
  exists s' o, hrun s (repeat (EPush 0) n) = (s', o) /\ going s' i t /\ pushing s' = [].
Proof.
  induction n as [|n IH]; intros s i t G L; cbn [repeat HandlerModel.hrun].
  - exists s, []. split; [reflexivity|]. split; [exact G|]. destruct (pushing s); [reflexivity|discriminate].
  - destruct (hstep s (EPush 0)) as [s1 o1] eqn:E1.
    destruct (quiet meta_b dto_b truthy_b max_b s i t (EPush 0) s1 o1 G eq_refl ltac:(discriminate) E1) as [G1 _].
    assert (L1 : List.length (pushing s1) = n).
    { cbn [HandlerModel.hstep] in E1. destruct (pushing s) as [|[[k d] m] p] eqn:P; [discriminate|]. cbn [nth_error del_nth] in E1.
      unfold h_push_pending in E1. cbn [List.length] in L.
      destruct (push_pending _ _ _ _ _ _); injection E1 as <- <-; cbn [set_hq set_pushing pushing]; lia. }
    destruct (IH s1 i t G1 L1) as (s' & o & E & G' & P'). exists s', (o1 ++ o). rewrite E. auto.
Qed.

Lemma hrun_app e1 : forall s e2, hrun s (e1 ++ e2) = let (s1, o1) := hrun s e1 in let (s2, o2) := hrun s1 e2 in (s2, o1 ++ o2).
Proof.
  induction e1 as [|ev r IH]; intros s e2; cbn [app HandlerModel.hrun].
  - destruct (hrun s e2). reflexivity.
  - destruct (hstep s ev) as [s1 o1]. rewrite IH. destruct (hrun s1 r) as [s2 o2]. destruct (hrun s2 e2) as [s3 o3]. now rewrite app_assoc.
Qed.
Lemma map_task i n : map (fun b => ETask i (RRet b)) (repeat true n) = repeat (@ETask D MB i (RRet true)) n.
Proof. induction n; cbn; congruence. Qed.
Lemma forallb_repeat {A} (f : A -> bool) x n : f x = true -> forallb f (repeat x n) = true.
Proof. intros H. induction n; cbn; [reflexivity|]. now rewrite H. Qed.

(** It empties its queue, whatever it has, as long as the data is of its type. *)
Lemma own_run_open hevs : forall s s' o, forallb own hevs = true -> shut s = false -> hrun s hevs = (s', o) -> closed s' = closed s /\ shut s' = false.
Proof.
  induction hevs as [|ev r IH]; intros s s' o F S E; cbn [HandlerModel.hrun] in E; [injection E as <- <-; auto|].
  cbn [forallb] in F. apply andb_prop in F as [F1 F2]. destruct (hstep s ev) as [s1 o1] eqn:E1. destruct (hrun s1 r) as [s2 o2] eqn:E2. injection E as <- <-.
  destruct (step_open meta_b dto_b truthy_b max_b s ev s1 o1 S) as [A B]; [intros ->; discriminate F1|exact E1|].
  destruct (IH s1 s2 o2 F2 B E2) as [A' B']. split; congruence.
Qed.
Lemma own_quiet ev s s' o : own ev = true -> hstep s ev = (s', o) -> accepted o = [] /\ removed o = [] /\ cur s' = cur s.
Proof.
  intros F E. destruct ev; try discriminate F.
  - cbn [HandlerModel.hstep] in E. destruct (nth_error (pushing s) i) as [[[k d] m]|]; [|injection E as <- <-; auto].
    unfold h_push_pending in E. destruct (push_pending _ _ _ _ _ _); injection E as <- <-; [|auto]. destruct (has _ _); auto.
  - destruct r as [|[|]|]; try discriminate F. pose proof (tame_step meta_b dto_b truthy_b max_b s i true) as T. rewrite E in T. exact T.
Qed.
Lemma own_run_quiet hevs : forall s s' o, forallb own hevs = true -> hrun s hevs = (s', o) -> accepted o = [] /\ removed o = [] /\ cur s' = cur s.
Proof.
  induction hevs as [|ev r IH]; intros s s' o F E; cbn [HandlerModel.hrun] in E; [injection E as <- <-; auto|].
  cbn [forallb] in F. apply andb_prop in F as [F1 F2]. destruct (hstep s ev) as [s1 o1] eqn:E1. destruct (hrun s1 r) as [s2 o2] eqn:E2. injection E as <- <-.
  destruct (own_quiet ev s s1 o1 F1 E1) as (A1 & A2 & A3). destruct (IH s1 s2 o2 F2 E2) as (B1 & B2 & B3).
  unfold accepted, removed in *. rewrite !flat_map_app, A1, A2, B1, B2. repeat split. congruence.
Qed.

Lemma flat_nil (l : list (tstate D MB)) : (forall t, In t l -> held t = []) -> flat_map held l = [].
Proof. induction l as [|x l IH]; intros F; [reflexivity|]. cbn. rewrite F by (now left). apply IH. intros t Ht. apply F. now right. Qed.

Theorem endpoint_drains qb lpb leb eb w : preachable meta_b qb -> usable qb -> holds qb lpb leb ->
  hrun (setup qb) eb = (wb w, bo w) -> closed (wb w) = 0%nat -> forallb (fun e => negb (failure e)) eb = true ->
  Forall (fun x => dto_b (data_of x) = true) (accepted (bo w) ++ items_p lpb ++ items_e leb) ->
  shut (wb w) = false -> proc_paused (wb w) = false -> awake_b (wb w) ->
  exists evs w', forallb healthy evs = true /\ wrun w evs = (w', []) /\ wa w' = wa w /\ ao w' = ao w /\ closed (wb w') = 0%nat /\
    holds (hq (wb w')) [] (ec (hq (wb w'))) /\ pushing (wb w') = [] /\ in_process (wb w') = [] /\
    accepted (bo w') = accepted (bo w) /\ removed (bo w') = removed (bo w).
Proof.
  intros Rb Ub Hb Eb C Fb Ok S P (i & t & N & L).
  destruct (run_facts meta_b dto_b truthy_b max_b qb eb _ _ Rb Ub Eb C) as [H _].
  assert (G : going (wb w) i t) by (constructor; auto).
  destruct (push_all _ (wb w) i t G eq_refl) as (s2 & o2 & E2 & G2 & P2).
  set (pushes := repeat (@EPush D MB 0) (List.length (pushing (wb w)))) in *.
  assert (Fp : forallb own pushes = true) by (apply forallb_repeat; reflexivity).
  destruct (own_run_open pushes _ _ _ Fp S E2) as [C2 S2]. destruct (own_run_quiet pushes _ _ _ Fp E2) as (A2 & R2 & U2).
  assert (Er : hrun (setup qb) (eb ++ pushes) = (s2, bo w ++ o2)) by (rewrite hrun_app, Eb, E2; reflexivity).
  assert (Fr : forallb (fun e : hev D MB => negb (failure e)) (eb ++ pushes) = true).
  { rewrite forallb_app, Fb. apply forallb_repeat. reflexivity. }
  destruct (receiver_keeps_a_copy meta_b dto_b truthy_b max_b qb lpb leb _ _ _ Rb Ub Hb Er ltac:(congruence) Fr) as (lp2 & le2 & Hl2 & _ & K2 & _).
  { unfold accepted in *. rewrite flat_map_app, A2, app_nil_r. exact Ok. }
  destruct (HandlerProofs5.run_contents meta_b s2 lp2 le2 (go_inv _ _ _ _ G2) Hl2) as [-> ->].
  assert (Vh : forall x, In x (pushing s2 ++ items_p (pc (hq s2)) ++ in_process s2 ++ items_e (ec (hq s2)) ++ finished (bo w ++ o2) ++ removed (bo w ++ o2)) ->
               dto_b (data_of x) = true).
  { intros x Hx. apply K2 in Hx. unfold accepted in *. rewrite flat_map_app, A2, app_nil_r in Hx. rewrite Forall_forall in Ok. now apply Ok. }
  assert (Da : data_ok dto_b (pc (hq s2))).
  { unfold data_ok. apply Forall_forall. intros [k e] Hx. apply (Vh (item_p e)). apply in_app_iff. right. apply in_app_iff. left.
    unfold items_p. apply in_map_iff. now exists (k, e). }
  assert (Ht : held_ok dto_b t).
  { assert (Q : forall e, held t = [item_p e] -> dto_b (pe_data e) = true).
    { intros e Q. apply (Vh (item_p e)). apply in_app_iff. right. apply in_app_iff. right. apply in_app_iff. left. unfold in_process.
      apply in_flat_map. exists t. split; [eapply nth_error_In, (go_task _ _ _ _ G2)|rewrite Q; now left]. }
    destruct t; cbn [held_ok]; auto; apply Q; reflexivity. }
  set (steps := repeat true (measure max_b s2 t)).
  destruct (hrun s2 (map (fun b => ETask i (RRet b)) steps)) as [s3 o3] eqn:E3.
  destruct (drains meta_b dto_b truthy_b max_b steps s2 s3 o3 i t G2 Ht Da E3) as (H3 & S3 & Pc3 & T3 & P3); [unfold steps; rewrite repeat_length; lia|].
  set (tasks_ := map (fun b => @ETask D MB i (RRet b)) steps) in *.
  assert (Ft : forallb own tasks_ = true) by (unfold tasks_, steps; rewrite map_task; apply forallb_repeat; reflexivity).
  destruct (own_run_open tasks_ _ _ _ Ft S2 E3) as [C3 _]. destruct (own_run_quiet tasks_ _ _ _ Ft E3) as (A3 & R3 & U3).
  assert (Fo : forallb own (pushes ++ tasks_) = true) by now rewrite forallb_app, Fp, Ft.
  destruct (lift (pushes ++ tasks_) w s3 (o2 ++ o3) Fo) as (w' & E & B1 & B2 & B3 & B4).
  { rewrite hrun_app, E2, E3. reflexivity. }
  exists (map WHandler (pushes ++ tasks_)), w'. split; [now apply own_healthy|]. split; [exact E|]. split; [exact B3|]. split; [exact B4|].
  rewrite B1, B2. split; [congruence|]. split; [rewrite <- Pc3; now apply run_holds with (no_meta := meta_b)|]. split; [congruence|].
  split.
  { unfold in_process. apply flat_nil. intros t0 Hin. apply In_nth_error in Hin as [j Hj].
    destruct t0; auto; exfalso; pose proof (hi_live _ _ H3 _ _ Hj ltac:(discriminate)) as X;
      rewrite U3, U2, (hi_live _ _ H _ _ N L) in X; injection X as <-; rewrite T3 in Hj; discriminate Hj. }
  unfold accepted, removed in *. rewrite !flat_map_app, A2, A3, R2, R3, !app_nil_r. auto.
Qed.

(** ** Both *)
Theorem recovery qa qb lpa lea lpb leb evs w l lp le :
  preachable meta_a qa -> usable qa -> holds qa lpa lea -> preachable meta_b qb -> usable qb -> holds qb lpb leb ->
  wrun (wstart qa qb) evs = (w, l) -> sclosed (wa w) = 0%nat -> closed (wb w) = 0%nat -> forallb calm evs = true ->
  let mine := enqueued (ao w) ++ msgs_p lpa ++ msgs_e lea in
  let theirs := map msg_of (items_p lpb ++ items_e leb) ++ others evs in
  Forall (fun x => dto_a (snd x) = true /\ dto_b (snd x) = true) mine -> NoDup (map fst mine) ->
  Forall (fun x => dto_b (data_of x) = true) (items_p lpb ++ items_e leb) ->
  (forall x y, In x mine -> In y theirs -> fst x = fst y -> x = y) ->
  holds (sq (wa w)) lp le -> 1 <= cmax ->
  spaused (wa w) = false -> sshut (wa w) = false -> recv_paused (wb w) = false -> proc_paused (wb w) = false -> shut (wb w) = false ->
  (lp <> [] \/ exists i t, nth_error (tasks (wb w)) i = Some t /\ live t) ->
  exists evs1 evs2 w' l' le' leb' del, gives_up evs1 /\ forallb healthy evs2 = true /\ wrun w (evs1 ++ evs2) = (w', l') /\
    holds (sq (wa w')) [] le' /\ in_hand (wa w') = [] /\
    holds (hq (wb w')) [] leb' /\ pushing (wb w') = [] /\ in_process (wb w') = [] /\
    delivered (ao w') = delivered (ao w) ++ del /\ incl (msgs_p lp) del /\
    (forall x, In x (msgs_e le') -> In x (msgs_e le) \/ In x (msgs_h (in_hand (wa w)))) /\
    forall x, In x mine -> In x (msgs_e le' ++ s_removed (ao w)) \/ In x (map msg_of (items_e leb' ++ finished (bo w') ++ removed (bo w))).
Proof.
  intros Ra Ua Ha Rb Ub Hb E Ca Cb Cm mine theirs V Nd Vb Same Hs C Sp Ss Rp Pp Sh Aw.
  assert (Va : Forall (fun x => dto_a (snd x) = true) mine) by (eapply Forall_impl; [|exact V]; intros x [A _]; exact A).
  assert (Vmb : Forall (fun x => dto_b (snd x) = true) mine) by (eapply Forall_impl; [|exact V]; intros x [_ A]; exact A).
  destruct (wrun_start meta_a dto_a truthy_a wait max_a cmax meta_b dto_b truthy_b max_b _ _ _ _ _ E) as (ea & eb & Ea & Eb & Cl).
  destruct (Cl Cm) as [Fa Fb].
  destruct (s_one_place meta_a dto_a truthy_a wait max_a qa lpa lea ea _ _ Ra Ua Ha Ea Ca Fa Va Nd) as (lp0 & le0 & Hl & Pm & _).
  destruct (s_order_and_wake meta_a dto_a truthy_a wait max_a qa lpa lea ea _ _ Ra Ua Ha Ea Ca Fa Va) as (a & A & Vaa & Awa & _).
  destruct (R_unique meta_a _ a lp le A Hs) as [-> ->]. destruct (R_unique meta_a _ a lp0 le0 A Hl) as [-> ->].
  pose proof (in_hand_R meta_a _ a (proj1 A)) as Ih. rewrite Ih in *.
  assert (Inc : incl (msgs_h (hand_of (at_ a)) ++ msgs_p (al a)) mine).
  { intros x Hx. apply (Permutation_in _ (Permutation_sym Pm)). rewrite !in_app_iff in *. tauto. }
  pose proof (run_J meta_a dto_a truthy_a wait max_a cmax meta_b dto_b truthy_b max_b _ _ _ _ _ E) as Hj.
  pose proof (K_run meta_a dto_a truthy_a wait max_a cmax meta_b dto_b truthy_b max_b _ _ _ _ (K_start cmax qa qb C) C E) as Hk.
  assert (Hr : Rec meta_a cmax w a).
  { constructor; auto; [rewrite <- (r_s _ _ _ (proj1 A)); exact Ss|rewrite <- (r_p _ _ _ (proj1 A)); exact Sp|apply (j_len _ _ _ Hj)]. }
  destruct (recover meta_a dto_a truthy_a wait max_a cmax meta_b dto_b truthy_b max_b w a C Hr) as (evs1 & ev2 & w1 & l1 & a1 & del & Gu & He & E1 & Rv).
  { eapply valid_incl; [exact Inc|exact Va]. }
  { eapply valid_incl; [exact Inc|exact Vmb]. }
  { intros Ne. apply Awa; [rewrite <- (r_p _ _ _ (proj1 A)); exact Sp|exact Ne]. }
  destruct Rv as [V1 V2 V3 V4 V5 V6 V7 V8 [B1 B2 B3 B4 B5 B6 B7 B9 B8]].
  assert (Cm1 : forallb calm (evs1 ++ ev2) = true /\ others (evs1 ++ ev2) = []).
  { destruct (healthy_calm ev2 He) as [Q1 Q2]. unfold others in *. rewrite forallb_app, flat_map_app, Q1, Q2. destruct Gu as [->|[i ->]]; auto. }
  destruct Cm1 as [Cm1 Ot1].
  assert (Es1 : wrun (wstart qa qb) (evs ++ evs1 ++ ev2) = (w1, l ++ l1)) by (rewrite wrun_app, E, E1; reflexivity).
  destruct (wrun_start meta_a dto_a truthy_a wait max_a cmax meta_b dto_b truthy_b max_b _ _ _ _ _ Es1) as (ea1 & eb1 & Ea1 & Eb1 & Cl1).
  destruct Cl1 as [_ Fb1]; [now rewrite forallb_app, Cm, Cm1|].
  pose proof (run_J meta_a dto_a truthy_a wait max_a cmax meta_b dto_b truthy_b max_b _ _ _ _ _ Es1) as Hj1.
  destruct (endpoint_drains qb lpb leb eb1 w1 Rb Ub Hb Eb1) as (evs3 & w' & He3 & E3 & W1 & W2 & W3 & W4 & W5 & W6 & W7 & W8).
  { congruence. } { exact Fb1. }
  { apply Forall_app. split; [apply (j_dto _ _ _ Hj1)|exact Vb]. }
  { congruence. } { congruence. }
  { apply B8. destruct Aw as [Aw|Aw]; [right|left; exact Aw]. intros ->. destruct (al a) as [|x r]; [congruence|]. apply (V5 (msg_p (snd x))). now left. }
  exists evs1, (ev2 ++ evs3), w', (l1 ++ []), (ae a1), (ec (hq (wb w'))), del.
  split; [exact Gu|]. split; [now rewrite forallb_app, He, He3|].
  assert (E4 : wrun w (evs1 ++ ev2 ++ evs3) = (w', l1 ++ [])) by (rewrite app_assoc, wrun_app, E1, E3; reflexivity).
  split; [exact E4|].
  assert (Hs' : holds (sq (wa w')) [] (ae a1)).
  { rewrite W1, <- V2. apply R_holds with (no_meta := meta_a). apply (rc_R _ _ _ _ V1). }
  split; [exact Hs'|].
  assert (Ih' : in_hand (wa w') = []) by (rewrite W1, (in_hand_R meta_a _ a1 (proj1 (rc_R _ _ _ _ V1))), V3; reflexivity).
  split; [exact Ih'|]. split; [exact W4|]. split; [exact W5|]. split; [exact W6|].
  split; [rewrite W2; exact V4|]. split; [exact V5|]. split; [exact V8|].
  assert (E5 : wrun (wstart qa qb) (evs ++ evs1 ++ ev2 ++ evs3) = (w', l ++ l1 ++ [])) by (rewrite wrun_app, E, E4; reflexivity).
  destruct (healthy_calm evs3 He3) as [Cm3 Ot3].
  assert (Cm5 : forallb calm (evs ++ evs1 ++ ev2 ++ evs3) = true).
  { rewrite !forallb_app in *. rewrite Cm, Cm3. apply andb_prop in Cm1 as [-> ->]. reflexivity. }
  assert (Ot5 : others (evs ++ evs1 ++ ev2 ++ evs3) = others evs).
  { unfold others in *. rewrite !flat_map_app in *. rewrite Ot3, app_nil_r, Ot1, app_nil_r. reflexivity. }
  assert (En : enqueued (ao w') = enqueued (ao w)) by (rewrite W2; exact V7).
  assert (Ca' : sclosed (wa w') = 0%nat) by (rewrite W1; apply (r_n _ _ _ (proj1 (rc_R _ _ _ _ V1)))).
  destruct (at_least_once meta_a dto_a truthy_a wait max_a cmax meta_b dto_b truthy_b max_b qa qb lpa lea lpb leb _ w' _ Ra Ua Ha Rb Ub Hb E5 Ca' W3 Cm5)
    as (lpx & lex & lpy & ley & X1 & X2 & X3); try (rewrite En; assumption); [assumption|rewrite Ot5, En; exact Same|].
  rewrite En in X3. fold mine in X3.
  assert (U1 : lpx = [] /\ lex = ae a1).
  { rewrite W1 in X1. destruct (R_unique meta_a _ a1 lpx lex (rc_R _ _ _ _ V1) X1) as [-> ->]. rewrite V2. auto. }
  assert (U2 : lpy = [] /\ ley = ec (hq (wb w'))).
  { destruct (wrun_start meta_a dto_a truthy_a wait max_a cmax meta_b dto_b truthy_b max_b _ _ _ _ _ E5) as (_ & eb5 & _ & Eb5 & _).
    destruct (run_facts meta_b dto_b truthy_b max_b qb eb5 _ _ Rb Ub Eb5 W3) as [H5 _].
    destruct (HandlerProofs5.run_contents meta_b _ _ _ H5 X2) as [-> ->]. destruct (HandlerProofs5.run_contents meta_b _ _ _ H5 W4) as [<- _]. auto. }
  destruct U1 as [-> ->], U2 as [-> ->]. intros x Hx. specialize (X3 x Hx). unfold with_sender, with_receiver in X3.
  rewrite Ih', W2, V6, W5, W6 in X3. cbn [msgs_p msgs_h items_p map app] in X3.
  rewrite W8 in X3. destruct X3 as [X3|X3]; [left; exact X3|right].
  rewrite B9 in X3. exact X3.
Qed.
End World.
