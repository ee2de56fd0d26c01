(** Invariants of calls over UDP. *)
From Coq Require Import String Ascii ZArith NArith Bool List Arith Lia.
From Verif Require Import Base SpanKeyModel SpanKeySpec RouterModel JsonModel JsonSpec StreamModel ClientModel WireModel WireProofs AskModel AskSpec DgModel DgSpec.
Import ListNotations.
Local Open Scope Z_scope.

Lemma fupd_eq {X} (f : nat -> X) i x : fupd f i x i = x.
Proof. unfold fupd. now rewrite Nat.eqb_refl. Qed.
Lemma fupd_ne {X} (f : nat -> X) i j x : j <> i -> fupd f i x j = f j.
Proof. intros H. unfold fupd. destruct (Nat.eqb_spec j i); [contradiction|reflexivity]. Qed.
Lemma in_drop {A} k (l : list A) x : In x (drop_nth k l) -> In x l.
Proof.
  unfold drop_nth. intros H. apply in_app_or in H as [H|H].
  - rewrite <- (firstn_skipn k l). apply in_or_app. now left.
  - rewrite <- (firstn_skipn (S k) l). apply in_or_app. now right.
Qed.

Section Dg.
Context {D V : Type} (utf8 : list N -> bool) (dump : V -> json) (max : Z) (accepted_resp : span_key -> V) (app : nat -> code D V).
Notation gstep := (gstep utf8 dump max accepted_resp app).
Notation grun := (grun utf8 dump max accepted_resp app).
Notation ganswer := (ganswer dump accepted_resp app).
Notation answer := (AskModel.answer dump accepted_resp app).
Notation decode := (decode utf8).
Notation ustep := (ustep decode ganswer).
Notation cl_step := (cl_step max).
Notation serve_ev := (serve_ev utf8 dump accepted_resp app).

(** ** The server *)
Definition pending (u : udp string addr) : list (string * addr) := match uheld u with Some w => [w] | None => [] end ++ uwait u.
Lemma grant_ok (u : udp string addr) : pending (grant u) = pending u /\ usent (grant u) = usent u /\ uprev (grant u) = uprev u.
Proof. destruct u as [[|w l] [h|] p s f]; repeat split. Qed.
Lemma srv_datagram u d a : let v := ustep u (UDatagram d a) in
  uprev v = uprev u /\
  (usent v = usent u \/ (hd 0%N d = 6%N /\ usent v = usent u ++ [(ACK_response, a)])) /\
  (pending v = pending u \/ exists t, decode d = Some t /\ pending v = pending u ++ [(t, a)]).
Proof.
  cbv zeta. cbn [StreamModel.ustep]. destruct d as [|b d]; [auto|]. destruct (N.eqb (last (b :: d) 0%N) LF); [|auto].
  destruct (N.eqb b ACK) eqn:B; [apply N.eqb_eq in B; cbn; auto|]. destruct (decode (b :: d)) as [t|]; [|auto].
  match goal with |- context [grant ?w] => destruct (grant_ok w) as (-> & -> & ->) end. cbn [uprev usent]. split; [reflexivity|]. split; [auto|].
  right. exists t. split; [reflexivity|]. unfold pending. cbn [uheld uwait]. now rewrite app_assoc.
Qed.
Lemma srv_done u : match uheld u with
  | None => ustep u UDone = u
  | Some (t, a) => uprev (ustep u UDone) = uprev u ++ [t] /\ pending (ustep u UDone) = uwait u /\
      usent (ustep u UDone) = usent u ++ match ganswer (uprev u) t with Some r => [(r, a)] | None => [] end
  end.
Proof.
  cbn [StreamModel.ustep]. destruct (uheld u) as [[t a]|] eqn:E; [|reflexivity].
  match goal with |- context [grant ?w] => destruct (grant_ok w) as (-> & -> & ->) end.
  destruct (ganswer (uprev u) t); cbn [uprev usent uheld uwait pending]; unfold pending; cbn [uheld uwait]; rewrite ?app_nil_r; auto.
Qed.
Lemma skipn_more {A} (l m : list A) : skipn (List.length l) (l ++ m) = m.
Proof. rewrite skipn_app, skipn_all, Nat.sub_diag. reflexivity. Qed.

(** ** The client *)
Definition TaskOk (c : dcl) (i : nat) : Prop :=
  match tasks c i with
  | GOpen n | GWait n | GSent n _ | GSleep n => 0 <= n < max
  | GDone ONone => max <= 0
  | GDone (ORaw x) => x = XCancel
  | GDone _ => True
  end.
Record CInv (c : dcl) : Prop := {
  c_new : forall i, (gn c <= i)%nat -> tasks c i = GDone ONone;
  c_ok : forall i, (i < gn c)%nat -> TaskOk c i;
  c_lock : forall i n e, tasks c i = GSent n e -> lock c = Some i /\ resp c e = Some false;
  c_held : forall i, lock c = Some i -> exists n e, tasks c i = GSent n e }.
Definition fit (t : gstate) : Prop :=
  match t with
  | GOpen n | GWait n | GSleep n => 0 <= n < max
  | GSent _ _ => False
  | GDone ONone => max <= 0
  | GDone (ORaw x) => x = XCancel
  | GDone _ => True
  end.
Definition idle (t : gstate) : Prop := match t with GSent _ _ => False | _ => True end.
Lemma known c i : CInv c -> (forall o, tasks c i <> GDone o) -> (i < gn c)%nat.
Proof. intros I H. destruct (Nat.lt_ge_cases i (gn c)) as [L|L]; [exact L|]. destruct (H ONone). exact (c_new c I i L). Qed.
(** A call that does not hold the lock goes on to a state in which it does not hold it. *)
Lemma set_inv c i t rd pr ne rs q m ak : CInv c -> idle (tasks c i) -> fit t -> (i < m)%nat -> (m = gn c \/ (m = S (gn c) /\ i = gn c)) ->
  (forall e, resp c e = Some false -> rs e = Some false) ->
  CInv (set_task (mkCl rd pr ne rs (lock c) q m (tasks c) ak) i t).
Proof.
  intros [C1 C2 C3 C4] Hi Ht Hl Hm Hr. constructor; cbn [set_task ready proto nends resp lock queue gn tasks gasked].
  - intros j Hj. rewrite fupd_ne by lia. apply C1. lia.
  - intros j Hj. unfold TaskOk. cbn [set_task tasks]. destruct (Nat.eq_dec j i) as [->|Hn].
    + rewrite fupd_eq. destruct t as [n|n|n e|n|[]]; cbn in Ht |- *; auto. contradiction.
    + rewrite fupd_ne by exact Hn. apply C2. lia.
  - intros j n e E. destruct (Nat.eq_dec j i) as [->|Hn]; [rewrite fupd_eq in E; subst t; contradiction|]. rewrite fupd_ne in E by exact Hn.
    destruct (C3 j n e E). auto.
  - intros j E. destruct (C4 j E) as (n & e & E'). exists n, e. rewrite fupd_ne; [exact E'|]. intros ->. now rewrite E' in Hi.
Qed.
Lemma transmit_inv c i n q rd pr ne rs ak m : CInv c -> lock c = None -> 0 <= n < max -> (i < m)%nat -> (m = gn c \/ (m = S (gn c) /\ i = gn c)) ->
  CInv (fst (transmit (mkCl rd pr ne rs None q m (tasks c) ak) i n)).
Proof.
  intros [C1 C2 C3 C4] Hl Hn Hi Hm. constructor; cbn [transmit fst ready proto nends resp lock queue gn tasks gasked].
  - intros j Hj. rewrite fupd_ne by lia. apply C1. lia.
  - intros j Hj. unfold TaskOk. cbn [transmit fst tasks]. destruct (Nat.eq_dec j i) as [->|Hne]; [rewrite fupd_eq; exact Hn|]. rewrite fupd_ne by exact Hne. apply C2. lia.
  - intros j n' e E. destruct (Nat.eq_dec j i) as [->|Hne].
    + rewrite fupd_eq in E. injection E as <- <-. cbn [proto]. now rewrite fupd_eq.
    + rewrite fupd_ne in E by exact Hne. destruct (C3 j n' e E). congruence.
  - intros j E. injection E as <-. exists n, pr. now rewrite fupd_eq.
Qed.
Lemma acquire_inv c i n rd pr ne rs ak m : CInv c -> idle (tasks c i) -> 0 <= n < max -> (i < m)%nat -> (m = gn c \/ (m = S (gn c) /\ i = gn c)) ->
  (forall e, resp c e = Some false -> rs e = Some false) ->
  CInv (fst (acquire (mkCl rd pr ne rs (lock c) (queue c) m (tasks c) ak) i n)).
Proof.
  intros I Hi Hn Hl Hm Hr. unfold acquire. cbn [lock queue].
  assert (G : CInv (set_task (mkCl rd pr ne rs (lock c) (queue c ++ [i]) m (tasks c) ak) i (GWait n))) by (apply set_inv; auto).
  destruct (lock c) eqn:L; [exact G|]. destruct (queue c) eqn:Q; [|exact G]. apply transmit_inv; auto.
Qed.
Lemma attempt_inv c i n rd pr ne rs ak m : CInv c -> idle (tasks c i) -> 0 <= n < max -> (i < m)%nat -> (m = gn c \/ (m = S (gn c) /\ i = gn c)) ->
  (forall e, resp c e = Some false -> rs e = Some false) ->
  CInv (fst (attempt (mkCl rd pr ne rs (lock c) (queue c) m (tasks c) ak) i n)).
Proof.
  intros I Hi Hn Hl Hm Hr. unfold attempt. cbn [ready]. destruct rd; [now apply acquire_inv|]. now apply set_inv.
Qed.
(** The holder of the lock gives it up. *)
Lemma release_inv c i n e t f : CInv c -> tasks c i = GSent n e -> match t with GDone (OText _) => True | _ => fit t end ->
  CInv (set_task (unlock c e f) i t).
Proof.
  intros I E Ht. assert (Hi : (i < gn c)%nat) by (apply (known _ _ I); intros o; rewrite E; discriminate). destruct I as [C1 C2 C3 C4].
  constructor; cbn [set_task unlock ready proto nends resp lock queue gn tasks gasked].
  - intros j Hj. rewrite fupd_ne by lia. auto.
  - intros j Hj. unfold TaskOk. cbn [set_task unlock tasks]. destruct (Nat.eq_dec j i) as [->|Hn].
    + rewrite fupd_eq. destruct t as [k|k|k e'|k|[]]; cbn in Ht |- *; auto. contradiction.
    + rewrite fupd_ne by exact Hn. apply C2. exact Hj.
  - intros j k e' E'. destruct (Nat.eq_dec j i) as [->|Hn]; [rewrite fupd_eq in E'; subst t; contradiction|]. rewrite fupd_ne in E' by exact Hn.
    destruct (C3 j k e' E'). destruct (C3 i n e E). congruence.
  - discriminate.
Qed.
Lemma eta c : mkCl (ready c) (proto c) (nends c) (resp c) (lock c) (queue c) (gn c) (tasks c) (gasked c) = c.
Proof. now destruct c. Qed.
(** A new socket's future: none yet. *)
Record EInv (c : dcl) : Prop := { e_ends : forall e, (nends c <= e)%nat -> resp c e = None; e_proto : ready c = true -> (proto c < nends c)%nat }.
Lemma after_fit n : 0 <= n < max -> fit (if max <=? n + 1 then GDone OMax else GSleep (n + 1)).
Proof. intros H. destruct (Z.leb_spec max (n + 1)); cbn; auto; lia. Qed.
Lemma cl_step_inv c ev : CInv c -> EInv c -> CInv (fst (cl_step c ev)).
Proof.
  intros I J. destruct ev as [r|i x| |k|k|k|d a| |k|k|k|i|i|i]; cbn [DgModel.cl_step fst]; try exact I.
  - assert (Hd : idle (tasks c (gn c))) by (rewrite (c_new c I) by lia; exact Logic.I).
    destruct (Z.ltb_spec 0 max); [apply attempt_inv; auto; lia|]. apply set_inv; auto; cbn; lia.
  - destruct (tasks c i) as [n|n|n e|n|o] eqn:E; try exact I.
    assert (Hi : (i < gn c)%nat) by (apply (known _ _ I); intros o; rewrite E; discriminate).
    pose proof (c_ok c I i Hi) as Hn. unfold TaskOk in Hn. rewrite E in Hn. assert (Hd : idle (tasks c i)) by (rewrite E; exact Logic.I).
    assert (G : forall t, fit t -> CInv (set_task c i t)). { intros t Ht. rewrite <- (eta c). apply set_inv; auto. }
    destruct x as [[]|]; cbn [fst]; try (apply G; cbn; auto; fail).
    + apply G. now apply after_fit.
    + apply acquire_inv; auto. intros e R. destruct (Nat.eq_dec e (nends c)) as [->|Hne]; [rewrite (e_ends c J) in R by lia; discriminate|]. now rewrite fupd_ne.
  - destruct (lock c) eqn:L; [exact I|]. destruct (queue c) as [|i q]; [exact I|]. destruct (tasks c i) as [n|n|n e|n|o] eqn:E; try exact I.
    assert (Hi : (i < gn c)%nat) by (apply (known _ _ I); intros o; rewrite E; discriminate).
    pose proof (c_ok c I i Hi) as Hn. unfold TaskOk in Hn. rewrite E in Hn. apply transmit_inv; auto.
  - destruct (tasks c i) as [n|n|n e|n|o] eqn:E; try exact I. cbn [fst].
    assert (Hi : (i < gn c)%nat) by (apply (known _ _ I); intros o; rewrite E; discriminate).
    pose proof (c_ok c I i Hi) as Hn. unfold TaskOk in Hn. rewrite E in Hn.
    apply (release_inv c i n e); auto. pose proof (after_fit n Hn). destruct (max <=? n + 1); exact H.
  - destruct (tasks c i) as [n|n|n e|n|o] eqn:E; try exact I.
    assert (Hi : (i < gn c)%nat) by (apply (known _ _ I); intros o; rewrite E; discriminate).
    pose proof (c_ok c I i Hi) as Hn. unfold TaskOk in Hn. rewrite E in Hn. assert (Hd : idle (tasks c i)) by (rewrite E; exact Logic.I).
    destruct (Z.ltb_spec n max); [|lia]. rewrite <- (eta c). apply attempt_inv; auto.
  - destruct (tasks c i) as [n|n|n e|n|o] eqn:E; try exact I; cbn [fst];
      (assert (Hi : (i < gn c)%nat) by (apply (known _ _ I); intros o; rewrite E; discriminate));
      try (assert (Hd : idle (tasks c i)) by (rewrite E; exact Logic.I)).
    + rewrite <- (eta c). apply set_inv; cbn; auto.
    + apply set_inv; cbn; auto.
    + apply (release_inv c i n e); cbn; auto.
    + rewrite <- (eta c). apply set_inv; cbn; auto.
Qed.
Lemma transmit_e c i n : EInv c -> ready c = true -> EInv (fst (transmit c i n)).
Proof.
  intros [E1 E2] R. specialize (E2 R). constructor; cbn [transmit fst ready proto nends resp]; [|auto].
  intros e He. rewrite fupd_ne by lia. auto.
Qed.
Definition RInv (c : dcl) : Prop := forall i n, tasks c i = GWait n -> ready c = true.
Lemma cl_step_e c ev : CInv c -> EInv c -> RInv c -> EInv (fst (cl_step c ev)) /\ RInv (fst (cl_step c ev)).
Proof.
  intros CI I W.
  assert (S : forall i t rd pr ne rs l q m ak, EInv (mkCl rd pr ne rs l q m (tasks c) ak) -> (ready c = true -> rd = true) -> (forall n, t = GWait n -> rd = true) ->
    EInv (set_task (mkCl rd pr ne rs l q m (tasks c) ak) i t) /\ RInv (set_task (mkCl rd pr ne rs l q m (tasks c) ak) i t)).
  { intros i t rd pr ne rs l q m ak [E1 E2] Hr Ht. split; [constructor; assumption|]. intros j n. cbn [set_task tasks ready].
    destruct (Nat.eq_dec j i) as [->|Hn]; [rewrite fupd_eq; apply Ht|]. rewrite fupd_ne by exact Hn. intros E. exact (Hr (W j n E)). }
  assert (T : forall i n rd pr ne rs l q m ak, EInv (mkCl rd pr ne rs l q m (tasks c) ak) -> rd = true ->
    EInv (fst (transmit (mkCl rd pr ne rs l q m (tasks c) ak) i n)) /\ RInv (fst (transmit (mkCl rd pr ne rs l q m (tasks c) ak) i n))).
  { intros i n rd pr ne rs l q m ak E ->. split; [now apply transmit_e|]. intros j k _. reflexivity. }
  assert (A : forall i n rd pr ne rs q m ak, EInv (mkCl rd pr ne rs (lock c) q m (tasks c) ak) -> rd = true ->
    EInv (fst (acquire (mkCl rd pr ne rs (lock c) q m (tasks c) ak) i n)) /\ RInv (fst (acquire (mkCl rd pr ne rs (lock c) q m (tasks c) ak) i n))).
  { intros i n rd pr ne rs q m ak E ->. unfold acquire. cbn [lock queue fst].
    destruct (lock c); [apply S; auto; destruct E; constructor; assumption|]. destruct q; [now apply T|]. apply S; auto; destruct E; constructor; assumption. }
  assert (B : forall i n rd pr ne rs q m ak, EInv (mkCl rd pr ne rs (lock c) q m (tasks c) ak) -> (ready c = true -> rd = true) ->
    EInv (fst (attempt (mkCl rd pr ne rs (lock c) q m (tasks c) ak) i n)) /\ RInv (fst (attempt (mkCl rd pr ne rs (lock c) q m (tasks c) ak) i n))).
  { intros i n rd pr ne rs q m ak E Hr. unfold attempt. cbn [ready fst]. destruct rd; [now apply A|]. apply S; auto. discriminate. }
  assert (SC : forall i t, (forall n, t = GWait n -> ready c = true) -> EInv (set_task c i t) /\ RInv (set_task c i t)).
  { intros i t Ht. rewrite <- (eta c) at 1 2. apply S; auto. rewrite eta. exact I. }
  assert (K : forall l q m ak, EInv (mkCl (ready c) (proto c) (nends c) (resp c) l q m (tasks c) ak)) by (intros; destruct I; constructor; assumption).
  assert (U : forall i n e f t, tasks c i = GSent n e -> (forall n, t = GWait n -> ready c = true) -> EInv (set_task (unlock c e f) i t) /\ RInv (set_task (unlock c e f) i t)).
  { intros i n e f t E Ht. apply S; auto. destruct I as [E1 E2]. constructor; cbn [unlock resp nends ready proto]; auto.
    intros e' He. rewrite fupd_ne; [auto|]. intros ->. destruct (c_lock c CI i n _ E) as [_ R]. rewrite E1 in R by exact He. discriminate. }
  destruct ev as [r|i x| |k|k|k|d a| |k|k|k|i|i|i]; cbn [DgModel.cl_step fst]; auto.
  - destruct (0 <? max); [apply B; auto|]. apply S; auto. discriminate.
  - destruct (tasks c i) as [n|n|n e|n|o] eqn:E; auto. destruct x as [[]|]; cbn [fst]; try (apply SC; discriminate; fail).
    + apply SC. destruct (max <=? n + 1); discriminate.
    + apply A; auto. destruct I as [E1 E2]. constructor; cbn [resp nends ready proto]; [|lia]. intros e He. rewrite fupd_ne by lia. apply E1. lia.
  - destruct (lock c) eqn:L; auto. destruct (queue c) as [|i q]; auto. destruct (tasks c i) as [n|n|n e|n|o] eqn:E; auto. apply T; auto. exact (W i n E).
  - destruct (tasks c i) as [n|n|n e|n|o] eqn:E; auto. cbn [fst]. apply (U i n); auto. destruct (max <=? n + 1); discriminate.
  - destruct (tasks c i) as [n|n|n e|n|o] eqn:E; auto. destruct (n <? max); [|apply SC; discriminate]. rewrite <- (eta c). apply B; auto.
  - destruct (tasks c i) as [n|n|n e|n|o] eqn:E; auto; cbn [fst]; try (apply SC; discriminate; fail).
    + apply S; auto. discriminate.
    + apply (U i n); auto. discriminate.
Qed.

(** What a step of the client keeps, and what it sends. *)
Lemma cl_step_keeps c ev : let (c', ps) := cl_step c ev in
  (gn c <= gn c')%nat /\ (forall j, (j < gn c)%nat -> gasked c' j = gasked c j) /\
  (CInv c -> forall p, In p ps -> exists e j, p = (gsent c' j, Mine e j) /\ (j < gn c')%nat /\ lock c = None /\ ps = [p] /\ lock c' = Some j) /\
  (forall i t, tasks c' i = GDone (OText t) -> tasks c i = GDone (OText t)).
Proof.
  assert (T : forall i n rd pr ne rs q m ak, (gn c <= m)%nat -> (forall j, (j < gn c)%nat -> ak j = gasked c j) -> (CInv c -> (i < m)%nat) -> lock c = None ->
    let (c', ps) := transmit (mkCl rd pr ne rs None q m (tasks c) ak) i n in
    (gn c <= gn c')%nat /\ (forall j, (j < gn c)%nat -> gasked c' j = gasked c j) /\
    (CInv c -> forall p, In p ps -> exists e j, p = (gsent c' j, Mine e j) /\ (j < gn c')%nat /\ lock c = None /\ ps = [p] /\ lock c' = Some j) /\
    (forall i t, tasks c' i = GDone (OText t) -> tasks c i = GDone (OText t))).
  { intros i n rd pr ne rs q m ak Hm Ha Hi Hl. cbn [transmit]. split; [exact Hm|]. split; [exact Ha|]. split.
    - intros I p [<-|[]]. exists pr, i. repeat split; auto.
    - intros j t. cbn [tasks]. destruct (Nat.eq_dec j i) as [->|Hn]; [rewrite fupd_eq; discriminate|now rewrite fupd_ne]. }
  assert (S : forall i t rd pr ne rs l q m ak, (gn c <= m)%nat -> (forall j, (j < gn c)%nat -> ak j = gasked c j) -> (forall x, t <> GDone (OText x)) ->
    let (c', ps) := (set_task (mkCl rd pr ne rs l q m (tasks c) ak) i t, @nil parcel) in
    (gn c <= gn c')%nat /\ (forall j, (j < gn c)%nat -> gasked c' j = gasked c j) /\
    (CInv c -> forall p, In p ps -> exists e j, p = (gsent c' j, Mine e j) /\ (j < gn c')%nat /\ lock c = None /\ ps = [p] /\ lock c' = Some j) /\
    (forall i t, tasks c' i = GDone (OText t) -> tasks c i = GDone (OText t))).
  { intros i t rd pr ne rs l q m ak Hm Ha Ht. cbn [set_task gn gasked tasks]. split; [exact Hm|]. split; [exact Ha|]. split; [intros _ p []|].
    intros j x. destruct (Nat.eq_dec j i) as [->|Hn]; [rewrite fupd_eq; intros E; now apply Ht in E|now rewrite fupd_ne]. }
  assert (SC : forall i t, (forall x, t <> GDone (OText x)) ->
    let (c', ps) := (set_task c i t, @nil parcel) in
    (gn c <= gn c')%nat /\ (forall j, (j < gn c)%nat -> gasked c' j = gasked c j) /\
    (CInv c -> forall p, In p ps -> exists e j, p = (gsent c' j, Mine e j) /\ (j < gn c')%nat /\ lock c = None /\ ps = [p] /\ lock c' = Some j) /\
    (forall i t, tasks c' i = GDone (OText t) -> tasks c i = GDone (OText t))).
  { intros i t Ht. exact (S i t (ready c) (proto c) (nends c) (resp c) (lock c) (queue c) (gn c) (gasked c) (le_n _) (fun _ _ => eq_refl) Ht). }
  assert (A : forall i n rd pr ne rs m ak, (gn c <= m)%nat -> (forall j, (j < gn c)%nat -> ak j = gasked c j) -> (CInv c -> (i < m)%nat) ->
    let (c', ps) := acquire (mkCl rd pr ne rs (lock c) (queue c) m (tasks c) ak) i n in
    (gn c <= gn c')%nat /\ (forall j, (j < gn c)%nat -> gasked c' j = gasked c j) /\
    (CInv c -> forall p, In p ps -> exists e j, p = (gsent c' j, Mine e j) /\ (j < gn c')%nat /\ lock c = None /\ ps = [p] /\ lock c' = Some j) /\
    (forall i t, tasks c' i = GDone (OText t) -> tasks c i = GDone (OText t))).
  { intros i n rd pr ne rs m ak Hm Ha Hi. unfold acquire. cbn [lock queue]. destruct (lock c) eqn:L; [apply S; auto; discriminate|].
    destruct (queue c); [|apply S; auto; discriminate]. now apply T. }
  assert (B : forall i n rd pr ne rs m ak, (gn c <= m)%nat -> (forall j, (j < gn c)%nat -> ak j = gasked c j) -> (CInv c -> (i < m)%nat) ->
    let (c', ps) := attempt (mkCl rd pr ne rs (lock c) (queue c) m (tasks c) ak) i n in
    (gn c <= gn c')%nat /\ (forall j, (j < gn c)%nat -> gasked c' j = gasked c j) /\
    (CInv c -> forall p, In p ps -> exists e j, p = (gsent c' j, Mine e j) /\ (j < gn c')%nat /\ lock c = None /\ ps = [p] /\ lock c' = Some j) /\
    (forall i t, tasks c' i = GDone (OText t) -> tasks c i = GDone (OText t))).
  { intros i n rd pr ne rs m ak Hm Ha Hi. unfold attempt. cbn [ready]. destruct rd; [now apply A|]. apply S; auto. discriminate. }
  assert (K : forall i, (forall o, tasks c i <> GDone o) -> CInv c -> (i < gn c)%nat) by (intros; now apply known).
  assert (Z : let (c', ps) := (c, @nil parcel) in
    (gn c <= gn c')%nat /\ (forall j, (j < gn c)%nat -> gasked c' j = gasked c j) /\
    (CInv c -> forall p, In p ps -> exists e j, p = (gsent c' j, Mine e j) /\ (j < gn c')%nat /\ lock c = None /\ ps = [p] /\ lock c' = Some j) /\
    (forall i t, tasks c' i = GDone (OText t) -> tasks c i = GDone (OText t))).
  { split; [lia|]. split; [reflexivity|]. split; [intros _ p []|auto]. }
  destruct ev as [r|i x| |k|k|k|d a| |k|k|k|i|i|i]; cbn [DgModel.cl_step]; try exact Z.
  - assert (Ha : forall j, (j < gn c)%nat -> fupd (gasked c) (gn c) r j = gasked c j) by (intros j Hj; rewrite fupd_ne by lia; reflexivity).
    destruct (0 <? max); [apply B; auto|apply S; auto; discriminate].
  - destruct (tasks c i) as [n|n|n e|n|o] eqn:E; try exact Z.
    destruct x as [[]|]; try (apply SC; discriminate; fail).
    + apply SC. intros x. destruct (max <=? n + 1); discriminate.
    + apply A; auto. apply K. rewrite E. discriminate.
  - destruct (lock c) eqn:L; [exact Z|]. destruct (queue c) as [|i q]; [exact Z|]. destruct (tasks c i) as [n|n|n e|n|o] eqn:E; try exact Z.
    apply T; auto. apply K. rewrite E. discriminate.
  - destruct (tasks c i) as [n|n|n e|n|o] eqn:E; try exact Z. apply S; auto. intros x. destruct (max <=? n + 1); discriminate.
  - destruct (tasks c i) as [n|n|n e|n|o] eqn:E; try exact Z. destruct (n <? max); [|apply SC; discriminate].
    pose proof (B i n (ready c) (proto c) (nends c) (resp c) (gn c) (gasked c) (le_n _) (fun _ _ => eq_refl)) as Q. rewrite eta in Q. apply Q. apply K. rewrite E. discriminate.
  - destruct (tasks c i) as [n|n|n e|n|o] eqn:E; try exact Z; try (apply SC; discriminate; fail); apply S; auto; discriminate.
Qed.

(** ** The whole *)
Definition Asked (c : dcl) (w : string * addr) : Prop := match snd w with Mine _ j => (j < gn c)%nat /\ fst w = gasks c j | Other _ => True end.
Definition AnsweredAt (c : dcl) (rn : list (string * addr)) (b : list N) (e j k : nat) : Prop :=
  (j < gn c)%nat /\ nth_error rn k = Some (gasks c j, Mine e j) /\ answer k [] (gasks c j) = Some b.
Definition Answered (c : dcl) (rn : list (string * addr)) (p : parcel) : Prop :=
  match snd p with Mine e j => exists k, AnsweredAt c rn (fst p) e j k | Other _ => True end.
Record Inv (s : dg) : Prop := {
  v_c : CInv (me s); v_e : EInv (me s); v_r : RInv (me s);
  v_up : forall p, In p (up s) -> match snd p with Mine _ j => (j < gn (me s))%nat /\ fst p = gsent (me s) j | Other _ => True end;
  v_pend : forall w, In w (pending (srv s)) -> Asked (me s) w;
  v_ran : forall w, In w (ran s) -> Asked (me s) w;
  v_prev : uprev (srv s) = map fst (ran s);
  v_down : forall p, In p (down s) -> Answered (me s) (ran s) p;
  v_got : forall i t, tasks (me s) i = GDone (OText t) -> exists e j k b, AnsweredAt (me s) (ran s) b e j k /\ decode b = Some t }.
Lemma asks_kept c c' j : gasked c' j = gasked c j -> gasks c' j = gasks c j.
Proof. intros E. unfold gasks. now rewrite E. Qed.
Lemma answered_kept c c' rn rn' b e j k : (gn c <= gn c')%nat -> (forall j, (j < gn c)%nat -> gasked c' j = gasked c j) -> (exists x, rn' = rn ++ x) ->
  AnsweredAt c rn b e j k -> AnsweredAt c' rn' b e j k.
Proof.
  intros G A [x ->] (H1 & H2 & H3). unfold AnsweredAt. rewrite (asks_kept c c' j (A j H1)). split; [lia|]. split; [|exact H3].
  rewrite nth_error_app1; [exact H2|]. apply nth_error_Some. congruence.
Qed.
Lemma client_inv s c' ps : Inv s -> CInv c' -> EInv c' -> RInv c' -> (gn (me s) <= gn c')%nat -> (forall j, (j < gn (me s))%nat -> gasked c' j = gasked (me s) j) ->
  (forall p, In p ps -> exists e j, p = (gsent c' j, Mine e j) /\ (j < gn c')%nat) ->
  (forall i t, tasks c' i = GDone (OText t) -> tasks (me s) i = GDone (OText t) \/ exists e j k b, AnsweredAt (me s) (ran s) b e j k /\ decode b = Some t) ->
  Inv (mkDg (srv s) (up s ++ ps) (down s) c' (ran s)).
Proof.
  intros [V1 V2 V3 V4 V5 V6 V7 V8 V9] I E W G A P T. constructor; cbn [srv up down me ran]; auto.
  - intros p H. apply in_app_or in H as [H|H].
    + specialize (V4 p H). destruct (snd p) as [e j|]; [|exact Logic.I]. destruct V4 as [L ->]. split; [lia|]. unfold gsent. now rewrite (asks_kept _ _ j (A j L)).
    + destruct (P p H) as (e & j & -> & L). cbn. auto.
  - intros w H. specialize (V5 w H). unfold Asked in *. destruct (snd w); [|exact Logic.I]. destruct V5 as [L ->]. split; [lia|]. now rewrite (asks_kept _ _ _ (A _ L)).
  - intros w H. specialize (V6 w H). unfold Asked in *. destruct (snd w); [|exact Logic.I]. destruct V6 as [L ->]. split; [lia|]. now rewrite (asks_kept _ _ _ (A _ L)).
  - intros p H. specialize (V8 p H). unfold Answered in *. destruct (snd p); [|exact Logic.I]. destruct V8 as [k V8]. exists k. revert V8. apply answered_kept; auto. exists []. now rewrite app_nil_r.
  - intros i t H. destruct (T i t H) as [H'|(e & j & k & b & H1 & H2)].
    + destruct (V9 i t H') as (e & j & k & b & H1 & H2). exists e, j, k, b. split; [|exact H2]. revert H1. apply answered_kept; auto. exists []. now rewrite app_nil_r.
    + exists e, j, k, b. split; [|exact H2]. revert H1. apply answered_kept; auto. exists []. now rewrite app_nil_r.
Qed.
Lemma shrink_inv s u d : Inv s -> (forall p, In p u -> In p (up s)) -> (forall p, In p d -> In p (down s)) -> Inv (mkDg (srv s) u d (me s) (ran s)).
Proof. intros [V1 V2 V3 V4 V5 V6 V7 V8 V9] U Dn. constructor; cbn [srv up down me ran]; auto; intros p H; apply V4, U, H. Qed.
Lemma gsent_head c j : hd 0%N (gsent c j) = 123%N.
Proof. reflexivity. Qed.
Lemma gsent_decode c j t : decode (gsent c j) = Some t -> t = gasks c j.
Proof. unfold AskModel.decode, gsent. rewrite of_bytes_bytes. destruct (utf8 _); congruence. Qed.
Lemma datagram_inv s d a : Inv s -> match a with Mine _ j => (j < gn (me s))%nat /\ d = gsent (me s) j | Other _ => True end ->
  Inv (serve_ev s (UDatagram d a)).
Proof.
  intros [V1 V2 V3 V4 V5 V6 V7 V8 V9] H. unfold DgModel.serve_ev. destruct (srv_datagram (srv s) d a) as (P1 & P2 & P3).
  set (v := ustep (srv s) (UDatagram d a)) in *. rewrite app_nil_r. constructor; cbn [srv up down me ran]; auto.
  - intros w Hw. destruct P3 as [P3|(t & Dt & P3)]; [rewrite P3 in Hw; auto|]. rewrite P3 in Hw. apply in_app_or in Hw as [Hw|[<-|[]]]; [auto|].
    unfold Asked. cbn [fst snd]. destruct a as [e j|]; [|exact Logic.I]. destruct H as [L ->]. split; [exact L|]. now apply gsent_decode.
  - congruence.
  - intros p Hp. apply in_app_or in Hp as [Hp|Hp]; [auto|]. destruct P2 as [P2|(Hd & P2)]; [rewrite P2, skipn_all in Hp; destruct Hp|].
    rewrite P2, skipn_more in Hp. destruct Hp as [<-|[]]. unfold Answered. cbn [snd]. destruct a as [e j|]; [|exact Logic.I].
    destruct H as [_ ->]. rewrite gsent_head in Hd. discriminate.
Qed.
Lemma served_inv s : Inv s -> Inv (serve_ev s UDone).
Proof.
  intros [V1 V2 V3 V4 V5 V6 V7 V8 V9]. unfold DgModel.serve_ev. pose proof (srv_done (srv s)) as P. destruct (uheld (srv s)) as [[t a]|] eqn:E.
  - destruct P as (P1 & P2 & P3). set (v := ustep (srv s) UDone) in *.
    assert (AO : Asked (me s) (t, a)) by (apply V5; unfold pending; rewrite E; now left).
    assert (KP : forall b e j k, AnsweredAt (me s) (ran s) b e j k -> AnsweredAt (me s) (ran s ++ [(t, a)]) b e j k) by (intros b e j k; apply answered_kept; eauto).
    constructor; cbn [srv up down me ran]; auto.
    + intros w Hw. rewrite P2 in Hw. apply V5. unfold pending. rewrite E. now right.
    + intros w Hw. apply in_app_or in Hw as [Hw|[<-|[]]]; auto.
    + rewrite P1, V7, map_app. reflexivity.
    + intros p Hp. apply in_app_or in Hp as [Hp|Hp].
      * specialize (V8 p Hp). unfold Answered in *. destruct (snd p); [|exact Logic.I]. destruct V8 as [k V8]. exists k. auto.
      * rewrite P3, skipn_more in Hp. unfold DgModel.ganswer in Hp. destruct (answer (List.length (uprev (srv s))) [] t) as [b|] eqn:B; [|destruct Hp].
        destruct Hp as [<-|[]]. unfold Answered. cbn [fst snd]. destruct a as [e j|]; [|exact Logic.I]. destruct AO as [L AT]. cbn [fst snd] in *. subst t.
        exists (List.length (ran s)). split; [exact L|]. rewrite nth_error_app2, Nat.sub_diag by lia. split; [reflexivity|].
        rewrite V7, map_length in B. exact B.
    + intros i x Hx. destruct (V9 i x Hx) as (e & j & k & b & H1 & H2). exists e, j, k, b. auto.
  - rewrite P, skipn_all, !app_nil_r. destruct s as [sv u d m r]. constructor; auto.
Qed.
Lemma received_cases c e b : received utf8 c e b = c \/
  exists i n t, lock c = Some i /\ tasks c i = GSent n e /\ decode b = Some t /\ received utf8 c e b = set_task (unlock c e None) i (GDone (OText t)).
Proof.
  unfold received. destruct (resp c e) as [[]|]; auto. destruct (lock c) as [i|]; auto. destruct (tasks c i) as [n|n|n e'|n|o] eqn:T; auto.
  destruct (decode b) as [t|]; auto. destruct (Nat.eqb_spec e e') as [<-|]; auto. right. exists i, n, t. auto.
Qed.
Lemma gstep_inv s ev : Inv s -> Inv (gstep s ev).
Proof.
  intros I.
  assert (CL : Inv (let (c, ps) := cl_step (me s) ev in mkDg (srv s) (up s ++ ps) (down s) c (ran s))).
  { pose proof (cl_step_keeps (me s) ev) as K. pose proof (cl_step_inv (me s) ev (v_c s I) (v_e s I)) as C.
    destruct (cl_step_e (me s) ev (v_c s I) (v_e s I) (v_r s I)) as [E W].
    destruct (cl_step (me s) ev) as [c ps]. cbn [fst] in *. destruct K as (K1 & K2 & K3 & K4). apply client_inv; auto.
    intros p Hp. destruct (K3 (v_c s I) p Hp) as (e & j & Q1 & Q2 & _). eauto. }
  destruct ev as [r|i x| |k|k|k|d a| |k|k|k|i|i|i]; cbn [DgModel.gstep]; try exact CL.
  - destruct (nth_error (up s) k) as [[d a]|] eqn:E; [|exact I]. apply datagram_inv.
    + apply shrink_inv; auto. intros p. apply in_drop.
    + apply nth_error_In in E. exact (v_up s I _ E).
  - apply shrink_inv; auto. intros p. apply in_drop.
  - destruct (nth_error (up s) k) as [p|] eqn:E; [|exact I]. apply shrink_inv; auto. intros q Hq. apply in_app_or in Hq as [Hq|[<-|[]]]; auto. eapply nth_error_In; eauto.
  - now apply datagram_inv.
  - now apply served_inv.
  - destruct (nth_error (down s) k) as [[b [e j|]]|] eqn:E; [|exact I|exact I]. apply nth_error_In in E.
    assert (I2 : Inv (mkDg (srv s) (up s) (drop_nth k (down s)) (me s) (ran s))) by (apply shrink_inv; auto; intros p; apply in_drop).
    destruct (received_cases (me s) e b) as [->|(i & n & t & L & T & Dc & ->)]; [exact I2|].
    rewrite <- (app_nil_r (up s)).
    apply (client_inv _ (set_task (unlock (me s) e None) i (GDone (OText t))) [] I2); cbn [srv up down me ran]; auto.
    + apply (release_inv (me s) i n e); auto. apply (v_c s I).
    + destruct (v_e s I) as [E1 E2]. constructor; cbn; auto. intros e' He. destruct (Nat.eq_dec e' e) as [->|Hn]; [now rewrite fupd_eq|]. rewrite fupd_ne; auto.
    + intros j' n' Hj. cbn in Hj. destruct (Nat.eq_dec j' i) as [->|Hn]; [rewrite fupd_eq in Hj; discriminate|]. rewrite fupd_ne in Hj by exact Hn. exact (v_r s I j' n' Hj).
    + intros p [].
    + intros i' x. cbn [set_task unlock tasks]. destruct (Nat.eq_dec i' i) as [->|Hn].
      * rewrite fupd_eq. intros Q. injection Q as <-. right. destruct (v_down s I _ E) as [k' Hk]. cbn [fst] in Hk. exists e, j, k', b. auto.
      * rewrite fupd_ne by exact Hn. auto.
  - apply shrink_inv; auto. intros p. apply in_drop.
  - destruct (nth_error (down s) k) as [p|] eqn:E; [|exact I]. apply shrink_inv; auto. intros q Hq. apply in_app_or in Hq as [Hq|[<-|[]]]; auto. eapply nth_error_In; eauto.
Qed.
Lemma gfresh_inv : Inv gfresh.
Proof. constructor; cbn; try (intros; contradiction); try discriminate; constructor; cbn; auto; try discriminate; intros; lia. Qed.
Theorem grun_inv es : Inv (grun es).
Proof. unfold DgModel.grun. induction es as [|e es IH] using rev_ind; [exact gfresh_inv|]. rewrite fold_left_app. now apply gstep_inv. Qed.
End Dg.
