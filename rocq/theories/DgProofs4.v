(** Calls over UDP: they end. *)
From Coq Require Import String Ascii ZArith NArith Bool List Arith Lia.
From Verif Require Import Base SpanKeyModel SpanKeySpec RouterModel JsonModel JsonSpec StreamModel ClientModel WireModel WireProofs AskModel AskSpec DgModel DgSpec DgProofs.
Import ListNotations.
Local Open Scope Z_scope.

Section Dg.
Context {D V : Type} (utf8 : list N -> bool) (dump : V -> json) (max : Z) (accepted_resp : span_key -> V) (app : nat -> code D V).
Notation gstep := (gstep utf8 dump max accepted_resp app).
Notation grun := (grun utf8 dump max accepted_resp app).
Notation cl_step := (cl_step max).
Notation CInv := (CInv max).

(** ** Who waits for the lock *)
Record QInv (c : dcl) : Prop := { q_wait : forall i, In i (queue c) <-> exists n, tasks c i = GWait n; q_once : NoDup (queue c) }.
Definition not_wait (t : gstate) : Prop := match t with GWait _ => False | _ => True end.
(** A task that is not in the queue goes on to a state outside it. *)
Lemma q_set c i t rd pr ne rs lk m ak : QInv c -> not_wait (tasks c i) -> not_wait t ->
  QInv (mkCl rd pr ne rs lk (queue c) m (fupd (tasks c) i t) ak).
Proof.
  intros [Q1 Q2] Hi Ht. constructor; cbn [queue tasks]; [|exact Q2]. intros j. rewrite (Q1 j).
  destruct (Nat.eq_dec j i) as [->|H]; [rewrite fupd_eq|rewrite fupd_ne by exact H; reflexivity].
  split; intros (n & E); [rewrite E in Hi|rewrite E in Ht]; contradiction.
Qed.
Lemma q_enter c i n rd pr ne rs lk m ak : QInv c -> not_wait (tasks c i) ->
  QInv (mkCl rd pr ne rs lk (queue c ++ [i]) m (fupd (tasks c) i (GWait n)) ak).
Proof.
  intros [Q1 Q2] Hi. assert (NI : ~ In i (queue c)) by (intros H; apply Q1 in H as (k & E); now rewrite E in Hi).
  constructor; cbn [queue tasks].
  - intros j. rewrite in_app_iff. cbn [In]. destruct (Nat.eq_dec j i) as [->|H].
    + rewrite fupd_eq. split; [intros _; now exists n|auto].
    + rewrite fupd_ne by exact H. rewrite (Q1 j). split; [intros [E|[E|[]]]; [exact E|congruence]|auto].
  - apply NoDup_rev in Q2. rewrite <- (rev_involutive (queue c ++ [i])), rev_app_distr. apply NoDup_rev. constructor; [|exact Q2]. now rewrite <- in_rev.
Qed.
Lemma q_leave c i l t rd pr ne rs lk m ak : QInv c -> queue c = i :: l -> not_wait t -> QInv (mkCl rd pr ne rs lk l m (fupd (tasks c) i t) ak).
Proof.
  intros [Q1 Q2] E Ht. rewrite E in *. apply NoDup_cons_iff in Q2 as [Q2 Q3]. constructor; cbn [queue tasks]; [|exact Q3].
  intros j. destruct (Nat.eq_dec j i) as [->|H].
  - rewrite fupd_eq. split; [contradiction|intros (n & ->); contradiction].
  - rewrite fupd_ne by exact H. rewrite <- (Q1 j). cbn [In]. split; [auto|intros [->|X]; [congruence|exact X]].
Qed.
Lemma q_remove c i t rd pr ne rs lk m ak : QInv c -> not_wait t -> QInv (mkCl rd pr ne rs lk (remove i (queue c)) m (fupd (tasks c) i t) ak).
Proof.
  intros [Q1 Q2] Ht. constructor; cbn [queue tasks]; [|apply NoDup_filter; exact Q2].
  intros j. unfold remove. rewrite filter_In. destruct (Nat.eqb_spec j i) as [->|H]; cbn [negb].
  - rewrite fupd_eq. split; [intros [_ X]; discriminate|intros (n & ->); contradiction].
  - rewrite fupd_ne by exact H. rewrite (Q1 j). tauto.
Qed.

(** ** What a step does to the calls *)
(** How many steps a call may still take. *)
Definition weight (t : gstate) : Z :=
  match t with
  | GSleep n => 4 * (max - n - 1) + 4 | GOpen n => 4 * (max - n - 1) + 3 | GWait n => 4 * (max - n - 1) + 2 | GSent n _ => 4 * (max - n - 1) + 1
  | GDone _ => 0
  end.
(** One call goes on, or none does. *)
Definition Moves (c d : dcl) : Prop :=
  gn d = gn c /\ (tasks d = tasks c \/ exists i t, (i < gn c)%nat /\ tasks d = fupd (tasks c) i t /\ 0 <= weight t < weight (tasks c i)).
Lemma moves_refl c : Moves c c.
Proof. split; auto. Qed.
Lemma acquire_moves c i n rd pr ne rs ak : QInv c -> not_wait (tasks c i) -> (i < gn c)%nat -> 0 <= n < max -> 4 * (max - n - 1) + 2 < weight (tasks c i) ->
  let d := fst (acquire (mkCl rd pr ne rs (lock c) (queue c) (gn c) (tasks c) ak) i n) in Moves c d /\ QInv d.
Proof.
  intros Q H Hi Hn W. cbv zeta. unfold acquire. cbn [lock queue].
  assert (G : let d := fst (set_task (mkCl rd pr ne rs (lock c) (queue c ++ [i]) (gn c) (tasks c) ak) i (GWait n), @nil parcel) in Moves c d /\ QInv d).
  { cbv zeta. unfold set_task. cbn [fst ready proto nends resp lock queue gn tasks gasked]. split; [|now apply q_enter]. split; [reflexivity|]. right. exists i, (GWait n). cbn [weight gn tasks]. repeat split; auto; lia. }
  destruct (lock c) eqn:L; [exact G|]. destruct (queue c) eqn:E; [|exact G]. unfold transmit; cbn [fst ready proto nends resp lock queue gn tasks gasked].
  split; [|rewrite <- E; apply q_set; auto; exact Logic.I]. split; [reflexivity|]. right. exists i, (GSent n pr). cbn [weight gn tasks]. repeat split; auto; lia.
Qed.
Lemma set_moves c i t : QInv c -> not_wait (tasks c i) -> not_wait t -> (i < gn c)%nat -> 0 <= weight t < weight (tasks c i) -> Moves c (set_task c i t) /\ QInv (set_task c i t).
Proof.
  intros Q H Ht Hi W. unfold set_task, unlock; cbn [ready proto nends resp lock queue gn tasks gasked]. split; [|now apply q_set]. split; [reflexivity|]. right. exists i, t. auto.
Qed.
Lemma release_moves c i e f t : QInv c -> not_wait (tasks c i) -> not_wait t -> (i < gn c)%nat -> 0 <= weight t < weight (tasks c i) ->
  Moves c (set_task (unlock c e f) i t) /\ QInv (set_task (unlock c e f) i t).
Proof.
  intros Q H Ht Hi W. unfold set_task, unlock; cbn [ready proto nends resp lock queue gn tasks gasked]. split; [|now apply q_set]. split; [reflexivity|]. right. exists i, t. auto.
Qed.
Definition starts (ev : gevent) : Prop := match ev with GStart _ => True | _ => False end.
Lemma retry_weight n : 0 <= n < max -> 0 <= weight (if max <=? n + 1 then GDone OMax else GSleep (n + 1)) < 4 * (max - n - 1) + 1.
Proof. intros H. destruct (Z.leb_spec max (n + 1)); cbn [weight]; lia. Qed.
Lemma retry_not_wait n : not_wait (if max <=? n + 1 then GDone OMax else GSleep (n + 1)).
Proof. now destruct (max <=? n + 1). Qed.
Ltac mine I E := match type of E with tasks ?c ?i = _ => let Hi := fresh "Hi" in let TO := fresh "TO" in
  assert (Hi : (i < gn c)%nat) by (apply (known _ _ _ I); intros ?; rewrite E; discriminate);
  pose proof (c_ok _ _ I i Hi) as TO; unfold TaskOk in TO; rewrite E in TO end.
Lemma cl_step_moves c ev : CInv c -> QInv c -> ~ starts ev -> Moves c (fst (cl_step c ev)) /\ QInv (fst (cl_step c ev)).
Proof.
  intros I Q NS. assert (R : Moves c c /\ QInv c) by (split; [apply moves_refl|exact Q]).
  destruct ev as [r|i x| |k|k|k|d a| |k|k|k|i|i|i]; cbn [DgModel.cl_step fst]; auto; [destruct (NS Logic.I)|..].
  - destruct (tasks c i) as [n|n|n e|n|o] eqn:E; auto. mine I E. assert (NW : not_wait (tasks c i)) by now rewrite E.
    assert (W : weight (tasks c i) = 4 * (max - n - 1) + 3) by now rewrite E.
    destruct x as [[]|]; cbn [fst]; try (apply set_moves; auto; [exact Logic.I|rewrite W; cbn [weight]; lia]).
    + apply set_moves; auto; [apply retry_not_wait|]. rewrite W. pose proof (retry_weight n TO). lia.
    + apply acquire_moves; auto. lia.
  - destruct (lock c) eqn:L; auto. destruct (queue c) as [|i l] eqn:E; auto. destruct (tasks c i) as [n|n|n e|n|o] eqn:T; auto. mine I T.
    unfold transmit; cbn [fst ready proto nends resp lock queue gn tasks gasked]. split; [|eapply q_leave; eauto; exact Logic.I].
    split; [reflexivity|]. right. exists i, (GSent n (proto c)). cbn [tasks]. rewrite T. cbn [weight]. repeat split; auto; lia.
  - destruct (tasks c i) as [n|n|n e|n|o] eqn:T; auto. mine I T. cbn [fst]. apply release_moves; auto; rewrite ?T; [exact Logic.I|apply retry_not_wait|apply retry_weight; exact TO].
  - destruct (tasks c i) as [n|n|n e|n|o] eqn:T; auto. mine I T. destruct (Z.ltb_spec n max) as [L|L]; [|cbn [fst]; apply set_moves; auto; rewrite ?T; cbn [weight not_wait]; auto; lia].
    unfold attempt. destruct (ready c) eqn:Rd; [|cbn [fst]; apply set_moves; auto; rewrite ?T; cbn [weight not_wait]; auto; lia].
    pose proof (acquire_moves c i n (ready c) (proto c) (nends c) (resp c) (gasked c) Q) as A. rewrite T in A. cbn [weight not_wait] in A.
    replace c with (mkCl (ready c) (proto c) (nends c) (resp c) (lock c) (queue c) (gn c) (tasks c) (gasked c)) at 2 4 by now destruct c. apply A; auto; lia.
  - destruct (tasks c i) as [n|n|n e|n|o] eqn:T; auto; mine I T; cbn [fst].
    + apply set_moves; auto; rewrite ?T; cbn [weight not_wait]; auto; lia.
    + unfold set_task; cbn [ready proto nends resp lock queue gn tasks gasked]. split; [|apply q_remove; auto; exact Logic.I]. split; [reflexivity|]. right.
      exists i, (GDone (ORaw XCancel)). cbn [tasks]. rewrite T. cbn [weight]. repeat split; auto; lia.
    + apply release_moves; auto; rewrite ?T; cbn [weight not_wait]; auto; lia.
    + apply set_moves; auto; rewrite ?T; cbn [weight not_wait]; auto; lia.
Qed.
(** A new call. *)
Lemma start_q c r : CInv c -> QInv c -> QInv (fst (cl_step c (GStart r))).
Proof.
  intros I Q. assert (NW : not_wait (tasks c (gn c))) by now rewrite (c_new _ _ I _ (Nat.le_refl _)).
  cbn [DgModel.cl_step]. destruct (0 <? max); [|unfold set_task; cbn [fst ready proto nends resp lock queue gn tasks gasked]; now apply q_set]. unfold attempt. cbn [ready]. destruct (ready c); [|unfold set_task; cbn [fst ready proto nends resp lock queue gn tasks gasked]; now apply q_set].
  unfold acquire. cbn [lock queue]. assert (G : forall lk, QInv (fst (set_task (mkCl true (proto c) (nends c) (resp c) lk (queue c ++ [gn c]) (S (gn c)) (tasks c) (fupd (gasked c) (gn c) r)) (gn c) (GWait 0), @nil parcel))).
  { intros lk. unfold set_task; cbn [fst ready proto nends resp lock queue gn tasks gasked]. now apply q_enter. }
  destruct (lock c); [apply G|]. destruct (queue c) eqn:E; [|rewrite <- E; rewrite <- E in G; apply G]. unfold transmit; cbn [fst ready proto nends resp lock queue gn tasks gasked]. rewrite <- E. now apply q_set.
Qed.
Lemma received_moves c e b : CInv c -> QInv c -> Moves c (received utf8 c e b) /\ QInv (received utf8 c e b).
Proof.
  intros I Q. destruct (received_cases utf8 c e b) as [->|(i & n & t & _ & T & _ & ->)]; [split; [apply moves_refl|exact Q]|].
  mine I T. apply release_moves; auto; rewrite ?T; cbn [weight not_wait]; auto; lia.
Qed.
Lemma gstep_moves s ev : CInv (me s) -> QInv (me s) -> ~ starts ev -> Moves (me s) (me (gstep s ev)) /\ QInv (me (gstep s ev)).
Proof.
  intros I Q NS. assert (R : Moves (me s) (me s) /\ QInv (me s)) by (split; [apply moves_refl|exact Q]).
  assert (C : let (c, ps) := cl_step (me s) ev in Moves (me s) c /\ QInv c) by (pose proof (cl_step_moves (me s) ev I Q NS) as H; now destruct (cl_step (me s) ev)).
  destruct ev as [r|i x| |k|k|k|d a| |k|k|k|i|i|i]; cbn [DgModel.gstep]; try exact R;
    try (destruct (cl_step (me s) _) as [c ps]; exact C).
  - destruct (nth_error (up s) k) as [[d a]|]; exact R.
  - destruct (nth_error (up s) k) as [[d a]|]; exact R.
  - destruct (nth_error (down s) k) as [[d [e j|a]]|]; try exact R. cbn [me]. now apply received_moves.
  - destruct (nth_error (down s) k) as [[d a]|]; exact R.
Qed.
Lemma grun_q es : QInv (me (grun es)).
Proof.
  assert (G : forall es s, Inv utf8 dump max accepted_resp app s -> QInv (me s) -> QInv (me (fold_left gstep es s))).
  { intros l. induction l as [|ev l IH]; intros s I Q; [exact Q|]. cbn [fold_left]. apply IH; [now apply gstep_inv|].
    assert (NS : ~ starts ev -> QInv (me (gstep s ev))) by (intros NS; apply gstep_moves; [apply (v_c _ _ _ _ _ _ I)|exact Q|exact NS]).
    destruct ev; try (apply NS; intros []; fail).
    pose proof (start_q (me s) r (v_c _ _ _ _ _ _ I) Q) as H. cbn [DgModel.gstep]. destruct (cl_step (me s) (GStart r)). exact H. }
  apply G; [apply (grun_inv utf8 dump max accepted_resp app [])|]. constructor; cbn; [|constructor]. intros i. split; [intros []|intros (n & E); discriminate].
Qed.

(** ** The sum of the weights *)
Fixpoint total (f : nat -> gstate) (n : nat) : Z := match n with O => 0 | S m => total f m + weight (f m) end.
Lemma total_upd f i t n : total (fupd f i t) n = total f n + (if Nat.ltb i n then weight t - weight (f i) else 0).
Proof.
  induction n as [|n IH]; [reflexivity|]. cbn [total]. rewrite IH. destruct (Nat.eq_dec n i) as [->|H].
  - rewrite fupd_eq. destruct (Nat.ltb_spec i i), (Nat.ltb_spec i (S i)); lia.
  - rewrite fupd_ne by exact H. destruct (Nat.ltb_spec i n), (Nat.ltb_spec i (S n)); lia.
Qed.
Lemma total_bound f n B : (forall i, (i < n)%nat -> 0 <= weight (f i) <= B) -> 0 <= total f n <= Z.of_nat n * B.
Proof.
  induction n as [|n IH]; intros H; [cbn; lia|]. cbn [total]. pose proof (H n (Nat.lt_succ_diag_r n)).
  assert (0 <= total f n <= Z.of_nat n * B) by (apply IH; intros; apply H; lia). lia.
Qed.
Lemma weights c i : CInv c -> (i < gn c)%nat -> 0 <= weight (tasks c i) <= Z.max 0 (4 * max).
Proof. intros I Hi. pose proof (c_ok _ _ I i Hi) as TO. unfold TaskOk in TO. destruct (tasks c i); cbn [weight]; lia. Qed.
Lemma moves_total c d : Moves c d -> tasks d = tasks c \/ total (tasks d) (gn d) <= total (tasks c) (gn c) - 1.
Proof.
  intros [E [H|(i & t & Hi & H & W)]]; [auto|]. right. rewrite H, E, total_upd. destruct (Nat.ltb_spec i (gn c)); lia.
Qed.
Lemma run_bound es : forall s, Inv utf8 dump max accepted_resp app s -> QInv (me s) -> (forall e, In e es -> ~ starts e) -> throughout gstep (goes_on gstep) s es ->
  Z.of_nat (List.length es) <= total (tasks (me s)) (gn (me s)).
Proof.
  induction es as [|ev es IH]; intros s I Q NS T.
  - cbn. apply (total_bound _ _ (Z.max 0 (4 * max))). intros i Hi. apply weights; [apply (v_c _ _ _ _ _ _ I)|exact Hi].
  - cbn [throughout] in T. destruct T as [[i G] T]. assert (N1 : ~ starts ev) by (apply NS; now left).
    destruct (gstep_moves s ev (v_c _ _ _ _ _ _ I) Q N1) as [M Q'].
    specialize (IH (gstep s ev) (gstep_inv _ _ _ _ _ _ _ I) Q' (fun e H => NS e (or_intror H)) T).
    destruct (moves_total _ _ M) as [E|E]; [destruct G; now rewrite E|]. cbn [List.length]. lia.
Qed.
Lemma not_stuck s i : Inv utf8 dump max accepted_resp app s -> QInv (me s) -> in_progress s i -> exists ev, by_itself ev /\ goes_on gstep s ev.
Proof.
  intros I Q [Hi P]. pose proof (v_c _ _ _ _ _ _ I) as CI.
  assert (TM : forall j n e, tasks (me s) j = GSent n e -> goes_on gstep s (GTimeout j)).
  { intros j n e T. exists j. cbn [DgModel.gstep DgModel.cl_step]. rewrite T. cbn [me set_task unlock tasks]. rewrite fupd_eq. now destruct (max <=? n + 1). }
  assert (AQ : forall c j n, let d := fst (acquire c j n) in tasks d j = GWait n \/ tasks d j = GSent n (proto c)).
  { intros c j n. cbv zeta. unfold acquire. destruct (lock c); [left; cbn; apply fupd_eq|]. destruct (queue c); [right|left]; cbn; apply fupd_eq. }
  destruct (tasks (me s) i) as [n|n|n e|n|o] eqn:T.
  - exists (GOpened i None). split; [exact Logic.I|]. exists i. cbn [DgModel.gstep DgModel.cl_step]. rewrite T.
    match goal with |- context [acquire ?c i n] => pose proof (AQ c i n) as H; cbv zeta in H; destruct (acquire c i n) as [d ps] end. cbn [fst me] in *.
    destruct H as [H|H]; rewrite H; discriminate.
  - destruct (lock (me s)) as [j|] eqn:L.
    + destruct (c_held _ _ CI j L) as (k & e & E). exists (GTimeout j). split; [exact Logic.I|eapply TM; eauto].
    + exists GGrant. split; [exact Logic.I|]. assert (X : In i (queue (me s))) by (apply (q_wait _ Q); eauto).
      destruct (queue (me s)) as [|j l] eqn:E; [destruct X|]. assert (Y : exists k, tasks (me s) j = GWait k) by (apply (q_wait _ Q); rewrite E; now left).
      destruct Y as [k Y]. exists j. cbn [DgModel.gstep DgModel.cl_step]. rewrite L, E, Y. unfold transmit. cbn [me tasks]. rewrite fupd_eq. discriminate.
  - exists (GTimeout i). split; [exact Logic.I|eapply TM; eauto].
  - exists (GWake i). split; [exact Logic.I|]. exists i. cbn [DgModel.gstep DgModel.cl_step]. rewrite T. pose proof (c_ok _ _ CI i Hi) as TO. unfold TaskOk in TO. rewrite T in TO.
    destruct (Z.ltb_spec n max); [|lia]. unfold attempt. destruct (ready (me s)).
    + pose proof (AQ (me s) i n) as H'; cbv zeta in H'; destruct (acquire (me s) i n) as [d ps]. cbn [fst me] in *. destruct H' as [H'|H']; rewrite H'; discriminate.
    + cbn [me set_task tasks]. rewrite fupd_eq. discriminate.
  - now destruct (P o).
Qed.
End Dg.
