From Coq Require Import List ZArith NArith Bool String Permutation Lia.
From Verif Require Import Base PQueueModel PQueueSpec PQueueProofs PQueueProofs2 LifeModel LifeSpec.
Import ListNotations.
Local Open Scope Z_scope.

Section Proofs.
Context {V : Type}.
Notation app := (app V). Notation ev := (ev V). Notation out := (LifeModel.out V).

(** ** Lists *)
Lemma nth_set_nth {A} (i : nat) (x : A) : forall l j, nth_error (set_nth i x l) j =
  if Nat.eqb i j then (match nth_error l i with Some _ => Some x | None => None end) else nth_error l j.
Proof.
  induction i as [|i IH]; intros [|y l] [|j]; cbn [set_nth nth_error Nat.eqb]; auto.
  now destruct (Nat.eqb i j).
Qed.
Lemma set_nth_length {A} (i : nat) (x : A) : forall l, List.length (set_nth i x l) = List.length l.
Proof. induction i as [|i IH]; intros [|y l]; cbn; auto. Qed.
Lemma set_nth_app {A} (l1 : list A) y l2 x : set_nth (List.length l1) x (l1 ++ y :: l2) = (l1 ++ x :: l2)%list.
Proof. induction l1 as [|z l1 IH]; cbn; [auto|now rewrite IH]. Qed.
Lemma nth_app_len {A} (l1 : list A) y l2 : nth_error (l1 ++ y :: l2) (List.length l1) = Some y.
Proof. induction l1; cbn; auto. Qed.
Lemma Forall_set_nth {A} (P : A -> Prop) i x : forall l, Forall P l -> P x -> Forall P (set_nth i x l).
Proof. induction i as [|i IH]; intros [|y l] F X; cbn; auto; inversion F; subst; constructor; auto. Qed.
Lemma nth_set_cases {A} i j (x y : A) l : nth_error (set_nth i x l) j = Some y ->
  (i = j /\ y = x) \/ (i <> j /\ nth_error l j = Some y).
Proof.
  rewrite nth_set_nth. destruct (Nat.eqb i j) eqn:E; [apply Nat.eqb_eq in E|apply Nat.eqb_neq in E]; auto.
  intros H. left. split; [auto|]. destruct (nth_error l i); congruence.
Qed.

(** ** Queues *)
Lemma behaves_step (q q' : queue V) l c r : behaves_as q l -> step q c = Ok (q', r) -> behaves_as q' (fst (spec_step l c)).
Proof.
  intros B S ops. specialize (B (c :: ops)). cbn [run] in B. rewrite S in B. cbn [spec_run] in B.
  destruct (spec_step l c) as [l' x]. cbn [fst]. congruence.
Qed.
Lemma after_app (l : list (N * V)) a b : after l (a ++ b) = after (after l a) b.
Proof. apply fold_left_app. Qed.
Lemma calls_app i w (a b : list out) : calls i w (a ++ b) = (calls i w a ++ calls i w b)%list.
Proof. apply flat_map_app. Qed.

Definition oinv (ps : Z) (t : table V) (cs : list (op V)) (q : queue V) : Prop :=
  reachable q /\ psz q = ps /\ forall l, behaves_as (open_queue ps t) l -> behaves_as q (after l cs).
Lemma oinv_open ps t : on_disk t -> oinv ps t [] (open_queue ps t).
Proof.
  intros O. pose proof (on_disk_good t O) as [A B]. split; [now apply reach_open|]. split; [|auto].
  now destruct (open_queue_ok ps t A B) as [_ [_ [C _]]].
Qed.
Lemma step_psz (q q' : queue V) c r : reachable q -> step q c = Ok (q', r) -> psz q' = psz q.
Proof.
  intros R S. apply reachable_inv in R as [I _].
  destruct (step_inv q c I) as [q2 [x [A [B C]]]]. rewrite A in S. injection S as <- <-. auto.
Qed.
Lemma oinv_step ps t cs q c q' r : oinv ps t cs q -> step q c = Ok (q', r) -> oinv ps t (cs ++ [c]) q'.
Proof.
  intros [R [P B]] S. split; [eapply reach_step; eauto|]. split; [rewrite (step_psz _ _ _ _ R S); auto|].
  intros l L. rewrite after_app. cbn [after fold_left]. eapply behaves_step; eauto.
Qed.
(** What a shut-down leaves, and what an untouched file holds. *)
Lemma shut_survives ps t cs q q' l fut : ps <> 0 -> oinv ps t cs q -> q_shut_down q = Ok q' -> behaves_as (open_queue ps t) l ->
  fut = Closed (db q') -> survives fut (after l cs).
Proof.
  intros Hp [R [P B]] S L -> ps' Hp'. cbn [file].
  destruct (restart_same q (after l cs) ps' R ltac:(congruence) (B l L) Hp') as [q2 [l' [A [C D]]]].
  unfold reopen in A. rewrite S in A. cbn [bind] in A. injection A as <-. eauto.
Qed.
Lemma file_survives ps (t : table V) l : ps <> 0 -> on_disk t -> behaves_as (open_queue ps t) l -> survives (Closed t) l.
Proof.
  intros Hp O L ps' Hp'. cbn [file]. pose proof (on_disk_good t O) as [A B].
  pose proof (behaves_contents (open_queue ps t) l (reach_open ps t O)) as E.
  destruct (open_queue_ok ps t A B) as [I [C [D _]]]. destruct (open_queue_ok ps' t A B) as [I' [C' [D' _]]].
  rewrite (E ltac:(congruence) L). exists (contents (open_queue ps' t)). split; [apply behaves; auto; congruence|].
  rewrite C, C'. etransitivity; [apply reopened_order_perm|]. symmetry. apply reopened_order_perm.
Qed.

(** ** The state of one buffered endpoint or sender *)
Variable files : list (Z * table V * table V).
Variable all : list ev.       (* the events of the run *)
Variable intr : Prop.         (* some server's start was interrupted *)
Hypothesis usable : usable_files files.

Definition untouched (f : Z * table V * table V) (i : nat) (o : list out) (c : comp V) : Prop :=
  c_ps c = fst (fst f) /\ c_pend c = Closed (snd (fst f)) /\ c_err c = Closed (snd f) /\ has_future c = false /\
  calls i Pending o = [] /\ calls i Errors o = [].
Definition ready (f : Z * table V * table V) (i : nat) (o : list out) (c : comp V) : Prop :=
  c_ps c = fst (fst f) /\ exists qp qe, c_pend c = Open qp /\ c_err c = Open qe /\
    oinv (fst (fst f)) (snd (fst f)) (calls i Pending o) qp /\ oinv (fst (fst f)) (snd f) (calls i Errors o) qe.
Definition half (f : Z * table V * table V) (i : nat) (o : list out) (c : comp V) : Prop :=
  (exists e, In (ESetup (RaisesAt BetweenFiles e)) all) /\ c_err c = Closed (snd f) /\ (exists t, c_pend c = Closed t) /\
  has_future c = false.
Definition each (a : app) (o : list out) (P : nat -> Z * table V * table V -> comp V -> Prop) : Prop :=
  List.length (comps a) = List.length files /\
  forall i f c, nth_error files i = Some f -> nth_error (comps a) i = Some c -> P i f c.
Definition front (k : nat) (a : app) (o : list out) : Prop :=
  each a o (fun i f c => ((i < k)%nat -> ready f i o c /\ has_future c = true) /\ ((k <= i)%nat -> untouched f i o c)).
Definition stopped (k : nat) (a : app) (o : list out) : Prop :=
  each a o (fun i f c => ((i < k)%nat -> ready f i o c /\ has_future c = true) /\ ((k < i)%nat -> untouched f i o c) /\
                         (i = k -> untouched f i o c \/ ready f i o c \/ half f i o c)).
Lemma front_stopped k a o : front k a o -> stopped k a o.
Proof.
  intros [L F]. split; [auto|]. intros i f c A B. destruct (F i f c A B) as [X Y]. split; [auto|].
  split; [intros; apply Y; lia|]. intros ->. left. apply Y. lia.
Qed.

(** ** The servers *)
Definition sinv (s : server) : Prop :=
  match task s with
  | TNone | TCreated => running s = false /\ handle s = false /\ listening s = false
  | TStarting => running s = true /\ handle s = false /\ listening s = false
  | TServing => running s = true /\ handle s = true /\ listening s = true
  | TDone => listening s = false /\ (running s = true -> handle s = false /\ is_stream (kind s) = true /\ intr)
  end.
Definition servers_ok (a : app) : Prop :=
  Forall sinv (servers a) /\
  match now a with
  | Entered | Setting _ => Forall (fun s => task s = TNone) (servers a)
  | Hook => Forall (fun s => task s <> TNone) (servers a) /\ (failed a = None -> Forall (fun s => task s <> TDone) (servers a))
  | Serving => Forall (fun s => task s <> TNone /\ task s <> TDone) (servers a) /\ failed a = None
  | Ended _ => Forall (fun s => task s = TNone \/ task s = TDone) (servers a)
  | Exited _ => True
  end.

(** The run ends before the last set-up has completed. *)
Definition cut_short : Prop :=
  (exists p e, In (ESetup (RaisesAt p e)) all) \/ In EBodyEnds all \/ (exists e, In (EBodyRaises e) all).
Definition ends (a : app) (o : list out) : Prop := exists k, stopped k a o /\ (k = List.length files \/ cut_short).
Definition linv (a : app) (o : list out) : Prop :=
  match now a with
  | Entered => front 0 a o /\ servers_ok a
  | Setting k => front k a o /\ (k < List.length files)%nat /\ servers_ok a
  | Hook | Serving => front (List.length files) a o /\ servers_ok a
  | Ended _ => ends a o /\ servers_ok a
  | Exited _ => exists a1 o1 cause sig o2, now a1 = Ended cause /\ ends a1 o1 /\ servers_ok a1 /\
                  In (EExit sig) all /\ exit a1 cause sig = (a, o2) /\ o = (o1 ++ o2)%list
  end.

Lemma sinv_cancel s : sinv s -> (starting s -> intr) -> sinv (sv_cancel s) /\ task (sv_cancel s) = TDone.
Proof.
  unfold sinv, sv_cancel, starting. destruct (task s) eqn:T; cbn; intros H I.
  - intuition congruence.
  - intuition congruence.
  - destruct H as [-> [-> ->]]. destruct (is_stream (kind s)); cbn; intuition congruence.
  - intuition congruence.
  - now rewrite T.
Qed.
Lemma servers_end (a : app) e : Forall sinv (servers a) -> (forall j s, nth_error (servers a) j = Some s -> starting s -> intr) ->
  servers_ok (end_run a e).
Proof.
  intros F I. assert (G : Forall (fun s => sinv (sv_cancel s) /\ task (sv_cancel s) = TDone) (servers a)).
  { apply Forall_forall. intros s X. destruct (In_nth_error _ _ X) as [j J].
    apply sinv_cancel; [eapply Forall_forall in F; eauto|]. intros. eapply I; eauto. }
  unfold servers_ok, end_run. cbn [servers now set_now set_servers]. split.
  - apply Forall_map. eapply Forall_impl; [|exact G]. cbv beta. intros ? [? ?]; auto.
  - apply Forall_map. eapply Forall_impl; [|exact G]. cbv beta. intros ? [? ?]; auto.
Qed.

(** ** Calls of queues *)
Lemma calls_other i w (o : list out) : (forall j w' c r, In (OWork j w' c r) o -> i <> j) -> calls i w o = [].
Proof.
  intros H. unfold calls. induction o as [|x o IH]; [auto|]. cbn [flat_map]. rewrite IH; [|intros; eapply H; right; eauto].
  destruct x; auto. destruct (Nat.eqb i i0) eqn:E; [|auto]. apply Nat.eqb_eq in E. exfalso. eapply H; [now left|auto].
Qed.
Lemma untouched_more f i o o' c : untouched f i o c -> calls i Pending o' = [] -> calls i Errors o' = [] -> untouched f i (o ++ o') c.
Proof. unfold untouched. rewrite !calls_app. intros [A [B [C [D [E F]]]]] G H. rewrite E, F, G, H. auto 10. Qed.
Lemma ready_more f i o o' c : ready f i o c -> calls i Pending o' = [] -> calls i Errors o' = [] -> ready f i (o ++ o') c.
Proof. unfold ready. rewrite !calls_app. intros A G H. rewrite G, H, !app_nil_r. auto. Qed.
Lemma front_more k a o o' : front k a o -> (forall i w, calls i w o' = []) -> front k a (o ++ o').
Proof.
  intros [L F] Z. split; [auto|]. intros i f c A B. destruct (F i f c A B) as [X Y]. split; intros K.
  - destruct (X K). split; [(apply ready_more; auto)|auto].
  - (apply untouched_more; auto).
Qed.
Lemma stopped_more k a o o' : stopped k a o -> (forall i w, calls i w o' = []) -> stopped k a (o ++ o').
Proof.
  intros [L F] Z. split; [auto|]. intros i f c A B. destruct (F i f c A B) as [X [Y W]]. split; [|split]; intros K.
  - destruct (X K). split; [(apply ready_more; auto)|auto].
  - (apply untouched_more; auto).
  - destruct (W K) as [U|[U|U]]; [left; (apply untouched_more; auto)|right; left; (apply ready_more; auto)|right; right; exact U].
Qed.

Lemma work_front a i w c a' o o' n : (List.length files <= n)%nat -> front n a o -> work a i w c = (a', o') -> front n a' (o ++ o') /\
  servers a' = servers a /\ now a' = now a /\ failed a' = failed a.
Proof.
  intros N F E. unfold work, with_comp in E.
  assert (T : (a', o') = (a, []) -> front n a' (o ++ o') /\ servers a' = servers a /\ now a' = now a /\ failed a' = failed a).
  { intros X. injection X as -> ->. rewrite app_nil_r. auto. }
  destruct (nth_error (comps a) i) as [x|] eqn:X; [|apply T; now symmetry].
  destruct F as [L F].
  assert (exists f, nth_error files i = Some f) as [f FE].
  { assert (i < List.length (comps a))%nat by (apply nth_error_Some; congruence).
    destruct (nth_error files i) eqn:Y; [eauto|]. apply nth_error_None in Y. lia. }
  assert (IL : (i < n)%nat). { assert (i < List.length files)%nat by (apply nth_error_Some; congruence). lia. }
  destruct (F i f x FE X) as [R _]. specialize (R IL). destruct R as [[P [qp [qe [A [B [C D]]]]]] FU].
  assert (Q : exists q, queue_of x w = Open q /\ oinv (fst (fst f)) (match w with Pending => snd (fst f) | Errors => snd f end) (calls i w o) q).
  { destruct w; cbn [queue_of]; eauto. }
  destruct Q as [q [QE QI]]. rewrite QE in E. destruct (step q c) as [[q' r]|] eqn:S; [|apply T; now symmetry].
  injection E as <- <-. cbn [servers now failed set_comps]. split; [|auto]. split.
  - cbn [comps set_comps]. now rewrite set_nth_length.
  - cbn [comps set_comps]. intros j g y G H. destruct (nth_set_cases _ _ _ _ _ H) as [[<- ->]|[NE H']].
    + rewrite FE in G. injection G as <-. split; [intros _|intros; lia].
      split; [|destruct w; exact FU]. split; [destruct w; exact P|].
      rewrite !calls_app. pose proof (oinv_step _ _ _ _ _ _ _ QI S) as QI'.
      destruct w; cbn [set_queue c_pend c_err]; cbn [calls flat_map which_eqb andb]; rewrite Nat.eqb_refl; cbn [andb List.app];
        rewrite ?app_nil_r; [exists q', qe|exists qp, q']; auto.
    + destruct (F j g y G H') as [Y1 Y2].
      assert (Z : forall w', calls j w' [OWork i w c r] = []).
      { intros w'. apply calls_other. intros j0 w0 c0 r0 [I|[]]. congruence. }
      split; intros K; [destruct (Y1 K); split; [apply ready_more|]|apply untouched_more]; auto.
Qed.

(** ** One event *)
Lemma out_none (a : app) (o : list out) : (o ++ [])%list = o.
Proof. apply app_nil_r. Qed.

Lemma front_same k (a a' : app) o : comps a' = comps a -> front k a o -> front k a' o.
Proof. intros E [L F]. unfold front, each. rewrite E. auto. Qed.
Lemma stopped_same k (a a' : app) o : comps a' = comps a -> stopped k a o -> stopped k a' o.
Proof. intros E [L F]. unfold stopped, each. rewrite E. auto. Qed.

Lemma ended_end (a : app) e : ended (end_run a e) = true. Proof. reflexivity. Qed.

Definition live (a : app) : Prop := now a = Hook \/ now a = Serving.
Definition lastk : nat := List.length files.

Lemma to_ended (a' : app) o e : front lastk a' o -> Forall sinv (servers a') ->
  (forall j s, nth_error (servers a') j = Some s -> starting s -> intr) -> linv (end_run a' e) o.
Proof.
  intros F S I. unfold linv. cbn [now end_run set_now set_servers].
  split; [|now apply servers_end].
  exists lastk. split; [|now left]. apply front_stopped; eapply front_same; [|exact F]; reflexivity.
Qed.

Lemma task_failed_linv a o e : live a -> front lastk a o -> Forall sinv (servers a) ->
  Forall (fun s => task s <> TNone) (servers a) -> (now a = Serving -> failed a = None) ->
  (ended (task_failed a e) = true -> forall j s, nth_error (servers a) j = Some s -> starting s -> intr) ->
  linv (task_failed a e) o.
Proof.
  intros [L|L] F S N FN I; unfold task_failed in *; rewrite L in *.
  - destruct (failed a) eqn:FA.
    + unfold linv. rewrite L. split; [exact F|]. split; [auto|]. rewrite L. split; [auto|]. intros; congruence.
    + unfold linv. cbn [now set_failed]. rewrite L. split; [eapply front_same; [|exact F]; reflexivity|].
      split; [auto|]. cbn [now set_failed]. rewrite L. cbn [servers failed set_failed]. split; [auto|discriminate].
  - apply to_ended; auto. now apply I.
Qed.

(** A server event in a live application. *)
Lemma server_event_linv a i b f a' o o' :
  live a -> linv a o -> server_event a i b f = (a', o') ->
  (forall s, nth_error (servers a) i = Some s -> task s = b -> linv (f s) o) -> linv a' (o ++ o').
Proof.
  intros L I E F. unfold server_event in E.
  destruct (nth_error (servers a) i) as [s|] eqn:S; [|injection E as <- <-; now rewrite app_nil_r].
  destruct (task s) eqn:T, b; injection E as <- <-; rewrite app_nil_r; auto.
Qed.

Lemma live_parts a o : live a -> linv a o -> front lastk a o /\ Forall sinv (servers a) /\
  Forall (fun s => task s <> TNone) (servers a) /\ (now a = Serving -> failed a = None /\ Forall (fun s => task s <> TDone) (servers a)) /\
  (now a = Hook -> failed a = None -> Forall (fun s => task s <> TDone) (servers a)).
Proof.
  intros [L|L] I; unfold linv in I; rewrite L in I; destruct I as [F [S X]]; rewrite L in X.
  - destruct X. split; [auto|]. split; [auto|]. split; [auto|]. split; [congruence|auto].
  - destruct X as [X Y]. split; [auto|]. split; [auto|]. split; [eapply Forall_impl; [|exact X]; cbv beta; intros ? [? ?]; auto|].
    split; [split; auto; eapply Forall_impl; [|exact X]; cbv beta; intros ? [? ?]; auto|congruence].
Qed.

Lemma live_intro a o : live a -> front lastk a o -> Forall sinv (servers a) ->
  Forall (fun s => task s <> TNone) (servers a) -> (now a = Serving -> failed a = None /\ Forall (fun s => task s <> TDone) (servers a)) ->
  (now a = Hook -> failed a = None -> Forall (fun s => task s <> TDone) (servers a)) -> linv a o.
Proof.
  intros [L|L] F S N X Y; unfold linv, servers_ok; rewrite L.
  - split; [exact F|]. split; auto.
  - destruct (X L) as [A B]. split; [exact F|]. split; [auto|]. split; [|auto].
    apply Forall_forall. intros s I. split; [eapply Forall_forall in N; eauto|eapply Forall_forall in B; eauto].
Qed.

(** Replacing one server by one that is fine and neither new nor done. *)
Lemma live_server a o i s' : live a -> linv a o -> sinv s' -> task s' <> TNone -> task s' <> TDone ->
  linv (set_servers a (set_nth i s' (servers a))) o.
Proof.
  intros L I S N D. destruct (live_parts a o L I) as [F [A [B [C E]]]].
  apply live_intro; cbn [servers now failed set_servers]; auto.
  - now apply Forall_set_nth.
  - now apply Forall_set_nth.
  - intros X. destruct (C X). split; [auto|]. now apply Forall_set_nth.
  - intros X Y. apply Forall_set_nth; auto.
Qed.

Lemma sv_fails_ok s e : sinv s -> task s = TStarting -> sinv (fst (sv_fails s e)) /\ task (fst (sv_fails s e)) = TDone.
Proof.
  unfold sinv, sv_fails. intros H T. rewrite T in H. destruct H as [A [B C]].
  destruct (is_stream (kind s)); cbn; repeat split; auto; discriminate.
Qed.

Lemma fails_linv a i s e o : live a -> linv a o -> nth_error (servers a) i = Some s -> task s = TStarting ->
  (ended (let (s', e') := sv_fails s e in task_failed (set_servers a (set_nth i s' (servers a))) e') = true ->
   forall j s, nth_error (servers a) j = Some s -> starting s -> j <> i -> intr) ->
  linv (let (s', e') := sv_fails s e in task_failed (set_servers a (set_nth i s' (servers a))) e') o.
Proof.
  intros L I S T H. destruct (live_parts a o L I) as [F [A [B [C E]]]].
  assert (SI : sinv s) by (eapply Forall_forall in A; eauto using nth_error_In).
  destruct (sv_fails_ok s e SI T) as [P Q]. destruct (sv_fails s e) as [s' e'] eqn:FE. cbn [fst] in P, Q.
  apply task_failed_linv; cbn [servers now failed set_servers]; auto.
  - now apply Forall_set_nth.
  - apply Forall_set_nth; auto. congruence.
  - intros X. now destruct (C X).
  - intros X j t J ST. destruct (nth_set_cases _ _ _ _ _ J) as [[<- ->]|[NE J']].
    + destruct ST. congruence.
    + eapply H; eauto.
Qed.

Lemma interrupts_intro (a : app) x (Q : nat -> Prop) : ended a = false -> ended (fst (lstep a x)) = true ->
  (interrupts a x -> intr) -> (forall j, about x j -> Q j) ->
  forall j s, nth_error (servers a) j = Some s -> starting s -> ~ Q j -> intr.
Proof.
  intros A B C D j s J S N. apply C. split; [auto|]. split; [auto|]. exists j, s. split; [auto|]. split; [auto|]. auto.
Qed.

Lemma ended_live a : live a -> ended a = false.
Proof. intros [H|H]; unfold ended; now rewrite H. Qed.

Lemma step_live a x a' o o' : live a -> linv a o -> lstep a x = (a', o') -> (interrupts a x -> intr) -> linv a' (o ++ o').
Proof.
  intros L I E H. pose proof (live_parts a o L I) as [F [A [B [C D]]]].
  assert (HI : forall Q : nat -> Prop, ended a' = true -> (forall j, about x j -> Q j) ->
     forall j s, nth_error (servers a) j = Some s -> starting s -> ~ Q j -> intr).
  { intros Q EN. apply interrupts_intro; auto; [now apply ended_live|]. now rewrite E. }
  assert (SAME : (a, []) = (a', o') -> linv a' (o ++ o')) by (intros X; injection X as <- <-; now rewrite app_nil_r).
  assert (NA : forall y, x = y -> (forall j, ~ about y j) -> ended a' = true -> forall j s, nth_error (servers a) j = Some s -> starting s -> intr).
  { intros y -> N EN j s J S. eapply (HI (fun _ => False)); eauto. }
  assert (E' : (match x with
      | EHookDone => match now a with
                     | Hook => (match failed a with None => set_now a Serving | Some e => end_run a (Some e) end, [])
                     | _ => (a, []) end
      | EHookRaises e => match now a with Hook => (end_run a (Some e), []) | _ => (a, []) end
      | EServerStarts i => server_event a i TCreated (fun s => set_servers a (set_nth i (sv_start s) (servers a)))
      | EServerBound i => server_event a i TStarting (fun s => set_servers a (set_nth i (sv_bound s) (servers a)))
      | EServerFails i e => server_event a i TStarting (fun s =>
            let (s', e') := sv_fails s e in task_failed (set_servers a (set_nth i s' (servers a))) e')
      | ETaskFails e => (task_failed a e, [])
      | EWork i w o => work a i w o
      | ESignal w => on_signal a w
      | _ => (a, [])
      end) = (a', o')).
  { unfold lstep in E. destruct L as [L|L]; rewrite L in *; exact E. }
  assert (ND : forall (y : ev) j, (forall k e, y <> EServerFails k e) -> (forall k, y <> ESignal (InServerStart k)) -> ~ about y j).
  { intros y j N1 N2 [[e X]|X]; [eapply N1|eapply N2]; eauto. }
  destruct x as [| |e|oc| |e|i|i|i e|e|i w c|w|sg]; try (apply SAME; exact E').
  - (* EHookDone *)
    destruct (now a) eqn:NW; try (apply SAME; exact E'). destruct (failed a) as [e|] eqn:FA; injection E' as <- <-; rewrite app_nil_r.
    + apply to_ended; auto. eapply NA; [reflexivity| |reflexivity]. intros; apply ND; discriminate.
    + apply live_intro; [right; reflexivity| | | | |]; cbn [servers now failed set_now]; auto; try discriminate.
  - (* EHookRaises *)
    destruct (now a) eqn:NW; try (apply SAME; exact E'). injection E' as <- <-; rewrite app_nil_r.
    apply to_ended; auto. eapply NA; [reflexivity| |reflexivity]. intros; apply ND; discriminate.
  - (* EServerStarts *)
    eapply server_event_linv; [| |exact E'|]; auto. intros s S T.
    assert (SI : sinv s) by (eapply Forall_forall in A; eauto using nth_error_In). unfold sinv in SI. rewrite T in SI.
    apply live_server; auto; unfold sinv, sv_start; cbn; intuition discriminate.
  - (* EServerBound *)
    eapply server_event_linv; [| |exact E'|]; auto. intros s S T.
    assert (SI : sinv s) by (eapply Forall_forall in A; eauto using nth_error_In). unfold sinv in SI. rewrite T in SI.
    apply live_server; auto; unfold sinv, sv_bound; cbn; intuition discriminate.
  - (* EServerFails *)
    eapply server_event_linv; [| |exact E'|]; auto. intros s S T.
    eapply fails_linv; eauto. intros EN j t J ST NE. 
    assert (EN' : ended a' = true).
    { unfold server_event in E'. rewrite S, T in E'. injection E' as <- _. exact EN. }
    eapply (HI (fun k => k = i)); eauto. intros k [[e0 X]|X]; congruence.
  - (* ETaskFails *)
    injection E' as <- <-. rewrite app_nil_r. apply task_failed_linv; auto; [intros X; now destruct (C X)|].
    intros EN. eapply NA; [reflexivity| |exact EN]. intros; apply ND; discriminate.
  - (* EWork *)
    destruct (work_front a i w c a' o o' lastk (le_n _) F E') as [F' [S' [N' FA']]].
    assert (L' : live a') by (unfold live; rewrite N'; exact L).
    apply live_intro; auto; rewrite ?S', ?N', ?FA'; auto.
  - (* ESignal *)
    destruct w as [| | |i| | | |i k v]; cbn [on_signal] in E'.
    + injection E' as <- <-. rewrite app_nil_r. apply to_ended; auto. eapply NA; [reflexivity| |reflexivity].
      intros; apply ND; discriminate.
    + injection E' as <- <-. rewrite app_nil_r. apply to_ended; auto. eapply NA; [reflexivity| |reflexivity].
      intros; apply ND; discriminate.
    + injection E' as <- <-. rewrite app_nil_r. apply task_failed_linv; auto; [intros X; now destruct (C X)|].
      intros EN. eapply NA; [reflexivity| |exact EN]. intros; apply ND; discriminate.
    + eapply server_event_linv; [| |exact E'|]; auto. intros s S T.
      eapply fails_linv; eauto. intros EN j t J ST NE.
      assert (EN' : ended a' = true).
      { unfold server_event in E'. rewrite S, T in E'. injection E' as <- _. exact EN. }
      eapply (HI (fun k => k = i)); eauto. intros k [[e0 X]|X]; congruence.
    + apply SAME; exact E'.
    + injection E' as <- <-.
      apply live_intro; auto. apply front_more; auto.
    + apply SAME; exact E'.
    + destruct (work a i Errors (Push k v)) as [a2 o2] eqn:W. injection E' as <- <-.
      destruct (work_front a i Errors (Push k v) a2 o o2 lastk (le_n _) F W) as [F' [S' [N' FA']]].
      assert (L' : live a2) by (unfold live; rewrite N'; exact L).
      apply live_intro; auto; rewrite ?S', ?N', ?FA'; auto.
      rewrite app_assoc. apply front_more; [exact F'|]. intros j w. destruct o2; reflexivity.
Qed.

Lemma after_setup_linv a o k : front k a o -> (k <= lastk)%nat -> Forall sinv (servers a) -> Forall (fun s => task s = TNone) (servers a) ->
  linv (after_setup a k) o.
Proof.
  intros F K S T. unfold after_setup. pose proof (proj1 F) as LN. rewrite LN. destruct (Nat.ltb k (List.length files)) eqn:E.
  - apply Nat.ltb_lt in E. unfold linv. cbn [now set_now]. split; [eapply front_same; [|exact F]; reflexivity|].
    split; [auto|]. split; auto.
  - apply Nat.ltb_ge in E. assert (k = lastk) as -> by (unfold lastk in *; lia).
    apply live_intro; cbn [servers now failed set_now set_servers].
    + now left.
    + eapply front_same; [|exact F]; reflexivity.
    + apply Forall_map. apply Forall_forall. intros s I. pose proof (proj1 (Forall_forall _ _) S s I) as A.
      pose proof (proj1 (Forall_forall _ _) T s I) as B. cbn beta in B. unfold sinv in A. rewrite B in A. exact A.
    + apply Forall_map. apply Forall_forall. discriminate.
    + discriminate.
    + intros _ _. apply Forall_map. apply Forall_forall. discriminate.
Qed.

Lemma usable_nth i f : nth_error files i = Some f -> fst (fst f) <> 0 /\ on_disk (snd (fst f)) /\ on_disk (snd f).
Proof.
  intros E. pose proof (proj1 (Forall_forall _ _) usable f (nth_error_In _ _ E)) as X. cbn beta in X.
  destruct f as [[ps tp] te]. exact X.
Qed.

Lemma step_linv a x a' o o' : linv a o -> lstep a x = (a', o') -> In x all -> (interrupts a x -> intr) -> linv a' (o ++ o').
Proof.
  intros I E IN H.
  assert (SAME : (a, []) = (a', o') -> linv a' (o ++ o')) by (intros X; injection X as <- <-; now rewrite app_nil_r).
  destruct (now a) as [|k| | |cause|r] eqn:NW.
  - unfold linv in I. unfold lstep in E. rewrite NW in E. destruct x; try (apply SAME; exact E); injection E as <- <-; rewrite app_nil_r.
    + rewrite NW in I. destruct I as [F [S T]]. rewrite NW in T. apply after_setup_linv; auto. lia.
    + rewrite NW in I. destruct I as [F [S T]]. rewrite NW in T. unfold linv. cbn [now set_now].
      split; [exists 0%nat; split; [apply front_stopped; eapply front_same; [|exact F]; reflexivity|right; right; eauto]|].
      split; [exact S|].
      cbn [now set_now servers]. eapply Forall_impl; [|exact T]. auto.
    + rewrite NW in I. destruct I as [F [S T]]. rewrite NW in T. unfold linv. cbn [now set_now].
      split; [exists 0%nat; split; [apply front_stopped; eapply front_same; [|exact F]; reflexivity|right; right; eauto]|].
      split; [exact S|].
      cbn [now set_now servers]. eapply Forall_impl; [|exact T]. auto.
  - pose proof I as I0. unfold linv in I. unfold lstep in E. rewrite NW in E, I. destruct I as [F [K [S T]]]. rewrite NW in T.
    destruct x as [| |e|oc| |e|i|i|i e|e|i w c|w|sg]; try (apply SAME; exact E).
    unfold with_comp in E. destruct F as [LN F].
    destruct (nth_error (comps a) k) as [c|] eqn:CE; [|apply nth_error_None in CE; lia].
    destruct (nth_error files k) as [f|] eqn:FE; [|apply nth_error_None in FE; lia].
    destruct (F k f c FE CE) as [_ U]. specialize (U (le_n _)). destruct U as [U1 [U2 [U3 [U4 [U5 U6]]]]].
    destruct (usable_nth k f FE) as [UP [UD UE]].
    assert (OP : ready f k o (mkComp (c_ps c) (opened (c_ps c) (c_pend c)) (opened (c_ps c) (c_err c)) true) /\
                 ready f k o (mkComp (c_ps c) (opened (c_ps c) (c_pend c)) (opened (c_ps c) (c_err c)) false)).
    { split; (split; [exact U1|]); cbn [c_pend c_err]; rewrite U1, U2, U3, U5, U6; cbn [opened];
        eexists; eexists; (split; [reflexivity|]); (split; [reflexivity|]); split; now apply oinv_open. }
    assert (BAD : forall c' e, (exists p e, In (ESetup (RaisesAt p e)) all) -> untouched f k o c' \/ ready f k o c' \/ half f k o c' ->
       linv (end_run (set_comps a (set_nth k c' (comps a))) e) o).
    { intros c' e CS P. unfold linv. cbn [now end_run set_now set_servers]. split.
      - exists k. split; [|right; left; exact CS]. split; [cbn [comps end_run set_comps set_now set_servers]; now rewrite set_nth_length|].
        cbn [comps end_run set_comps set_now set_servers]. intros j g y G Y.
        destruct (nth_set_cases _ _ _ _ _ Y) as [[<- ->]|[NE Y']].
        + rewrite FE in G. injection G as <-. split; [lia|]. split; [lia|auto].
        + destruct (F j g y G Y') as [Y1 Y2]. split; [auto|]. split; [intros; apply Y2; lia|lia].
      - apply servers_end; [exact S|]. intros j s J [_ ST]. cbn [servers set_comps] in J.
        pose proof (proj1 (Forall_forall _ _) T s (nth_error_In _ _ J)). cbn beta in *. congruence. }
    destruct oc as [|p e]; cbn [setup] in E; [|destruct p; injection E as <- <-; rewrite app_nil_r; apply BAD; eauto].
    + injection E as <- <-. rewrite app_nil_r. apply after_setup_linv; [|unfold lastk; lia|exact S|exact T].
      split; [cbn [comps set_comps]; now rewrite set_nth_length|]. cbn [comps set_comps].
      intros j g y G Y. destruct (nth_set_cases _ _ _ _ _ Y) as [[<- ->]|[NE Y']].
      * rewrite FE in G. injection G as <-. split; [intros _|lia]. split; [apply OP|reflexivity].
      * destruct (F j g y G Y') as [Y1 Y2]. split; [intros; apply Y1; lia|intros; apply Y2; lia].
    + left. repeat split; auto.
    + right. right. split; [exists e; exact IN|]. cbn [c_pend c_err has_future]. rewrite U2. cbn [dropped].
      split; [auto|]. split; [eauto|auto].
    + right. left. apply OP.
  - apply (step_live a x); auto. now left.
  - apply (step_live a x); auto. now right.
  - pose proof I as I0. unfold linv in I. unfold lstep in E. rewrite NW in E, I. destruct I as [F S].
    destruct x as [| |e|oc| |e|i|i|i e|e|i w c|w|sg]; try (apply SAME; exact E).
    assert (EX : exists r, now a' = Exited r).
    { unfold exit in E. destruct (perform a sg (plan a)) as [a1 e1]. injection E as <- <-. cbn. eauto. }
    destruct EX as [r EX]. unfold linv. rewrite EX. exists a, o, cause, sg, o'. auto 10.
  - unfold lstep in E. rewrite NW in E. now apply SAME.
Qed.

Lemma lrun_app (xs : list ev) : forall a ys, lrun a (xs ++ ys) =
  (fst (lrun (fst (lrun a xs)) ys), (snd (lrun a xs) ++ snd (lrun (fst (lrun a xs)) ys))%list).
Proof.
  induction xs as [|x xs IH]; intros a ys; cbn [List.app lrun].
  - cbn [fst snd List.app]. now destruct (lrun a ys).
  - destruct (lstep a x) as [a1 o1]. rewrite IH. destruct (lrun a1 xs) as [a2 o2]. cbn [fst snd].
    destruct (lrun a2 ys) as [a3 o3]. cbn [fst snd]. now rewrite app_assoc.
Qed.

Lemma run_linv (xs : list ev) : forall a o a' o', linv a o -> lrun a xs = (a', o') -> incl xs all ->
  (forall pre x post, xs = (pre ++ x :: post)%list -> interrupts (fst (lrun a pre)) x -> intr) -> linv a' (o ++ o').
Proof.
  induction xs as [|x xs IH]; intros a o a' o' I E IN H; cbn [lrun] in E.
  - injection E as <- <-. now rewrite app_nil_r.
  - destruct (lstep a x) as [a1 o1] eqn:S. destruct (lrun a1 xs) as [a2 o2] eqn:R. injection E as <- <-.
    rewrite app_assoc. eapply IH; [|exact R| |].
    + eapply step_linv; [exact I|exact S|apply IN; now left|]. intros K. eapply (H [] x xs); [reflexivity|exact K].
    + intros y Y. apply IN. now right.
    + intros pre y post X K. eapply (H (x :: pre) y post); [now rewrite X|]. cbn [lrun]. rewrite S.
      destruct (lrun a1 pre) eqn:RP. cbn [fst] in *. exact K.
Qed.

Lemma new_linv ts : linv (new_app files ts) [].
Proof.
  unfold linv. cbn [now new_app]. split.
  - split; [unfold new_app; cbn [comps]; now rewrite map_length|]. intros i f c A B. unfold new_app in B. cbn [comps] in B.
    rewrite nth_error_map, A in B. cbn [option_map] in B. destruct f as [[ps tp] te]. injection B as <-.
    split; [lia|]. intros _. repeat split; auto.
  - unfold servers_ok, new_app. cbn [servers now]. split; apply Forall_map, Forall_forall; intros t _; cbn; auto.
Qed.

(** ** The shut-down *)
Definition shut_comp (c : comp V) : comp V :=
  match c_pend c, c_err c with
  | Open p, Open e => match q_shut_down p, q_shut_down e with
                      | Ok p', Ok e' => mkComp (c_ps c) (Closed (db p')) (Closed (db e')) (has_future c)
                      | _, _ => c
                      end
  | _, _ => c
  end.
Definition is_ready (c : comp V) : bool :=
  match c_pend c, c_err c with Open _, Open _ => has_future c | _, _ => false end.
Fixpoint shut_list (cs : list (comp V)) : list (comp V) * option string :=
  match cs with
  | [] => ([], None)
  | c :: r => if is_ready c then let (r', e) := shut_list r in (shut_comp c :: r', e)
              else (shut_comp c :: r, Some "AttributeError"%string)
  end.
Definition fine (c : comp V) : Prop :=
  match c_pend c, c_err c with
  | Open p, Open e => reachable p /\ reachable e
  | Closed _, Closed _ => True
  | _, _ => False
  end.

Lemma perform_app (xs : list action) : forall (a : app) ys, perform a None (xs ++ ys) =
  match perform a None xs with (a', None) => perform a' None ys | (a', Some e) => (a', Some e) end.
Proof.
  induction xs as [|x xs IH]; intros a ys; cbn [List.app perform option_map]; [auto|].
  destruct (act a x) as [a' [e|]]; [auto|apply IH].
Qed.
Lemma perform_signal (xs : list action) : forall (a : app) sg a', perform a sg xs = (a', None) -> perform a None xs = (a', None).
Proof.
  induction xs as [|x xs IH]; intros a sg a' E; cbn [perform option_map] in *; [auto|].
  destruct sg as [[|n]|]; cbn [option_map] in E; [discriminate| |]; destruct (act a x) as [a1 [e|]]; eauto; discriminate.
Qed.

Lemma shut_all : forall cs (l1 : list (comp V)) a, comps a = (l1 ++ cs)%list -> Forall fine cs ->
  perform a None (flat_map (fun i => [ClosePending i; CloseErrors i; SetFuture i]) (seq (List.length l1) (List.length cs))) =
  (set_comps a (l1 ++ fst (shut_list cs)), snd (shut_list cs)).
Proof.
  induction cs as [|c cs IH]; intros l1 a E F.
  - cbn. rewrite <- E. now destruct a.
  - inversion F as [|? ? Fc Fr]; subst. cbn [List.length seq flat_map].
    change (([ClosePending (List.length l1); CloseErrors (List.length l1); SetFuture (List.length l1)] ++
      flat_map (fun i => [ClosePending i; CloseErrors i; SetFuture i]) (seq (S (List.length l1)) (List.length cs)))%list)
    with (ClosePending (List.length l1) :: CloseErrors (List.length l1) :: SetFuture (List.length l1) ::
      flat_map (fun i => [ClosePending i; CloseErrors i; SetFuture i]) (seq (S (List.length l1)) (List.length cs))).
    cbn [perform option_map shut_list]. unfold is_ready, shut_comp, fine in *. cbn [act]. rewrite E, nth_app_len.
    unfold close at 1. cbn [queue_of].
    destruct (c_pend c) as [t|p] eqn:EP, (c_err c) as [t'|e] eqn:EE; try contradiction.
    + cbn [fst snd]. rewrite <- E. now destruct a.
    + destruct Fc as [Rp Re]. destruct (never_raises p Rp) as [_ [[p' Sp] _]]. destruct (never_raises e Re) as [_ [[e' Se] _]].
      rewrite Sp, Se. cbn [fst snd]. rewrite E, set_nth_app. cbn [comps set_comps]. rewrite nth_app_len.
      unfold close. cbn [queue_of set_queue c_err]. rewrite EE, Se. cbn [comps set_comps]. rewrite set_nth_app, nth_app_len.
      cbn [set_queue c_ps c_pend has_future].
      destruct (has_future c) eqn:HF.
      * set (c' := mkComp (c_ps c) (Closed (db p')) (Closed (db e')) true).
        set (a' := set_comps (set_comps a _) _).
        assert (LE : S (List.length l1) = List.length (l1 ++ [c'])) by (rewrite app_length; cbn; lia).
        rewrite LE, (IH (l1 ++ [c'])%list a'); [|unfold a'; cbn [comps set_comps]; now rewrite <- app_assoc|auto].
        destruct (shut_list cs) as [r' er]. cbn [fst snd]. rewrite <- app_assoc. cbn [List.app]. unfold a'. reflexivity.
      * cbn [fst snd]. reflexivity.
Qed.

Lemma stop_none : forall (a : app) (ss l1 : list server), servers a = (l1 ++ ss)%list ->
  Forall (fun s => running s = true -> is_stream (kind s) = true -> handle s = true) ss ->
  exists a', perform a None (map StopServer (seq (List.length l1) (List.length ss))) = (a', None) /\ comps a' = comps a.
Proof.
  intros a ss. revert a. induction ss as [|s ss IH]; intros a l1 E F; [exists a; auto|].
  inversion F as [|? ? Fs Fr]; subst. cbn [List.length seq map perform act option_map]. rewrite E, nth_app_len.
  destruct (sv_stop s) as [s' e] eqn:SE.
  assert (e = None) as ->.
  { unfold sv_stop in SE. destruct (running s); [|congruence]. destruct (is_stream (kind s)); [|congruence].
    rewrite Fs in SE; auto. congruence. }
  rewrite set_nth_app. assert (LE : S (List.length l1) = List.length (l1 ++ [s'])) by (rewrite app_length; cbn; lia).
  rewrite LE. edestruct (IH (set_servers a (l1 ++ s' :: ss)) (l1 ++ [s'])%list) as [a' [A B]]; [|auto|].
  - cbn. now rewrite <- app_assoc.
  - exists a'. split; [exact A|]. exact B.
Qed.
Definition stuck (s : server) : Prop := running s = true /\ is_stream (kind s) = true /\ handle s = false.
Lemma stop_raises : forall (ss : list server) (a : app) (l1 : list server) sg rest, servers a = (l1 ++ ss)%list -> Exists stuck ss ->
  exists a' e, perform a sg (map StopServer (seq (List.length l1) (List.length ss)) ++ rest) = (a', Some e) /\ comps a' = comps a /\
    flushed a' = flushed a /\ (sg = None -> e = "AttributeError"%string).
Proof.
  induction ss as [|s ss IH]; intros a l1 sg rest E F; [inversion F|].
  cbn [List.length seq map perform act List.app]. rewrite E, nth_app_len.
  destruct (sv_stop s) as [s' e] eqn:SE. rewrite set_nth_app.
  assert (G : forall n, exists a' e0, match e with
      | Some e => (set_servers a (l1 ++ s' :: ss), Some e)
      | None => perform (set_servers a (l1 ++ s' :: ss)) n (map StopServer (seq (S (List.length l1)) (List.length ss)) ++ rest)
      end = (a', Some e0) /\ comps a' = comps a /\ flushed a' = flushed a /\ (n = None -> e0 = "AttributeError"%string)).
  { intros n. destruct e as [e|].
    - exists (set_servers a (l1 ++ s' :: ss)), e. split; [reflexivity|]. split; [reflexivity|]. split; [reflexivity|].
      intros _. unfold sv_stop in SE.
      destruct (running s); [|congruence]. destruct (is_stream (kind s)); [|congruence]. destruct (handle s); congruence.
    - assert (F' : Exists stuck ss).
      { inversion F as [? ? [R [K H]]|? ? X]; subst; [|auto]. unfold sv_stop in SE. rewrite R, K, H in SE. congruence. }
      assert (LE : S (List.length l1) = List.length (l1 ++ [s'])) by (rewrite app_length; cbn; lia).
      rewrite LE. edestruct (IH (set_servers a (l1 ++ s' :: ss)) (l1 ++ [s'])%list n rest) as [a' [e0 [A [B [C D]]]]]; [|auto|].
      + cbn. now rewrite <- app_assoc.
      + exists a', e0. auto. }
  destruct sg as [[|n]|]; cbn [option_map].
  - exists a, signal_exn. repeat split; auto. discriminate.
  - destruct (G (Some n)) as [a' [e0 [A [B [C D]]]]]. exists a', e0. repeat split; auto. discriminate.
  - apply G.
Qed.

Lemma comps_servers_act a x : comps (fst (@act V a (StopServer x))) = comps a.
Proof. cbn. destruct (nth_error (servers a) x); [|auto]. destruct (sv_stop s); auto. Qed.

(** What the shut-down does to the queues, for the two cases of the servers. *)
Lemma plan_ok (a : app) : Forall fine (comps a) ->
  Forall (fun s => running s = true -> is_stream (kind s) = true -> handle s = true) (servers a) ->
  exists a', perform a None (plan a) = (a', snd (shut_list (comps a))) /\ comps a' = fst (shut_list (comps a)) /\
    (snd (shut_list (comps a)) = None -> flushed a' = true).
Proof.
  intros F S. unfold plan. rewrite perform_app. destruct (stop_none a (servers a) [] eq_refl S) as [a1 [A B]].
  cbn [List.length] in A. rewrite A. rewrite perform_app. rewrite <- B.
  pose proof (shut_all (comps a1) [] a1 eq_refl ltac:(now rewrite B)) as SA. cbn [List.length List.app] in SA. rewrite SA.
  destruct (shut_list (comps a1)) as [cs [e|]]; cbn [fst snd].
  - eexists. split; [reflexivity|]. split; [reflexivity|discriminate].
  - cbn [perform act]. eexists. split; [reflexivity|]. split; [reflexivity|]. reflexivity.
Qed.
Lemma plan_stuck (a : app) sg : Exists stuck (servers a) ->
  exists a' e, perform a sg (plan a) = (a', Some e) /\ comps a' = comps a /\ flushed a' = flushed a.
Proof.
  intros S. unfold plan. destruct (stop_raises (servers a) a [] sg
    (flat_map (fun i => [ClosePending i; CloseErrors i; SetFuture i]) (seq 0 (List.length (comps a))) ++ [FlushLog]) eq_refl S)
    as [a1 [e [A [B [C _]]]]]. cbn [List.length] in A. rewrite A. exists a1, e. auto.
Qed.

Lemma shut_list_none : forall cs, snd (shut_list cs) = None -> fst (shut_list cs) = map shut_comp cs /\ forallb is_ready cs = true.
Proof.
  induction cs as [|c cs IH]; cbn [shut_list map forallb]; [auto|]. destruct (is_ready c); [|discriminate].
  destruct (shut_list cs) as [r e]. cbn [fst snd] in *. intros E. destruct (IH E) as [-> ->]. auto.
Qed.
Lemma shut_list_length : forall cs, List.length (fst (shut_list cs)) = List.length cs.
Proof.
  induction cs as [|c cs IH]; cbn [shut_list]; [auto|]. destruct (is_ready c); [|auto].
  destruct (shut_list cs); cbn in *. congruence.
Qed.
(** Up to the first that is not ready, all are shut. *)
Lemma shut_list_nth : forall cs i c, nth_error cs i = Some c ->
  (forall j d, (j < i)%nat -> nth_error cs j = Some d -> is_ready d = true) -> nth_error (fst (shut_list cs)) i = Some (shut_comp c).
Proof.
  induction cs as [|d cs IH]; intros [|i] c E H; cbn [shut_list nth_error] in *; try discriminate.
  - injection E as ->. destruct (is_ready c); [destruct (shut_list cs)|]; reflexivity.
  - rewrite (H 0%nat d ltac:(lia) eq_refl). specialize (IH i c E). destruct (shut_list cs). cbn [fst nth_error] in *.
    apply IH. intros j x J X. apply (H (S j) x); auto. lia.
Qed.
Lemma shut_list_cases : forall cs i c, nth_error cs i = Some c ->
  nth_error (fst (shut_list cs)) i = Some (shut_comp c) \/ nth_error (fst (shut_list cs)) i = Some c.
Proof.
  induction cs as [|d cs IH]; intros [|i] c E; cbn [shut_list nth_error] in *; try discriminate.
  - injection E as ->. destruct (is_ready c); [destruct (shut_list cs)|]; auto.
  - destruct (is_ready d); [|right; exact E]. specialize (IH i c E). destruct (shut_list cs). exact IH.
Qed.

Lemma ready_fine f i o c : ready f i o c -> fine c.
Proof. intros [_ [qp [qe [A [B [[C _] [D _]]]]]]]. unfold fine. rewrite A, B. auto. Qed.
Lemma untouched_fine f i o c : untouched f i o c -> fine c.
Proof. intros [_ [A [B _]]]. unfold fine. now rewrite A, B. Qed.
Lemma half_fine f i o c : half f i o c -> fine c.
Proof. intros [_ [A [[t B] _]]]. unfold fine. now rewrite A, B. Qed.
Lemma stopped_fine k a o : stopped k a o -> Forall fine (comps a).
Proof.
  intros [L F]. apply Forall_forall. intros c I. destruct (In_nth_error _ _ I) as [i E].
  destruct (nth_error files i) as [f|] eqn:FE.
  - destruct (F i f c FE E) as [A [B C]]. destruct (lt_eq_lt_dec i k) as [[X|X]|X].
    + destruct (A X). eapply ready_fine; eauto.
    + destruct (C X) as [Y|[Y|Y]]; [eapply untouched_fine|eapply ready_fine|eapply half_fine]; eauto.
    + eapply untouched_fine; eauto.
  - apply nth_error_None in FE. assert (i < List.length (comps a))%nat by (apply nth_error_Some; congruence). lia.
Qed.

Definition kept (f : Z * table V * table V) (i : nat) (o : list out) (c : comp V) : Prop :=
  forall lp le, behaves_as (open_queue (fst (fst f)) (snd (fst f))) lp -> behaves_as (open_queue (fst (fst f)) (snd f)) le ->
  survives (c_pend c) (after lp (calls i Pending o)) /\ survives (c_err c) (after le (calls i Errors o)).

Lemma ready_kept f i o c : nth_error files i = Some f -> ready f i o c -> kept f i o (shut_comp c).
Proof.
  intros FE [P [qp [qe [A [B [C D]]]]]] lp le LP LE. destruct (usable_nth i f FE) as [UP _].
  unfold shut_comp. rewrite A, B. destruct (never_raises qp (proj1 C)) as [_ [[p' Sp] _]].
  destruct (never_raises qe (proj1 D)) as [_ [[e' Se] _]]. rewrite Sp, Se. cbn [c_pend c_err].
  split; eapply shut_survives; eauto.
Qed.
Lemma untouched_kept f i o c : nth_error files i = Some f -> untouched f i o c -> kept f i o c /\ shut_comp c = c.
Proof.
  intros FE [P [A [B [F [C D]]]]]. destruct (usable_nth i f FE) as [UP [U1 U2]]. split.
  - intros lp le LP LE. rewrite A, B, C, D. cbn [after fold_left]. split; eapply file_survives; eauto.
  - unfold shut_comp. now rewrite A.
Qed.

End Proofs.
