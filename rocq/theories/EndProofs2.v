(** Calls of transient stream clients end. *)
From Coq Require Import List ZArith NArith Bool String Lia Arith.
From Verif Require Import Base SpanKeyModel RouterModel JsonModel JsonSpec StreamModel ClientModel WireModel AskModel AskSpec ClientProofs AskProofs AskProofs2 EndSpec.
Import ListNotations.
Local Open Scope Z_scope.

Section Transient.
Context {D V : Type} (utf8 : list N -> bool) (dump : V -> json) (limit : nat) (max : Z) (accepted_resp : span_key -> V) (app : nat -> code D V).
Notation step := (AskModel.step utf8 dump limit max accepted_resp app).
Notation net := (net D V).
Notation Inv := (AskProofs2.Inv utf8 dump limit max accepted_resp app).

Definition weight (p : tstate string * phase) : Z :=
  match p with
  | (TSleep n, _) => 4 * (max - n - 1) + 4
  | (TAttempt n, POpen) => 4 * (max - n - 1) + 3 | (TAttempt n, PRead _) => 4 * (max - n - 1) + 2 | (TAttempt n, _) => 4 * (max - n - 1) + 1
  | (TDone _, _) => 0
  end.
Lemma weight_range s i : Inv s -> (i < ncalls (cl s))%nat -> 0 <= weight (place i s) <= Z.max 0 (4 * max).
Proof.
  intros I Hi. pose proof (v_calls _ _ _ _ _ _ _ I i Hi) as C. unfold CallOk in C. unfold place, weight.
  destruct (tst (calls (cl s) i)) as [n|n|o]; [destruct C as (C & _ & _); destruct (phases s i); lia|destruct C; lia|lia].
Qed.
(** A step leaves a call where it is or brings it nearer to its end. *)
Definition Better (i : nat) (s d : net) : Prop := place i d = place i s \/ weight (place i d) < weight (place i s).
Lemma tell_other s i j e : i <> j -> (forall c, calls (ClientModel.step max stream_retries true c e) i = calls c i) -> Better i s (tell max s j e).
Proof. intros Ne H. left. unfold place, tell, cstep1. cbn [cl phases]. rewrite H, fupd_other by exact Ne. reflexivity. Qed.
Lemma out_other i j o c : i <> j -> calls (ClientModel.step max stream_retries true c (@EOut string j o)) i = calls c i.
Proof.
  intros Ne. cbn [ClientModel.step]. destruct (live c j); [|reflexivity]. destruct (tst (calls c j)); try reflexivity. cbv zeta.
  destruct o as [r|x]; [cbn [set_call calls]; now rewrite fupd_other|].
  destruct x; cbn [stream_retries]; try destruct (Z.leb max (n + 1)); cbn [set_call calls]; now rewrite fupd_other.
Qed.
Lemma wake_other i j c : i <> j -> calls (ClientModel.step max stream_retries true c (@EWake string j)) i = calls c i.
Proof. intros Ne. cbn [ClientModel.step]. destruct (live c j); [|reflexivity]. destruct (tst (calls c j)); try reflexivity. cbn [set_call calls]. now rewrite fupd_other. Qed.
Lemma cancel_other i j c : i <> j -> calls (ClientModel.step max stream_retries true c (@ECancel string j)) i = calls c i.
Proof. intros Ne. cbn [ClientModel.step]. destruct (live c j); [|reflexivity]. destruct (tst (calls c j)); try reflexivity. cbn [set_call calls]. now rewrite fupd_other. Qed.
(** An attempt that ends brings its call on. *)
Lemma out_less s i o : Inv s -> phases s i <> PIdle -> weight (place i (tell max s i (EOut i o))) < weight (place i s).
Proof.
  intros I P. pose proof (live_call _ _ _ _ _ _ s i I P) as H. destruct (busy_attempt _ _ _ _ _ _ s i I P) as (n & T & R & _).
  assert (W : 4 * (max - n - 1) + 1 <= weight (place i s)) by (unfold place, weight; rewrite T; destruct (phases s i); lia).
  assert (Q : forall c, (exists q, tst (calls c i) = TDone q) \/ tst (calls c i) = TSleep (n + 1) -> forall p, weight (tst (calls c i), p) < 4 * (max - n - 1) + 1).
  { intros c [[q ->]| ->] p; cbn [weight]; lia. }
  eapply Z.lt_le_trans; [|exact W]. unfold place, tell, cstep1. cbn [cl phases]. apply Q.
  cbn [ClientModel.step]. unfold live. apply Nat.ltb_lt in H as HL. rewrite HL, T. cbv zeta. destruct o as [r|x].
  - left. eexists. cbn [set_call calls]. rewrite fupd_same. reflexivity.
  - destruct x; cbn [stream_retries]; try destruct (Z.leb max (n + 1)); cbn [set_call calls]; rewrite fupd_same; cbn [tst]; eauto.
Qed.
Lemma idle_better s i e : Inv s -> phases s i = PIdle -> e = EWake i \/ e = ECancel i -> Better i s (tell max s i e).
Proof.
  intros I P E. unfold Better, place, tell, cstep1. cbn [cl phases]. rewrite !fupd_same, P.
  destruct (le_lt_dec (ncalls (cl s)) i) as [H|H].
  { assert (HL : Nat.ltb i (ncalls (cl s)) = false) by now apply Nat.ltb_ge. left.
    destruct E as [->| ->]; cbn [ClientModel.step]; unfold live; rewrite HL; unfold rephase; rewrite (proj2 (v_rest _ _ _ _ _ _ _ I i H)); reflexivity. }
  pose proof (v_calls _ _ _ _ _ _ _ I i H) as C. unfold CallOk in C. rewrite P in C. apply Nat.ltb_lt in H as HL.
  destruct (tst (calls (cl s) i)) as [n|n|o] eqn:T; [destruct C as (_ & _ & [])| |].
  - destruct C as (R & _). right. destruct E as [->| ->]; cbn [ClientModel.step]; unfold live; rewrite HL, T; unfold rephase; cbn [set_call calls]; rewrite fupd_same; cbn [tst].
    + unfold loop_test. destruct (_ && _); cbn [weight]; lia.
    + cbn [weight]. lia.
  - left. destruct E as [->| ->]; cbn [ClientModel.step]; unfold live; rewrite HL, T; unfold rephase; rewrite T; reflexivity.
Qed.
Lemma step_better s e i : Inv s -> (i < ncalls (cl s))%nat -> Better i s (step s e).
Proof.
  intros I Hi. assert (R : Better i s s) by now left.
  assert (OUT : forall j o, phases s j <> PIdle -> Better i s (tell max s j (EOut j o))).
  { intros j o P. destruct (Nat.eq_dec i j) as [->|Ne]; [right; now apply out_less|]. apply tell_other; [exact Ne|]. intros c. now apply out_other. }
  assert (WK : forall j, phases s j = PIdle -> Better i s (tell max s j (EWake j))).
  { intros j P. destruct (Nat.eq_dec i j) as [->|Ne]; [apply idle_better; auto|]. apply tell_other; [exact Ne|]. intros c. now apply wake_other. }
  assert (CN : forall j, phases s j = PIdle -> Better i s (tell max s j (ECancel j))).
  { intros j P. destruct (Nat.eq_dec i j) as [->|Ne]; [apply idle_better; auto|]. apply tell_other; [exact Ne|]. intros c. now apply cancel_other. }
  assert (SE : forall c e, Better i s (server_event utf8 dump limit accepted_resp app s c e)).
  { intros c x. unfold server_event. destruct (l_conn (links s c)); [now left|exact R]. }
  destruct e as [r|j b|j x|c n|c|c|c|c n|c|c x|j b|j|j x|j|j]; cbn [AskModel.step].
  - left. unfold place, tell, cstep1. cbn [cl phases ClientModel.step set_call calls ncalls Nat.pred]. rewrite !fupd_other by lia. reflexivity.
  - destruct (phases s j) eqn:P; try exact R. destruct (Nat.eq_dec i j) as [->|Ne].
    + right. unfold place. cbn [cl phases]. rewrite fupd_same, P. assert (PN : phases s j <> PIdle) by (rewrite P; discriminate). destruct (busy_attempt _ _ _ _ _ _ s j I PN) as (m & T & _). rewrite T. cbn [weight]. lia.
    + left. unfold place. cbn [cl phases]. rewrite fupd_other by exact Ne. reflexivity.
  - destruct (phases s j) eqn:P; try exact R. apply OUT. rewrite P. discriminate.
  - destruct (Nat.ltb c (nlinks s)); [|exact R]. destruct (l_conn (links s c)); [|exact R]. destruct (ceof _); [exact R|]. now left.
  - destruct (Nat.ltb c (nlinks s)); [apply SE|exact R].
  - destruct (Nat.ltb c (nlinks s)); [apply SE|exact R].
  - destruct (Nat.ltb c (nlinks s)); [|exact R]. destruct (l_conn (links s c)); [|exact R]. destruct (cst _); exact R.
  - destruct (_ && _); [now left|exact R].
  - destruct (Nat.ltb c (nlinks s)); [now left|exact R].
  - destruct (Nat.ltb c (nlinks s)); [now left|exact R].
  - destruct (phases s j) as [|c|c t|] eqn:P; try exact R. assert (PN : phases s j <> PIdle) by (rewrite P; discriminate).
    destruct (read_result _ _ _) as [[[|d0 d]|x]|]; try exact R; try (now apply OUT).
    destruct (decode _ _) as [t|]; [|now apply OUT]. destruct (Nat.eq_dec i j) as [->|Ne].
    + right. unfold place. cbn [cl phases set_phase]. rewrite fupd_same, P. destruct (busy_attempt _ _ _ _ _ _ s j I PN) as (m & T & _). rewrite T. cbn [weight]. lia.
    + left. unfold place. cbn [cl phases set_phase]. rewrite fupd_other by exact Ne. reflexivity.
  - destruct (phases s j) eqn:P; try exact R. apply OUT. rewrite P. discriminate.
  - destruct (phases s j) eqn:P; try exact R. apply OUT. rewrite P. discriminate.
  - destruct (phases s j) eqn:P; try (now apply CN); apply OUT; rewrite P; discriminate.
  - destruct (phases s j) eqn:P; try exact R. now apply WK.
Qed.
Lemma step_calls s e i : (i < ncalls (cl s))%nat -> (i < ncalls (cl (step s e)))%nat.
Proof.
  intros Hi. assert (CS : forall x, (i < ncalls (ClientModel.step max stream_retries true (cl s) x))%nat).
  { intros x. destruct x as [|j o|j|j]; cbn [ClientModel.step set_call ncalls]; [lia|..]; destruct (live (cl s) j); auto; destruct (tst _); auto. cbv zeta.
    destruct o as [r|x]; auto. destruct x; cbn [stream_retries]; try destruct (Z.leb max (n + 1)); auto. }
  assert (TL : forall j x, (i < ncalls (cl (tell max s j x)))%nat) by (intros j x; apply CS).
  assert (SE : forall c e, (i < ncalls (cl (server_event utf8 dump limit accepted_resp app s c e)))%nat) by (intros c x; unfold server_event; destruct (l_conn (links s c)); exact Hi).
  destruct e as [r|j b|j x|c n|c|c|c|c n|c|c x|j b|j|j x|j|j]; cbn [AskModel.step]; auto.
  - unfold tell, cstep1. cbn [cl ClientModel.step set_call ncalls]. lia.
  - destruct (phases s j); exact Hi.
  - destruct (phases s j); auto.
  - destruct (Nat.ltb c (nlinks s)); [|exact Hi]. destruct (l_conn (links s c)); [|exact Hi]. destruct (ceof _); exact Hi.
  - destruct (Nat.ltb c (nlinks s)); auto.
  - destruct (Nat.ltb c (nlinks s)); auto.
  - destruct (Nat.ltb c (nlinks s)); [|exact Hi]. destruct (l_conn (links s c)); [|exact Hi]. destruct (cst _); exact Hi.
  - destruct (_ && _); exact Hi.
  - destruct (Nat.ltb c (nlinks s)); exact Hi.
  - destruct (Nat.ltb c (nlinks s)); exact Hi.
  - destruct (phases s j) as [|c|c t|]; auto. destruct (read_result _ _ _) as [[[|d0 d]|x]|]; auto. destruct (decode _ _); auto.
  - destruct (phases s j); auto.
  - destruct (phases s j); auto.
  - destruct (phases s j); auto.
  - destruct (phases s j); auto.
Qed.
Lemma each_bound i evs : forall s k, Inv s -> (i < ncalls (cl s))%nat -> moves step (place i) s evs k -> Z.of_nat k <= weight (place i s).
Proof.
  induction evs as [|e evs IH]; intros s k I Hi Mv; inversion Mv as [|? ? ? ? E Mv'|? ? ? k' E Mv']; subst.
  - now apply weight_range.
  - specialize (IH _ _ (step_inv utf8 dump limit max accepted_resp app s e I) (step_calls s e i Hi) Mv'). now rewrite E in IH.
  - specialize (IH _ _ (step_inv utf8 dump limit max accepted_resp app s e I) (step_calls s e i Hi) Mv'). destruct (step_better s e i I Hi) as [D0|D0]; [contradiction|]. lia.
Qed.
Lemma not_stuck s i : Inv s -> pending s i -> exists e, alone_t i e /\ place i (step s e) <> place i s.
Proof.
  intros I [Hi P]. assert (LT : forall d : net, weight (place i d) < weight (place i s) -> place i d <> place i s) by (intros d H E; rewrite E in H; lia).
  destruct (phases s i) as [|c|c t|] eqn:Ph.
  - exists (NOpened i false). split; [reflexivity|]. cbn [AskModel.step]. rewrite Ph. unfold place. cbn [cl phases]. rewrite fupd_same, Ph. discriminate.
  - exists (NTimeout i). split; [reflexivity|]. cbn [AskModel.step]. rewrite Ph. apply LT, out_less; [exact I|rewrite Ph; discriminate].
  - exists (NClosed i None). split; [reflexivity|]. cbn [AskModel.step]. rewrite Ph. apply LT, out_less; [exact I|rewrite Ph; discriminate].
  - exists (NWake i). split; [reflexivity|]. cbn [AskModel.step]. rewrite Ph. pose proof (v_calls _ _ _ _ _ _ _ I i Hi) as C. unfold CallOk in C. rewrite Ph in C. apply Nat.ltb_lt in Hi as HL.
    destruct (tst (calls (cl s) i)) as [n|n|o] eqn:T; [destruct C as (_ & _ & [])| |destruct (P o eq_refl)].
    unfold place, tell, cstep1. cbn [cl phases ClientModel.step]. unfold live. rewrite HL, T. cbn [set_call calls]. rewrite !fupd_same. cbn [tst]. unfold loop_test. destruct (_ && _); discriminate.
Qed.
End Transient.
