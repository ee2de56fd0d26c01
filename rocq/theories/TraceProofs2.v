(** Proofs about tracing: which spans are ended, and how they hang together. *)
From Coq Require Import String ZArith Bool Lia List Arith.
From Verif Require Import Base SpanKeyModel RouterModel RouterProofs WireModel TraceModel TraceSpec TraceProofs.
Import ListNotations.
Local Open Scope Z_scope.

Definition any_ids (_ _ : Z) : Prop := True.
Lemma ids_any w ev : ids_in any_ids w ev.
Proof. destruct ev; exact I. Qed.
Lemma basic_run es : basic any_ids (run boot es).
Proof.
  apply (always_inv (fun _ _ => True) (basic any_ids)); [|apply basic_boot|apply always_true].
  intros w ev B _. apply basic_step; [exact B|apply ids_any].
Qed.
Lemma basic_sane es : always sane boot es -> basic good_ids (run boot es).
Proof.
  intros S. apply (always_inv sane (basic good_ids)); [|apply basic_boot|exact S].
  intros w ev B H. apply basic_step; [exact B|]. destruct ev; cbn in *; auto.
Qed.
Lemma id_set k v x : sp_id (set_attribute k v x) = sp_id x.
Proof. reflexivity. Qed.
(** Spans stay what they are. *)
Lemma span_stable w ev n x : nth_error (spans w) n = Some x ->
  exists y, nth_error (spans (step w ev)) n = Some y /\ sp_for y = sp_for x /\ sp_id y = sp_id x.
Proof.
  intros N.
  assert (M : forall m h, (forall z, sp_for (h z) = sp_for z /\ sp_id (h z) = sp_id z) -> exists y, nth_error (modify m h (spans w)) n = Some y /\ sp_for y = sp_for x /\ sp_id y = sp_id x).
  { intros m h H. rewrite nth_modify, N. destruct (Nat.eqb n m); cbn [option_map]; [exists (h x)|exists x]; split; auto. }
  destruct ev as [k route nt ns|i dto others|i|i|m retries nt ns|a s|a|]; cbn [step].
  - exists x. split; [apply nth_snoc; auto|auto].
  - destruct (in_flight w i); exists x; auto.
  - destruct (in_flight w i) as [r|]; [|exists x; auto]. cbn [after_routing spans]. destruct (dget (r_key r) (active w)); [|exists x; auto].
    apply M. intros z. now rewrite for_end, id_end.
  - destruct (in_flight w i); exists x; auto.
  - destruct (nth_error (entries w) m) as [e|]; [|exists x; auto]. unfold before_process. destruct (parent_of (e_key e) (e_meta e)) as [[p rm]|]; [|exists x; auto].
    exists x. split; [apply nth_snoc; auto|auto].
  - destruct (running w a) as [e|]; [|exists x; auto]. cbn [after_process spans]. destruct (dget (e_key e) (procs w)); [|exists x; auto].
    apply M. intros z. now rewrite for_end, id_end.
  - destruct (running w a); exists x; auto.
  - exists x. auto.
Qed.

(** ** Requests *)
Definition end_of (s : rstatus) : option bool := match s with Answered => Some true | _ => None end.
Record ainv (w : world) : Prop := {
  a_basic : basic any_ids w;
  a_act : forall i r, under_way w i r -> exists n x, dget (r_key r) (active w) = Some n /\ nth_error (spans w) n = Some x /\ sp_for x = ForRequest i;
  a_end : forall n x i r, nth_error (spans w) n = Some x -> sp_for x = ForRequest i -> nth_error (reqs w) i = Some r -> sp_end x = end_of (r_status r) }.
Lemma ainv_boot : ainv boot.
Proof. constructor; [apply basic_boot| |]; [intros i r [H _]; destruct i; discriminate|intros n x i r H; destruct n; discriminate]. Qed.
Lemma same_key w i j q r : ainv w -> under_way w i r -> under_way w j q -> r_key q = r_key r -> i = j.
Proof.
  intros A U V K. destruct (a_act w A i r U) as (n & x & D & N & X). destruct (a_act w A j q V) as (m & y & D' & M & Y).
  rewrite K, D in D'. injection D' as <-. rewrite N in M. injection M as <-. congruence.
Qed.
(** A change of spans for attempts only. *)
Lemma ainv_step w ev : ainv w -> requests_apart w ev -> ainv (step w ev).
Proof.
  intros A R. pose proof (a_basic w A) as B.
  assert (B' : basic any_ids (step w ev)) by (apply basic_step; [exact B|apply ids_any]).
  destruct ev as [k route nt ns|i dto others|i|i|m retries nt ns|a s|a|]; cbn [step] in *.
  - constructor; [exact B'|..]; cbn [before_routing spans active procs reqs entries attempts].
    + intros i r [H S]. cbn [reqs] in H. apply nth_snoc in H as [H|[-> ->]].
      * destruct (a_act w A i r (conj H S)) as (n & x & D & N & X). exists n, x.
        rewrite dget_dset, key_eqb_neq by (apply (R i r); split; assumption). repeat split; auto. apply nth_snoc. auto.
      * exists (List.length (spans w)). eexists. rewrite dget_dset. cbn [r_key]. rewrite key_eqb_refl. split; [reflexivity|].
        split; [apply nth_snoc; right; split; reflexivity|apply for_start].
    + intros n x i r N X H. apply nth_snoc in N as [N|[-> ->]].
      * destruct (b_req _ w B n x i N X) as (q & _ & _ & Q & _). rewrite nth_error_app1 in H by (eapply nth_len; eauto). eapply a_end; eauto.
      * rewrite for_start in X. injection X as <-. rewrite end_start. apply nth_snoc in H as [H|[_ ->]]; [apply nth_len in H; lia|reflexivity].
  - destruct (in_flight w i) as [r|]; [|exact A]. constructor; [exact B'|..].
    + exact (a_act w A).
    + exact (a_end w A).
  - destruct (in_flight w i) as [r|] eqn:F; [|exact A]. apply in_flight_spec in F. constructor; [exact B'|..].
    + intros j q [H S]. cbn [after_routing reqs] in H.
      apply modify_some in H as [[J H]|[-> (q0 & H & ->)]]; [|discriminate S].
      destruct (a_act w A j q (conj H S)) as (n & x & D & N & X). cbn [after_routing active spans].
      assert (K : r_key q <> r_key r) by (intros K; apply J; symmetry; eapply same_key; eauto; split; assumption).
      destruct (span_stable w (Respond i) n x N) as (y & Y1 & Y2 & _). cbn [step] in Y1. apply in_flight_spec in F. rewrite F in Y1.
      exists n, y. rewrite dget_dpop, key_eqb_neq by exact K. repeat split; auto. congruence.
    + cbn [after_routing reqs spans]. intros m x j q N X H. destruct (a_act w A i r F) as (n & z & D & Z & ZF). rewrite D in N.
      assert (E : sp_end z = None) by (rewrite (a_end w A n z i r Z ZF (proj1 F)); now rewrite (proj2 F)).
      apply modify_some in N as [[J N]|[-> (z' & N & ->)]].
      * apply modify_some in H as [[_ H]|[-> _]]; [eapply a_end; eauto|]. exfalso. apply J. eapply (b_one _ w B); eauto. congruence.
      * rewrite Z in N. injection N as <-. rewrite for_end in X. assert (j = i) by congruence. subst j.
        apply modify_some in H as [[J _]|[_ (q0 & _ & ->)]]; [congruence|]. unfold end_span. rewrite E. reflexivity.
  - destruct (in_flight w i) as [r|] eqn:F; [|exact A]. apply in_flight_spec in F. constructor; [exact B'|..].
    + intros j q [H S]. cbn [reqs] in H. apply modify_some in H as [[J H]|[-> (q0 & H & ->)]]; [|discriminate S]. exact (a_act w A j q (conj H S)).
    + cbn [reqs spans]. intros n x j q N X H. apply modify_some in H as [[J H]|[-> (q0 & H & ->)]]; [eapply a_end; eauto|].
      rewrite (a_end w A n x i q0 N X H). destruct F as [F1 F2]. assert (q0 = r) by congruence. subst q0. rewrite F2. reflexivity.
  - destruct (nth_error (entries w) m) as [e|]; [|exact A]. constructor; [exact B'|..]; unfold before_process; destruct (parent_of (e_key e) (e_meta e)) as [[p rm]|]; cbn [spans active reqs].
    + intros i r H. destruct (a_act w A i r H) as (n & x & D & N & X). exists n, x. repeat split; auto. apply nth_snoc. auto.
    + exact (a_act w A).
    + intros n x i r N X H. apply nth_snoc in N as [N|[-> ->]]; [eapply a_end; eauto|]. rewrite for_start in X. discriminate.
    + exact (a_end w A).
  - destruct (running w a) as [e|] eqn:F; [|exact A]. constructor; [exact B'|..].
    + intros i r H. destruct (a_act w A i r H) as (n & x & D & N & X).
      destruct (span_stable w (Finish a s) n x N) as (y & Y1 & Y2 & _). cbn [step] in Y1. rewrite F in Y1. exists n, y. repeat split; auto. congruence.
    + cbn [after_process reqs spans]. intros n x i r N X H. destruct (dget (e_key e) (procs w)) as [n0|] eqn:D; [|eapply a_end; eauto].
      apply modify_some in N as [[_ N]|[-> (z & N & ->)]]; [eapply a_end; eauto|]. exfalso. rewrite for_end in X.
      destruct (b_procs _ w B _ _ D) as (z' & j & N' & X'). rewrite N in N'. injection N' as <-. change (sp_for z = ForRequest i) in X. congruence.
  - destruct (running w a) as [e|]; [|exact A]. constructor; [exact B'|exact (a_act w A)|exact (a_end w A)].
  - constructor; [exact B'|..]; cbn [spans active reqs].
    + intros i r [H S]. cbn [reqs] in H. rewrite nth_error_map in H. destruct (nth_error (reqs w) i) as [q|]; [|discriminate]. cbn [option_map] in H.
      injection H as <-. unfold cut_req in S. destruct (r_status q) eqn:Q; cbn [set_status r_status] in S; congruence.
    + intros n x i r N X H. rewrite nth_error_map in H. destruct (nth_error (reqs w) i) as [q|] eqn:Q; [|discriminate]. cbn [option_map] in H.
      injection H as <-. rewrite (a_end w A n x i q N X Q). unfold cut_req. destruct (r_status q) eqn:T; [reflexivity|now rewrite T|now rewrite T].
Qed.
Lemma ainv_run es : always requests_apart boot es -> ainv (run boot es).
Proof. intros R. apply (always_inv requests_apart ainv); [|apply ainv_boot|exact R]. intros. now apply ainv_step. Qed.

(** ** Entries know the span of the request that pushed them *)
Lemma sget_supdate {V} k (e d : list (string * V)) : ~ In k (map fst e) -> sget k (supdate d e) = sget k d.
Proof.
  unfold supdate. revert d. induction e as [|[k' v] e IH]; intros d N; [reflexivity|]. cbn [fold_left fst snd]. rewrite IH by (intros X; apply N; right; exact X).
  rewrite sget_sset. destruct (String.eqb k k') eqn:E; [|reflexivity]. apply String.eqb_eq in E. exfalso. apply N. left. cbn [fst]. auto.
Qed.
Definition linked (w : world) (e : entry) : Prop :=
  exists m x, nth_error (spans w) m = Some x /\ sp_for x = ForRequest (e_by e) /\ sget receive_key (e_meta e) = Some (JNum (sp_id x)).
Definition all_linked (w : world) : Prop := forall n e, nth_error (entries w) n = Some e -> linked w e.
Lemma linked_step w ev e : linked w e -> linked (step w ev) e.
Proof.
  intros (m & x & N & X & M). destruct (span_stable w ev m x N) as (y & Y1 & Y2 & Y3). exists m, y. rewrite Y2, Y3. auto.
Qed.
Lemma all_linked_step w ev : ainv w -> all_linked w -> sane w ev -> all_linked (step w ev).
Proof.
  intros A L S n e N.
  assert (O : nth_error (entries w) n = Some e \/ (exists i dto others r, ev = Push i dto others /\ under_way w i r /\
     e = mkEntry (r_key r) dto (supdate (supdate [] (before_push w (r_key r))) others) i)).
  { destruct ev as [k route nt ns|i dto others|i|i|m retries nt ns|a s|a|]; cbn [step] in N; auto.
    - destruct (in_flight w i) as [r|] eqn:F; [|auto]. cbn [entries] in N. apply nth_snoc in N as [N|[_ ->]]; [auto|]. right.
      apply in_flight_spec in F. exists i, dto, others, r. auto.
    - destruct (in_flight w i); auto.
    - destruct (in_flight w i); auto.
    - destruct (nth_error (entries w) m) as [e0|]; auto. unfold before_process in N. destruct (parent_of _ _) as [[]|]; auto.
    - destruct (running w a); auto.
    - destruct (running w a); auto. }
  destruct O as [O|(i & dto & others & r & -> & U & ->)]; [apply linked_step, (L n e O)|].
  destruct (a_act w A i r U) as (m & x & D & X & F). unfold linked. destruct (span_stable w (Push i dto others) m x X) as (y & Y1 & Y2 & Y3).
  exists m, y. split; [exact Y1|]. split; [cbn [e_by]; congruence|]. cbn [e_meta]. rewrite sget_supdate by exact S.
  unfold before_push. rewrite D, X. cbn [supdate fold_left sset sget fst snd]. rewrite String.eqb_refl, Y3. reflexivity.
Qed.
Lemma all_linked_run es : always requests_apart boot es -> always sane boot es -> all_linked (run boot es).
Proof.
  intros R S.
  assert (H : ainv (run boot es) /\ all_linked (run boot es)); [|apply H].
  apply (always_inv (fun w e => requests_apart w e /\ sane w e) (fun w => ainv w /\ all_linked w)).
  - intros w ev [A L] [H1 H2]. split; [now apply ainv_step|now apply all_linked_step].
  - split; [apply ainv_boot|]. intros n e N. destruct n; discriminate.
  - now apply always_and.
Qed.

(** ** Attempts *)
Definition fits (t : attempt) (x : span) : Prop :=
  match a_status t with Finished s => sp_end x = Some false /\ has_attr x "process.success" (ABool s) | _ => sp_end x = None end.
Record cinv (w : world) : Prop := {
  c_basic : basic any_ids w;
  c_act : forall a t e, attempt_of w a t e -> a_status t = Running -> exists n x, dget (e_key e) (procs w) = Some n /\ nth_error (spans w) n = Some x /\ sp_for x = ForAttempt a;
  c_end : forall n x a t, nth_error (spans w) n = Some x -> sp_for x = ForAttempt a -> nth_error (attempts w) a = Some t -> fits t x }.
Lemma cinv_boot : cinv boot.
Proof. constructor; [apply basic_boot| |]; [intros a t e [H _]; destruct a; discriminate|intros n x i r H; destruct n; discriminate]. Qed.
Lemma same_key_a w a b t u e f : cinv w -> attempt_of w a t e -> a_status t = Running -> attempt_of w b u f -> a_status u = Running -> e_key f = e_key e -> a = b.
Proof.
  intros A U U' V V' K. destruct (c_act w A a t e U U') as (n & x & D & N & X). destruct (c_act w A b u f V V') as (m & y & D' & M & Y).
  rewrite K, D in D'. injection D' as <-. rewrite N in M. injection M as <-. congruence.
Qed.
Lemma fits_ended s t x : sp_end x = None -> fits (set_astatus (Finished s) t) (ended_a s x).
Proof.
  intros E. unfold fits, has_attr. cbn [set_astatus a_status]. unfold ended_a, end_span. cbn [set_attribute sp_end]. rewrite E.
  cbn [sp_end sp_attrs set_attribute]. rewrite sget_sset, String.eqb_refl. auto.
Qed.
Lemma cinv_step w ev : cinv w -> attempts_apart w ev -> cinv (step w ev).
Proof.
  intros A R. pose proof (c_basic w A) as B.
  assert (B' : basic any_ids (step w ev)) by (apply basic_step; [exact B|apply ids_any]).
  destruct ev as [k route nt ns|i dto others|i|i|m retries nt ns|a s|a|]; cbn [step] in *.
  - constructor; [exact B'|..]; cbn [before_routing spans active procs reqs entries attempts].
    + intros a t e [H1 H2] S. destruct (c_act w A a t e (conj H1 H2) S) as (n & x & D & N & X). exists n, x. repeat split; auto. apply nth_snoc. auto.
    + intros n x a t N X H. apply nth_snoc in N as [N|[-> ->]]; [eapply c_end; eauto|]. rewrite for_start in X. discriminate.
  - destruct (in_flight w i) as [r|]; [|exact A]. constructor; [exact B'|..]; cbn [spans procs attempts].
    + intros a t e [H1 H2] S. cbn [attempts entries] in *. destruct (b_hasa _ w B a t H1) as (e' & E & _).
      rewrite nth_error_app1 in H2 by (eapply nth_len; eauto). exact (c_act w A a t e (conj H1 H2) S).
    + exact (c_end w A).
  - destruct (in_flight w i) as [r|] eqn:F; [|exact A]. constructor; [exact B'|..].
    + intros a t e [H1 H2] S. destruct (c_act w A a t e (conj H1 H2) S) as (n & x & D & N & X).
      destruct (span_stable w (Respond i) n x N) as (y & Y1 & Y2 & _). cbn [step] in Y1. rewrite F in Y1. exists n, y. repeat split; auto. congruence.
    + cbn [after_routing attempts spans]. intros n x a t N X H. destruct (dget (r_key r) (active w)) as [n0|] eqn:D; [|eapply c_end; eauto].
      apply modify_some in N as [[_ N]|[-> (z & N & ->)]]; [eapply c_end; eauto|]. exfalso. rewrite for_end in X.
      destruct (b_active _ w B _ _ D) as (z' & j & N' & X'). rewrite N in N'. injection N' as <-. congruence.
  - destruct (in_flight w i) as [r|]; [|exact A]. constructor; [exact B'|exact (c_act w A)|exact (c_end w A)].
  - destruct (nth_error (entries w) m) as [e0|] eqn:E0; [|exact A]. constructor; [exact B'|..]; unfold before_process; destruct (parent_of (e_key e0) (e_meta e0)) as [[p rm]|] eqn:PO; cbn [spans procs attempts].
    + intros a t e [H1 H2] S. cbn [attempts entries] in *. apply nth_snoc in H1 as [H1|[-> ->]].
      * destruct (c_act w A a t e (conj H1 H2) S) as (n & x & D & N & X). exists n, x.
        rewrite dget_dset, key_eqb_neq by (apply (R e0 a t e E0 (conj H1 H2) S)). repeat split; auto. apply nth_snoc. auto.
      * cbn [a_entry] in H2. assert (e = e0) by congruence. subst e. exists (List.length (spans w)). eexists.
        rewrite dget_dset, key_eqb_refl. split; [reflexivity|]. split; [apply nth_snoc; right; split; reflexivity|apply for_start].
    + intros a t e [H1 H2] S. cbn [attempts entries] in *. apply nth_snoc in H1 as [H1|[-> ->]]; [|discriminate S]. exact (c_act w A a t e (conj H1 H2) S).
    + intros n x a t N X H. apply nth_snoc in N as [N|[-> ->]].
      * destruct (b_att _ w B n x a N X) as (t' & e' & _ & _ & _ & [Q _] & _). rewrite nth_error_app1 in H by (eapply nth_len; eauto). eapply c_end; eauto.
      * rewrite for_start in X. injection X as <-. apply nth_snoc in H as [H|[_ ->]]; [apply nth_len in H; lia|]. unfold fits. cbn [a_status]. apply end_start.
    + intros n x a t N X H. destruct (b_att _ w B n x a N X) as (t' & e' & _ & _ & _ & [Q _] & _).
      rewrite nth_error_app1 in H by (eapply nth_len; eauto). eapply c_end; eauto.
  - destruct (running w a) as [e|] eqn:F; [|exact A]. apply running_spec in F as F'. destruct F' as (t & U & US). constructor; [exact B'|..].
    + intros b u f [H H2] S. cbn [after_process attempts entries] in H, H2.
      apply modify_some in H as [[J H]|[-> (q0 & H & ->)]]; [|discriminate S].
      destruct (c_act w A b u f (conj H H2) S) as (n & x & D & N & X). cbn [after_process procs spans].
      assert (K : e_key f <> e_key e) by (intros K; apply J; symmetry; apply (same_key_a w a b t u e f A U US (conj H H2) S K)).
      destruct (span_stable w (Finish a s) n x N) as (y & Y1 & Y2 & _). cbn [step] in Y1. rewrite F in Y1.
      exists n, y. rewrite dget_dpop, key_eqb_neq by exact K. repeat split; auto. congruence.
    + cbn [after_process attempts spans]. intros m x b u N X H. destruct (c_act w A a t e U US) as (n & z & D & Z & ZF). rewrite D in N.
      assert (E : sp_end z = None) by (pose proof (c_end w A n z a t Z ZF (proj1 U)) as V; unfold fits in V; now rewrite US in V).
      apply modify_some in N as [[J N]|[-> (z' & N & ->)]].
      * apply modify_some in H as [[_ H]|[-> _]]; [eapply c_end; eauto|]. exfalso. apply J. eapply (b_one _ w B); eauto. congruence.
      * rewrite Z in N. injection N as <-. fold (ended_a s z) in *. rewrite for_ended in X. assert (b = a) by congruence. subst b.
        apply modify_some in H as [[J _]|[_ (q0 & _ & ->)]]; [congruence|]. now apply fits_ended.
  - destruct (running w a) as [e|] eqn:F; [|exact A]. apply running_spec in F as (t & U & US). constructor; [exact B'|..].
    + intros b u f [H H2] S. cbn [attempts entries] in H, H2. apply modify_some in H as [[J H]|[-> (q0 & H & ->)]]; [|discriminate S]. exact (c_act w A b u f (conj H H2) S).
    + cbn [attempts spans]. intros n x b u N X H. apply modify_some in H as [[J H]|[-> (q0 & H & ->)]]; [eapply c_end; eauto|].
      pose proof (c_end w A n x a q0 N X H) as V. destruct U as [U _]. assert (q0 = t) by congruence. subst q0. unfold fits in *. rewrite US in V. exact V.
  - constructor; [exact B'|..]; cbn [spans procs attempts].
    + intros b u f [H H2] S. cbn [attempts] in H. rewrite nth_error_map in H. destruct (nth_error (attempts w) b) as [q|]; [|discriminate]. cbn [option_map] in H.
      injection H as <-. unfold cut_attempt in S. destruct (a_status q) eqn:Q; cbn [set_astatus a_status] in S; congruence.
    + intros n x b u N X H. rewrite nth_error_map in H. destruct (nth_error (attempts w) b) as [q|] eqn:Q; [|discriminate]. cbn [option_map] in H.
      injection H as <-. pose proof (c_end w A n x b q N X Q) as V. unfold fits, cut_attempt in *. destruct (a_status q) eqn:T; cbn [set_astatus a_status]; [exact V|now rewrite T|now rewrite T].
Qed.
Lemma cinv_run es : always attempts_apart boot es -> cinv (run boot es).
Proof. intros R. apply (always_inv attempts_apart cinv); [|apply cinv_boot|exact R]. intros. now apply cinv_step. Qed.
