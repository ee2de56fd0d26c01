(** Proofs about tracing. *)
From Coq Require Import String ZArith Bool Lia List Arith.
From Verif Require Import Base SpanKeyModel RouterModel RouterProofs WireModel TraceModel TraceSpec.
Import ListNotations.
Local Open Scope Z_scope.

(** ** Lists and dictionaries *)
Lemma nth_snoc {A} (l : list A) x n y : nth_error (l ++ [x]) n = Some y <-> nth_error l n = Some y \/ (n = List.length l /\ y = x).
Proof.
  destruct (Nat.lt_trichotomy n (List.length l)) as [H|[->|H]].
  - rewrite nth_error_app1 by exact H. split; [auto|]. intros [|[-> _]]; [auto|lia].
  - rewrite nth_error_app2, Nat.sub_diag by lia. cbn [nth_error]. split.
    + intros E. injection E as <-. auto.
    + intros [E|[_ ->]]; [|reflexivity]. assert (List.length l < List.length l)%nat by (apply nth_error_Some; congruence). lia.
  - rewrite nth_error_app2 by lia. destruct (n - List.length l)%nat as [|k] eqn:K; [lia|]. cbn [nth_error].
    split; [destruct k; discriminate|]. intros [E|[-> _]]; [|lia].
    assert (n < List.length l)%nat by (apply nth_error_Some; congruence). lia.
Qed.
Lemma nth_len {A} (l : list A) n x : nth_error l n = Some x -> (n < List.length l)%nat.
Proof. intros E. apply nth_error_Some. congruence. Qed.
Lemma nth_modify {A} n (f : A -> A) l m : nth_error (modify n f l) m = if Nat.eqb m n then option_map f (nth_error l m) else nth_error l m.
Proof.
  revert n m. induction l as [|x l IH]; intros n m; cbn [modify].
  - assert (E : nth_error (@nil A) m = None) by (destruct m; reflexivity). rewrite E. now destruct (Nat.eqb m n).
  - destruct n, m; cbn [nth_error Nat.eqb option_map]; try reflexivity. apply IH.
Qed.
Lemma modify_some {A} n (f : A -> A) l m y : nth_error (modify n f l) m = Some y <->
  (m <> n /\ nth_error l m = Some y) \/ (m = n /\ exists x, nth_error l n = Some x /\ y = f x).
Proof.
  rewrite nth_modify. destruct (Nat.eqb_spec m n) as [->|N].
  - destruct (nth_error l n) as [x|]; cbn [option_map]; split.
    + intros E. injection E as <-. right. split; [reflexivity|]. exists x. auto.
    + intros [[]|[_ (z & E & ->)]]; [congruence|]. now injection E as <-.
    + discriminate.
    + intros [[]|[_ (z & E & _)]]; [congruence|discriminate].
  - split; [auto|]. intros [[]|[]]; [assumption|congruence].
Qed.
Lemma modify_length {A} n (f : A -> A) l : List.length (modify n f l) = List.length l.
Proof. revert n. induction l as [|x l IH]; intros [|n]; cbn [modify List.length]; congruence. Qed.
Lemma key_eqb_spec a b : key_eqb a b = true <-> a = b.
Proof.
  unfold key_eqb. rewrite andb_true_iff, !Z.eqb_eq. destruct a, b. cbn. split; [intros []|intros E; injection E]; intros; subst; auto.
Qed.
Lemma key_eqb_refl a : key_eqb a a = true.
Proof. now apply key_eqb_spec. Qed.
Lemma key_eq_dec (a b : span_key) : {a = b} + {a <> b}.
Proof. destruct (key_eqb a b) eqn:E; [left; now apply key_eqb_spec|right]. intros ->. rewrite key_eqb_refl in E. discriminate. Qed.
Lemma key_eqb_neq a b : a <> b -> key_eqb a b = false.
Proof. intros N. destruct (key_eqb a b) eqn:E; [|reflexivity]. apply key_eqb_spec in E. contradiction. Qed.
Lemma dget_dset k k' n d : dget k (dset k' n d) = if key_eqb k k' then Some n else dget k d.
Proof.
  induction d as [|[k2 m] d IH]; cbn [dset dget].
  - reflexivity.
  - destruct (key_eqb k' k2) eqn:E2; cbn [dget].
    + apply key_eqb_spec in E2 as ->. destruct (key_eqb k k2); reflexivity.
    + rewrite IH. destruct (key_eqb k k2) eqn:E3; [|reflexivity]. apply key_eqb_spec in E3 as ->.
      destruct (key_eqb k2 k') eqn:E4; [|reflexivity]. apply key_eqb_spec in E4 as ->. rewrite key_eqb_refl in E2. discriminate.
Qed.
Lemma dget_dpop k k' d : dget k (dpop k' d) = if key_eqb k k' then None else dget k d.
Proof.
  induction d as [|[k2 m] d IH]; cbn [dpop filter dget fst]; [now destruct (key_eqb k k')|]. fold (dpop k' d).
  destruct (key_eqb k' k2) eqn:E2; cbn [negb dget].
  - rewrite IH. apply key_eqb_spec in E2 as ->. now destruct (key_eqb k k2).
  - rewrite IH. destruct (key_eqb k k2) eqn:E3; [|reflexivity]. apply key_eqb_spec in E3 as ->.
    destruct (key_eqb k2 k') eqn:E4; [|reflexivity]. apply key_eqb_spec in E4 as ->. rewrite key_eqb_refl in E2. discriminate.
Qed.
Lemma in_flight_spec w i r : in_flight w i = Some r <-> under_way w i r.
Proof.
  unfold in_flight, under_way. destruct (nth_error (reqs w) i) as [q|]; [|split; [discriminate|intros []; discriminate]].
  destruct (r_status q) eqn:S; split; try discriminate; try (intros E; injection E as <-; auto);
  intros [E Q]; injection E as <-; congruence.
Qed.
Lemma running_spec w a e : running w a = Some e <-> exists x, attempt_of w a x e /\ a_status x = Running.
Proof.
  unfold running, attempt_of. destruct (nth_error (attempts w) a) as [q|]; [|split; [discriminate|intros (x & [] & _); discriminate]].
  split.
  - destruct (a_status q) eqn:S; try discriminate. intros E. exists q. auto.
  - intros (x & [E F] & S). injection E as <-. now rewrite S.
Qed.
Lemma run_snoc w es ev : run w (es ++ [ev]) = step (run w es) ev.
Proof. unfold run. now rewrite fold_left_app. Qed.
Lemma always_inv (P : world -> event -> Prop) (Q : world -> Prop) : (forall w ev, Q w -> P w ev -> Q (step w ev)) ->
  forall es w, Q w -> always P w es -> Q (run w es).
Proof. intros H. induction es as [|e es IH]; intros w Hw A; [exact Hw|]. destruct A as [A1 A2]. apply IH; auto. Qed.
Lemma always_and (P Q : world -> event -> Prop) es : forall w, always P w es -> always Q w es -> always (fun w e => P w e /\ Q w e) w es.
Proof. induction es as [|e es IH]; intros w A B; [exact I|]. destruct A, B. split; auto. Qed.
Lemma always_true (es : list event) : forall w, always (fun _ _ => True) w es.
Proof. induction es as [|e es IH]; intros w; [exact I|]. split; auto. Qed.
Lemma always_weak (P Q : world -> event -> Prop) es : (forall w e, P w e -> Q w e) -> forall w, always P w es -> always Q w es.
Proof. intros H. induction es as [|e es IH]; intros w A; [exact I|]. destruct A. split; auto. Qed.

(** ** Spans as they are started *)
Definition started_r (i : nat) (r : req) (nt ns : Z) : span :=
  start_span (ForRequest i) (r_route r) (trace_id (r_key r)) (span_id (r_key r)) true
    (id_attrs (r_key r) ++ [("request.route_key", AStr (r_route r))])%list%string nt ns.
Definition started_a (a : nat) (t : attempt) (e : entry) (p : Z * bool) (nt ns : Z) : span :=
  start_span (ForAttempt a) (e_dto e ++ ".process") (trace_id (e_key e)) (fst p) (snd p)
    (id_attrs (e_key e) ++ [("request.retries", AInt (a_retries t))])%list%string nt ns.
Definition ended_a (s : bool) (x : span) : span := end_span false (set_attribute "process.success" (ABool s) x).
Lemma for_start f n t s r a nt ns : sp_for (start_span f n t s r a nt ns) = f.
Proof. unfold start_span. now destruct (valid_context t s). Qed.
Lemma end_start f n t s r a nt ns : sp_end (start_span f n t s r a nt ns) = None.
Proof. unfold start_span. now destruct (valid_context t s). Qed.
Lemma name_start f n t s r a nt ns : sp_name (start_span f n t s r a nt ns) = n.
Proof. unfold start_span. now destruct (valid_context t s). Qed.
Lemma attrs_start f n t s r a nt ns : sp_attrs (start_span f n t s r a nt ns) = a.
Proof. unfold start_span. now destruct (valid_context t s). Qed.
Lemma id_start f n t s r a nt ns : sp_id (start_span f n t s r a nt ns) = ns.
Proof. unfold start_span. now destruct (valid_context t s). Qed.
Lemma for_end b x : sp_for (end_span b x) = sp_for x.
Proof. unfold end_span. now destruct (sp_end x). Qed.
Lemma for_ended s x : sp_for (ended_a s x) = sp_for x.
Proof. unfold ended_a. now rewrite for_end. Qed.
Lemma id_end b x : sp_id (end_span b x) = sp_id x.
Proof. unfold end_span. now destruct (sp_end x). Qed.
Lemma name_end b x : sp_name (end_span b x) = sp_name x.
Proof. unfold end_span. now destruct (sp_end x). Qed.
Lemma attrs_end b x : sp_attrs (end_span b x) = sp_attrs x.
Proof. unfold end_span. now destruct (sp_end x). Qed.
Lemma end_twice b c x : end_span c (end_span b x) = end_span b x.
Proof. unfold end_span. destruct (sp_end x) eqn:E; cbn [sp_end]; [now rewrite E|reflexivity]. Qed.

(** ** What always holds; [P]: what is known of the generated ids *)
Section Basic.
Context (P : Z -> Z -> Prop).
Set Default Proof Using "Type".
Definition ids_in (_ : world) (ev : event) : Prop := match ev with Receive _ _ nt ns | Begin _ _ nt ns => P nt ns | _ => True end.
Record basic (w : world) : Prop := {
  b_req : forall n x i, nth_error (spans w) n = Some x -> sp_for x = ForRequest i ->
    exists r nt ns, nth_error (reqs w) i = Some r /\ P nt ns /\ (x = started_r i r nt ns \/ x = end_span true (started_r i r nt ns));
  b_att : forall n x a, nth_error (spans w) n = Some x -> sp_for x = ForAttempt a ->
    exists t e p nt ns, attempt_of w a t e /\ parent_of (e_key e) (e_meta e) = Some p /\ P nt ns /\
      (x = started_a a t e p nt ns \/ exists s, x = ended_a s (started_a a t e p nt ns));
  b_one : forall n m x y, nth_error (spans w) n = Some x -> nth_error (spans w) m = Some y -> sp_for x = sp_for y -> n = m;
  b_has : forall i r, nth_error (reqs w) i = Some r -> exists n x, nth_error (spans w) n = Some x /\ sp_for x = ForRequest i;
  b_hasa : forall a t, nth_error (attempts w) a = Some t -> exists e, nth_error (entries w) (a_entry t) = Some e /\
    (parent_of (e_key e) (e_meta e) = None /\ a_status t = Raised \/ exists n x, nth_error (spans w) n = Some x /\ sp_for x = ForAttempt a);
  b_active : forall k n, dget k (active w) = Some n -> exists x i, nth_error (spans w) n = Some x /\ sp_for x = ForRequest i;
  b_procs : forall k n, dget k (procs w) = Some n -> exists x a, nth_error (spans w) n = Some x /\ sp_for x = ForAttempt a;
  b_entry : forall n e, nth_error (entries w) n = Some e -> exists r, nth_error (reqs w) (e_by e) = Some r /\ r_key r = e_key e }.
Lemma basic_boot : basic boot.
Proof. constructor; intros; try (destruct n; discriminate); try (destruct i; discriminate); try (destruct a; discriminate); discriminate. Qed.
(** Only the status of requests and attempts matters little. *)
Lemma started_r_status i r s nt ns : started_r i (set_status s r) nt ns = started_r i r nt ns.
Proof. reflexivity. Qed.
Lemma started_a_status a t s e p nt ns : started_a a (set_astatus s t) e p nt ns = started_a a t e p nt ns.
Proof. reflexivity. Qed.
(** Steps that leave the spans alone. *)
Lemma same_req (w w' : world) (f : nat -> req -> req) : basic w -> spans w' = spans w ->
  (forall i r, r_key (f i r) = r_key r /\ r_route (f i r) = r_route r) ->
  (forall i, nth_error (reqs w') i = option_map (f i) (nth_error (reqs w) i)) ->
  forall (g : nat -> attempt -> attempt), (forall a t, a_entry (g a t) = a_entry t /\ a_retries (g a t) = a_retries t /\ (a_status t = Raised -> a_status (g a t) = Raised)) ->
  (forall a, nth_error (attempts w') a = option_map (g a) (nth_error (attempts w) a)) ->
  (forall k n, dget k (active w') = Some n -> dget k (active w) = Some n) ->
  (forall k n, dget k (procs w') = Some n -> dget k (procs w) = Some n) ->
  (forall n e, nth_error (entries w) n = Some e -> nth_error (entries w') n = Some e) ->
  (forall n e, nth_error (entries w') n = Some e -> exists r, nth_error (reqs w) (e_by e) = Some r /\ r_key r = e_key e) -> basic w'.
Proof.
  intros B ES F ER g G EA EAc EP EE EN. constructor; rewrite ?ES.
  - intros n x i N X. destruct (b_req w B n x i N X) as (r & nt & ns & R & Q & V). exists (f i r), nt, ns.
    rewrite ER, R. split; [reflexivity|]. split; [exact Q|]. destruct (F i r) as [F1 F2]. unfold started_r in *. rewrite F1, F2. exact V.
  - intros n x a N X. destruct (b_att w B n x a N X) as (t & e & p & nt & ns & [A E] & Q & I & V). exists (g a t), e, p, nt, ns.
    destruct (G a t) as (G1 & G2 & _). unfold attempt_of. rewrite EA, A, G1. repeat split; auto. unfold started_a in *. now rewrite G2.
  - exact (b_one w B).
  - intros i r R. rewrite ER in R. destruct (nth_error (reqs w) i) as [q|] eqn:Q; [|discriminate]. eapply b_has; eauto.
  - intros a t A. rewrite EA in A. destruct (nth_error (attempts w) a) as [q|] eqn:Q; [|discriminate]. cbn [option_map] in A. injection A as <-.
    destruct (G a q) as (G1 & G2 & G3). rewrite G1. destruct (b_hasa w B a q Q) as (e & E & [[H1 H2]|H]); exists e; split; auto.
  - intros k n D. eapply b_active; eauto.
  - intros k n D. eapply b_procs; eauto.
  - intros n e N. destruct (EN n e N) as (r & R & K). rewrite ER, R. exists (f (e_by e) r). split; [reflexivity|]. destruct (F (e_by e) r) as [F1 _]. congruence.
Qed.
Lemma opt_id {A} (o : option A) : option_map (fun x => x) o = o.
Proof. now destruct o. Qed.
Lemma nth_modify_map {A} n (f : A -> A) l m : nth_error (modify n f l) m = option_map (fun x => if Nat.eqb m n then f x else x) (nth_error l m).
Proof. rewrite nth_modify. destruct (Nat.eqb m n); [reflexivity|]. now rewrite opt_id. Qed.

Lemma basic_receive w k route nt ns : basic w -> P nt ns -> basic (before_routing w k route nt ns).
Proof.
  intros B Hp. unfold before_routing. set (x0 := start_span _ _ _ _ _ _ _ _).
  assert (X0 : x0 = started_r (List.length (reqs w)) (mkReq k route InFlight) nt ns) by reflexivity.
  assert (F0 : sp_for x0 = ForRequest (List.length (reqs w))) by apply for_start. clearbody x0.
  constructor; cbn [spans active procs reqs entries attempts].
  - intros n x i N X. apply nth_snoc in N as [N|[-> ->]].
    + destruct (b_req w B n x i N X) as (r & a & b & R & Q & V). exists r, a, b. split; [apply nth_snoc; auto|auto].
    + rewrite F0 in X. injection X as <-. exists (mkReq k route InFlight), nt, ns. split; [apply nth_snoc; auto|]. auto.
  - intros n x a N X. apply nth_snoc in N as [N|[-> ->]]; [|congruence].
    destruct (b_att w B n x a N X) as (t & e & p & i & j & [A E] & Q). exists t, e, p, i, j. split; [split; assumption|exact Q].
  - intros n m x y N M E. apply nth_snoc in N as [N|[-> ->]]; apply nth_snoc in M as [M|[-> ->]].
    + eapply b_one; eauto.
    + rewrite F0 in E. destruct (b_req w B n x _ N E) as (r & _ & _ & R & _). apply nth_len in R. lia.
    + rewrite F0 in E. symmetry in E. destruct (b_req w B m y _ M E) as (r & _ & _ & R & _). apply nth_len in R. lia.
    + reflexivity.
  - intros i r R. apply nth_snoc in R as [R|[-> ->]].
    + destruct (b_has w B i r R) as (n & x & N & X). exists n, x. split; [apply nth_snoc; auto|exact X].
    + exists (List.length (spans w)), x0. split; [apply nth_snoc; auto|exact F0].
  - intros a t A. destruct (b_hasa w B a t A) as (e & E & [H|(n & x & N & X)]); exists e; split; auto.
    right. exists n, x. split; [apply nth_snoc; auto|exact X].
  - intros k' n D. rewrite dget_dset in D. destruct (key_eqb k' k).
    + injection D as <-. exists x0, (List.length (reqs w)). split; [apply nth_snoc; auto|exact F0].
    + destruct (b_active w B k' n D) as (x & i & N & X). exists x, i. split; [apply nth_snoc; auto|exact X].
  - intros k' n D. destruct (b_procs w B k' n D) as (x & i & N & X). exists x, i. split; [apply nth_snoc; auto|exact X].
  - intros n e N. destruct (b_entry w B n e N) as (r & R & K). exists r. split; [apply nth_snoc; auto|exact K].
Qed.
Lemma basic_begin w n0 e0 retries nt ns : basic w -> P nt ns -> nth_error (entries w) n0 = Some e0 -> basic (before_process w n0 e0 retries nt ns).
Proof.
  intros B Hp E0. unfold before_process. destruct (parent_of (e_key e0) (e_meta e0)) as [[p remote]|] eqn:PO.
  2:{ constructor; cbn [spans active procs reqs entries attempts]; try apply B.
      - intros n x a N X. destruct (b_att w B n x a N X) as (t & e & p & i & j & [A E] & Q). exists t, e, p, i, j. repeat split; auto; try apply Q.
        apply nth_snoc. auto.
      - intros a t A. apply nth_snoc in A as [A|[-> ->]]; [now apply (b_hasa w B)|]. exists e0. auto. }
  set (x0 := start_span _ _ _ _ _ _ _ _).
  assert (X0 : x0 = started_a (List.length (attempts w)) (mkAttempt n0 retries Running) e0 (p, remote) nt ns) by reflexivity.
  assert (F0 : sp_for x0 = ForAttempt (List.length (attempts w))) by apply for_start. clearbody x0.
  constructor; cbn [spans active procs reqs entries attempts].
  - intros n x i N X. apply nth_snoc in N as [N|[-> ->]]; [now apply (b_req w B n)|congruence].
  - intros n x a N X. apply nth_snoc in N as [N|[-> ->]].
    + destruct (b_att w B n x a N X) as (t & e & q & i & j & [A E] & Q). exists t, e, q, i, j. repeat split; auto; try apply Q. apply nth_snoc. auto.
    + rewrite F0 in X. injection X as <-. exists (mkAttempt n0 retries Running), e0, (p, remote), nt, ns. repeat split; auto. apply nth_snoc. auto.
  - intros n m x y N M E. apply nth_snoc in N as [N|[-> ->]]; apply nth_snoc in M as [M|[-> ->]].
    + eapply b_one; eauto.
    + rewrite F0 in E. destruct (b_att w B n x _ N E) as (t & _ & _ & _ & _ & [A _] & _). apply nth_len in A. lia.
    + rewrite F0 in E. symmetry in E. destruct (b_att w B m y _ M E) as (t & _ & _ & _ & _ & [A _] & _). apply nth_len in A. lia.
    + reflexivity.
  - intros i r R. destruct (b_has w B i r R) as (n & x & N & X). exists n, x. split; [apply nth_snoc; auto|exact X].
  - intros a t A. apply nth_snoc in A as [A|[-> ->]].
    + destruct (b_hasa w B a t A) as (e & E & [H|(n & x & N & X)]); exists e; split; auto.
      right. exists n, x. split; [apply nth_snoc; auto|exact X].
    + exists e0. split; [exact E0|]. right. exists (List.length (spans w)), x0. split; [apply nth_snoc; auto|exact F0].
  - intros k' n D. destruct (b_active w B k' n D) as (x & i & N & X). exists x, i. split; [apply nth_snoc; auto|exact X].
  - intros k' n D. rewrite dget_dset in D. destruct (key_eqb k' (e_key e0)).
    + injection D as <-. exists x0, (List.length (attempts w)). split; [apply nth_snoc; auto|exact F0].
    + destruct (b_procs w B k' n D) as (x & i & N & X). exists x, i. split; [apply nth_snoc; auto|exact X].
  - intros n e N. exact (b_entry w B n e N).
Qed.
(** A change of one span that keeps its purpose. *)
Lemma basic_span w n0 x0 (h : span -> span) : basic w -> nth_error (spans w) n0 = Some x0 -> (forall x, sp_for (h x) = sp_for x) ->
  (forall i r nt ns x, sp_for x0 = ForRequest i -> x = started_r i r nt ns \/ x = end_span true (started_r i r nt ns) -> h x = started_r i r nt ns \/ h x = end_span true (started_r i r nt ns)) ->
  (forall a t e p nt ns x, sp_for x0 = ForAttempt a -> (x = started_a a t e p nt ns \/ exists s, x = ended_a s (started_a a t e p nt ns)) -> (h x = started_a a t e p nt ns \/ exists s, h x = ended_a s (started_a a t e p nt ns))) ->
  basic (mkWorld (modify n0 h (spans w)) (active w) (procs w) (reqs w) (entries w) (attempts w)).
Proof.
  intros B N0 HF H1 H2. constructor; cbn [spans active procs reqs entries attempts].
  - intros n x i N X. apply modify_some in N as [[_ N]|[-> (y & N & ->)]]; [now apply (b_req w B n)|]. rewrite HF in X.
    rewrite N0 in N. injection N as <-. destruct (b_req w B n0 x0 i N0 X) as (r & nt & ns & R & Q & V). exists r, nt, ns. repeat split; auto.
  - intros n x i N X. apply modify_some in N as [[_ N]|[-> (y & N & ->)]].
    + destruct (b_att w B n x i N X) as (t & e & p & nt & ns & [A E] & Q). exists t, e, p, nt, ns. split; [split; assumption|exact Q].
    + rewrite HF in X. rewrite N0 in N. injection N as <-.
      destruct (b_att w B n0 x0 i N0 X) as (t & e & p & nt & ns & [A E] & Q & I & V). exists t, e, p, nt, ns. repeat split; auto.
  - assert (L : forall n x, nth_error (modify n0 h (spans w)) n = Some x -> exists y, nth_error (spans w) n = Some y /\ sp_for y = sp_for x).
    { intros n x N. apply modify_some in N as [[_ N]|[-> (y & N & ->)]]; [exists x; auto|]. exists y. rewrite HF. auto. }
    intros n m x y N M E. apply L in N as (x' & N & X). apply L in M as (y' & M & Y). eapply (b_one w B); eauto. congruence.
  - intros i r R. destruct (b_has w B i r R) as (n & x & N & X). rewrite <- X. destruct (Nat.eq_dec n n0) as [->|D].
    + exists n0, (h x). split; [apply modify_some; right; split; [reflexivity|eauto]|apply HF].
    + exists n, x. split; [apply modify_some; auto|reflexivity].
  - intros a t A. destruct (b_hasa w B a t A) as (e & E & [H|(n & x & N & X)]); exists e; split; auto. right. rewrite <- X. destruct (Nat.eq_dec n n0) as [->|D].
    + exists n0, (h x). split; [apply modify_some; right; split; [reflexivity|eauto]|apply HF].
    + exists n, x. split; [apply modify_some; auto|reflexivity].
  - intros k n D. destruct (b_active w B k n D) as (x & i & N & X). destruct (Nat.eq_dec n n0) as [->|D'].
    + exists (h x), i. split; [apply modify_some; right; split; [reflexivity|eauto]|now rewrite HF].
    + exists x, i. split; [apply modify_some; auto|exact X].
  - intros k n D. destruct (b_procs w B k n D) as (x & i & N & X). destruct (Nat.eq_dec n n0) as [->|D'].
    + exists (h x), i. split; [apply modify_some; right; split; [reflexivity|eauto]|now rewrite HF].
    + exists x, i. split; [apply modify_some; auto|exact X].
  - intros n e N. exact (b_entry w B n e N).
Qed.
Definition keep_r (_ : nat) (r : req) : req := r.
Definition keep_a (_ : nat) (a : attempt) : attempt := a.
Lemma basic_respond w i k : basic w -> basic (after_routing w i k).
Proof.
  intros B. unfold after_routing. set (sp := match dget k (active w) with Some n => _ | None => _ end).
  assert (B' : basic (mkWorld sp (active w) (procs w) (reqs w) (entries w) (attempts w))).
  { unfold sp. destruct (dget k (active w)) as [n|] eqn:D; [|destruct w; exact B]. destruct (b_active w B k n D) as (x & j & N & X).
    apply (basic_span w n x _ B N); [apply for_end|..].
    - intros ? r nt ns y _ [->| ->]; [auto|rewrite end_twice; auto].
    - intros a t e p nt ns y A. congruence. }
  clearbody sp. eapply (same_req _ _ (fun j r => if Nat.eqb j i then set_status Answered r else r)); [exact B'|reflexivity|..]; cbn [spans active procs reqs entries attempts].
  - intros j r. now destruct (Nat.eqb j i).
  - intros j. apply nth_modify_map.
  - instantiate (1 := keep_a). intros. unfold keep_a. auto.
  - intros a. unfold keep_a. now rewrite opt_id.
  - intros k' n. rewrite dget_dpop. now destruct (key_eqb k' k).
  - auto.
  - auto.
  - intros n e N. exact (b_entry w B n e N).
Qed.
Lemma sset_twice {V} k (u v : V) d : sset k u (sset k v d) = sset k u d.
Proof.
  induction d as [|[k' z] d IH]; cbn [sset].
  - cbn [sset]. now rewrite String.eqb_refl.
  - destruct (String.eqb k k') eqn:E; cbn [sset]; rewrite E; [reflexivity|now rewrite IH].
Qed.
Lemma ended_again s t x : sp_end x = None -> ended_a s (ended_a t x) = ended_a s x.
Proof.
  intros E. unfold ended_a, end_span, set_attribute. cbn [sp_end sp_for sp_name sp_trace sp_id sp_parent sp_attrs]. rewrite E.
  cbn [sp_end sp_for sp_name sp_trace sp_id sp_parent sp_attrs]. now rewrite sset_twice.
Qed.
Lemma basic_finish w a k s : basic w -> basic (mkWorld (spans (after_process w a k s)) (active w) (procs w) (reqs w) (entries w) (attempts w)).
Proof.
  intros B. cbn [after_process spans]. destruct (dget k (procs w)) as [n|] eqn:D; [|destruct w; exact B].
  destruct (b_procs w B k n D) as (x & j & N & X).
  apply (basic_span w n x (ended_a s) B N); [intros; apply for_ended|..].
  - intros i r nt ns y A. congruence.
  - intros b t e p nt ns y _ [->|[u ->]]; right; exists s; [reflexivity|]. apply ended_again. apply end_start.
Qed.
Lemma basic_step w ev : basic w -> ids_in w ev -> basic (step w ev).
Proof.
  intros B Hp. destruct ev as [k route nt ns|i dto others|i|i|n retries nt ns|a s|a|]; cbn [step].
  - now apply basic_receive.
  - destruct (in_flight w i) as [r|] eqn:F; [|exact B]. apply in_flight_spec in F as [F _].
    eapply (same_req w _ keep_r B); cbn [spans active procs reqs entries attempts]; unfold keep_r; try reflexivity; auto.
    + intros j. now rewrite opt_id.
    + instantiate (1 := keep_a). unfold keep_a. auto.
    + intros a. unfold keep_a. now rewrite opt_id.
    + intros n e N. apply nth_snoc. auto.
    + intros n e N. apply nth_snoc in N as [N|[-> ->]]; [exact (b_entry w B n e N)|]. exists r. auto.
  - destruct (in_flight w i) as [r|]; [|exact B]. now apply basic_respond.
  - destruct (in_flight w i) as [r|]; [|exact B].
    eapply (same_req w _ (fun j r => if Nat.eqb j i then set_status Failed r else r) B); cbn [spans active procs reqs entries attempts]; try reflexivity; auto.
    + intros j q. now destruct (Nat.eqb j i).
    + intros j. apply nth_modify_map.
    + instantiate (1 := keep_a). unfold keep_a. auto.
    + intros a. unfold keep_a. now rewrite opt_id.
    + intros n e N. exact (b_entry w B n e N).
  - destruct (nth_error (entries w) n) as [e|] eqn:E; [|exact B]. now apply basic_begin.
  - destruct (running w a) as [e|] eqn:R; [|exact B]. apply running_spec in R as (t & [A E] & R).
    pose proof (basic_finish w a (e_key e) s B) as B'.
    eapply (same_req _ (after_process w a (e_key e) s) keep_r B'); [reflexivity|..]; unfold keep_r; cbn [after_process spans active procs reqs entries attempts].
    + auto.
    + intros j. now rewrite opt_id.
    + instantiate (1 := fun j t => if andb (Nat.eqb j a) (match a_status t with Raised => false | _ => true end) then set_astatus (Finished s) t else t).
      intros j u. cbv beta. destruct (Nat.eqb j a); cbn [andb]; [|auto]. destruct (a_status u) eqn:U; cbn [set_astatus a_entry a_retries a_status]; repeat split; congruence.
    + intros j. cbv beta. rewrite nth_modify_map. destruct (nth_error (attempts w) j) as [u|] eqn:U; [|reflexivity]. cbn [option_map].
      destruct (Nat.eqb_spec j a) as [->|]; cbn [andb]; [|reflexivity]. assert (u = t) by congruence. subst u. now rewrite R.
    + auto.
    + intros k n. rewrite dget_dpop. now destruct (key_eqb k (e_key e)).
    + auto.
    + intros n e' N. exact (b_entry w B n e' N).
  - destruct (running w a) as [e|] eqn:R; [|exact B].
    eapply (same_req w _ keep_r B); [reflexivity|..]; unfold keep_r; cbn [spans active procs reqs entries attempts]; auto.
    + intros j. now rewrite opt_id.
    + instantiate (1 := fun j t => if Nat.eqb j a then set_astatus Raised t else t). intros j u. cbv beta. destruct (Nat.eqb j a); auto.
    + intros j. apply nth_modify_map.
    + intros n e' N. exact (b_entry w B n e' N).
  - eapply (same_req w _ (fun _ => cut_req) B); [reflexivity|..]; cbn [spans active procs reqs entries attempts]; auto; try discriminate.
    + intros j r. unfold cut_req. destruct (r_status r); auto.
    + intros j. apply nth_error_map.
    + instantiate (1 := fun _ => cut_attempt). intros j t. unfold cut_attempt. destruct (a_status t) eqn:T; cbn [set_astatus a_entry a_retries a_status]; repeat split; congruence.
    + intros j. apply nth_error_map.
    + intros n e N. exact (b_entry w B n e N).
Qed.
End Basic.
