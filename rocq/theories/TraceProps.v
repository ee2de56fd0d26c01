(** Properties of the tracing middleware: C68, C69. *)
From Coq Require Import String ZArith Bool Lia List Arith.
From Verif Require Import Base SpanKeyModel SpanKeySpec RouterModel RouterProofs WireModel TraceModel TraceSpec TraceProofs TraceProofs2 TraceProofs3.
Import ListNotations.
Local Open Scope Z_scope.

(** ** C68: the span of a request *)
(** Every request for a known route has exactly one span, with the name of its route and the ids of its span key. *)
Theorem C68_one_span : forall es i r, nth_error (reqs (run boot es)) i = Some r ->
  exists x, the_span (run boot es) (ForRequest i) x /\ sp_name x = r_route r /\
    sp_attrs x = [("request.trace_id", AStr (of_text (uuid_str (trace_id (r_key r))))); ("request.span_id", AStr (of_text (span_id_hex (span_id (r_key r)))));
                  ("request.route_key", AStr (r_route r))]%string.
Proof.
  intros es i r R. pose proof (basic_run es) as B. destruct (b_has _ _ B i r R) as (n & x & N & X). exists x. split; [eapply (the_span_intro _ _ _ _ _ B); eauto|].
  destruct (b_req _ _ B n x i N X) as (q & nt & ns & Q & _ & V). assert (q = r) by congruence. subst q.
  destruct V as [->| ->]; rewrite ?name_end, ?attrs_end; unfold started_r; rewrite name_start, attrs_start; auto.
Qed.
Print Assumptions C68_one_span.
(** Full claim: it belongs to the trace of the request, as a child of the caller's span. *)
Definition C68_in_trace (ok : span_key -> Prop) : Prop := forall es i r x, nth_error (reqs (run boot es)) i = Some r -> ok (r_key r) ->
  the_span (run boot es) (ForRequest i) x -> sp_trace x = trace_id (r_key r) /\ sp_parent x = Some (span_id (r_key r), true).
(** False of a span key with a zero id, which the server accepts. *)
Theorem C68_in_trace_refuted : ~ C68_in_trace valid_key.
Proof.
  intros H. specialize (H [Receive (mkKey 7 0) "r" 9 9] 0%nat (mkReq (mkKey 7 0) "r" InFlight)).
  destruct (C68_one_span [Receive (mkKey 7 0) "r" 9 9] 0 _ eq_refl) as (x & X & _). destruct (H x eq_refl) as [E _]; [unfold valid_key; cbn; lia|exact X|].
  destruct X as (n & N & _). destruct n as [|[|n]]; try discriminate N. cbn in N. injection N as <-. discriminate E.
Qed.
Print Assumptions C68_in_trace_refuted.
(** True of all others. *)
Theorem C68_in_trace_partial : C68_in_trace good_key.
Proof.
  intros es i r x R G (n & N & X & _). destruct (b_req _ _ (basic_run es) n x i N X) as (q & nt & ns & Q & _ & V). assert (q = r) by congruence. subst q.
  assert (E : forall y, y = started_r i r nt ns -> sp_trace y = trace_id (r_key r) /\ sp_parent y = Some (span_id (r_key r), true)).
  { intros y ->. unfold started_r, start_span. now rewrite (good_context _ _ G). }
  destruct V as [->| ->]; [now apply E|]. unfold end_span. destruct (sp_end (started_r i r nt ns)); cbn [sp_trace sp_parent]; now apply E.
Qed.
Print Assumptions C68_in_trace_partial.
(** Full claim: the span is ended with status OK when the request has been answered, open while it is under way, and ended when it
    has failed. *)
Definition C68_ended (P : world -> event -> Prop) : Prop := forall es, always P boot es ->
  forall i r x, nth_error (reqs (run boot es)) i = Some r -> the_span (run boot es) (ForRequest i) x ->
  match r_status r with Answered => sp_end x = Some true | InFlight => open x | Failed => ~ open x end.
(** False of a request whose handler raises: its span is never ended, so never exported. *)
Theorem C68_failed_refuted : ~ C68_ended requests_apart.
Proof.
  intros H. destruct (C68_one_span [Receive (mkKey 7 5) "r" 9 9; Fail 0] 0 _ eq_refl) as (x & X & _).
  specialize (H [Receive (mkKey 7 5) "r" 9 9; Fail 0]). apply (H ltac:(split; [intros i r [U _]; destruct i; discriminate U|split; exact I]) 0%nat _ x eq_refl X).
  destruct X as (n & N & _). destruct n as [|[|n]]; try discriminate N. cbn in N. injection N as <-. reflexivity.
Qed.
Print Assumptions C68_failed_refuted.
(** False, too, of two requests with one span key under way at once, as when a service that was called calls back: the first one's
    span is never ended. *)
Definition tr_nested : list event := [Receive (mkKey 7 5) "first" 9 9; Receive (mkKey 7 5) "call_back" 9 10; Respond 1; Respond 0].
Theorem C68_nested_refuted : ~ C68_ended no_failure.
Proof.
  intros H. destruct (C68_one_span tr_nested 0 _ eq_refl) as (x & X & _).
  specialize (H tr_nested ltac:(repeat split) 0%nat _ x eq_refl X). cbn in H.
  destruct X as (n & N & F & _). destruct n as [|[|n]]; cbn in N; [injection N as <-; discriminate H|injection N as <-; discriminate F|destruct n; discriminate N].
Qed.
Print Assumptions C68_nested_refuted.
(** True otherwise: while requests under way have different span keys, exactly the answered ones have an ended span. *)
Theorem C68_ended_partial : forall es, always requests_apart boot es ->
  forall i r x, nth_error (reqs (run boot es)) i = Some r -> the_span (run boot es) (ForRequest i) x ->
  (sp_end x = Some true <-> r_status r = Answered) /\ (open x <-> r_status r <> Answered).
Proof.
  intros es A i r x R (n & N & X & _). unfold open. rewrite (a_end _ (ainv_run es A) n x i r N X R). destruct (r_status r); cbn [end_of]; split; split; congruence.
Qed.
Print Assumptions C68_ended_partial.
(** Full claim: the middleware keeps in memory the spans of the requests under way, and no others. *)
Definition is_under_way (r : req) : bool := match r_status r with InFlight => true | _ => false end.
Definition C68_memory (P : world -> event -> Prop) : Prop := forall es, always P boot es ->
  List.length (active (run boot es)) = List.length (filter is_under_way (reqs (run boot es))).
(** False: requests that fail stay, without limit. *)
Theorem C68_memory_grows : forall n, exists es, always requests_apart boot es /\ List.length (active (run boot es)) = n /\
  filter is_under_way (reqs (run boot es)) = [].
Proof.
  intros n. exists (leak n). destruct (leak_ok n) as [A (_ & S & M & _)]. split; [exact A|]. split; [exact M|].
  assert (E : forall l, (forall i r, nth_error l i = Some r -> r_status r = Failed) -> filter is_under_way l = []); [|now apply E].
  induction l as [|r l IH]; intros H; [reflexivity|]. cbn [filter]. unfold is_under_way at 1. rewrite (H 0%nat r eq_refl). apply IH. intros i q Q. exact (H (Datatypes.S i) q Q).
Qed.
Print Assumptions C68_memory_grows.
Theorem C68_memory_refuted : ~ C68_memory requests_apart.
Proof. intros H. destruct (C68_memory_grows 1) as (es & A & L & F). specialize (H es A). rewrite L, F in H. discriminate H. Qed.
Print Assumptions C68_memory_refuted.
Theorem C68_memory_partial : C68_memory (fun w ev => requests_apart w ev /\ no_failure w ev).
Proof.
  intros es A. apply minv_size, minv_run; eapply always_weak; [|exact A| |exact A]; cbv beta; tauto.
Qed.
Print Assumptions C68_memory_partial.

(** ** C69: the spans of buffered processing *)
(** Every attempt at a buffered entry has exactly one span, with its number of retries. *)
Theorem C69_one_span : forall es a t e, always sane boot es -> attempt_of (run boot es) a t e ->
  exists x, the_span (run boot es) (ForAttempt a) x /\ sp_name x = (e_dto e ++ ".process")%string /\ has_attr x "request.retries" (AInt (a_retries t)) /\
    has_attr x "request.trace_id" (AStr (of_text (uuid_str (trace_id (e_key e))))) /\ has_attr x "request.span_id" (AStr (of_text (span_id_hex (span_id (e_key e))))).
Proof.
  intros es a t e S [A E]. pose proof (basic_run es) as B. destruct (b_hasa _ _ B a t A) as (e' & E' & [[H _]|(n & x & N & X)]).
  { exfalso. assert (e' = e) by congruence. subst e'. exact (readable_run es S _ _ E H). }
  exists x. split; [eapply (the_span_intro _ _ _ _ _ B); eauto|].
  destruct (b_att _ _ B n x a N X) as (t' & e2 & p & nt & ns & [A2 E2] & _ & _ & V). assert (t' = t) by congruence. subst t'. assert (e2 = e) by congruence. subst e2.
  assert (Q : sp_name x = (e_dto e ++ ".process")%string /\ forall k, k <> "process.success"%string ->
    sget k (sp_attrs x) = sget k (id_attrs (e_key e) ++ [("request.retries", AInt (a_retries t))])%list%string).
  { destruct V as [->|[s ->]]; unfold ended_a; rewrite ?name_end, ?attrs_end; cbn [sp_name sp_attrs set_attribute]; unfold started_a;
    rewrite name_start, attrs_start; (split; [reflexivity|]); intros k K; [reflexivity|]. rewrite sget_sset.
    destruct (String.eqb k "process.success") eqn:Y; [apply String.eqb_eq in Y; contradiction|reflexivity]. }
  destruct Q as [Q1 Q2]. split; [exact Q1|]. unfold has_attr. rewrite !Q2 by discriminate. cbn [id_attrs app sget]. repeat split; reflexivity.
Qed.
Print Assumptions C69_one_span.
(** Full claim: it is a child of the span of the request that buffered the entry, in the trace of the request, however often the
    entry is retried and whether or not the process was restarted in between. *)
Definition C69_parent (P : world -> event -> Prop) : Prop := forall es, always sane boot es -> always P boot es ->
  forall a t e x y, attempt_of (run boot es) a t e -> good_key (e_key e) ->
  the_span (run boot es) (ForAttempt a) x -> the_span (run boot es) (ForRequest (e_by e)) y ->
  sp_trace x = trace_id (e_key e) /\ sp_trace y = trace_id (e_key e) /\ sp_parent x = Some (sp_id y, false).
(** False with two requests under way at once that have one span key: the entry of the first may be hung under the second. *)
Definition tr_mixed : list event := [Receive (mkKey 7 5) "first" 9 9; Receive (mkKey 7 5) "second" 9 10; Push 0 "Dto" []; Begin 0 0 9 11].
Ltac one_span H := destruct H as (n & N & F & _); cbn in N; repeat (destruct n as [|n]; [injection N as <-; try discriminate F|cbn in N]); try (destruct n; discriminate N).
Theorem C69_parent_refuted : ~ C69_parent (fun _ _ => True).
Proof.
  intros H. set (k := mkKey 7 5).
  assert (S : always sane boot tr_mixed) by (cbn [tr_mixed always sane]; unfold good_ids; repeat split; try lia; intros []).
  assert (T : always (fun _ _ => True) boot tr_mixed) by apply always_true.
  destruct (C69_one_span tr_mixed 0 _ _ S (conj eq_refl eq_refl)) as (x & X & _).
  destruct (C68_one_span tr_mixed 0 _ eq_refl) as (y & Y & _).
  destruct (H tr_mixed S T 0%nat _ _ x y (conj eq_refl eq_refl) ltac:(unfold good_key, good_ids; cbn; lia) X Y) as (_ & _ & E).
  assert (EX : sp_parent x = Some (10, false)) by (one_span X; reflexivity).
  assert (EY : sp_id y = 9) by (one_span Y; reflexivity). rewrite EX, EY in E. discriminate E.
Qed.
Print Assumptions C69_parent_refuted.
(** True while requests under way have different span keys. *)
Theorem C69_parent_partial : C69_parent requests_apart.
Proof.
  intros es S R a t e x y [A E] G (n & N & X & _) Y. pose proof (basic_sane es S) as B.
  destruct (b_att _ _ B n x a N X) as (t' & e2 & p & nt & ns & [A2 E2] & PO & _ & V). assert (t' = t) by congruence. subst t'. assert (e2 = e) by congruence. subst e2.
  destruct (all_linked_run es R S _ e E) as (m & y' & M & MF & L). assert (y' = y) by (eapply the_span_fun; [eapply (the_span_intro _ _ _ _ _ B); eauto|exact Y]). subst y'.
  destruct (b_entry _ _ B _ e E) as (r & RR & K).
  destruct (b_req _ _ B m y _ M MF) as (r' & nt' & ns' & RR' & I' & V'). assert (r' = r) by congruence. subst r'.
  assert (IDY : sp_id y = ns') by (destruct V' as [->| ->]; rewrite ?id_end; apply id_start).
  unfold parent_of in PO. rewrite L in PO. injection PO as <-.
  assert (G2 : good_ids (trace_id (e_key e)) (sp_id y)) by (destruct G as [G1 _], I' as [_ I2]; split; [exact G1|now rewrite IDY]).
  assert (Q : forall z, z = started_a a t e (sp_id y, false) nt ns -> sp_trace z = trace_id (e_key e) /\ sp_parent z = Some (sp_id y, false)).
  { intros z ->. unfold started_a, start_span. cbn [fst snd]. now rewrite (good_context _ _ G2). }
  assert (QX : sp_trace x = trace_id (e_key e) /\ sp_parent x = Some (sp_id y, false)).
  { destruct V as [->|[s ->]]; [now apply Q|]. unfold ended_a, end_span. cbn [set_attribute sp_end]. destruct (sp_end (started_a _ _ _ _ _ _)); cbn [sp_trace sp_parent set_attribute]; now apply Q. }
  destruct QX as [Q1 Q2]. split; [exact Q1|]. split; [|exact Q2]. rewrite <- K.
  apply (C68_in_trace_partial es (e_by e) r y RR); [rewrite K; exact G|exact Y].
Qed.
Print Assumptions C69_parent_partial.
(** An entry that was buffered without the id of a receive span hangs under the caller's span, as a remote parent. *)
Theorem C69_without_receive_span : forall es, always sane boot es -> forall a t e x, attempt_of (run boot es) a t e -> good_key (e_key e) ->
  sget "otlp_receive_span_id"%string (e_meta e) = None -> the_span (run boot es) (ForAttempt a) x ->
  sp_trace x = trace_id (e_key e) /\ sp_parent x = Some (span_id (e_key e), true).
Proof.
  intros es S a t e x [A E] G L (n & N & X & _). pose proof (basic_sane es S) as B.
  destruct (b_att _ _ B n x a N X) as (t' & e2 & p & nt & ns & [A2 E2] & PO & _ & V). assert (t' = t) by congruence. subst t'. assert (e2 = e) by congruence. subst e2.
  unfold parent_of, receive_key in PO. rewrite L in PO. injection PO as <-.
  assert (Q : forall z, z = started_a a t e (span_id (e_key e), true) nt ns -> sp_trace z = trace_id (e_key e) /\ sp_parent z = Some (span_id (e_key e), true)).
  { intros z ->. unfold started_a, start_span. cbn [fst snd]. now rewrite (good_context _ _ G). }
  destruct V as [->|[s ->]]; [now apply Q|]. unfold ended_a, end_span. cbn [set_attribute sp_end]. destruct (sp_end (started_a _ _ _ _ _ _)); cbn [sp_trace sp_parent set_attribute]; now apply Q.
Qed.
Print Assumptions C69_without_receive_span.
Example C69_example_without : let es := [Receive (mkKey 7 5) "first" 9 9; Receive (mkKey 7 5) "second" 9 10; Respond 0; Push 1 "Dto" []; Begin 0 0 9 11] in
  always sane boot es /\ map (fun e => sget "otlp_receive_span_id"%string (e_meta e)) (entries (run boot es)) = [None] /\
  map (fun x => (sp_trace x, sp_parent x)) (spans (run boot es)) = [(7, Some (5, true)); (7, Some (5, true)); (7, Some (5, true))].
Proof. cbv zeta. split; [cbn [always sane]; unfold good_ids; repeat split; try lia; intros []|]. split; vm_compute; reflexivity. Qed.
(** Full claim: the span is ended, with the outcome, when the attempt is over, and open before. *)
Definition C69_ended (P : world -> event -> Prop) : Prop := forall es, always P boot es ->
  forall a t x, nth_error (attempts (run boot es)) a = Some t -> the_span (run boot es) (ForAttempt a) x ->
  match a_status t with Finished s => ~ open x /\ has_attr x "process.success" (ABool s) | Running => open x | Raised => ~ open x end.
(** False of a handler that raises ... *)
Definition tr_raise : list event := [Receive (mkKey 7 5) "r" 9 9; Push 0 "Dto" []; Respond 0; Begin 0 0 9 10; Raise_ 0].
Lemma tr_raise_sane : always sane boot tr_raise.
Proof. cbn [tr_raise always sane]. unfold good_ids. repeat split; try lia; intros []. Qed.
Theorem C69_raised_refuted : ~ C69_ended attempts_apart.
Proof.
  intros H. destruct (C69_one_span tr_raise 0 _ _ tr_raise_sane (conj eq_refl eq_refl)) as (x & X & _).
  assert (A : always attempts_apart boot tr_raise).
  { repeat (split; [first [exact I|intros e a t e' _ [Q _]; cbn in Q; destruct a; discriminate Q]|]). exact I. }
  specialize (H tr_raise A 0%nat _ x eq_refl X). cbn in H. apply H. one_span X. reflexivity.
Qed.
Print Assumptions C69_raised_refuted.
(** ... and of two queues that process entries with one span key at once. *)
Definition tr_two : list event := [Receive (mkKey 7 5) "r" 9 9; Push 0 "A" []; Push 0 "B" []; Respond 0; Begin 0 0 9 10; Begin 1 0 9 11; Finish 0 true; Finish 1 true].
Lemma tr_two_sane : always sane boot tr_two.
Proof. cbn [tr_two always sane]. unfold good_ids. repeat split; try lia; intros []. Qed.
Definition no_raise (_ : world) (ev : event) : Prop := match ev with Raise_ _ | Restart => False | _ => True end.
Theorem C69_two_queues_refuted : ~ C69_ended no_raise.
Proof.
  intros H. destruct (C69_one_span tr_two 0 _ _ tr_two_sane (conj eq_refl eq_refl)) as (x & X & _).
  specialize (H tr_two ltac:(repeat split) 0%nat _ x eq_refl X). cbn in H. destruct H as [H _]. apply H. one_span X. reflexivity.
Qed.
Print Assumptions C69_two_queues_refuted.
(** True otherwise: while entries that are processed have different span keys, the spans of finished attempts, and no others, are
    ended, with the outcome. *)
Theorem C69_ended_partial : forall es, always attempts_apart boot es ->
  forall a t x, nth_error (attempts (run boot es)) a = Some t -> the_span (run boot es) (ForAttempt a) x ->
  match a_status t with Finished s => ~ open x /\ has_attr x "process.success" (ABool s) | Running | Raised => open x end.
Proof.
  intros es A a t x T (n & N & X & _). pose proof (c_end _ (cinv_run es A) n x a t N X T) as F. unfold fits in F. unfold open.
  destruct (a_status t); try exact F. destruct F as [E F]. split; [rewrite E; discriminate|exact F].
Qed.
Print Assumptions C69_ended_partial.

(** A case that meets the hypotheses: a buffered request, two others, a failure, a restart and a retry. *)
Definition tr_life : list event :=
  [Receive (mkKey 7 5) "orders" 9 9; Receive (mkKey 7 6) "ping" 9 10; Push 0 "Order" [("user", JStr "x")]%string; Respond 1; Respond 0; Begin 0 0 9 11; Finish 0 false;
   Receive (mkKey 7 5) "fails" 9 12; Fail 2; Restart; Begin 0 1 9 13; Finish 1 true].
Example C68_example : always requests_apart boot tr_life /\ always sane boot tr_life /\ always attempts_apart boot tr_life /\ good_key (mkKey 7 5) /\
  map r_status (reqs (run boot tr_life)) = [Answered; Answered; Failed] /\ map a_status (attempts (run boot tr_life)) = [Finished false; Finished true] /\
  map sp_parent (spans (run boot tr_life)) = [Some (5, true); Some (6, true); Some (9, false); Some (5, true); Some (9, false)] /\
  map sp_end (spans (run boot tr_life)) = [Some true; Some true; Some false; None; Some false].
Proof.
  split; [|split; [|split; [|split; [unfold good_key, good_ids; cbn; lia|split; [vm_compute; reflexivity|split; [vm_compute; reflexivity|split; vm_compute; reflexivity]]]]]].
  - repeat (split; [first [exact I|intros i r [U V]; vm_compute in U; repeat (destruct i as [|i]; [injection U as <-; first [discriminate V|discriminate]|]); destruct i; discriminate U]|]). exact I.
  - unfold tr_life. cbn [always sane map fst In]. unfold good_ids. repeat split; try lia; intros [H|[]]; discriminate H.
  - repeat (split; [first [exact I|intros e a t e' E [Q R] S; vm_compute in Q; repeat (destruct a as [|a]; [injection Q as <-; first [discriminate S|discriminate]|]); destruct a; discriminate Q]|]). exact I.
Qed.
