(** Properties of calls over UDP: whose answer a caller gets (C129), how often the request is handled (C130), how many sockets a
    client has (C131). *)
From Coq Require Import String Ascii ZArith NArith Bool List Arith Lia.
From Verif Require Import Base SpanKeyModel SpanKeySpec RouterModel RouterSpec JsonModel JsonSpec StreamModel StreamSpec ClientModel ClientSpec WireModel WireProofs AskModel AskSpec AskProps
  DgModel DgSpec DgProofs DgProofs2 DgProofs3 DgProofs4.
Import ListNotations.

(** The application of AskProps, which returns the text it is sent; three attempts. *)
Notation dx_run := (grun (fun _ => true) ax_dump 3 (fun _ => EmptyString) ax_app).
Notation dx_step := (gstep (fun _ => true) ax_dump 3 (fun _ => EmptyString) ax_app).
Notation dx_out := (goutcome (fun _ => EmptyString) ax_build).
Definition dx_req (x : string) : request span_key := mkReq "echo" ax_key (JObj [("x"%string, JStr x)]).
Lemma dx_sendable (c : dcl) j x : gasked c j = dx_req x -> sendable c j.
Proof. intros E. unfold sendable. rewrite E. split; [unfold valid_key; cbn; lia|]. constructor; repeat constructor. intros []. Qed.

(** ** C129: what the caller gets *)
(** Full claim: a call ends with what the application answered to its own request, or with one of the documented exceptions for
    failed communication, or it is cancelled. *)
Definition C129_answer_or_failure (P : dg -> gevent -> Prop) : Prop :=
  forall (D V R : Type) utf8 (dump : V -> json) max accepted_resp (app : nat -> code D V) str_of (build : list (string * json) -> option R) es i o,
  throughout (gstep utf8 dump max accepted_resp app) P gfresh es ->
  let s := grun utf8 dump max accepted_resp app es in
  (0 < max)%Z -> (forall v, JsonSpec.proper (dump v)) -> (forall j, (j < gn (me s))%nat -> sendable (me s) j) -> (i < gn (me s))%nat ->
  goutcome str_of build s i = Some o ->
  answer_to dump accepted_resp app str_of build s i o \/ o = Raised CMax \/ (exists x, o = Raised (CNonRetry x)) \/ o = Raised (CRaw XCancel).
(** False: an answer that comes after the call that asked for it has given up is taken by the next call. *)
Definition dx_late : list gevent := [GStart (dx_req "one"); GOpened 0 None; GCancel 0; GStart (dx_req "two"); GUp 0; GServed; GDown 0].
Theorem C129_answer_or_failure_refuted : ~ C129_answer_or_failure (fun _ _ => True).
Proof.
  intros H. specialize (H string string string (fun _ => true) ax_dump 3%Z (fun _ => EmptyString) ax_app (fun _ => EmptyString) ax_build dx_late 1%nat (Returned "one"%string)).
  assert (A : dx_out (dx_run dx_late) 1 = Some (Returned "one"%string)) by (vm_compute; reflexivity).
  assert (Rn : ran (dx_run dx_late) = [(request_text "echo" ax_key (JObj [("x"%string, JStr "one")]), Mine 0 0)]) by (vm_compute; reflexivity).
  destruct H as [H|[H|[(x & H)|H]]]; try discriminate H.
  - repeat split.
  - lia.
  - exact ax_dump_proper.
  - intros j Hj. assert (G : gn (me (dx_run dx_late)) = 2%nat) by (vm_compute; reflexivity). rewrite G in Hj.
    destruct j as [|[|j]]; [apply (dx_sendable _ _ "one"); vm_compute; reflexivity|apply (dx_sendable _ _ "two"); vm_compute; reflexivity|lia].
  - vm_compute. lia.
  - exact A.
  - destruct H as (k & r & h & (_ & e & N & _) & _). rewrite Rn in N. apply (f_equal (option_map snd)) in N. clear -N. destruct k as [|[|k]]; cbn [nth_error option_map snd] in N; discriminate N.
Qed.
Print Assumptions C129_answer_or_failure_refuted.
(** True in general: what it gets is what the application answered to some call of the same client object; never the answer to
    another program, and never a piece of an answer. *)
Theorem C129_answer_or_failure_partial :
  forall (D V R : Type) utf8 (dump : V -> json) max accepted_resp (app : nat -> code D V) str_of (build : list (string * json) -> option R) es i o,
  let s := grun utf8 dump max accepted_resp app es in
  (0 < max)%Z -> (forall v, JsonSpec.proper (dump v)) -> (forall j, (j < gn (me s))%nat -> sendable (me s) j) -> (i < gn (me s))%nat ->
  goutcome str_of build s i = Some o ->
  (exists j, answer_to dump accepted_resp app str_of build s j o) \/ o = Raised CMax \/ (exists x, o = Raised (CNonRetry x)) \/ o = Raised (CRaw XCancel).
Proof.
  intros D V R utf8 dump max ar app str_of build es i o s M DP W Hi E. pose proof (grun_inv utf8 dump max ar app es) as I. fold s in I.
  unfold goutcome in E. destruct (tasks (me s) i) as [n|n|n e|n|oo] eqn:T; try discriminate E. injection E as <-.
  pose proof (c_ok max _ (v_c _ _ _ _ _ _ I) i Hi) as TO. unfold TaskOk in TO. rewrite T in TO. destruct oo as [t| | |x|x].
  - left. destruct (v_got _ _ _ _ _ _ I i t T) as (e & j & k & b & A & Dc). destruct (answered_told utf8 dump ar app str_of build s e j k b t DP (W j (proj1 A)) A Dc) as (r & h & H1 & H2).
    exists j, k, r, h. auto.
  - lia.
  - right. left. reflexivity.
  - right. right. left. exists x. reflexivity.
  - right. right. right. cbn. now rewrite TO.
Qed.
Print Assumptions C129_answer_or_failure_partial.
(** So a client that is used for one call gets its own answer, whatever the network does. *)
Theorem C129_single_call_partial :
  forall (D V R : Type) utf8 (dump : V -> json) max accepted_resp (app : nat -> code D V) str_of (build : list (string * json) -> option R) es o,
  let s := grun utf8 dump max accepted_resp app es in
  (0 < max)%Z -> (forall v, JsonSpec.proper (dump v)) -> gn (me s) = 1%nat -> sendable (me s) 0 ->
  goutcome str_of build s 0 = Some o ->
  answer_to dump accepted_resp app str_of build s 0 o \/ o = Raised CMax \/ (exists x, o = Raised (CNonRetry x)) \/ o = Raised (CRaw XCancel).
Proof.
  intros D V R utf8 dump max ar app str_of build es o s M DP G W E.
  destruct (C129_answer_or_failure_partial D V R utf8 dump max ar app str_of build es 0 o M DP) as [(j & A)|A]; auto; fold s.
  - intros j Hj. rewrite G in Hj. destruct j; [exact W|lia].
  - lia.
  - left. fold s in A. assert (j = 0%nat) as ->; [|exact A]. destruct A as (k & r & h & (L & _) & _). lia.
Qed.
Print Assumptions C129_single_call_partial.
(** And any call does, if the network duplicates nothing and calls give up waiting only for what has been lost. *)
Theorem C129_own_answer_partial : C129_answer_or_failure patient.
Proof.
  intros D V R utf8 dump max ar app str_of build es i o PT s M DP W Hi E. pose proof (grun_inv utf8 dump max ar app es) as I. fold s in I.
  pose proof (grun_p utf8 dump max ar app es PT) as P. fold s in P.
  unfold goutcome in E. destruct (tasks (me s) i) as [n|n|n e|n|oo] eqn:T; try discriminate E. injection E as <-.
  pose proof (c_ok max _ (v_c _ _ _ _ _ _ I) i Hi) as TO. unfold TaskOk in TO. rewrite T in TO. destruct oo as [t| | |x|x].
  - left. destruct (p_own _ _ _ _ _ P i t T) as (e & k & b & A & Dc). destruct (answered_told utf8 dump ar app str_of build s e i k b t DP (W i Hi) A Dc) as (r & h & H1 & H2).
    exists k, r, h. auto.
  - lia.
  - right. left. reflexivity.
  - right. right. left. exists x. reflexivity.
  - right. right. right. cbn. now rewrite TO.
Qed.
Print Assumptions C129_own_answer_partial.
(** When nothing is lost: a request that is on its way to an idle server, whose application answers it, gives the call that
    answer, if that comes before the timeout. *)
Theorem C129_answer_arrives :
  forall (D V R : Type) utf8 (dump : V -> json) max accepted_resp (app : nat -> code D V) str_of (build : list (string * json) -> option R) es i n e k r h,
  let s := grun utf8 dump max accepted_resp app es in
  (forall b, utf8 b = true) -> (forall v, JsonSpec.proper (dump v)) -> sendable (me s) i ->
  tasks (me s) i = GSent n e -> (exists d, nth_error (up s) k = Some (d, Mine e i)) -> uheld (srv s) = None -> uwait (srv s) = [] ->
  let asked := gasked (me s) i in
  serve accepted_resp app (List.length (ran s)) (request_text (rroute asked) (rspan asked) (rdata asked)) = (Ret r, h) ->
  goutcome str_of build (grun utf8 dump max accepted_resp app (es ++ [GUp k; GServed; GDown (List.length (down s))])) i
    = Some (told str_of build (pstatus r) (data_of dump r)).
Proof.
  intros D V R utf8 dump max ar app str_of build es i n e k r h s U DP W T (d & Ek) Hh Hw asked Sv.
  pose proof (grun_inv utf8 dump max ar app es) as I. fold s in I.
  assert (Hi : (i < gn (me s))%nat) by (apply (known max _ _ (v_c _ _ _ _ _ _ I)); intros o; rewrite T; discriminate).
  destruct (c_lock max _ (v_c _ _ _ _ _ _ I) i n e T) as [Lk Rs].
  pose proof (v_up _ _ _ _ _ _ I _ (nth_error_In _ _ Ek)) as [_ Ed]. cbn [fst] in Ed. subst d.
  pose proof (v_prev _ _ _ _ _ _ I) as Pv.
  assert (Dc : forall x, decode utf8 (bytes x) = Some x) by (intros x; unfold decode; now rewrite U, of_bytes_bytes).
  unfold grun. rewrite fold_left_app. fold (grun utf8 dump max ar app es). fold s. cbn [fold_left].
  set (b := bytes (body dump r)).
  assert (S1 : ustep (decode utf8) (ganswer dump ar app) (srv s) (UDatagram (gsent (me s) i) (Mine e i)) =
     mkUdp [] (Some (gasks (me s) i, Mine e i)) (uprev (srv s)) (usent (srv s)) (ufailed (srv s))).
  { unfold StreamModel.ustep. destruct (gsent (me s) i) as [|b0 l] eqn:G; [discriminate G|].
    assert (La : last (gsent (me s) i) 0%N = LF).
    { assert (IL : is_line (gsent (me s) i)) by (unfold gsent, gasks, request_text; apply text_line). destruct IL as (p & Lp & _). rewrite Lp. apply last_last. }
    assert (Hb : b0 = 123%N) by (pose proof (gsent_head (me s) i) as Q; rewrite G in Q; exact Q). rewrite G in La. rewrite La. subst b0. change (N.eqb LF LF) with true. change (N.eqb 123 ACK) with false. cbv iota.
    rewrite <- G. unfold gsent. rewrite Dc. rewrite Hw. unfold grant. cbn [List.app uheld uwait]. rewrite Hh. reflexivity. }
  assert (S2 : ustep (decode utf8) (ganswer dump ar app) (mkUdp [] (Some (gasks (me s) i, Mine e i)) (uprev (srv s)) (usent (srv s)) (ufailed (srv s))) UDone =
     mkUdp [] None (uprev (srv s) ++ [gasks (me s) i]) (usent (srv s) ++ [(b, Mine e i)]) (ufailed (srv s))).
  { cbn [StreamModel.ustep uheld uprev]. unfold ganswer, AskModel.answer. rewrite Pv, map_length. change (gasks (me s) i) with (request_text (rroute asked) (rspan asked) (rdata asked)) at 1.
    rewrite Sv. cbn [fst]. reflexivity. }
  assert (G1 : gstep utf8 dump max ar app s (GUp k) = mkDg (mkUdp [] (Some (gasks (me s) i, Mine e i)) (uprev (srv s)) (usent (srv s)) (ufailed (srv s)))
     (drop_nth k (up s)) (down s) (me s) (ran s)).
  { cbn [gstep]. rewrite Ek. unfold serve_ev. cbn [set_up srv up down me ran]. rewrite S1. cbn [usent]. now rewrite skipn_all, !app_nil_r. }
  rewrite G1.
  match goal with |- context [gstep utf8 dump max ar app ?x GServed] => assert (G2 : gstep utf8 dump max ar app x GServed =
     mkDg (mkUdp [] None (uprev (srv s) ++ [gasks (me s) i]) (usent (srv s) ++ [(b, Mine e i)]) (ufailed (srv s)))
          (drop_nth k (up s)) (down s ++ [(b, Mine e i)]) (me s) (ran s ++ [(gasks (me s) i, Mine e i)])) end.
  { cbn [gstep]. unfold serve_ev. cbn [srv up down me ran]. rewrite S2. cbn [usent uheld]. now rewrite skipn_more. }
  rewrite G2.
  assert (En : nth_error (down s ++ [(b, Mine e i)]) (List.length (down s)) = Some (b, Mine e i)) by (rewrite nth_error_app2, Nat.sub_diag by lia; reflexivity).
  cbn [gstep down]. rewrite En. unfold goutcome. cbn [me]. unfold received. rewrite Rs, Lk, T. unfold b. rewrite Dc, Nat.eqb_refl. cbn [set_task tasks]. rewrite fupd_eq. f_equal.
  destruct (answered_told utf8 dump ar app str_of build (mkDg (srv s) (up s) (down s) (me s) (ran s ++ [(gasks (me s) i, Mine e i)])) e i (List.length (ran s)) b (body dump r) DP W) as (r' & h' & (_ & e' & _ & H2) & H3).
  - cbn [me ran]. split; [exact Hi|]. split; [rewrite nth_error_app2, Nat.sub_diag by lia; reflexivity|]. unfold AskModel.answer. change (gasks (me s) i) with (request_text (rroute asked) (rspan asked) (rdata asked)). now rewrite Sv.
  - apply Dc.
  - cbn [me] in H2. fold asked in H2. rewrite Sv in H2. injection H2 as <- <-. exact H3.
Qed.
Print Assumptions C129_answer_arrives.
(** Cases that meet the hypotheses: two calls and another program.  The first request is lost and times out; while that call
    sleeps, the second, which waited for the lock, is answered; then the first asks again. *)
Definition dx_two : list gevent :=
  [GStart (dx_req "one"); GOpened 0 None; GStart (dx_req "two"); GUpLose 0; GTimeout 0; GElse [65; 10]%N 7; GServed; GGrant; GUp 0; GServed; GDown 1; GWake 0; GUp 0; GServed; GDown 1].
Example C129_example : throughout dx_step patient gfresh dx_two /\
  dx_out (dx_run dx_two) 0 = Some (Returned "one"%string) /\ dx_out (dx_run dx_two) 1 = Some (Returned "two"%string) /\
  gn (me (dx_run dx_two)) = 2%nat /\ (forall j, (j < 2)%nat -> sendable (me (dx_run dx_two)) j) /\ List.length (ran (dx_run dx_two)) = 3%nat.
Proof.
  split.
  { cbn [throughout dx_two patient]. repeat (split; [try exact Logic.I|]); try exact Logic.I.
    intros _ (e & [H|(t & H)]); vm_compute in H; [destruct H|discriminate]. }
  split; [vm_compute; reflexivity|]. split; [vm_compute; reflexivity|]. split; [vm_compute; reflexivity|]. split; [|vm_compute; reflexivity].
  intros j Hj. destruct j as [|[|j]]; [apply (dx_sendable _ _ "one"); vm_compute; reflexivity|apply (dx_sendable _ _ "two"); vm_compute; reflexivity|lia].
Qed.
Example C129_example_arrives : let s := dx_run [GStart (dx_req "one"); GOpened 0 None] in
  tasks (me s) 0 = GSent 0 0 /\ (exists d, nth_error (up s) 0 = Some (d, Mine 0 0)) /\ uheld (srv s) = None /\ uwait (srv s) = [] /\
  dx_out (dx_run ([GStart (dx_req "one"); GOpened 0 None] ++ [GUp 0; GServed; GDown 0])) 0 = Some (Returned "one"%string).
Proof. cbv zeta. repeat split; try (vm_compute; reflexivity). eexists. vm_compute. reflexivity. Qed.

(** ** C130: how often a request is handled *)
(** The application handles the request of a call at most max_retries times, and once more for each time the network duplicates a
    request: whatever else the network, the other calls and other programs do. *)
Theorem C130_handled_at_most :
  forall (D V : Type) utf8 (dump : V -> json) max accepted_resp (app : nat -> code D V) es i,
  let s := grun utf8 dump max accepted_resp app es in
  (Z.of_nat (handled_count s i) <= Z.max 0 max + Z.of_nat (up_copies es))%Z.
Proof.
  intros D V utf8 dump max ar app es i s. pose proof (handled_bound utf8 dump max ar app es i) as H. fold s in H.
  pose proof (grun_inv utf8 dump max ar app es) as I. fold s in I.
  assert (B : (budget max (me s) i <= Z.max 0 max)%Z).
  { unfold budget, bt. destruct (Nat.ltb_spec i (gn (me s))) as [L|L].
    - pose proof (c_ok max _ (v_c _ _ _ _ _ _ I) i L) as TO. unfold TaskOk in TO. destruct (tasks (me s) i) as [n|n|n e|n|o]; try lia.
    - rewrite (c_new max _ (v_c _ _ _ _ _ _ I) i L). lia. }
  unfold load in H. change (cnt (tag i) (ran s)) with (handled_count s i) in H. lia.
Qed.
Print Assumptions C130_handled_at_most.
(** The bound is reached: every answer is late, and one request is duplicated. *)
Definition dx_much : list gevent :=
  [GStart (dx_req "one"); GOpened 0 None; GUpCopy 0; GUp 0; GServed; GTimeout 0; GUp 0; GServed; GWake 0; GUp 0; GServed; GTimeout 0; GWake 0; GUp 0; GServed; GTimeout 0].
Example C130_example : handled_count (dx_run dx_much) 0 = 4%nat /\ up_copies dx_much = 1%nat /\ dx_out (dx_run dx_much) 0 = Some (Raised CMax).
Proof. vm_compute. repeat split. Qed.

(** ** C131: one socket for each client *)
(** Full claim: a client object creates one socket, however many calls are made. *)
Definition C131_one_socket (P : dg -> gevent -> Prop) : Prop :=
  forall (D V : Type) utf8 (dump : V -> json) max accepted_resp (app : nat -> code D V) es,
  throughout (gstep utf8 dump max accepted_resp app) P gfresh es -> (nends (me (grun utf8 dump max accepted_resp app es)) <= 1)%nat.
(** False: calls that start before the first one has its socket create their own; all but the last are never used again, and
    never closed. *)
Definition dx_race : list gevent := [GStart (dx_req "one"); GStart (dx_req "two"); GOpened 0 None; GOpened 1 None; GUp 0; GServed; GDown 0].
Theorem C131_one_socket_refuted : ~ C131_one_socket (fun _ _ => True).
Proof.
  intros H. specialize (H string string (fun _ => true) ax_dump 3%Z (fun _ => EmptyString) ax_app dx_race ltac:(repeat split)).
  assert (E : nends (me (dx_run dx_race)) = 2%nat) by (vm_compute; reflexivity). rewrite E in H. lia.
Qed.
Print Assumptions C131_one_socket_refuted.
(** True otherwise. *)
Theorem C131_one_socket_partial : C131_one_socket one_opens.
Proof. intros D V utf8 dump max ar app es. apply one_socket. Qed.
Print Assumptions C131_one_socket_partial.
Example C131_example : throughout dx_step one_opens gfresh (firstn 8 dx_two) /\ nends (me (dx_run (firstn 8 dx_two))) = 1%nat.
Proof.
  split; [|vm_compute; reflexivity]. cbn [throughout dx_two one_opens firstn]. repeat (split; [try exact Logic.I; intros j n H|]); try exact Logic.I.
  - discriminate H.
  - vm_compute in H. destruct j; discriminate H.
Qed.
(** The race does not mix up answers: each call waits on its own socket. *)
Example C131_example_race : dx_out (dx_run dx_race) 0 = Some (Returned "one"%string) /\
  dx_out (dx_run (dx_race ++ [GGrant; GUp 0; GServed; GDown 0])) 1 = Some (Returned "two"%string).
Proof. split; vm_compute; reflexivity. Qed.

(** ** C132: every call ends *)
(** Whatever the network and the server do: while a call has not ended, something can happen that lets a call go on and that
    needs neither of them. *)
Theorem C132_never_stuck : forall (D V : Type) utf8 (dump : V -> json) max accepted_resp (app : nat -> code D V) es i,
  let s := grun utf8 dump max accepted_resp app es in
  in_progress s i -> exists e, by_itself e /\ goes_on (gstep utf8 dump max accepted_resp app) s e.
Proof. intros D V utf8 dump max ar app es i s P. apply (not_stuck utf8 dump max ar app s i); auto; [apply grun_inv|apply grun_q]. Qed.
Print Assumptions C132_never_stuck.
(** And the calls of a client together go on at most 4 * max_retries times each, until they end. *)
Theorem C132_bounded : forall (D V : Type) utf8 (dump : V -> json) max accepted_resp (app : nat -> code D V) es es',
  let s := grun utf8 dump max accepted_resp app es in
  (forall r, ~ In (GStart r) es') -> throughout (gstep utf8 dump max accepted_resp app) (goes_on (gstep utf8 dump max accepted_resp app)) s es' ->
  (Z.of_nat (List.length es') <= Z.of_nat (gn (me s)) * Z.max 0 (4 * max))%Z.
Proof.
  intros D V utf8 dump max ar app es es' s NS T. pose proof (grun_inv utf8 dump max ar app es) as I. fold s in I.
  transitivity (total max (tasks (me s)) (gn (me s))).
  - apply (run_bound utf8 dump max ar app es' s I (grun_q utf8 dump max ar app es)); [|exact T]. intros e H. destruct e; intros []. now apply (NS r).
  - apply (total_bound max app). intros i Hi. apply (weights max app); [apply (v_c _ _ _ _ _ _ I)|exact Hi].
Qed.
Print Assumptions C132_bounded.
(** Two calls without a server: the most they can do. *)
Definition dx_alone : list gevent :=
  [GOpened 0 None; GOpened 1 None; GTimeout 0; GGrant; GWake 0; GTimeout 1; GGrant; GWake 1; GTimeout 0; GGrant; GWake 0; GTimeout 1; GGrant; GWake 1; GTimeout 0; GGrant; GTimeout 1].
Example C132_example : let s := dx_run [GStart (dx_req "one"); GStart (dx_req "two")] in
  in_progress s 0 /\ in_progress s 1 /\ throughout dx_step (goes_on dx_step) s dx_alone /\
  dx_out (fold_left dx_step dx_alone s) 0 = Some (Raised CMax) /\ dx_out (fold_left dx_step dx_alone s) 1 = Some (Raised CMax).
Proof.
  cbv zeta. split; [split; [vm_compute; lia|intros o; discriminate]|]. split; [split; [vm_compute; lia|intros o; discriminate]|].
  split; [|split; vm_compute; reflexivity]. cbn [throughout dx_alone]. unfold goes_on.
  repeat (split; [solve [exists 0%nat; vm_compute; discriminate|exists 1%nat; vm_compute; discriminate]|]). exact Logic.I.
Qed.
