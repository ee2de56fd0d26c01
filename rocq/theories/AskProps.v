(** Properties of asking: what a caller of a client gets, how often the application handles the request, and when the answer
    arrives: C88, C89, C90. *)
From Coq Require Import String Ascii ZArith NArith Bool List Arith Lia.
From Verif Require Import Base SpanKeyModel SpanKeySpec RouterModel RouterSpec RouterProofs RouterProps JsonModel JsonSpec JsonProofs JsonProofs2 StreamModel StreamSpec
  ClientModel ClientSpec WireModel WireProofs AskModel AskSpec AskProofs AskProofs2 AskProofs3.
Import ListNotations.

(** ** A concrete application with one endpoint, which returns the text it is sent. *)
Definition ax_sig : list param := [mkParam "dto" Normal false].
Definition ax_handler : handler span_key string string :=
  mkHandler "echo" (fun _ d => match sget "x" d with Some (JStr x) => Ret x | _ => Exc (XValidation "x") end)
    (Standard ax_sig (fun _ args => match sget "dto" args with Some (ADto x) => Ret x | _ => Exc (XOther "dto") end)).
Definition ax_app (_ : nat) : code string string := mkCode [] [] (fun _ _ => None) [("echo"%string, ax_handler)].
Definition ax_dump (v : string) : json := JObj [("echo"%string, JStr v)].
Lemma ax_dump_proper v : JsonSpec.proper (ax_dump v).
Proof. constructor; repeat constructor. intros []. Qed.
Definition ax_build (d : list (string * json)) : option string := match sget "echo" d with Some (JStr x) => Some x | _ => None end.
Definition ax_key : span_key := mkKey 0x0123456789abcdef0011223344556677 0xfedcba9876543210.
Definition ax_req : request span_key := mkReq "echo" ax_key (JObj [("x"%string, JStr "hi")]).
(** asyncio's default. *)
Definition asyncio_limit : nat := N.to_nat 65536.
Notation ax_run lim := (AskModel.run (fun _ => true) ax_dump lim 3 (fun _ => EmptyString) ax_app).
Notation ax_out := (outcome_of (D := string) (V := string) (fun _ => EmptyString) ax_build).
(** Connection 0 of call 0 carries the request to the application, which handles it. *)
Definition ax_there : list event := [NStart ax_req; NOpened 0 true; NUp 0 40; NUp 0 1000; NDone 0].
Lemma ax_wellformed s : asked s 0 = ax_req -> wellformed (D := string) (V := string) s 0.
Proof. intros E. unfold wellformed. rewrite E. split; [unfold valid_key; cbn; lia|]. constructor; repeat constructor. intros []. Qed.

(** ** C88: what the caller gets *)
(** Full claim: a call ends with what the application answered to this very request, or with one of the documented exceptions
    for failed communication, or it is cancelled. *)
Definition C88_answer_or_failure : Prop :=
  forall (D V R : Type) utf8 (dump : V -> json) limit max accepted_resp (app : nat -> code D V) str_of (build : list (string * json) -> option R) es i o,
  let s := AskModel.run utf8 dump limit max accepted_resp app es in
  (0 < max)%Z -> (forall v, JsonSpec.proper (dump v)) -> (i < ncalls (cl s))%nat -> wellformed s i ->
  outcome_of str_of build s i = Some o ->
  genuine dump accepted_resp app str_of build s i o \/ o = Raised CMax \/ (exists x, o = Raised (CNonRetry x)) \/ o = Raised (CRaw XCancel).
(** False: a connection that ends in the middle of the response makes the call raise json's JSONDecodeError. *)
Definition ax_cut : list event := ax_there ++ [NDown 0 60; NDownEof 0; NRead 0 false; NClosed 0 None].
Theorem C88_answer_or_failure_refuted : ~ C88_answer_or_failure.
Proof.
  intros H. specialize (H string string string (fun _ => true) ax_dump asyncio_limit 3%Z (fun _ => EmptyString) ax_app (fun _ => EmptyString) ax_build ax_cut 0 (Raised CDecode)).
  assert (A : ax_out (ax_run asyncio_limit ax_cut) 0 = Some (Raised CDecode)) by (vm_compute; reflexivity).
  cbv zeta in H. destruct H as [H|[H|[(x & H)|H]]]; try discriminate H.
  - lia.
  - exact ax_dump_proper.
  - vm_compute. lia.
  - apply ax_wellformed. vm_compute. reflexivity.
  - exact A.
  - destruct H as (c & resp & h & _ & E). unfold told in E. destruct (pstatus resp) as [|p|p]; [|repeat (destruct p as [p|p|]; try discriminate E)|discriminate E].
    destruct (data_of ax_dump resp) as [| | | | |f]; try discriminate E. destruct (ax_build f); discriminate E.
Qed.
Print Assumptions C88_answer_or_failure_refuted.
(** True with the two exceptions of other kinds: JSONDecodeError when the connection ended before the response was complete,
    TypeError when another call on the same client succeeded in the meantime. *)
Theorem C88_answer_or_failure_partial :
  forall (D V R : Type) utf8 (dump : V -> json) limit max accepted_resp (app : nat -> code D V) str_of (build : list (string * json) -> option R) es i o,
  let s := AskModel.run utf8 dump limit max accepted_resp app es in
  (0 < max)%Z -> (forall v, JsonSpec.proper (dump v)) -> (i < ncalls (cl s))%nat -> wellformed s i ->
  outcome_of str_of build s i = Some o ->
  genuine dump accepted_resp app str_of build s i o \/ o = Raised CMax \/ (exists x, o = Raised (CNonRetry x)) \/ o = Raised (CRaw XCancel) \/
  (o = Raised CDecode /\ exists c resp h, carried accepted_resp app s i c resp h /\ l_eof (links s c) = true) \/
  (o = Raised CType /\ exists j t, j <> i /\ (j < ncalls (cl s))%nat /\ tst (calls (cl s) j) = TDone (OText t)).
Proof.
  intros D V R utf8 dump limit max ar app str_of build es i o s M DP H W E.
  pose proof (v_calls _ _ _ _ _ _ _ (run_inv utf8 dump limit max ar app es) i H) as C. fold s in C. unfold CallOk in C. unfold outcome_of in E.
  destruct (tst (calls (cl s) i)) as [n|n|oo]; try discriminate E. injection E as <-. destruct C as (_ & _ & C). destruct oo as [t| | |x|x].
  - destruct C as (c & Mi & G). destruct (got_told dump ar app str_of build s i c t DP W G Mi) as [(resp & h & A & B)|(A & resp & h & B)].
    + left. exists c, resp, h. auto.
    + do 4 right. left. split; [exact A|]. exists c, resp, h. exact B.
  - destruct (C M) as (j & J1 & J2 & t & J3). do 5 right. split; [reflexivity|]. exists j, t. auto.
  - right. left. reflexivity.
  - right. right. left. exists x. reflexivity.
  - do 3 right. left. cbn. now rewrite C.
Qed.
Print Assumptions C88_answer_or_failure_partial.
(** What a call returns was answered to it: made from what the application answered to this request, with status 0, on a
    connection of this call. *)
Theorem C88_returned_was_answered :
  forall (D V R : Type) utf8 (dump : V -> json) limit max accepted_resp (app : nat -> code D V) str_of (build : list (string * json) -> option R) es i x,
  let s := AskModel.run utf8 dump limit max accepted_resp app es in
  (0 < max)%Z -> (forall v, JsonSpec.proper (dump v)) -> (i < ncalls (cl s))%nat -> wellformed s i ->
  outcome_of str_of build s i = Some (Returned x) ->
  exists c v h fields, carried accepted_resp app s i c (mkResp (Some (rspan (asked s i))) 0 (RVal v)) h /\ dump v = JObj fields /\ build fields = Some x.
Proof.
  intros D V R utf8 dump limit max ar app str_of build es i x s M DP H W E.
  destruct (C88_answer_or_failure_partial D V R utf8 dump limit max ar app str_of build es i _ M DP H W E) as [(c & resp & h & G & T)|[A|[(y & A)|[A|[(A & _)|(A & _)]]]]]; try discriminate A.
  fold s in G. unfold told in T. destruct (pstatus resp) as [|p|p] eqn:P; [|repeat (destruct p as [p|p|]; try discriminate T)|discriminate T].
  destruct (data_of dump resp) as [| | | | |f] eqn:Ed; try discriminate T. destruct (build f) as [y|] eqn:B; [|discriminate T]. injection T as ->.
  unfold data_of in Ed. destruct resp as [sp st d]. cbn [pstatus pdata] in *. subst st. destruct d as [v|m]; [|discriminate Ed].
  destruct W as (Vk & Pr). assert (S : sp = Some (rspan (asked s i))).
  { destruct G as (_ & _ & _ & G). exact (serve_span ar app c _ _ _ (mkResp sp 0 (RVal v)) Vk Pr (f_equal fst G)). }
  subst sp. exists c, v, h, f. auto.
Qed.
Print Assumptions C88_returned_was_answered.
(** With a standard endpoint and no middleware: the value is what the endpoint's function returned for the DTO made from the
    data that was sent. *)
Theorem C88_value_of_the_endpoint :
  forall (D V R : Type) utf8 (dump : V -> json) limit max accepted_resp (app : nat -> code D V) str_of (build : list (string * json) -> option R) es i x hd sig f,
  let s := AskModel.run utf8 dump limit max accepted_resp app es in
  (0 < max)%Z -> (forall v, JsonSpec.proper (dump v)) -> (i < ncalls (cl s))%nat -> wellformed s i ->
  (forall c, c_mws (app c) = [] /\ finds (rroute (asked s i)) hd (c_table (app c))) -> h_kind hd = Standard sig f ->
  outcome_of str_of build s i = Some (Returned x) ->
  exists data dto h args v fields, rdata (asked s i) = JObj data /\ h_dto hd [] data = Ret dto /\
    f h args = Ret v /\ args = named_in sig [("span_key"%string, ASpan (rspan (asked s i))); ("dto"%string, ADto dto)] /\
    dump v = JObj fields /\ build fields = Some x.
Proof.
  intros D V R utf8 dump limit max ar app str_of build es i x hd sig f s M DP H W NM K E.
  destruct (C88_returned_was_answered D V R utf8 dump limit max ar app str_of build es i x M DP H W E) as (c & v & h & fl & (_ & _ & _ & Sv) & Ed & B).
  fold s in Sv. destruct (NM c) as (N1 & N2). destruct W as (Vk & Pr). unfold AskModel.serve in Sv. rewrite N1 in Sv.
  set (r := mkReq (rroute (asked s i)) (rspan (asked s i)) (rdata (asked s i))).
  assert (Hd : describes key_of_json (request_dict (rroute (asked s i)) (rspan (asked s i)) (rdata (asked s i))) r).
  { apply request_of_describes. pose proof (read_request (rroute (asked s i)) (rspan (asked s i)) (rdata (asked s i)) Vk Pr) as Q. unfold server_read in Q.
    rewrite loads_request in Q by exact Pr. exact Q. }
  destruct (C25_values_handed_on _ _ _ ar (c_bms (app c)) [] (c_stats (app c)) key_of_json server_loads (c_table (app c)) _ _ r hd _ v h
    (loads_request _ _ _ Pr) Hd N2 Sv eq_refl) as (ps & q & data & dto & mid & v0 & vs & Lp & Lv & Eh & _ & Lq & Rq & Ht & Hh & _ & Vl).
  destruct ps; [|discriminate Lp]. destruct vs; [|discriminate Lv]. cbn in Lq, Vl. injection Lq as <-. cbn in Rq, Ht.
  unfold handled in Hh. rewrite K in Hh. destruct Hh as (args & _ & Fv & Ea). exists data, dto. eexists. exists args, v, fl.
  split; [exact Rq|]. split; [exact Ht|]. split; [rewrite Fv; congruence|]. split; [exact Ea|]. split; [exact Ed|exact B].
Qed.
Print Assumptions C88_value_of_the_endpoint.
(** Cases that meet the hypotheses: the first attempt is handled, but its response is lost with the connection; the second is
    answered, in three pieces. *)
Definition ax_retry : list event := ax_there ++ [NDownErr 0 XReset; NRead 0 false; NWake 0; NOpened 0 true; NUp 1 1000; NDone 1; NDown 1 10; NRead 0 true; NDown 1 20; NDown 1 999; NRead 0 true; NClosed 0 None].
Example C88_example : let s := ax_run asyncio_limit ax_retry in
  ncalls (cl s) = 1 /\ wellformed s 0 /\ ax_out s 0 = Some (Returned "hi"%string) /\ nlinks s = 2 /\ List.length (tlog (calls (cl s) 0)) = 2 /\
  (forall c, c_mws (ax_app c) = [] /\ finds "echo"%string ax_handler (c_table (ax_app c))).
Proof.
  cbv zeta. split; [vm_compute; reflexivity|]. split; [apply ax_wellformed; vm_compute; reflexivity|]. split; [vm_compute; reflexivity|].
  split; [vm_compute; reflexivity|]. split; [vm_compute; reflexivity|]. intros c. split; [reflexivity|]. exists [], []. split; [reflexivity|intros []].
Qed.
(** An unknown route; a call on a client another call of which succeeds in the meantime. *)
Example C88_example_other :
  ax_out (ax_run asyncio_limit [NStart (mkReq "none" ax_key JNull); NOpened 0 true; NUp 0 1000; NDone 0; NDown 0 1000; NRead 0 true; NClosed 0 None]) 0
    = Some (Raised (CUnknownRoute EmptyString)) /\
  ax_out (ax_run asyncio_limit ([NStart ax_req; NOpened 0 true; NTimeout 0; NStart ax_req; NOpened 1 true; NUp 1 1000; NDone 1; NDown 1 1000; NRead 1 true; NClosed 1 None; NWake 0])) 0
    = Some (Raised CType).
Proof. split; vm_compute; reflexivity. Qed.

(** ** C89: how often the request is handled *)
(** Full claim: exactly once if the call returns, not at all if it reports that communication failed. *)
Definition C89_exactly_once : Prop :=
  forall (D V R : Type) utf8 (dump : V -> json) limit max accepted_resp (app : nat -> code D V) str_of (build : list (string * json) -> option R) es i,
  let s := AskModel.run utf8 dump limit max accepted_resp app es in
  (0 < max)%Z -> (forall v, JsonSpec.proper (dump v)) -> (i < ncalls (cl s))%nat -> wellformed s i ->
  (forall x, outcome_of str_of build s i = Some (Returned x) -> handled_times s i = 1) /\
  (outcome_of str_of build s i = Some (Raised CMax) -> handled_times s i = 0).
(** False: the retry after a lost response repeats the request. *)
Theorem C89_exactly_once_refuted : ~ C89_exactly_once.
Proof.
  intros H. specialize (H string string string (fun _ => true) ax_dump asyncio_limit 3%Z (fun _ => EmptyString) ax_app (fun _ => EmptyString) ax_build ax_retry 0).
  cbv zeta in H. destruct H as (H & _); [lia|exact ax_dump_proper|vm_compute; lia|apply ax_wellformed; vm_compute; reflexivity|].
  specialize (H "hi"%string ltac:(vm_compute; reflexivity)). vm_compute in H. discriminate.
Qed.
Print Assumptions C89_exactly_once_refuted.
(** False: a call that gave up after three timeouts had its request handled three times. *)
Definition ax_gave_up : list event :=
  [NStart ax_req; NOpened 0 true; NUp 0 1000; NTimeout 0; NDone 0; NWake 0; NOpened 0 true; NUp 1 1000; NDone 1; NTimeout 0; NWake 0; NOpened 0 true; NUp 2 1000; NDone 2; NTimeout 0].
Definition C89_failure_means_not_handled : Prop :=
  forall (D V R : Type) utf8 (dump : V -> json) limit max accepted_resp (app : nat -> code D V) str_of (build : list (string * json) -> option R) es i,
  let s := AskModel.run utf8 dump limit max accepted_resp app es in
  (0 < max)%Z -> (forall v, JsonSpec.proper (dump v)) -> (i < ncalls (cl s))%nat -> wellformed s i ->
  outcome_of str_of build s i = Some (Raised CMax) -> handled_times s i = 0.
Theorem C89_failure_means_not_handled_refuted : ~ C89_failure_means_not_handled.
Proof.
  intros H. specialize (H string string string (fun _ => true) ax_dump asyncio_limit 3%Z (fun _ => EmptyString) ax_app (fun _ => EmptyString) ax_build ax_gave_up 0).
  cbv zeta in H. assert (E : handled_times (ax_run asyncio_limit ax_gave_up) 0 = 3) by (vm_compute; reflexivity).
  rewrite H in E; [discriminate|lia|exact ax_dump_proper|vm_compute; lia|apply ax_wellformed; vm_compute; reflexivity|vm_compute; reflexivity].
Qed.
Print Assumptions C89_failure_means_not_handled_refuted.
(** What holds at every time: at most once per connection, at most one connection per attempt, at most max_retries attempts;
    and only this request, as it was sent, is ever handled on a call's connections. *)
Theorem C89_at_most_max_retries :
  forall (D V : Type) utf8 (dump : V -> json) limit max accepted_resp (app : nat -> code D V) es i,
  let s := AskModel.run utf8 dump limit max accepted_resp app es in
  (i < ncalls (cl s))%nat ->
  (handled_times s i <= List.length (opened_by s i))%nat /\ (Z.of_nat (List.length (opened_by s i)) <= Z.max max 0)%Z /\
  (forall c t h, In c (opened_by s i) -> In (t, h) (l_ran (links s c)) -> t = asks s i /\ h = snd (serve accepted_resp app c (asks s i))).
Proof.
  intros D V utf8 dump limit max ar app es i s H. pose proof (run_inv utf8 dump limit max ar app es) as I. fold s in I.
  split; [exact (times_opened utf8 dump limit max ar app s i I)|]. split.
  - pose proof (v_count _ _ _ _ _ _ _ I i H) as CN. pose proof (v_calls _ _ _ _ _ _ _ I i H) as C. unfold CallOk in C. assert (BL : (busy (phases s i) <= 1)%nat) by (destruct (phases s i); cbn [busy]; lia).
    destruct (tst (calls (cl s) i)) as [n|n|o]; [lia| |]; destruct C as (C1 & C2 & C3); [rewrite C3 in CN|rewrite C1 in CN]; cbn [busy] in CN; lia.
  - intros c t h Hc Hr. apply filter_In in Hc as (Hc & Hi). apply in_seq in Hc. apply Nat.eqb_eq in Hi.
    destruct (v_links _ _ _ _ _ _ _ I c ltac:(lia)) as (_ & L). destruct (l_conn (links s c)) as [k|]; [|rewrite L in Hr; destruct Hr].
    destruct L as (_ & [(Rn & _)|(Rn & _)]); rewrite Rn in Hr; [destruct Hr|]. destruct Hr as [Hr|[]]. rewrite Hi, sent_text in Hr. injection Hr as <- <-. auto.
Qed.
Print Assumptions C89_at_most_max_retries.
(** A call that returns had its request handled; exactly once if the first attempt succeeded. *)
Theorem C89_once_partial :
  forall (D V R : Type) utf8 (dump : V -> json) limit max accepted_resp (app : nat -> code D V) str_of (build : list (string * json) -> option R) es i x,
  let s := AskModel.run utf8 dump limit max accepted_resp app es in
  (0 < max)%Z -> (forall v, JsonSpec.proper (dump v)) -> (i < ncalls (cl s))%nat -> wellformed s i ->
  outcome_of str_of build s i = Some (Returned x) ->
  (1 <= handled_times s i)%nat /\ (handled_times s i <= List.length (tlog (calls (cl s) i)))%nat /\
  (List.length (tlog (calls (cl s) i)) = 1 -> handled_times s i = 1).
Proof.
  intros D V R utf8 dump limit max ar app str_of build es i x s M DP H W E. pose proof (run_inv utf8 dump limit max ar app es) as I. fold s in I.
  destruct (C88_returned_was_answered D V R utf8 dump limit max ar app str_of build es i x M DP H W E) as (c & v & h & fl & G & _).
  pose proof (carried_times ar app s i c _ h G) as G1. pose proof (times_opened utf8 dump limit max ar app s i I) as G2.
  pose proof (v_count _ _ _ _ _ _ _ I i H) as CN. pose proof (v_calls _ _ _ _ _ _ _ I i H) as C. unfold CallOk in C. unfold outcome_of in E. fold s in E.
  destruct (tst (calls (cl s) i)) as [n|n|o]; try discriminate E. destruct C as (C1 & _). rewrite C1 in CN. cbn [busy] in CN. lia.
Qed.
Print Assumptions C89_once_partial.
Example C89_example : let s := ax_run asyncio_limit ax_retry in handled_times s 0 = 2 /\ opened_by s 0 = [0; 1] /\
  let s' := ax_run asyncio_limit (ax_there ++ [NDown 0 1000; NRead 0 true; NClosed 0 None]) in
  ax_out s' 0 = Some (Returned "hi"%string) /\ List.length (tlog (calls (cl s') 0)) = 1 /\ handled_times s' 0 = 1.
Proof. vm_compute. repeat split. Qed.

(** ** C90: the answer arrives *)
(** Full claim: once the request has reached the running server, has been handled, and the response has reached the client
    over a connection that was not lost, the call ends with the answer. *)
Definition arrived {D V} utf8 (dump : V -> json) limit max accepted_resp (app : nat -> code D V) es i c resp h : Prop :=
  let s := AskModel.run utf8 dump limit max accepted_resp app es in let l := links s c in
  phases s i = PRead c /\
  (exists k, l_conn l = Some k /\ ceof k = false /\ cexc k = false /\ forall t, cst k <> Handling t) /\
  l_fed l = List.length (bytes (asks s i)) /\ l_seen l = List.length (written l) /\ l_err l = None /\
  serve accepted_resp app c (asks s i) = (Ret resp, h).
Definition C90_answered_at (limit : nat) : Prop :=
  forall (D V R : Type) utf8 (dump : V -> json) max accepted_resp (app : nat -> code D V) str_of (build : list (string * json) -> option R) es i c resp h b,
  let s := AskModel.run utf8 dump limit max accepted_resp app es in
  (forall v, JsonSpec.proper (dump v)) -> wellformed s i -> (forall t, utf8 (bytes t) = true) ->
  arrived utf8 dump limit max accepted_resp app es i c resp h ->
  outcome_of str_of build (AskModel.run utf8 dump limit max accepted_resp app (es ++ [NRead i b; NClosed i None])) i = Some (told str_of build (pstatus resp) (data_of dump resp)).
Definition C90_answered : Prop := C90_answered_at asyncio_limit.
(** True if neither message is longer than asyncio's limit. *)
Theorem C90_answered_partial :
  forall (D V R : Type) utf8 (dump : V -> json) limit max accepted_resp (app : nat -> code D V) str_of (build : list (string * json) -> option R) es i c resp h b,
  let s := AskModel.run utf8 dump limit max accepted_resp app es in
  (forall v, JsonSpec.proper (dump v)) -> wellformed s i -> (forall t, utf8 (bytes t) = true) ->
  arrived utf8 dump limit max accepted_resp app es i c resp h ->
  (List.length (bytes (asks s i)) <= S limit)%nat ->
  (List.length (bytes (response_text (pspan resp) (pstatus resp) (data_of dump resp))) <= S limit)%nat ->
  outcome_of str_of build (AskModel.run utf8 dump limit max accepted_resp app (es ++ [NRead i b; NClosed i None])) i = Some (told str_of build (pstatus resp) (data_of dump resp)).
Proof.
  intros D V R utf8 dump limit max ar app str_of build es i c resp h b s DP W U (P & (k & K & Ef & X & NH) & Fd & Se & Er & Sv) L1 L2.
  fold s in P, K, Fd, Se, Er, Sv. pose proof (run_inv utf8 dump limit max ar app es) as I. fold s in I.
  assert (P' : phases s i <> PIdle) by (rewrite P; discriminate). pose proof (live_call utf8 dump limit max ar app s i I P') as H.
  destruct (busy_attempt utf8 dump limit max ar app s i I P') as (n & T & _ & _ & M). rewrite P in M. destruct M as (C & Mi).
  destruct (all_written utf8 dump limit max ar app s c k resp h I C K Ef X NH) as (Wr & Rn); try (rewrite Mi; assumption).
  { rewrite Mi. apply U. }
  assert (Ll : (List.length (bytes (body dump resp)) <= limit)%nat).
  { unfold response_text in L2. rewrite bytes_app, app_length in L2. cbn [List.length bytes lf chr list_ascii_of_string map] in L2. unfold body. unfold data_of in L2. unfold value_json. lia. }
  assert (NLF : ~ In 10%N (bytes (body dump resp))) by (unfold body; apply visible_no_lf, visible_print).
  unfold AskModel.run. rewrite fold_left_app. fold (AskModel.run utf8 dump limit max ar app es). fold s. cbn [fold_left].
  assert (S1 : AskModel.step utf8 dump limit max ar app s (NRead i b) = set_phase s i (PClose c (body dump resp ++ lf)%string)).
  { cbn [AskModel.step]. rewrite P. unfold read_result. rewrite Er, Se, firstn_all, Wr, (readline_all utf8 limit app) by exact NLF.
    assert (Q : Nat.ltb limit (List.length (bytes (body dump resp))) = false) by (apply Nat.ltb_ge; exact Ll). rewrite Q.
    assert (EB : bytes (body dump resp) ++ [10%N] = bytes (body dump resp ++ lf)) by (rewrite bytes_app; reflexivity). rewrite EB.
    destruct (bytes (body dump resp ++ lf)) as [|b0 bs] eqn:Eb; [rewrite bytes_app in Eb; destruct (bytes (body dump resp)); discriminate Eb|].
    unfold AskModel.decode. rewrite <- Eb, U, of_bytes_bytes. reflexivity. }
  rewrite S1. cbn [AskModel.step set_phase phases]. rewrite fupd_same. unfold tell, cstep1. cbn [cl set_phase ClientModel.step]. unfold live.
  apply Nat.ltb_lt in H as HL. rewrite HL, T. unfold outcome_of. cbn [cl set_call calls]. rewrite fupd_same. cbn [tst]. f_equal.
  destruct W as (Vk & Pr). eapply receive_fields; [exact Vk| |].
  - eapply serve_span; [exact Vk|exact Pr|]. apply (f_equal fst Sv).
  - rewrite body_fields. apply (round_trip _ EmptyString lf (fields_proper dump resp DP) blank_nil blank_lf).
Qed.
Print Assumptions C90_answered_partial.
(** A response that is longer makes the call fail with ValueError, although the request was handled. *)
Theorem C90_long_response :
  forall (D V R : Type) utf8 (dump : V -> json) limit max accepted_resp (app : nat -> code D V) str_of (build : list (string * json) -> option R) es i c resp h b,
  let s := AskModel.run utf8 dump limit max accepted_resp app es in
  wellformed s i -> (forall t, utf8 (bytes t) = true) -> arrived utf8 dump limit max accepted_resp app es i c resp h ->
  (List.length (bytes (asks s i)) <= S limit)%nat ->
  (S limit < List.length (bytes (response_text (pspan resp) (pstatus resp) (data_of dump resp))))%nat ->
  let s' := AskModel.run utf8 dump limit max accepted_resp app (es ++ [NRead i b]) in
  outcome_of str_of build s' i = Some (Raised (CNonRetry (XMisc "ValueError"))) /\ carried accepted_resp app s' i c resp h.
Proof.
  intros D V R utf8 dump limit max ar app str_of build es i c resp h b s W U (P & (k & K & Ef & X & NH) & Fd & Se & Er & Sv) L1 L2.
  fold s in P, K, Fd, Se, Er, Sv. pose proof (run_inv utf8 dump limit max ar app es) as I. fold s in I.
  assert (P' : phases s i <> PIdle) by (rewrite P; discriminate). pose proof (live_call utf8 dump limit max ar app s i I P') as H.
  destruct (busy_attempt utf8 dump limit max ar app s i I P') as (n & T & _ & _ & M). rewrite P in M. destruct M as (C & Mi).
  destruct (all_written utf8 dump limit max ar app s c k resp h I C K Ef X NH) as (Wr & Rn); try (rewrite Mi; assumption).
  { rewrite Mi. apply U. }
  assert (Ll : (limit < List.length (bytes (body dump resp)))%nat).
  { unfold response_text in L2. rewrite bytes_app, app_length in L2. cbn [List.length bytes lf chr list_ascii_of_string map] in L2. unfold body. unfold data_of in L2. unfold value_json. lia. }
  assert (NLF : ~ In 10%N (bytes (body dump resp))) by (unfold body; apply visible_no_lf, visible_print).
  unfold AskModel.run. rewrite fold_left_app. fold (AskModel.run utf8 dump limit max ar app es). fold s. cbn [fold_left AskModel.step]. rewrite P.
  unfold read_result. rewrite Er, Se, firstn_all, Wr, (readline_all utf8 limit app) by exact NLF. apply Nat.ltb_lt in Ll. rewrite Ll.
  unfold tell, cstep1. cbn [ClientModel.step]. unfold live. apply Nat.ltb_lt in H as HL. rewrite HL, T. cbn [stream_retries].
  split; [unfold outcome_of; cbn [cl set_call calls]; rewrite fupd_same; reflexivity|].
  split; [exact C|]. split; [exact Mi|]. split; [cbn [links]; rewrite Rn, Mi; reflexivity|exact Sv].
Qed.
Print Assumptions C90_long_response.
(** A request that is longer is never handled. *)
Theorem C90_long_request :
  forall (D V : Type) utf8 (dump : V -> json) limit max accepted_resp (app : nat -> code D V) es i,
  let s := AskModel.run utf8 dump limit max accepted_resp app es in
  (i < ncalls (cl s))%nat -> (S limit < List.length (bytes (asks s i)))%nat -> handled_times s i = 0.
Proof.
  intros D V utf8 dump limit max ar app es i s H L. pose proof (run_inv utf8 dump limit max ar app es) as I. fold s in I. unfold handled_times.
  assert (F : forall c, In c (opened_by s i) -> l_ran (links s c) = []).
  { intros c Hc. apply filter_In in Hc as (Hc & Hi). apply in_seq in Hc. apply Nat.eqb_eq in Hi. destruct (v_links _ _ _ _ _ _ _ I c ltac:(lia)) as (_ & Q).
    destruct (l_conn (links s c)); [|exact Q]. destruct Q as (_ & [(Rn & _)|(_ & (_ & _ & Q) & _)]); [exact Rn|]. rewrite Hi in Q. exfalso. unfold asks in L. unfold sent in Q. lia. }
  induction (opened_by s i) as [|c l IH]; [reflexivity|]. cbn [map list_sum fold_right]. rewrite (F c (or_introl eq_refl)). apply IH. intros c' Hc. apply F. now right.
Qed.
Print Assumptions C90_long_request.
(** So the full claim is false: a request of a few bytes, answered with 66000. *)
Fixpoint letters (n : nat) : string := match n with O => EmptyString | S n => String "a" (letters n) end.
Definition ax_long_handler (v : string) : handler span_key string string :=
  mkHandler "echo" (fun _ _ => Ret EmptyString) (Standard ax_sig (fun _ _ => Ret v)).
Definition ax_long_app (v : string) (_ : nat) : code string string := mkCode [] [] (fun _ _ => None) [("echo"%string, ax_long_handler v)].
Definition ax_long : list event := ax_there ++ [NDown 0 (N.to_nat 70000)].
Lemma ax_long_serve v : fst (serve (fun _ => EmptyString) (ax_long_app v) 0 (request_text "echo" ax_key (JObj [("x"%string, JStr "hi")]))) = Ret (mkResp (Some ax_key) 0 (RVal v)).
Proof. vm_compute. reflexivity. Qed.
Definition quiet (k : conn string) : bool := negb (ceof k) && negb (cexc k) && match cst k with Handling _ => false | _ => true end.
Notation ax_long_run lim v es := (AskModel.run (fun _ => true) ax_dump lim 3 (fun _ => EmptyString) (ax_long_app v) es).
Lemma ax_long_wrong lim v : C90_answered_at lim ->
  outcome_of (fun _ => EmptyString) ax_build (ax_long_run lim v (ax_long ++ [NRead 0 false; NClosed 0 None])) 0 = Some (Raised (CNonRetry (XMisc "ValueError"))) ->
  asked (ax_long_run lim v ax_long) 0 = ax_req ->
  (match l_conn (links (ax_long_run lim v ax_long) 0) with Some k => quiet k | None => false end) = true ->
  Nat.eqb (l_seen (links (ax_long_run lim v ax_long) 0)) (List.length (written (links (ax_long_run lim v ax_long) 0))) = true ->
  phases (ax_long_run lim v ax_long) 0 = PRead 0 ->
  Nat.eqb (l_fed (links (ax_long_run lim v ax_long) 0)) (List.length (bytes (asks (ax_long_run lim v ax_long) 0))) = true ->
  l_err (links (ax_long_run lim v ax_long) 0) = None -> False.
Proof.
  intros H A W K F P G E.
  assert (Q : asks (ax_long_run lim v ax_long) 0 = request_text "echo" ax_key (JObj [("x"%string, JStr "hi")])) by (unfold asks; now rewrite W).
  specialize (H string string string (fun _ => true) ax_dump 3%Z (fun _ => EmptyString) (ax_long_app v) (fun _ => EmptyString) ax_build ax_long 0 0 (mkResp (Some ax_key) 0 (RVal v))
    (snd (serve (fun _ => EmptyString) (ax_long_app v) 0 (asks (ax_long_run lim v ax_long) 0))) false).
  cbv zeta in H. rewrite A in H. cbn [pstatus] in H.
  enough (B : Some (Raised (D := string) (CNonRetry (XMisc "ValueError"))) = Some (told (fun _ => EmptyString) ax_build 0 (ax_dump v))) by discriminate B.
  apply H; clear H A.
  - exact ax_dump_proper.
  - exact (ax_wellformed _ W).
  - reflexivity.
  - unfold arrived. cbv zeta. split; [exact P|]. split.
    { destruct (l_conn (links (ax_long_run lim v ax_long) 0)) as [k|]; [|discriminate K]. exists k. apply andb_true_iff in K as (K & K3). apply andb_true_iff in K as (K1 & K2).
      split; [reflexivity|]. split; [exact (proj1 (negb_true_iff _) K1)|]. split; [exact (proj1 (negb_true_iff _) K2)|]. intros t Et. rewrite Et in K3. discriminate. }
    split; [exact (proj1 (Nat.eqb_eq _ _) G)|]. split; [exact (proj1 (Nat.eqb_eq _ _) F)|]. split; [exact E|].
    pose proof (ax_long_serve v) as X. rewrite <- Q in X. destruct (serve _ _ _ _) as [r0 h0]. cbn [fst snd] in *. rewrite X. exact eq_refl.
Qed.
Theorem C90_answered_refuted : ~ C90_answered.
Proof. intros H. apply (ax_long_wrong asyncio_limit (letters (N.to_nat 66000)) H); vm_compute; reflexivity. Qed.
Print Assumptions C90_answered_refuted.
Example C90_example : let es := ax_there ++ [NDown 0 1000] in let s := ax_run asyncio_limit es in
  wellformed s 0 /\ Nat.leb (List.length (bytes (asks s 0))) asyncio_limit = true /\
  exists h, arrived (fun _ => true) ax_dump asyncio_limit 3 (fun _ => EmptyString) ax_app es 0 0 (mkResp (Some ax_key) 0 (RVal "hi"%string)) h.
Proof.
  cbv zeta. split; [apply ax_wellformed; vm_compute; reflexivity|]. split; [vm_compute; reflexivity|]. eexists. unfold arrived. cbv zeta. split; [vm_compute; reflexivity|].
  split; [eexists; split; [vm_compute; reflexivity|]; split; [reflexivity|]; split; [reflexivity|discriminate]|]. split; [vm_compute; reflexivity|]. split; [vm_compute; reflexivity|].
  split; [vm_compute; reflexivity|]. vm_compute. reflexivity.
Qed.
