(** Properties of clients: C28, C29, C30. *)
From Coq Require Import ZArith NArith Bool String Lia Arith List.
From Verif Require Import RouterModel ClientModel ClientSpec ClientProofs ClientProofs2 ClientProofs3 StreamModel StreamSpec StreamProofs.
Import ListNotations.
Local Open Scope Z_scope.

(** ** C28: attempts *)

(** Datagram clients: for every max_retries >= 1 and every history of concurrent calls, attempts, failures, sleeps and
    cancellations, every call keeps to the rules: at most max_retries attempts, another one only after a timeout,
    CommunicationsMaxRetriesReached exactly when all of them timed out, other failures raised at once. *)
Theorem C28_datagram_attempts :
  forall (R : Type) max evs i, 1 <= max -> (i < ncalls (datagram_run (R := R) max evs))%nat ->
  let c := calls (datagram_run max evs) i in reliable max datagram_retries (tst c) (tlog c).
Proof. intros R max evs i Hm Hi. apply unflagged_reliable; auto. Qed.
Print Assumptions C28_datagram_attempts.

(** Full claim for stream clients: the same. *)
Definition C28_stream_attempts : Prop :=
  forall (R : Type) max evs i, 1 <= max -> (i < ncalls (stream_run (R := R) max evs))%nat ->
  let c := calls (stream_run max evs) i in
  reliable max stream_retries (tst c) (tlog c) /\ tst c <> TDone ONone.
(** False of the code: the loop also stops when [self.success] is true, which another call on the same client may have
    set.  Here call 0 times out once and sleeps; call 1 succeeds; call 0 wakes up and gives up after one of its three
    attempts, without an exception of its own: send_message then fails in json.loads(None). *)
Definition shared_flag : list (ev nat) := [EStart; EOut 0 (AFail XTimeout); EStart; EOut 1 (AGot 42%nat); EWake 0].
Theorem C28_stream_attempts_refuted : ~ C28_stream_attempts.
Proof. intros H. destruct (H nat 3 shared_flag 0%nat) as [_ A]; [lia|cbn; lia|]. apply A. reflexivity. Qed.
Print Assumptions C28_stream_attempts_refuted.
Example C28_shared_flag_result :
  let c := calls (stream_run 3 shared_flag) 0 in
  tst c = TDone ONone /\ List.length (tlog c) = 1%nat /\
  receive (D := unit) (fun _ => None) (fun _ => None) (fun _ => true) (fun _ => EmptyString) (fun _ => None) ONone = Raised CType.
Proof. vm_compute. repeat split. Qed.
(** It holds for every call during which no other call on the same client succeeds. *)
Theorem C28_stream_attempts_partial :
  forall (R : Type) max before after i, 1 <= max -> i = ncalls (stream_run (R := R) max before) ->
  (forall j r, In (EOut j (AGot r)) after -> j = i) ->
  let c := calls (stream_run max (before ++ EStart :: after)) i in
  reliable max stream_retries (tst c) (tlog c) /\ tst c <> TDone ONone.
Proof. intros R max before after i Hm Hi H. split; [now apply alone_reliable|now apply alone_not_none]. Qed.
Print Assumptions C28_stream_attempts_partial.
(** The number of attempts is bounded for every call, also when others succeed. *)
Theorem C28_stream_at_most :
  forall (R : Type) max evs i, 1 <= max -> (i < ncalls (stream_run (R := R) max evs))%nat ->
  let c := calls (stream_run max evs) i in Z.of_nat (List.length (tlog c) + in_attempt (tst c)) <= max.
Proof. exact (@stream_at_most). Qed.
Print Assumptions C28_stream_at_most.
(** On a persistent connection a call writes its request at most max_retries times, whatever happens to the connection and
    whatever other calls and heartbeats do. *)
Theorem C28_persistent_at_most :
  forall max evs i, (i < ntasks (prun max evs))%nat -> beat (prun max evs) i = false ->
  Z.of_nat (tries (prun max evs) i) <= Z.max max 0.
Proof. exact tries_bounded. Qed.
Print Assumptions C28_persistent_at_most.

(** The failures that are retried are the transient ones and no others. *)
Theorem C28_what_is_retried :
  (forall x, stream_retries x = transient_failure true x) /\ (forall x, datagram_retries x = transient_failure false x).
Proof. split; [exact stream_transient|exact datagram_transient]. Qed.
Print Assumptions C28_what_is_retried.
(** Datagram clients, with the lock, the network and the late replies: a call puts its request on the network at most
    max_retries times, and exactly that often when it ends with CommunicationsMaxRetriesReached. *)
Theorem C28_datagram_sends :
  forall max evs i, 0 <= max ->
  Z.of_nat (sends max dstart evs i) <= max /\
  (dtasks (drun max evs) i = DDone OMax -> Z.of_nat (sends max dstart evs i) = max).
Proof.
  intros max evs i Hm. pose proof (sends_ok max evs Hm i) as H.
  destruct (i <? dn (drun max evs))%nat; [|destruct H as [-> ->]; split; [cbn; lia|discriminate]].
  destruct (dtasks (drun max evs) i) as [n|n|n|[]]; cbn in H; split; try lia; try discriminate.
Qed.
Print Assumptions C28_datagram_sends.
Example C28_ex_sends :
  let evs := [DStart; DStart; DTimeout 0; DGrant; DReply 0; DWake 0; DTimeout 0] in
  dtasks (drun 2 evs) 0 = DDone OMax /\ sends 2 dstart evs 0 = 2%nat /\ sends 2 dstart evs 1 = 1%nat.
Proof. vm_compute. repeat split. Qed.

Example C28_ex_datagram :
  let c := calls (datagram_run (R := nat) 3 [EStart; EOut 0 (AFail XTimeout); EWake 0; EStart; EOut 1 (AGot 5%nat); EOut 0 (AFail XTimeout); EWake 0; EOut 0 (AFail XTimeout)]) in
  tst (c 0%nat) = TDone OMax /\ List.length (tlog (c 0%nat)) = 3%nat /\ tst (c 1%nat) = TDone (OText 5%nat).
Proof. vm_compute. repeat split. Qed.
Example C28_ex_stream :
  let c := calls (stream_run (R := nat) 3 [EStart; EOut 0 (AFail XReset); EWake 0; EOut 0 (AFail XRefused); EStart; EOut 1 (AFail XTimeout); EWake 1; EOut 1 (AGot 5%nat)]) in
  tst (c 0%nat) = TDone (ONonRetry XRefused) /\ tst (c 1%nat) = TDone (OText 5%nat) /\ List.length (tlog (c 1%nat)) = 2%nat.
Proof. vm_compute. repeat split. Qed.
Example C28_ex_persistent :
  let s := prun 2 [PStart false; POpened 0; PTimeout 0; PWake 0; PDie 1; PEnd 0 XReset; POpened 0; PStart true; PGrant; PAnswer 2; PData 1] in
  tries s 0 = 2%nat /\ tasks s 0 = PDone OMax /\ tasks s 1 = PDone ONone /\ connected s = true.
Proof. vm_compute. repeat split. Qed.
(** max_retries = 1 is one attempt; max_retries = 0 is none, and the call fails in json.loads(None). *)
Example C28_ex_zero : tst (calls (stream_run (R := nat) 0 [EStart]) 0) = TDone ONone.
Proof. reflexivity. Qed.

(** ** C29: statuses and exceptions *)
Section C29.
Context {D : Type}.
(** A response text that is a JSON object with a readable status and span key. *)
Definition well_formed (loads : string -> option json) (as_int : json -> option Z) (span_ok : json -> bool) (text : string) (status : Z) (data : json) : Prop :=
  exists d s, loads text = Some (JObj d) /\ sget "status" d = Some s /\ as_int s = Some status /\ sget "data" d = Some data /\
    match sget "span_key" d with None => True | Some k => span_ok k = true end.
(** Full claim: every other status than 0 raises the documented exception. *)
Definition C29_documented : Prop :=
  forall loads as_int span_ok str_of (build : list (string * json) -> option D) text status data,
  well_formed loads as_int span_ok text status data -> status <> 0 ->
  receive loads as_int span_ok str_of build (OText text) = Raised (documented status (str_of data)).
End C29.
(** False of the code for CLIENT_DENIED: the data of a parsed response has no method json. *)
Theorem C29_documented_refuted : forall D, ~ @C29_documented D.
Proof.
  intros D H. specialize (H (fun _ => Some (JObj [("status"%string, JNum 200); ("data"%string, JStr "no")])) (fun j => match j with JNum z => Some z | _ => None end)
    (fun _ => true) (fun _ => EmptyString) (fun _ => None) EmptyString 200 (JStr "no")).
  assert (A : Raised CAttribute = Raised (D := D) (CDenied EmptyString)); [|discriminate].
  apply H; [|discriminate]. exists [("status"%string, JNum 200); ("data"%string, JStr "no")], (JNum 200). repeat split.
Qed.
Print Assumptions C29_documented_refuted.
(** True for every other status; and for status 0 the data is returned, or the DTO class rejects it. *)
Theorem C29_documented_partial :
  forall D loads as_int span_ok str_of (build : list (string * json) -> option D) text status data,
  well_formed loads as_int span_ok text status data ->
  (status <> 0 -> status <> 200 -> receive loads as_int span_ok str_of build (OText text) = Raised (documented status (str_of data))) /\
  (status = 200 -> receive loads as_int span_ok str_of build (OText text) = Raised CAttribute) /\
  (forall fields x, status = 0 -> data = JObj fields -> build fields = Some x ->
     receive loads as_int span_ok str_of build (OText text) = Returned x).
Proof.
  intros D loads as_int span_ok str_of build text status data [d [s [E1 [E2 [E3 [E4 E5]]]]]].
  assert (R : response_of as_int span_ok d = Some (status, data)).
  { unfold response_of. rewrite E2, E3, E4. destruct (sget "span_key" d); [now rewrite E5|reflexivity]. }
  cbn [receive]. rewrite E1, R. split; [|split].
  - intros H0 H2. assert (Z.eqb status 0 = false) as -> by lia. now rewrite documented_exception.
  - intros ->. reflexivity.
  - intros fields x -> -> B. cbn [Z.eqb]. now rewrite B.
Qed.
Print Assumptions C29_documented_partial.
(** Data comes back only from a well-formed response with status 0, and then it is that response's data. *)
Theorem C29_only_success_returns :
  forall D loads as_int span_ok str_of (build : list (string * json) -> option D) o x,
  receive loads as_int span_ok str_of build o = Returned x ->
  exists text fields, o = OText text /\ well_formed loads as_int span_ok text 0 (JObj fields) /\ build fields = Some x.
Proof.
  intros D loads as_int span_ok str_of build o x. destruct o as [text| | |y|y]; cbn [receive]; try discriminate.
  destruct (loads text) as [[| | | | |d]|] eqn:E1; try discriminate. unfold response_of.
  destruct (sget "status" d) as [s|] eqn:E2; [|discriminate]. destruct (sget "data" d) as [v|] eqn:E3; [|discriminate].
  destruct (as_int s) as [n|] eqn:E4; [|discriminate].
  assert (W : match sget "span_key" d with None => True | Some k => span_ok k = true end -> n = 0 -> match v with JObj fields => match build fields with Some x => Returned x | None => Raised CPydantic end | _ => Raised CType end = Returned x ->
     exists text0 fields, OText text = OText text0 /\ well_formed loads as_int span_ok text0 0 (JObj fields) /\ build fields = Some x).
  { intros Hk -> H. destruct v as [| | | | |fields]; try discriminate. destruct (build fields) as [x'|] eqn:Eb; [|discriminate]. injection H as ->.
    exists text, fields. repeat split; auto. exists d, s. repeat split; auto. }
  destruct (sget "span_key" d) as [k|]; [destruct (span_ok k); [|discriminate]|];
    (destruct (Z.eqb_spec n 0); [apply W; auto|discriminate]).
Qed.
Print Assumptions C29_only_success_returns.
(** And every other end of the loop, and every other text, raises: what the loop raised, JSONDecodeError for a text that is
    not JSON, TypeError for JSON that is not an object, ValidationError for an object without a readable status. *)
Theorem C29_otherwise :
  forall D loads as_int span_ok str_of (build : list (string * json) -> option D),
  let receive := receive loads as_int span_ok str_of build in
  receive OMax = Raised CMax /\ (forall x, receive (ONonRetry x) = Raised (CNonRetry x)) /\ (forall x, receive (ORaw x) = Raised (CRaw x)) /\
  (forall text, loads text = None -> receive (OText text) = Raised CDecode) /\
  (forall text j, loads text = Some j -> (forall d, j <> JObj d) -> receive (OText text) = Raised CType) /\
  (forall text d, loads text = Some (JObj d) -> (forall status data, ~ well_formed loads as_int span_ok text status data) ->
     receive (OText text) = Raised CPydantic) /\
  (forall text data, well_formed loads as_int span_ok text 0 data -> (forall fields, data = JObj fields -> build fields = None) ->
     receive (OText text) = Raised CPydantic \/ receive (OText text) = Raised CType).
Proof.
  intros D loads as_int span_ok str_of build receive. unfold receive. repeat split.
  - intros text E. cbn [ClientModel.receive]. now rewrite E.
  - intros text j E N. cbn [ClientModel.receive]. rewrite E. destruct j; try reflexivity. exfalso. eapply N. reflexivity.
  - intros text d E N. cbn [ClientModel.receive]. rewrite E. unfold response_of.
    destruct (sget "status" d) as [s|] eqn:E1; [|reflexivity]. destruct (sget "data" d) as [v|] eqn:E2; [|reflexivity].
    destruct (as_int s) as [n|] eqn:E3; [|reflexivity].
    destruct (sget "span_key" d) as [k|] eqn:E4; [destruct (span_ok k) eqn:E5; [|reflexivity]|];
      (exfalso; apply (N n v); exists d, s; rewrite E4; repeat split; auto).
  - intros text data [d [s [E1 [E2 [E3 [E4 E5]]]]]] N. cbn [ClientModel.receive]. rewrite E1. unfold response_of. rewrite E2, E3, E4.
    assert (R : match data with JObj fields => match build fields with Some x => Returned x | None => Raised CPydantic end | _ => Raised CType end = Raised CPydantic \/
                match data with JObj fields => match build fields with Some x => Returned x | None => Raised CPydantic end | _ => Raised CType end = Raised CType).
    { destruct data as [| | | | |f]; auto. rewrite (N f eq_refl). auto. }
    destruct (sget "span_key" d) as [k|]; [rewrite E5|]; exact R.
Qed.
Print Assumptions C29_otherwise.
Definition cx_loads (text : string) : option json :=
  if String.eqb text "ok" then Some (JObj [("span_key", JNull); ("status", JNum 0); ("data", JObj [("x", JNum 4)])]%string)
  else if String.eqb text "busy" then Some (JObj [("span_key", JNull); ("status", JNum 500); ("data", JStr "later")]%string)
  else None.
Definition cx_int (j : json) : option Z := match j with JNum z => Some z | _ => None end.
Definition cx_str (j : json) : string := match j with JStr s => s | _ => "?"%string end.
Definition cx_build (d : list (string * json)) : option Z := match sget "x" d with Some (JNum z) => Some z | _ => None end.
Example C29_ex : well_formed cx_loads cx_int (fun _ => true) "busy" 500 (JStr "later") /\
  receive cx_loads cx_int (fun _ => true) cx_str cx_build (OText "busy"%string) = Raised (CBusy "later") /\
  receive cx_loads cx_int (fun _ => true) cx_str cx_build (OText "ok"%string) = Returned 4.
Proof.
  split; [|vm_compute; repeat split]. unfold well_formed, cx_loads. cbn [String.eqb Ascii.eqb Bool.eqb].
  eexists _, _. repeat split.
Qed.

Example C29_ex_otherwise : receive cx_loads cx_int (fun _ => true) cx_str cx_build (OText "<html>"%string) = Raised CDecode.
Proof. reflexivity. Qed.

(** ** C30: pairing *)

(** Transient clients: each attempt has its own connection, and the server's bytes on it are, whatever the timing, an
    initial part of the reply to the one line sent on it. *)
Theorem C30_transient :
  forall (T : Type) decode answer limit (evs : list cev) (line : list N) (t : T) a,
  is_line line -> received evs = line -> hd 0%N line <> 5%N -> (List.length line <= S limit)%nat ->
  decode line = Some t -> answer [] t = Some a ->
  cout (crun decode answer limit evs) = [] \/ cout (crun decode answer limit evs) = [a ++ [10%N]].
Proof. exact transient_reply. Qed.
Print Assumptions C30_transient.

(** Full claim for persistent connections: a response returned is the one to the call's own request. *)
Definition C30_persistent : Prop :=
  forall max evs i r, tasks (prun max evs) i = PDone (OText r) -> r = i.
(** False of the code.  After a timeout the late response to the first request is taken for the response to the next. *)
Definition late_reply : list pev :=
  [PStart false; POpened 0; PTimeout 0; PStart false; PAnswer 1; PAnswer 1; PData 1].
Theorem C30_persistent_refuted : ~ C30_persistent.
Proof. intros H. specialize (H 1 late_reply 1%nat 0%nat eq_refl). discriminate. Qed.
Print Assumptions C30_persistent_refuted.
(** It does not take a timeout: when two first calls open connections at the same time, a third call can read from the
    connection that was opened last although it wrote to the other one. *)
Definition racing_opens : list pev :=
  [PStart false; PStart false; POpened 0; PStart false; POpened 1; PAnswer 1; PData 0; PGrant; PAnswer 2; PData 2].
Theorem C30_persistent_without_timeout_refuted :
  ~ (forall max evs i r, (forall e, In e evs -> match e with PTimeout _ | PCancel _ | PDie _ => False | _ => True end) ->
     tasks (prun max evs) i = PDone (OText r) -> r = i).
Proof.
  intros H. assert (A : (1 = 2)%nat); [|discriminate]. apply (H 3 racing_opens); [|reflexivity].
  intros e He. cbn in He. repeat (destruct He as [<-|He]; [exact Logic.I|]). destruct He.
Qed.
Print Assumptions C30_persistent_without_timeout_refuted.
(** It holds, for any number of concurrent calls and heartbeats and whatever happens to the connections, if no read times
    out or is cancelled and no connection is opened while a call waits for its turn to read. *)
Theorem C30_persistent_partial :
  forall max evs, (forall e, In e evs -> match e with PTimeout _ | PCancel _ => False | _ => True end) ->
  (forall before i after, evs = before ++ POpened i :: after -> waiters (prun max before) = []) ->
  forall i r, tasks (prun max evs) i = PDone (OText r) -> r = i.
Proof. exact paired. Qed.
Print Assumptions C30_persistent_partial.
Definition cx_calm : list pev :=
  [PStart false; POpened 0; PStart false; PStart true; PAnswer 1; PData 0; PAnswer 1; PGrant; PData 1; PStart false; PAnswer 1; PGrant; PData 2;
   PDie 1; PGrant; PEnd 3 XEmpty; POpened 3; PWake 3; PAnswer 2; PData 3].
Example C30_ex_persistent :
  (forall e, In e cx_calm -> match e with PTimeout _ | PCancel _ => False | _ => True end) /\
  let s := prun 3 cx_calm in
  tasks s 0 = PDone (OText 0%nat) /\ tasks s 1 = PDone (OText 1%nat) /\ tasks s 2 = PDone ONone /\ tasks s 3 = PDone (OText 3%nat) /\
  waiters (prun 3 [PStart false]) = [] /\ waiters (prun 3 (firstn 16 cx_calm)) = [].
Proof.
  split; [|vm_compute; repeat split].
  intros e He. cbn in He. repeat (destruct He as [<-|He]; [exact Logic.I|]). destruct He.
Qed.

(** Full claim for datagram clients. *)
Definition C30_datagram : Prop :=
  forall max evs i r, dtasks (drun max evs) i = DDone (OText r) -> r = i.
(** False of the code: a reply that arrives after its timeout resolves the future of the next request. *)
Theorem C30_datagram_refuted : ~ C30_datagram.
Proof. intros H. specialize (H 1 [DStart; DTimeout 0; DStart; DReply 0] 1%nat 0%nat eq_refl). discriminate. Qed.
Print Assumptions C30_datagram_refuted.
(** It holds if no request times out and the network duplicates nothing; replies may be lost. *)
Theorem C30_datagram_partial :
  forall max evs, (forall e, In e evs -> match e with DTimeout _ | DCopy _ => False | _ => True end) ->
  forall i r, dtasks (drun max evs) i = DDone (OText r) -> r = i.
Proof. exact datagrams_paired. Qed.
Print Assumptions C30_datagram_partial.
Example C30_ex_datagram :
  let s := drun 3 [DStart; DStart; DStart; DReply 0; DGrant; DReply 1; DGrant; DReply 2] in
  dtasks s 0 = DDone (OText 0%nat) /\ dtasks s 1 = DDone (OText 1%nat) /\ dtasks s 2 = DDone (OText 2%nat).
Proof. vm_compute. repeat split. Qed.
(** Without the second condition even a network that only duplicates breaks it. *)
Example C30_ex_duplicate : dtasks (drun 3 [DStart; DCopy 0; DReply 0; DStart; DReply 0]) 1 = DDone (OText 0%nat).
Proof. reflexivity. Qed.
