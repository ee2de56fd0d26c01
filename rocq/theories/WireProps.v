(** Properties of the messages on the wire: C63, C64. *)
From Coq Require Import String Ascii ZArith NArith Bool Lia List Arith.
From Verif Require Import Base SpanKeyModel SpanKeySpec RouterModel RouterSpec RouterProofs JsonModel JsonSpec JsonProofs StreamModel StreamSpec StreamProofs
  ClientModel ClientSpec ClientProps WireModel WireSpec WireProofs WireProofs2.
Import ListNotations.
Local Open Scope Z_scope.

(** ** C63: the text of a message *)
(** What is written and read back, with any blanks around it, is the same value. *)
Theorem C63_round_trip : forall j w1 w2, proper j -> blank w1 -> blank w2 -> parse (w1 ++ print j ++ w2) = Some j.
Proof. exact round_trip. Qed.
Print Assumptions C63_round_trip.
(** Two values with the same text are the same. *)
Theorem C63_injective : forall j k, proper j -> proper k -> print j = print k -> j = k.
Proof.
  intros j k P Q E. pose proof (round_trip j EmptyString EmptyString P blank_nil blank_nil) as A.
  pose proof (round_trip k EmptyString EmptyString Q blank_nil blank_nil) as B. rewrite E in A. congruence.
Qed.
Print Assumptions C63_injective.
(** The text holds no byte below 32: no line feed, whatever the strings in it contain, and no ENQ. *)
Theorem C63_no_control_bytes : forall j, Forall (fun b => (32 <= b < 256)%N) (bytes (print j)).
Proof. exact visible_print. Qed.
Print Assumptions C63_no_control_bytes.
(** What is read is a value with distinct keys. *)
Theorem C63_read_is_proper : forall s j, parse s = Some j -> proper j.
Proof. exact parse_proper. Qed.
Print Assumptions C63_read_is_proper.

Definition wx_data : json :=
  JObj [("a", JArr [JNum (-120); JNum 0; JStr (String "010" (String "034" (String "092" (String "001" "z")))); JNull]); ("", JObj []); ("b", JBool true)]%string.
Lemma wx_proper : proper wx_data.
Proof. repeat (constructor; cbn [map fst snd]; try (cbn; intuition discriminate)). Qed.
Example C63_example : proper wx_data /\ blank (String " " (String "010" "")) /\
  print wx_data = "{""a"":[-120,0,""\n\""\\\u0001z"",null],"""":{},""b"":true}"%string /\
  parse " { ""x"" : 1, ""x"" : [ ] } "%string = Some (JObj [("x", JArr [])]%string) /\ parse "{""x"":1}}"%string = None.
Proof.
  split; [exact wx_proper|]. split; [unfold blank; cbn; repeat (constructor; [cbn; auto|]); constructor|]. vm_compute. repeat split.
Qed.

(** ** C64: requests and responses *)
(** The server reads from a client's message exactly the route, the span key and the data that were sent. *)
Theorem C64_request : forall route k data, valid_key k -> proper data ->
  server_read (request_text route k data) = Some (mkReq route k data) /\
  exists d, server_loads (request_text route k data) = Ret (JObj d) /\ describes key_of_json d (mkReq route k data).
Proof.
  intros route k data V P. split; [now apply read_request|]. exists (request_dict route k data). split; [now apply loads_request|].
  apply request_of_describes. pose proof (read_request route k data V P) as R. unfold server_read in R. now rewrite loads_request in R.
Qed.
Print Assumptions C64_request.
(** Every message is one line, and it is not an enquiry. *)
Theorem C64_one_line : forall route k data span s,
  is_line (bytes (request_text route k data)) /\ hd 0%N (bytes (request_text route k data)) <> 5%N /\
  is_line (bytes (response_text span s data)) /\ hd 0%N (bytes (response_text span s data)) <> 6%N.
Proof. intros. split; [apply text_line|]. split; [discriminate|]. split; [apply text_line|discriminate]. Qed.
Print Assumptions C64_one_line.
(** White space around a message makes no difference to the server, and nothing but white space may stand before the request. *)
Theorem C64_white_space : forall before t after, white before -> white after -> server_read (before ++ t ++ after) = server_read t.
Proof. exact read_around. Qed.
Print Assumptions C64_white_space.
Theorem C64_nothing_before : forall t r, server_read t = Some r -> exists before rest, white before /\ t = (before ++ String "{" rest)%string.
Proof. exact read_begins. Qed.
Print Assumptions C64_nothing_before.
(** The client reads from the server's message exactly the status and the data. *)
Theorem C64_response : forall span s data, proper data -> (forall k, span = Some k -> valid_key k) ->
  well_formed parse client_int client_span_ok (response_text span s data) s data.
Proof.
  intros span s data P V. exists (response_dict span s data), (JNum s). split; [now apply loads_response|].
  repeat split. change (sget "span_key" (response_dict span s data)) with (Some (opt_key span)).
  destruct span as [k|]; [|reflexivity]. cbn [opt_key client_span_ok key_json]. fold (key_json k). now rewrite key_round_trip by auto.
Qed.
Print Assumptions C64_response.
(** So whatever the DTO class makes of the fields the server answered with is what the client's call returns. *)
Theorem C64_answer : forall (D : Type) str_of (build : list (string * json) -> option D) k fields x, proper (JObj fields) -> valid_key k ->
  build fields = Some x ->
  receive parse client_int client_span_ok str_of build (OText (response_text (Some k) 0 (JObj fields))) = Returned x.
Proof.
  intros D str_of build k fields x P V B.
  eapply (C29_documented_partial D parse client_int client_span_ok str_of build); [apply C64_response|..]; try reflexivity; auto.
  intros ? E. injection E as <-. exact V.
Qed.
Print Assumptions C64_answer.
(** A client returns nothing for a message whose span key it cannot read. *)
Theorem C64_only_readable_keys : forall (D : Type) str_of (build : list (string * json) -> option D) text d j x,
  parse text = Some (JObj d) -> sget "span_key" d = Some j -> receive parse client_int client_span_ok str_of build (OText text) = Returned x ->
  j = JNull \/ exists k, key_of_json j = Some k.
Proof.
  intros D str_of build text d j x P K. unfold receive. rewrite P. unfold response_of. rewrite K.
  destruct (sget "status" d); [|discriminate]. destruct (sget "data" d); [|discriminate]. destruct (client_int _); [|discriminate].
  unfold client_span_ok. destruct j; auto; destruct (key_of_json _) as [k|] eqn:E; try discriminate; intros _; right; exists k; reflexivity.
Qed.
Print Assumptions C64_only_readable_keys.
Example C64_example_unreadable : exists d j, parse (response_text None 0 (JObj [])) = Some (JObj d) /\ sget "span_key" d = Some j /\
  receive parse client_int client_span_ok (fun _ => EmptyString) (fun _ => Some tt) (OText (response_text None 0 (JObj []))) = Returned tt /\
  receive parse client_int client_span_ok (fun _ => EmptyString) (fun _ => Some tt) (OText "{""span_key"": 7, ""status"": 0, ""data"": {}}"%string) = Raised CPydantic.
Proof. eexists _, _. repeat split; vm_compute; reflexivity. Qed.
(** Over a connection: whatever the requests and however their bytes arrive, the server answers exactly these requests, in
    order. [reply] is any function from the requests read so far ([None]: unreadable). *)
Theorem C64_connection : forall reply limit evs (c : conn string) rs,
  c = crun (fun b => Some (of_bytes b)) (fun before t => Some (reply (map server_read before) (server_read t))) limit evs ->
  received evs = concat (map (fun r => bytes (request_text (rroute r) (rspan r) (rdata r))) rs) ->
  Forall (fun r => valid_key (rspan r) /\ proper (rdata r) /\
                   (List.length (bytes (request_text (rroute r) (rspan r) (rdata r))) <= S limit)%nat) rs ->
  lost evs = false -> (forall t, cst c <> Handling t) ->
  cout c = in_turn reply [] rs.
Proof.
  intros reply limit evs c rs -> R F L H. rewrite written_all by auto. rewrite R. fold sent.
  assert (E : lines (concat (map sent rs)) = map sent rs).
  { rewrite <- (app_nil_r (concat _)), lines_concat; [apply app_nil_r|]. apply Forall_map, Forall_forall. intros. apply text_line. }
  rewrite E. apply (wire_run reply limit rs []). exact F.
Qed.
Print Assumptions C64_connection.

Definition wx_key : span_key := mkKey 0x0123456789abcdef0011223344556677 0xfedcba9876543210.
Example C64_example_key : valid_key wx_key.
Proof. unfold valid_key. cbn. lia. Qed.
Example C64_example :
  request_text "app.add" wx_key (JObj [("x", JNum 20)]%string) =
    ("{""route_key"":""app.add"",""span_key"":{""trace_id"":""01234567-89ab-cdef-0011-223344556677"",""span_id"":""fedcba9876543210""},""data"":{""x"":20}}" ++ lf)%string /\
  server_read ("{""data"":null,""extra"":1,""span_key"":{""span_id"":255,""trace_id"":""01234567-89ab-cdef-0011-223344556677""},""route_key"":""r""}" ++ lf)%string
    = Some (mkReq "r"%string (mkKey 0x0123456789abcdef0011223344556677 255) JNull) /\
  server_read "{""route_key"":""r""}"%string = None.
Proof. vm_compute. repeat split. Qed.
(** A form feed and a record separator around the message are white space; a NUL is not. *)
Example C64_example_white : white (String "012" (String "030" "")) /\
  let m := request_text "r" wx_key JNull in
  server_read (String "012" (String "030" "") ++ m ++ String "011" "")%string = Some (mkReq "r"%string wx_key JNull) /\ server_read (String "000" m) = None.
Proof. split; [unfold white; cbn; repeat (constructor; [tauto|]); constructor|]. cbv zeta. split; vm_compute; reflexivity. Qed.
(** Two requests in three chunks. *)
Definition wx_reqs : list (request span_key) := [mkReq "app.add"%string wx_key wx_data; mkReq "b"%string wx_key JNull].
Definition wx_sent (r : request span_key) : list N := bytes (request_text (rroute r) (rspan r) (rdata r)).
Definition wx_reply (before : list (option (request span_key))) (r : option (request span_key)) : list N :=
  match r with Some r => N.of_nat (List.length before) :: bytes (rroute r) | None => [] end.
Example C64_example_connection :
  let bs := concat (map wx_sent wx_reqs) in
  let evs := [EFeed (firstn 40 bs); EFeed (skipn 40 bs); EDone; EDone; EEof] in
  let c := crun (fun b => Some (of_bytes b)) (fun before t => Some (wx_reply (map server_read before) (server_read t))) 400 evs in
  received evs = concat (map wx_sent wx_reqs) /\ map (fun r => List.length (wx_sent r)) wx_reqs = [174; 122]%nat /\ lost evs = false /\ cst c = Closed /\
  cout c = [[0; 97; 112; 112; 46; 97; 100; 100; 10]; [1; 98; 10]]%N.
Proof. cbv zeta. split; [vm_compute; reflexivity|]. split; [vm_compute; reflexivity|]. split; [vm_compute; reflexivity|]. split; vm_compute; reflexivity. Qed.
