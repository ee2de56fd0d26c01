(** C140: what the words on a command line are taken for. *)
From Coq Require Import List ZArith NArith Bool String Ascii Permutation.
From Verif Require Import Base SpanKeyModel SpanKeySpec RouterModel WireModel ConfigSpec ManageModel CliModel CliSpec CliProofs ArgModel ArgSpec ArgProofs ArgProofs2.
Import ListNotations.
Local Open Scope string_scope.

(** The full claim: bem asks for an operation only if it was spelled out. *)
Definition C140_spelled_out : Prop := forall args c l, bem_line args = Sends c l -> spelled_out args l.
(** "-c", the configuration file of an application, clears the errors of the queue. *)
Example ex_c : bem_line ["-st"; "uds"; "-sd"; "/run/shop.sock"; "-rk"; "orders"; "-c"] =
  Sends (Uds "/run/shop.sock") [("eco.buffered_handler.errors.clear", queue_request "orders")].
Proof. vm_compute. reflexivity. Qed.
Theorem C140_spelled_out_refuted : ~ C140_spelled_out.
Proof.
  intros H. assert (V : valid_key (key_of_N 0)) by (apply key_of_N_valid; reflexivity).
  specialize (H _ _ _ ex_c _ _ (key_of_N 0) "orders" Clear (or_introl eq_refl) V ltac:(rewrite arrives by auto using proper_queue; reflexivity)).
  destruct H as [H|[(s & l & n & B & N & I)|(s & l & n & f & k & E & B & N & I)]]; [discriminate| |].
  - cbn in B. repeat (destruct B as [B|B]; [try discriminate B|]); try (destruct B; fail). injection B as <- <-. destruct N as [-> | ->]; cbn in I; repeat (destruct I as [I|I]; [discriminate I|]); destruct I.
  - cbn in B. repeat (destruct B as [B|B]; [injection B as <- <- <-; discriminate E|]). destruct B.
Qed.
(** What is true: whatever the arguments, at most one request is sent, about the queue that they give, and one of them is a name of the
    operation or the beginning of one of its names and of no other name. *)
Theorem C140_only_what_was_said_partial args c l : bem_line args = Sends c l -> exists r, gives bem_options args route_key_option r /\ only_said args r l.
Proof. apply bem_line_safe. Qed.
(** The key of a request about one request is a key that the arguments give. *)
Theorem C140_key_was_given args c l route data k r op s l' f n : bem_line args = Sends c l -> In (route, data) l -> valid_key k -> endpoint_request (request_text route k data) = Some (r, op) ->
  In (s, l', f) bem_asks_item -> op = f n -> exists text key, gives bem_options args span_key_option text /\ key_of_text (to_text text) = Ok key /\ (valid_key key -> n = N_of_key key).
Proof. intros H. now apply (bem_line_key args c l H). Qed.
(** The words that clear the errors, and those that take a request from them. *)
Theorem C140_words_for_clear a : (means bem_options a "-clr" \/ means bem_options a "--clear") <->
  In a ["-c"; "-cl"; "-clr"; "--c"; "--cl"; "--cle"; "--clea"; "--clear"].
Proof.
  rewrite <- !words_ok. change ["-c"; "-cl"; "-clr"; "--c"; "--cl"; "--cle"; "--clea"; "--clear"] with (words bem_options "-clr" ++ words bem_options "--clear")%list. now rewrite in_app_iff.
Qed.
Theorem C140_words_for_pop a : (means bem_options a "-pop" \/ means bem_options a "--pop_request") <->
  In a ["-po"; "-pop"; "--po"; "--pop"; "--pop_"; "--pop_r"; "--pop_re"; "--pop_req"; "--pop_requ"; "--pop_reque"; "--pop_reques"; "--pop_request"].
Proof.
  rewrite <- !words_ok.
  change ["-po"; "-pop"; "--po"; "--pop"; "--pop_"; "--pop_r"; "--pop_re"; "--pop_req"; "--pop_requ"; "--pop_reque"; "--pop_reques"; "--pop_request"] with
    (words bem_options "-pop" ++ words bem_options "--pop_request")%list. now rewrite in_app_iff.
Qed.
(** Two different actions, whichever words are used for them: nothing is sent. *)
Theorem C140_one_action args s1 l1 n1 a1 s2 l2 n2 a2 :
  bem_action s1 l1 -> named s1 l1 n1 -> means bem_options a1 n1 -> In a1 args -> bem_action s2 l2 -> named s2 l2 n2 -> means bem_options a2 n2 -> In a2 args -> s1 <> s2 ->
  forall c l, bem_line args <> Sends c l.
Proof. apply bem_line_excludes. Qed.
(** The proper commands of C72 are understood. *)
Theorem C140_bem_understands st sd rk t d r c acts op gs :
  named "-st" "--server_type" st -> named "-sd" "--server_details" sd -> named "-rk" "--route_key" rk ->
  address t d c -> host_without_colon c -> ordinary d -> ordinary r -> r <> "" -> asks bem_asks bem_asks_item Data acts op ->
  Permutation ([[st; t]; [sd; d]; [rk; r]] ++ acts)%list gs -> sends_as (bem_line (List.concat gs)) c r op.
Proof.
  intros A1 A2 A3 A4 A5 A6 A7 A8 A9 A10. destruct (bem_ok st sd rk t d r c acts op gs A1 A2 A3 A4 A5 A6 A7 A8 A9 A10) as (route & data & E & F).
  exists route, data. split; [exact (tool_read bem_options _ _ _ _ eq_refl E)|exact F].
Qed.
Theorem C140_log_understands st sd t d c acts ops gs : named "-st" "--server_type" st -> named "-sd" "--server_details" sd -> address t d c -> host_without_colon c -> ordinary d ->
  log_asks acts ops -> Permutation ([[st; t]; [sd; d]] ++ acts)%list gs -> sends_admin (log_line (List.concat gs)) c ops.
Proof.
  intros A1 A2 A3 A4 A5 A6 A7. destruct (log_ok st sd t d c acts ops gs A1 A2 A3 A4 A5 A6 A7) as (l & E & F). exists l. split; [exact (tool_read log_options _ _ _ _ eq_refl E)|exact F].
Qed.
Theorem C140_stat_understands st sd t d c acts ops gs : named "-st" "--server_type" st -> named "-sd" "--server_details" sd -> address t d c -> host_without_colon c -> ordinary d ->
  stat_asks acts ops -> Permutation ([[st; t]; [sd; d]] ++ acts)%list gs -> sends_admin (stat_line (List.concat gs)) c ops.
Proof.
  intros A1 A2 A3 A4 A5 A6 A7. destruct (stat_ok st sd t d c acts ops gs A1 A2 A3 A4 A5 A6 A7) as (l & E & F). exists l. split; [exact (tool_read stat_options _ _ _ _ eq_refl E)|exact F].
Qed.
(** bsm sends nothing, whatever the arguments. *)
Theorem C140_bsm_sends_nothing args c l : bsm_line args <> Sends c l.
Proof. apply bsm_line_never. Qed.
(** An application that starts has the instance id that was given, and an id given behind "=" may be any text. *)
Theorem C140_instance_was_given args ns v : app_line args = Reads ns -> sget "instance" ns = Some v -> exists s o, v = VStr s /\ In o app_options /\ dest o = "instance" /\ gives app_options args o s.
Proof.
  intros R S. destruct (read_needed app_options args ns (mkOpt "-i" "--instance" "instance" Text true VNone false) v eq_refl R (or_introl eq_refl) eq_refl S) as (o & I & E & C).
  cbn [dest] in E. assert (X := I). cbn in X. repeat (destruct X as [<-|X]; [try discriminate E|]); try (destruct X; fail).
  destruct C as [(K & _)|(_ & s & G & V)]; [discriminate K|]. injection V as <-. exists s. eexists. split; [reflexivity|]. split; [exact I|]. auto.
Qed.
Theorem C140_instance_after_equals s : app_line ["--instance=" ++ s] = Reads [("instance", VStr s); ("config_file", VNone); ("log_console_only", VFalse); ("log_file_only", VFalse)] /\
  app_line ["-i=" ++ s] = app_line ["--instance=" ++ s].
Proof. split; destruct s; reflexivity. Qed.
Theorem C140_instance_after_name s : ordinary s -> app_line ["-i"; s] = app_line ["--instance=" ++ s] /\ app_line ["--instance"; s] = app_line ["--instance=" ++ s].
Proof.
  intros O. apply ordinary_dashed in O. rewrite (proj1 (C140_instance_after_equals s)). assert (N : String.eqb s "--" = false) by (destruct (String.eqb_spec s "--") as [->|]; [discriminate|reflexivity]).
  assert (P : parse_optional app_options s = Some Value) by (unfold parse_optional; now rewrite O).
  assert (C : classify app_options [s] = Some [(s, Value)]) by (cbn [classify]; now rewrite N, P).
  split; unfold app_line, read_args.
  - replace (classify app_options ["-i"; s]) with (Some [("-i", Wants (sget "-i" (names app_options)) "-i" false None); (s, Value)]); [reflexivity|].
    change (classify app_options ["-i"; s]) with (option_map (cons ("-i", Wants (sget "-i" (names app_options)) "-i" false None)) (classify app_options [s])). now rewrite C.
  - replace (classify app_options ["--instance"; s]) with (Some [("--instance", Wants (sget "--instance" (names app_options)) "--instance" false None); (s, Value)]); [reflexivity|].
    change (classify app_options ["--instance"; s]) with (option_map (cons ("--instance", Wants (sget "--instance" (names app_options)) "--instance" false None)) (classify app_options [s])). now rewrite C.
Qed.

Example ex_pop : bem_line ["-st=uds"; "--server_d=/run/shop.sock"; "--ro"; "orders"; "--po"; "-sk=" ++ key_text 77] =
  bem ["-st"; "uds"; "-sd"; "/run/shop.sock"; "-rk"; "orders"; "-pop"; "-sk"; key_text 77].
Proof. vm_compute. reflexivity. Qed.
Example ex_key : exists data, bem_line ["-st=uds"; "-sd=x"; "--ro"; "orders"; "--po"; "--sp=" ++ key_text 77] = Sends (Uds "x") [("eco.buffered_handler.errors.pop_request", data)] /\
  endpoint_request (request_text "eco.buffered_handler.errors.pop_request" (key_of_N 5) data) = Some ("orders", PopRequest 77).
Proof. exists (item_request "orders" (key_of_N 77)). split; vm_compute; reflexivity. Qed.
Example ex_said : exists r, gives bem_options ["-st=uds"; "-sd=x"; "--ro"; "orders"; "--po"] route_key_option r.
Proof.
  exists "orders". left. exists "--ro", "--route_key", ["-st=uds"; "-sd=x"], ["--po"]. split; [now right|]. split; [|reflexivity]. apply meansb_ok. reflexivity.
Qed.
Example ex_two_words : bem_action "-clr" "--clear" /\ means bem_options "-c" "-clr" /\ bem_action "-ins" "--inspect_request" /\ means bem_options "--i" "--inspect_request" /\
  bem_line ["-st"; "uds"; "-sd"; "/run/shop.sock"; "-rk"; "orders"; "-c"; "--i"] = Exit 2.
Proof.
  split; [left; exists Clear; cbn; tauto|]. split; [apply meansb_ok; reflexivity|]. split; [right; exists InspectRequest; cbn; tauto|]. split; [apply meansb_ok; reflexivity|]. vm_compute. reflexivity.
Qed.
Example ex_ambiguous : bem_line ["-st"; "uds"; "-sd"; "/run/shop.sock"; "-rk"; "orders"; "-r"] = Exit 2.
Proof. vm_compute. reflexivity. Qed.
Example ex_help : bem_line ["-clr"; "--he"] = Exit 0 /\ log_line ["-hb5"] = Exit 0.
Proof. split; vm_compute; reflexivity. Qed.
Example ex_log_joined : log_line ["-st"; "uds"; "-sd=/run/shop.sock"; "-b64"; "--lev=warn"] =
  Sends (Uds "/run/shop.sock") [("eco.log.level", JObj [("level", JStr "warn")]); ("eco.log.buffer", JObj [("size", JNum 64)])].
Proof. vm_compute. reflexivity. Qed.
Example ex_instance : exists ns, app_line ["--inst"; "blue"; "-lco"] = Reads ns /\ sget "instance" ns = Some (VStr "blue").
Proof. eexists. split; [reflexivity|reflexivity]. Qed.

Print Assumptions C140_spelled_out_refuted.
Print Assumptions C140_only_what_was_said_partial.
Print Assumptions C140_key_was_given.
Print Assumptions C140_words_for_clear.
Print Assumptions C140_words_for_pop.
Print Assumptions C140_one_action.
Print Assumptions C140_bem_understands.
Print Assumptions C140_log_understands.
Print Assumptions C140_stat_understands.
Print Assumptions C140_bsm_sends_nothing.
Print Assumptions C140_instance_was_given.
Print Assumptions C140_instance_after_equals.
Print Assumptions C140_instance_after_name.
