(** C72: what the command line tools ask an application to do. *)
From Coq Require Import List ZArith NArith Bool String Ascii Permutation.
From Verif Require Import Base SpanKeyModel SpanKeySpec RouterModel WireModel ConfigSpec ManageModel CliModel CliSpec CliProofs.
Import ListNotations.
Local Open Scope string_scope.

(** ** bem *)
(** The full claim: a server, a queue and at most one action, in any order and with either name of each option, are asked for exactly that. *)
Definition C72_bem : Prop := forall st sd rk t d r c acts op gs,
  named "-st" "--server_type" st -> named "-sd" "--server_details" sd -> named "-rk" "--route_key" rk ->
  address t d c -> ordinary d -> ordinary r -> r <> "" -> asks bem_asks bem_asks_item Data acts op ->
  Permutation ([[st; t]; [sd; d]; [rk; r]] ++ acts)%list gs -> sends_as (bem (List.concat gs)) c r op.
(** Hosts with a colon cannot be reached: unpacking of split(":") fails. *)
Example ipv6_not_reached : bem ["-st"; "tcp"; "-sd"; "::1:8080"; "-rk"; "orders"; "-clr"] = Crashed "ValueError".
Proof. reflexivity. Qed.
Theorem C72_bem_refuted : ~ C72_bem.
Proof.
  intros H. assert (N : numeral "8080" 8080).
  { assert (D : forall n, (n < 10)%nat -> (48 <= nat_of_ascii (ascii_of_nat (48 + n)) <= 57)%nat) by (intros n L; do 10 (destruct n as [|n]; [vm_compute; repeat constructor|]); exfalso; Lia.lia).
    pose proof (num_more _ _ _ (num_more _ _ _ (num_more _ _ _ (num_one _ (D 8%nat ltac:(Lia.lia))) (D 0%nat ltac:(Lia.lia))) (D 8%nat ltac:(Lia.lia))) (D 0%nat ltac:(Lia.lia))) as X. vm_compute in X. exact X. }
  specialize (H "-st" "-sd" "-rk" "tcp" "::1:8080" "orders" (Tcp "::1" 8080) [] Data [["-st"; "tcp"]; ["-sd"; "::1:8080"]; ["-rk"; "orders"]] ltac:(now left) ltac:(now left) ltac:(now left)
    (at_tcp "::1" "8080" 8080 ltac:(discriminate) N) ltac:(intros r; discriminate) ltac:(intros r; discriminate) ltac:(discriminate) ltac:(constructor) (Permutation_refl _)).
  destruct H as (route & data & H & _). discriminate H.
Qed.
Theorem C72_bem_partial st sd rk t d r c acts op gs :
  named "-st" "--server_type" st -> named "-sd" "--server_details" sd -> named "-rk" "--route_key" rk ->
  address t d c -> host_without_colon c -> ordinary d -> ordinary r -> r <> "" -> asks bem_asks bem_asks_item Data acts op ->
  Permutation ([[st; t]; [sd; d]; [rk; r]] ++ acts)%list gs -> sends_as (bem (List.concat gs)) c r op.
Proof. apply bem_ok. Qed.
(** Whatever the arguments: at most one request is sent, about a queue and for an action that are among them. *)
Theorem C72_bem_only_what_was_asked args c l : bem args = Sends c l -> exists r, In r args /\ only_asked args r l.
Proof. apply bem_safe. Qed.
(** Two different actions: nothing is sent. *)
Theorem C72_bem_one_action args s1 l1 n1 s2 l2 n2 :
  bem_action s1 l1 -> named s1 l1 n1 -> In n1 args -> bem_action s2 l2 -> named s2 l2 n2 -> In n2 args -> s1 <> s2 -> bem args = Exit 2.
Proof. apply bem_excludes. Qed.
(** An action on one request without its key: nothing is sent. *)
Theorem C72_bem_needs_key args s l n f :
  In (s, l, f) bem_asks_item -> named s l n -> In n args -> (forall sk, named "-sk" "--span_key" sk -> ~ In sk args) -> forall c rqs, bem args <> Sends c rqs.
Proof. apply bem_needs_key. Qed.

Example ex_bem : bem ["--clear"; "-rk"; "orders"; "--server_type"; "uds"; "-sd"; "/run/shop.sock"] =
  Sends (Uds "/run/shop.sock") [("eco.buffered_handler.errors.clear", queue_request "orders")].
Proof. reflexivity. Qed.
Example ex_bem_item : exists data, bem ["-st"; "udp"; "-sd"; "shop:7000"; "-rk"; "orders"; "-pop"; "-sk"; key_text 77] = Sends (Udp "shop" 7000) [("eco.buffered_handler.errors.pop_request", data)].
Proof. eexists. vm_compute. reflexivity. Qed.
Example ex_asks : asks bem_asks bem_asks_item Data [["--pop_request"]; ["-sk"; key_text 77]] (PopRequest 77).
Proof. apply (asks_item _ _ _ "-pop" "--pop_request" _ PopRequest); [cbn; tauto|now right|now left|reflexivity]. Qed.
Example ex_address : address "uds" "/run/shop.sock" (Uds "/run/shop.sock") /\ host_without_colon (Uds "/run/shop.sock").
Proof. split; [constructor|exact I]. Qed.
Example ex_two : bem ["-st"; "uds"; "-sd"; "/run/shop.sock"; "-rk"; "orders"; "-clr"; "--pause_all"] = Exit 2.
Proof. reflexivity. Qed.
Example ex_action : bem_action "-clr" "--clear" /\ bem_action "-pop" "--pop_request".
Proof. split; [left; exists Clear|right; exists PopRequest]; cbn; tauto. Qed.
Example ex_no_key : bem ["-st"; "uds"; "-sd"; "/run/shop.sock"; "-rk"; "orders"; "-pop"] = Exit 1.
Proof. reflexivity. Qed.

(** ** bsm *)
(** The full claim, as for bem. *)
Definition C72_bsm : Prop := forall st sd rk t d r c acts op gs,
  named "-st" "--server_type" st -> named "-sd" "--server_details" sd -> named "-rk" "--route_key" rk ->
  address t d c -> host_without_colon c -> ordinary d -> ordinary r -> r <> "" -> asks bsm_asks bsm_asks_item SData acts op ->
  Permutation ([[st; t]; [sd; d]; [rk; r]] ++ acts)%list gs -> sends_to_sender (bsm (List.concat gs)) c r op.
(** Nothing is ever sent: the attributes that it checks first do not exist. *)
Theorem C72_bsm_sends_nothing args c l : bsm args <> Sends c l.
Proof. apply bsm_never. Qed.
Example ex_bsm : bsm ["-st"; "uds"; "-sd"; "/run/shop.sock"; "-rk"; "orders"; "-ps"] = Crashed "AttributeError".
Proof. reflexivity. Qed.
Theorem C72_bsm_refuted : ~ C72_bsm.
Proof.
  intros H. specialize (H "-st" "-sd" "-rk" "uds" "/run/shop.sock" "orders" (Uds "/run/shop.sock") [] SData [["-st"; "uds"]; ["-sd"; "/run/shop.sock"]; ["-rk"; "orders"]]
    ltac:(now left) ltac:(now left) ltac:(now left) (at_uds _) I ltac:(intros r; discriminate) ltac:(intros r; discriminate) ltac:(discriminate) ltac:(constructor) (Permutation_refl _)).
  destruct H as (route & data & H & _). exact (bsm_never _ _ _ H).
Qed.

(** ** log and stat *)
Theorem C72_log_partial st sd t d c acts ops gs : named "-st" "--server_type" st -> named "-sd" "--server_details" sd -> address t d c -> host_without_colon c -> ordinary d ->
  log_asks acts ops -> Permutation ([[st; t]; [sd; d]] ++ acts)%list gs -> sends_admin (log_tool (List.concat gs)) c ops.
Proof. apply log_ok. Qed.
Theorem C72_stat_partial st sd t d c acts ops gs : named "-st" "--server_type" st -> named "-sd" "--server_details" sd -> address t d c -> host_without_colon c -> ordinary d ->
  stat_asks acts ops -> Permutation ([[st; t]; [sd; d]] ++ acts)%list gs -> sends_admin (stat_tool (List.concat gs)) c ops.
Proof. apply stat_ok. Qed.
Example ex_log : log_tool ["-b"; "64"; "-l"; "warn"; "-st"; "uds"; "-sd"; "/run/shop.sock"] =
  Sends (Uds "/run/shop.sock") [("eco.log.level", JObj [("level", JStr "warn")]); ("eco.log.buffer", JObj [("size", JNum 64)])].
Proof. reflexivity. Qed.
Example ex_stat : stat_tool ["-st"; "uds"; "-sd"; "/run/shop.sock"; "-type"; "gathered"] = Sends (Uds "/run/shop.sock") [("eco.statistics.get", JObj [("type", JStr "gathered")])].
Proof. reflexivity. Qed.
Example ex_log_asks : log_asks [["-l"; "warn"]; ["-b"; "7"]] [SetLevel 30; SetBuffer 7].
Proof. constructor; [now left|cbn; tauto|now left|]. exact (num_one "7" ltac:(vm_compute; repeat constructor)). Qed.
Example ex_stat_asks : stat_asks [["--type"; "full"]] [GetStatistics Full].
Proof. constructor; [now right|cbn; tauto]. Qed.

Print Assumptions C72_bem_refuted.
Print Assumptions C72_bem_partial.
Print Assumptions C72_bem_only_what_was_asked.
Print Assumptions C72_bem_one_action.
Print Assumptions C72_bem_needs_key.
Print Assumptions C72_bsm_sends_nothing.
Print Assumptions C72_bsm_refuted.
Print Assumptions C72_log_partial.
Print Assumptions C72_stat_partial.
