(** What the command line tools should do. *)
From Coq Require Import List ZArith NArith Bool String Ascii.
From Verif Require Import Base SpanKeyModel SpanKeySpec RouterModel WireModel ConfigSpec ManageModel CliModel.
Import ListNotations.
Local Open Scope string_scope.

(** A server of type [t] with these details. *)
Inductive address : string -> string -> client -> Prop :=
| at_tcp : forall host port n, host <> "" -> numeral port n -> address "tcp" (host ++ ":" ++ port) (Tcp host n)
| at_udp : forall host port n, host <> "" -> numeral port n -> address "udp" (host ++ ":" ++ port) (Udp host n)
| at_uds : forall path, address "uds" path (Uds path).
Definition host_without_colon (c : client) : Prop := match c with Tcp h _ | Udp h _ => without ":"%char h | Uds _ => True end.
(** An option can be written in two ways. *)
Definition named (s l n : string) : Prop := n = s \/ n = l.
(** Values that the shell user need not protect from being taken for options. *)
Definition ordinary (s : string) : Prop := forall r, s <> String "-" r.

(** The options of bem and what they ask for. *)
Definition bem_asks : list (string * string * eop) :=
  [("-pr", "--pause_receiving", PauseReceiving); ("-pp", "--pause_processing", PauseProcessing); ("-pa", "--pause_all", PauseAll);
   ("-ur", "--unpause_receiving", UnpauseReceiving); ("-up", "--unpause_processing", UnpauseProcessing); ("-ua", "--unpause_all", UnpauseAll);
   ("-e10", "--error_10", First10); ("-rpa", "--reprocess_all", ReprocessAll); ("-clr", "--clear", Clear)].
Definition bem_asks_item : list (string * string * (N -> eop)) :=
  [("-rp1", "--reprocess_one", ReprocessOne); ("-ins", "--inspect_request", InspectRequest); ("-pop", "--pop_request", PopRequest)].
(** The options of bsm and what they ask for. *)
Definition bsm_asks : list (string * string * sop) :=
  [("-ps", "--pause_sending", SPauseSending); ("-us", "--unpause_sending", SUnpauseSending);
   ("-e10", "--error_10", SFirst10); ("-rpa", "--reprocess_all", SReprocessAll_); ("-clr", "--clear", SClear)].
Definition bsm_asks_item : list (string * string * (N -> sop)) :=
  [("-rp1", "--reprocess_one", SReprocessOne_); ("-ins", "--inspect_request", SInspectRequest); ("-pop", "--pop_request", SPopRequest)].

(** The groups of arguments that ask for an operation. *)
Inductive asks {A} (plain : list (string * string * A)) (items : list (string * string * (N -> A))) (none : A) : list (list string) -> A -> Prop :=
| asks_nothing : asks plain items none [] none
| asks_plain : forall s l n op, In (s, l, op) plain -> named s l n -> asks plain items none [[n]] op
| asks_item : forall s l n f k sk, In (s, l, f) items -> named s l n -> named "-sk" "--span_key" sk -> (k < 2 ^ 192)%N ->
    asks plain items none [[n]; [sk; key_text k]] (f k).
(** The request for an operation is among the arguments. *)
Definition requested (args : list string) (op : eop) : Prop :=
  op = Data \/ (exists s l n, In (s, l, op) bem_asks /\ named s l n /\ In n args) \/
  (exists s l n f k, op = f k /\ In (s, l, f) bem_asks_item /\ named s l n /\ In n args).
(** Every action of bem excludes every other one: a name of an action and the other ones. *)
Definition bem_action (s l : string) : Prop := (exists op, In (s, l, op) bem_asks) \/ (exists f, In (s, l, f) bem_asks_item).

(** The levels of log and the periods of stat. *)
Definition level_names : list (string * Z) := [("debug", 10); ("info", 20); ("warn", 30); ("error", 40); ("critical", 50)]%Z.
Definition period_names : list (string * period) := [("current", Current); ("gathered", LastGathered); ("full", Full)].
(** The groups of arguments of log and the order of what it asks for. *)
Inductive log_asks : list (list string) -> list admin -> Prop :=
| log_nothing : log_asks [] []
| log_level : forall n name v, named "-l" "--level" n -> In (name, v) level_names -> log_asks [[n; name]] [SetLevel v]
| log_size : forall n size v, named "-b" "--buff_size" n -> numeral size v -> log_asks [[n; size]] [SetBuffer v]
| log_both : forall n name v m size w, named "-l" "--level" n -> In (name, v) level_names -> named "-b" "--buff_size" m -> numeral size w ->
    log_asks [[n; name]; [m; size]] [SetLevel v; SetBuffer w].
Inductive stat_asks : list (list string) -> list admin -> Prop :=
| stat_default : stat_asks [] [GetStatistics Current]
| stat_type : forall n name v, named "-type" "--type" n -> In (name, v) period_names -> stat_asks [[n; name]] [GetStatistics v].

(** The program sends one request to the server [c], and whatever the key of the request, the application reads it as operation [op] on queue [r]. *)
Definition sends_as (out : outcome) (c : client) (r : string) (op : eop) : Prop :=
  exists route data, out = Sends c [(route, data)] /\ forall k, valid_key k -> endpoint_request (request_text route k data) = Some (r, op).
(** The same for the senders of an application. *)
Definition sends_to_sender (out : outcome) (c : client) (r : string) (op : sop) : Prop :=
  exists route data, out = Sends c [(route, data)] /\ forall k, valid_key k -> sender_request (request_text route k data) = Some (r, op).
(** The one request of [l] asks for nothing but what is among the arguments, on queue [r]. *)
Definition only_asked (args : list string) (r : string) (l : list (string * json)) : Prop :=
  exists route data, l = [(route, data)] /\ forall k r' op, valid_key k -> endpoint_request (request_text route k data) = Some (r', op) -> r' = r /\ requested args op.
(** Requests to the log and the statistics of the application, in this order. *)
Definition sends_admin (out : outcome) (c : client) (ops : list admin) : Prop :=
  exists l, out = Sends c l /\ forall k, valid_key k -> Forall2 (fun rq op => admin_request (request_text (fst rq) k (snd rq)) = Some op) l ops.
