(** Model of the command line tools of ekosis/cli: bem.py, bsm.py, log.py, stat.py, shared_functions.py, shared_argument_parser.py,
    shared_queue_argument_parser.py, senders/*; and of how the application reads what they send (the [@endpoint] lines of
    standard_endpoints/buffered_handler_manager.py and buffered_sender_manager.py, the request DTOs of queue_management.py).

    - Of argparse: options with their exact names, flags, options with one value, choices, required options and the group of options
      that exclude each other. Left out here and modelled in ArgModel.v: abbreviated names, "--name=value" and values that begin with "-".
    - What is printed is left out; an outcome is the requests that are sent, in order, if every one of them is answered. *)
From Coq Require Import List ZArith NArith Bool String Ascii.
From Verif Require Import Base SpanKeyModel RouterModel WireModel ConfigModel ManageModel.
Import ListNotations.
Local Open Scope string_scope.

(** ** argparse *)
Inductive value := VNone | VFalse | VTrue | VStr (s : string) | VInt (n : Z).
Inductive okind := Flag | Text | Choice (l : list string) | Number.
Record opt := mkOpt { short : string; long : string; dest : string; kind : okind; needed : bool; default : value; alone : bool }.
Definition flag (s l d : string) : opt := mkOpt s l d Flag false VFalse true.

(** shared_argument_parser.py 7-26 *)
Definition shared_options : list opt :=
  [mkOpt "-st" "--server_type" "server_type" (Choice ["tcp"; "udp"; "uds"]) true VNone false;
   mkOpt "-sd" "--server_details" "server_details" Text true VNone false].
(** shared_queue_argument_parser.py 3-10 *)
Definition route_key_option : opt := mkOpt "-rk" "--route_key" "route_key" Text true VNone false.
(** shared_queue_argument_parser.py 15-32 *)
Definition setup_shared_options : list opt :=
  [flag "-e10" "--error_10" "error_10"; flag "-rp1" "--reprocess_one" "reprocess_one"; flag "-rpa" "--reprocess_all" "reprocess_all";
   flag "-ins" "--inspect_request" "inspect_request"; flag "-pop" "--pop_request" "pop_request"; flag "-clr" "--clear" "clear";
   mkOpt "-sk" "--span_key" "span_key" Text false VNone false].
(** shared_queue_argument_parser.py 35-42 *)
Definition bem_options : list opt :=
  (shared_options ++ [route_key_option] ++
   [flag "-pr" "--pause_receiving" "pause_receiving"; flag "-pp" "--pause_processing" "pause_processing";
    flag "-ur" "--unpause_receiving" "unpause_receiving"; flag "-up" "--unpause_processing" "unpause_processing";
    flag "-pa" "--pause_all" "pause_all"; flag "-ua" "--unpause_all" "unpause_all"] ++ setup_shared_options)%list.
(** shared_queue_argument_parser.py 45-48 *)
Definition bsm_options : list opt :=
  (shared_options ++ [route_key_option] ++
   [flag "-ps" "--pause_sending" "pause_sending"; flag "-us" "--unpause_sending" "unpause_sending"] ++ setup_shared_options)%list.
(** log.py 9-29 *)
Definition log_options : list opt :=
  (shared_options ++ [mkOpt "-l" "--level" "level" (Choice ["debug"; "info"; "warn"; "error"; "critical"]) false VNone false;
                      mkOpt "-b" "--buff_size" "buff_size" Number false VNone false])%list.
(** stat.py 9-20 *)
Definition stat_options : list opt :=
  (shared_options ++ [mkOpt "-type" "--type" "type" (Choice ["current"; "gathered"; "full"]) false (VStr "current") false])%list.

Definition find_option (opts : list opt) (name : string) : option opt := find (fun o => String.eqb (short o) name || String.eqb (long o) name) opts.
Definition dashed (s : string) : bool := match s with String c _ => Ascii.eqb c "-" | EmptyString => false end.
(** Conversion and check of the value of an option; [None]: argparse ends the program. *)
Definition convert (k : okind) (s : string) : option value :=
  match k with
  | Flag => None
  | Text => Some (VStr s)
  | Choice l => if existsb (String.eqb s) l then Some (VStr s) else None
  | Number => match int s with Ok n => Some (VInt n) | Raise _ => None end
  end.
(** Options that were already given and exclude [o]. *)
Definition excluded (opts : list opt) (given : list (string * value)) (o : opt) : bool :=
  alone o && existsb (fun p => alone p && negb (String.eqb (dest p) (dest o)) && shas (dest p) given) opts.
(** parse_args(): [None] is the end of the program with status 2. *)
Fixpoint take (opts : list opt) (given : list (string * value)) (args : list string) {struct args} : option (list (string * value)) :=
  match args with
  | [] => Some given
  | a :: rest =>
      match find_option opts a with
      | None => None
      | Some o =>
          if excluded opts given o then None else
          match kind o with
          | Flag => take opts (sset (dest o) VTrue given) rest
          | k => match rest with
                 | [] => None
                 | v :: rest' => if dashed v then None else
                                 match convert k v with Some x => take opts (sset (dest o) x given) rest' | None => None end
                 end
          end
      end
  end.
(** The Namespace: every declared attribute with its value. *)
Definition namespace := list (string * value).
Definition parse_args (opts : list opt) (args : list string) : option namespace :=
  match take opts [] args with
  | None => None
  | Some given => if forallb (fun o => implb (needed o) (shas (dest o) given)) opts
                  then Some (map (fun o => (dest o, match sget (dest o) given with Some v => v | None => default o end)) opts)
                  else None
  end.
(** Reading an attribute of the Namespace. *)
Definition attr (ns : namespace) (n : string) : res value := match sget n ns with Some v => Ok v | None => Raise "AttributeError" end.
(** Its truth in an [if]. *)
Definition truth (v : value) : bool :=
  match v with VNone | VFalse => false | VTrue => true | VStr s => negb (String.eqb s "") | VInt n => negb (Z.eqb n 0) end.

(** ** What a tool does *)
Inductive client := Tcp (host : string) (port : Z) | Udp (host : string) (port : Z) | Uds (path : string).
Inductive outcome := Exit (code : Z) | Crashed (e : string) | Sends (c : client) (requests : list (string * json)).
(** Values are read with exceptions; an outcome may end the program. *)
Definition get {A} (r : res A) (f : A -> outcome) : outcome := match r with Ok a => f a | Raise e => Crashed e end.

(** shared_functions.py 9-15; print_error is called with one argument of two *)
Definition make_tcp_udp_host_port (details : string) : res (string * Z) :=
  match split_colon details with
  | (host, [port]) => if String.eqb host "" then Raise "TypeError" else if String.eqb port "" then Raise "TypeError"
                      else bind (int port) (fun n => Ok (host, n))
  | _ => Raise "ValueError"
  end.
(** shared_functions.py 18-27 *)
Definition get_client (ns : namespace) (f : client -> outcome) : outcome :=
  get (attr ns "server_type") (fun t => get (attr ns "server_details") (fun d =>
    let details := match d with VStr s => s | _ => "" end in
    match t with
    | VStr "tcp" => get (make_tcp_udp_host_port details) (fun hp => f (Tcp (fst hp) (snd hp)))
    | VStr "udp" => get (make_tcp_udp_host_port details) (fun hp => f (Udp (fst hp) (snd hp)))
    | _ => f (Uds details)
    end)).
(** shared_functions.py 39-43, where the list of attributes is evaluated first *)
Fixpoint attrs (ns : namespace) (l : list string) : res (list value) :=
  match l with [] => Ok [] | n :: r => bind (attr ns n) (fun v => bind (attrs ns r) (fun vs => Ok (v :: vs))) end.
Definition any_true_check (l : list value) : bool := existsb truth l.

(** queue_management_sender_base.py 32-44, 48-62: the request DTOs (queue_management.py 6-11) as they are sent *)
Definition queue_request (r : string) : json := JObj [("queue_route_key", JStr r)].
Definition item_request (r : string) (k : span_key) : json := JObj [("queue_route_key", JStr r); ("span_key", key_json k)].
(** if command_line_args.x: await Sender(client).send(route_key); return *)
Fixpoint first_flag (ns : namespace) (l : list (string * string)) (found : string -> outcome) (none : outcome) : outcome :=
  match l with
  | [] => none
  | (n, route) :: r => get (attr ns n) (fun v => if truth v then found route else first_flag ns r found none)
  end.
(** buffered_endpoint_management.py *)
Definition bem_plain : list (string * string) :=
  [("pause_receiving", "eco.buffered_handler.receiving.pause"); ("pause_processing", "eco.buffered_handler.processing.pause");
   ("pause_all", "eco.buffered_handler.all.pause"); ("unpause_receiving", "eco.buffered_handler.receiving.unpause");
   ("unpause_processing", "eco.buffered_handler.processing.unpause"); ("unpause_all", "eco.buffered_handler.all.unpause");
   ("error_10", "eco.buffered_handler.errors.get_first_10"); ("reprocess_all", "eco.buffered_handler.errors.reprocess.all");
   ("clear", "eco.buffered_handler.errors.clear")].
Definition bem_items : list (string * string) :=
  [("reprocess_one", "eco.buffered_handler.errors.reprocess.one"); ("inspect_request", "eco.buffered_handler.errors.inspect_request");
   ("pop_request", "eco.buffered_handler.errors.pop_request")].
(** bem.py 80-92, bsm.py 67-79 *)
Definition item_actions (ns : namespace) (c : client) (r : string) (items : list (string * string)) : outcome :=
  get (attr ns "span_key") (fun sk =>
    match sk with
    | VStr s => if String.eqb s "" then Exit 1
                else get (key_of_text (to_text s)) (fun k =>
                  first_flag ns items (fun route => Sends c [(route, item_request r k)]) (Sends c []))
    | _ => Exit 1
    end).
(** bem.py 31-92 *)
Definition do_endpoint_action (ns : namespace) (c : client) (r : string) : outcome :=
  get (attrs ns ["pause_receiving"; "pause_processing"; "pause_all"; "unpause_receiving"; "unpause_processing"; "unpause_all"; "error_10";
                 "reprocess_all"; "clear"; "reprocess_one"; "inspect_request"; "pop_request"]) (fun vs =>
    if negb (any_true_check vs) then Sends c [("eco.buffered_handler.data", queue_request r)]
    else first_flag ns bem_plain (fun route => Sends c [(route, queue_request r)]) (item_actions ns c r bem_items)).
(** bem.py 95-103, bsm.py 82-90 *)
Definition queue_main (ns : namespace) (act : client -> string -> outcome) : outcome :=
  get_client ns (fun c => get (attr ns "route_key") (fun r =>
    match r with VStr s => if String.eqb s "" then Exit 1 else act c s | _ => Exit 1 end)).
Definition tool (opts : list opt) (main : namespace -> outcome) (args : list string) : outcome :=
  match parse_args opts args with None => Exit 2 | Some ns => main ns end.
Definition bem : list string -> outcome := tool bem_options (fun ns => queue_main ns (do_endpoint_action ns)).

(** buffered_sender_management.py *)
Definition bsm_plain : list (string * string) :=
  [("pause_all", "eco.buffered_sender.send_process.pause"); ("unpause_all", "eco.buffered_sender.send_process.unpause");
   ("error_10", "eco.buffered_sender.errors.get_first_10"); ("reprocess_all", "eco.buffered_sender.errors.reprocess.all");
   ("clear", "eco.buffered_sender.errors.clear")].
Definition bsm_items : list (string * string) :=
  [("reprocess_one", "eco.buffered_sender.errors.reprocess.one"); ("inspect_request", "eco.buffered_sender.errors.inspect_request");
   ("pop_request", "eco.buffered_sender.errors.pop_request")].
(** [a or b or ...] *)
Fixpoint any_attr (ns : namespace) (l : list string) : res bool :=
  match l with [] => Ok false | n :: r => bind (attr ns n) (fun v => if truth v then Ok true else any_attr ns r) end.
(** bsm.py 27-79 *)
Definition do_sender_action (ns : namespace) (c : client) (r : string) : outcome :=
  get (any_attr ns ["pause_receiving"; "pause_processing"; "unpause_receiving"; "unpause_processing"]) (fun b =>
    if b then Exit 1 else
    get (attr ns "data") (fun d =>
      let rest := first_flag ns bsm_plain (fun route => Sends c [(route, queue_request r)]) (item_actions ns c r bsm_items) in
      let data := Sends c [("eco.buffered_sender.data", queue_request r)] in
      if truth d then data else
      get (attrs ns ["data"; "pause_all"; "unpause_all"; "error_10"; "reprocess_all"; "clear"; "reprocess_one"; "inspect_request"; "pop_request"]) (fun vs =>
        if negb (any_true_check vs) then data else rest))).
Definition bsm : list string -> outcome := tool bsm_options (fun ns => queue_main ns (do_sender_action ns)).

(** log.py 34-39 and senders/log.py *)
Definition log_main (ns : namespace) : outcome :=
  get_client ns (fun c => get (attr ns "level") (fun l => get (attr ns "buff_size") (fun b =>
    Sends c ((match l with VStr s => [("eco.log.level", JObj [("level", JStr s)])] | _ => [] end) ++
             (match b with VInt n => [("eco.log.buffer", JObj [("size", JNum n)])] | _ => [] end))%list))).
Definition log_tool : list string -> outcome := tool log_options log_main.
(** stat.py 25-27 and senders/statistics.py *)
Definition stat_main (ns : namespace) : outcome :=
  get_client ns (fun c => get (attr ns "type") (fun t =>
    Sends c [("eco.statistics.get", JObj [("type", match t with VStr s => JStr s | _ => JNull end)])])).
Definition stat_tool : list string -> outcome := tool stat_options stat_main.

(** ** What the application makes of a request *)
(** QManagementRequestDto, QManagementItemRequestDto (queue_management.py 6-11) from the data of a request *)
Definition read_route (data : json) : option string :=
  match data with JObj d => match sget "queue_route_key" d with Some (JStr r) => Some r | _ => None end | _ => None end.
Definition N_of_key (k : span_key) : N := (Z.to_N (trace_id k) * 2 ^ 64 + Z.to_N (span_id k))%N.
Definition read_key (data : json) : option N :=
  match data with JObj d => match sget "span_key" d with Some j => option_map N_of_key (key_of_json j) | None => None end | _ => None end.
Definition plain {A} (op : A) (data : json) : option (string * A) := option_map (fun r => (r, op)) (read_route data).
Definition about_key {A} (op : N -> A) (data : json) : option (string * A) :=
  match read_route data, read_key data with Some r, Some k => Some (r, op k) | _, _ => None end.
(** buffered_handler_manager.py 27, 41, ..., 191: route keys, DTO types and the keeper's method that is called *)
Definition endpoint_requests : list (string * (json -> option (string * eop))) :=
  [("eco.buffered_handler.data", plain Data); ("eco.buffered_handler.receiving.pause", plain PauseReceiving);
   ("eco.buffered_handler.receiving.unpause", plain UnpauseReceiving); ("eco.buffered_handler.processing.pause", plain PauseProcessing);
   ("eco.buffered_handler.processing.unpause", plain UnpauseProcessing); ("eco.buffered_handler.all.pause", plain PauseAll);
   ("eco.buffered_handler.all.unpause", plain UnpauseAll); ("eco.buffered_handler.errors.get_first_10", plain First10);
   ("eco.buffered_handler.errors.reprocess.all", plain ReprocessAll); ("eco.buffered_handler.errors.clear", plain Clear);
   ("eco.buffered_handler.errors.reprocess.one", about_key ReprocessOne); ("eco.buffered_handler.errors.pop_request", about_key PopRequest);
   ("eco.buffered_handler.errors.inspect_request", about_key InspectRequest)].
Definition endpoint_request (text : string) : option (string * eop) :=
  match server_read text with
  | Some rq => match sget (rroute rq) endpoint_requests with Some f => f (rdata rq) | None => None end
  | None => None
  end.
(** buffered_sender_manager.py 26, 40, ..., 138 *)
Definition sender_requests : list (string * (json -> option (string * sop))) :=
  [("eco.buffered_sender.data", plain SData); ("eco.buffered_sender.send_process.pause", plain SPauseSending);
   ("eco.buffered_sender.send_process.unpause", plain SUnpauseSending); ("eco.buffered_sender.errors.get_first_10", plain SFirst10);
   ("eco.buffered_sender.errors.reprocess.all", plain SReprocessAll_); ("eco.buffered_sender.errors.clear", plain SClear);
   ("eco.buffered_sender.errors.reprocess.one", about_key SReprocessOne_); ("eco.buffered_sender.errors.pop_request", about_key SPopRequest);
   ("eco.buffered_sender.errors.inspect_request", about_key SInspectRequest)].
Definition sender_request (text : string) : option (string * sop) :=
  match server_read text with
  | Some rq => match sget (rroute rq) sender_requests with Some f => f (rdata rq) | None => None end
  | None => None
  end.
(** log_manager.py 17-29, statistics.py 8-20 and what they call: logs/logger.py 54-74 (levels are logging's numbers) and the keeper's three getters;
    LevelEnum (log_management.py 4-13) *)
Inductive period := Current | Full | LastGathered.
Inductive admin := SetLevel (n : Z) | SetBuffer (n : Z) | GetStatistics (p : period).
Definition set_level (s : string) : option admin :=
  if String.eqb s "debug" then Some (SetLevel 10) else if String.eqb s "info" then Some (SetLevel 20) else if String.eqb s "warn" then Some (SetLevel 30)
  else if String.eqb s "error" then Some (SetLevel 40) else if String.eqb s "critical" then Some (SetLevel 50) else None.
Definition get_statistics (s : string) : admin :=
  GetStatistics (if String.eqb s "current" then Current else if String.eqb s "full" then Full else LastGathered).
Definition field (n : string) (data : json) : option json := match data with JObj d => sget n d | _ => None end.
Definition admin_request (text : string) : option admin :=
  match server_read text with
  | Some rq =>
      if String.eqb (rroute rq) "eco.log.level" then match field "level" (rdata rq) with Some (JStr s) => set_level s | _ => None end
      else if String.eqb (rroute rq) "eco.log.buffer" then match field "size" (rdata rq) with Some (JNum n) => Some (SetBuffer n) | _ => None end
      else if String.eqb (rroute rq) "eco.statistics.get" then match field "type" (rdata rq) with Some (JStr s) => Some (get_statistics s) | _ => None end
      else None
  | None => None
  end.
