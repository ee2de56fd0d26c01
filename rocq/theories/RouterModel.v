(** Model of request routing: registration, middleware, handlers and the server's answer to one request text.
    Code modelled: ekosis/requests/{request_router,handler_base,standard_handler,buffered_handler,endpoint}.py,
    ekosis/requests/buffered_handler_base.py (run), ekosis/middleware/*.py, ekosis/servers/server_base.py.

    User code (middleware, handler functions, DTO classes) is arbitrary: each piece is a function of everything that
    has been called before while this request was handled and of its own arguments.  Suspension points inside one
    request do not appear: other requests can only influence this one through user code, which is arbitrary anyway. *)
From Coq Require Import List ZArith NArith Bool String Lia.
Import ListNotations.
Local Open Scope string_scope.
Local Open Scope Z_scope.

(** JSON values as [json.loads] returns them. *)
Inductive json : Type :=
| JNull | JBool (b : bool) | JNum (z : Z) | JStr (s : string) | JArr (l : list json) | JObj (d : list (string * json)).

(** A Python [dict] with text keys; language semantics of [d.get(k)] and [d[k] = v], insertion order kept. *)
Fixpoint sget {V} (k : string) (d : list (string * V)) : option V :=
  match d with [] => None | (k', v) :: r => if String.eqb k k' then Some v else sget k r end.
Fixpoint sset {V} (k : string) (v : V) (d : list (string * V)) : list (string * V) :=
  match d with [] => [(k, v)] | (k', v') :: r => if String.eqb k k' then (k', v) :: r else (k', v') :: sset k v r end.
(** [d.update(e)] *)
Definition supdate {V} (d e : list (string * V)) : list (string * V) := fold_left (fun d x => sset (fst x) (snd x) d) e d.
Definition shas {V} (k : string) (d : list (string * V)) : bool := match sget k d with Some _ => true | None => false end.

(** Exceptions by the classes the [except] clauses distinguish.  [XRouting] is a RoutingExceptionBase with its status and
    message; [XPaused] is BufferedRequestHandlerReceivingPausedException, which is not one (buffered_handler_base.py
    22-30); [XOther] any other [Exception]; [XBase] a [BaseException] that is not an [Exception], e.g. a cancellation. *)
Inductive exn : Type :=
| XDecode (m : string) | XValidation (m : string) | XRouting (status : Z) (m : string) | XApp (m : string)
| XPaused (m : string) | XOther (m : string) | XBase (m : string).
Inductive outc (A : Type) : Type := Ret (a : A) | Exc (x : exn).
Arguments Ret {A} a.
Arguments Exc {A} x.

(** str(e): texts of exceptions. *)
Definition text_of (x : exn) : string :=
  match x with XDecode m | XValidation m | XRouting _ m | XApp m | XPaused m | XOther m | XBase m => m end.

Section Router.
Context {K D V : Type}.

(** data_transfer_objects/json_protocol.py 56-59. *)
Record request := mkReq { rroute : string; rspan : K; rdata : json }.
(** data_transfer_objects/json_protocol.py 62-65; [data] is the handler's value or an error text. *)
Inductive rvalue := RVal (v : V) | RText (s : string).
Record response := mkResp { pspan : option K; pstatus : Z; pdata : rvalue }.

(** The values a handler function can be offered. *)
Inductive arg := ASpan (k : K) | ADto (d : D).

(** What user code and the statistics keeper see. *)
Inductive call :=
| CBefore (i : nat) (k : K) (p : option request)         (* middleware i .before_routing *)
| CDto (route : string) (data : list (string * json))    (* request_dto_type( **data ) *)
| CFun (route : string) (args : list (string * arg))     (* the handler function *)
| CBeforePush (i : nat) (k : K) (d : D)                  (* buffered middleware i .before_push *)
| CPush (route : string) (k : K) (d : D) (meta : list (string * json)) (* queue.push_pending(span_key, dto, 0, metadata) *)
| CAfter (i : nat) (k : K) (p : option request) (v : V)  (* middleware i .after_routing *)
| CStats (route : string).                               (* StatisticsKeeper.add_endpoint_stats *)
Notation hist := (list call).

(** middleware/middleware_base.py 5-10.  [None] stands for any object that is not a RequestDTO. *)
Record middleware := mkMw {
  m_before : hist -> K -> option request -> outc (option request);
  m_after : hist -> K -> option request -> V -> outc V }.
(** middleware/buffered_middleware_base.py 6-8; [None] is a falsy answer that is not a dictionary. *)
Record bmiddleware := mkBmw { m_push : hist -> K -> D -> outc (option (list (string * json))) }.

(** Parameters of a Python function ([inspect.signature]). *)
Inductive pkind := PosOnly | Normal | KwOnly | VarPos | VarKw.
Record param := mkParam { pname : string; pk : pkind; pdefault : bool }.

(** A registered handler: its route key, DTO class and either a standard function or a buffered queue. *)
Inductive hkind :=
| Standard (sig : list param) (f : hist -> list (string * arg) -> outc V)
| Buffered (paused : bool).
Record handler := mkHandler { h_route : string; h_dto : hist -> list (string * json) -> outc D; h_kind : hkind }.

(** Calls thread the history; an exception ends the computation. *)
Definition Mon (A : Type) : Type := hist -> outc A * hist.
Definition ret {A} (a : A) : Mon A := fun h => (Ret a, h).
Definition raise {A} (x : exn) : Mon A := fun h => (Exc x, h).
Definition bnd {A B} (m : Mon A) (f : A -> Mon B) : Mon B :=
  fun h => match m h with (Ret a, h') => f a h' | (Exc x, h') => (Exc x, h') end.
Definition ask {A} (c : call) (user : hist -> outc A) : Mon A := fun h => (user h, (h ++ [c])%list).

(** ** Python function calls with keyword arguments only: language semantics.
    A keyword goes to the ordinary parameter of that name, else into the ** parameter, else TypeError; every parameter
    without default must be bound. *)
Definition takes_kw (sig : list param) (n : string) : bool :=
  existsb (fun p => String.eqb (pname p) n && match pk p with Normal | KwOnly => true | _ => false end) sig.
Definition has_varkw (sig : list param) : bool := existsb (fun p => match pk p with VarKw => true | _ => false end) sig.
Definition required (p : param) : bool :=
  negb (pdefault p) && match pk p with PosOnly | Normal | KwOnly => true | _ => false end.
Definition call_ok {A} (sig : list param) (kw : list (string * A)) : bool :=
  forallb (fun x => takes_kw sig (fst x) || has_varkw sig) kw &&
  forallb (fun p => negb (required p) || (match pk p with PosOnly => false | _ => true end && shas (pname p) kw)) sig.

(** requests/endpoint.py 15, requests/buffered_endpoint.py 23: set(inspect.signature(function).parameters). *)
Definition accepted (sig : list param) : list string := map pname sig.
(** requests/standard_handler.py 21, requests/buffered_handler.py 28. *)
Definition call_kwargs {A} (acc : list string) (kw : list (string * A)) : list (string * A) :=
  filter (fun x => existsb (String.eqb (fst x)) acc) kw.
(** requests/standard_handler.py 20-22, requests/buffered_handler.py 27-29: the arguments reaching the function body, or
    a TypeError. *)
Definition filtered_call {A} (sig : list param) (kw : list (string * A)) : option (list (string * A)) :=
  if call_ok sig (call_kwargs (accepted sig) kw) then Some (call_kwargs (accepted sig) kw) else None.

(** ** middleware/buffered_middleware_manager.py 21-27 *)
Fixpoint collect_push_metadata (i : nat) (bms : list bmiddleware) (k : K) (d : D) (meta : list (string * json)) :
  Mon (list (string * json)) :=
  match bms with
  | [] => ret meta
  | m :: r => bnd (ask (CBeforePush i k d) (fun h => m_push m h k d))
      (fun result => collect_push_metadata (S i) r k d
        (match result with Some e => supdate meta e | None => meta end))
  end.

Context (accepted_resp : K -> V).          (* BufferedEndpointResponseDTO(span_key = span_key) *)
Context (bms : list bmiddleware).          (* BufferedMiddlewareManager().middlewares *)
Context (mws : list middleware).           (* MiddlewareManager().middlewares *)
(** StatisticsKeeper.add_endpoint_stats (see StatsModel.v): the text of the exception it raises, if any. *)
Context (stats : hist -> string -> option string).

(** requests/standard_handler.py 20-22 and requests/buffered_handler_base.py 220-230 (the push itself runs in a task of
    its own: HandlerModel.v). *)
Definition run (hd : handler) (k : K) (d : D) : Mon V :=
  match h_kind hd with
  | Standard sig f =>
      match filtered_call sig [("span_key", ASpan k); ("dto", ADto d)] with
      | Some args => ask (CFun (h_route hd) args) (fun h => f h args)
      | None => raise (XOther "TypeError")
      end
  | Buffered paused =>
      if paused then raise (XPaused (append "status: [500] message: [Receiving on '" (append (h_route hd) "' has been paused.]")))
      else bnd (collect_push_metadata 0 bms k d [])
             (fun meta => ask (CPush (h_route hd) k d meta) (fun _ => Ret (accepted_resp k)))
  end.

(** requests/handler_base.py 26-28.  [**protocol_dto.data] needs a mapping. *)
Definition attempt_request (hd : handler) (p : option request) (k : K) : Mon V :=
  match p with
  | None => raise (XOther "AttributeError")
  | Some r => match rdata r with
    | JObj data => bnd (ask (CDto (h_route hd) data) (fun h => h_dto hd h data)) (fun d => run hd k d)
    | _ => raise (XOther "TypeError")
    end
  end.

(** middleware/manager.py 18-25 *)
Fixpoint run_before_routing (i : nat) (l : list middleware) (k : K) (p : option request) : Mon (option request) :=
  match l with
  | [] => ret p
  | m :: r => bnd (ask (CBefore i k p) (fun h => m_before m h k p)) (fun p' => run_before_routing (S i) r k p')
  end.
(** middleware/manager.py 27-34 *)
Fixpoint run_after_routing (i : nat) (l : list middleware) (k : K) (p : option request) (v : V) : Mon V :=
  match l with
  | [] => ret v
  | m :: r => bnd (ask (CAfter i k p v) (fun h => m_after m h k p v)) (fun v' => run_after_routing (S i) r k p v')
  end.

(** The routing table: a dictionary from route keys to handlers. *)
Definition table := list (string * handler).

(** requests/request_router.py 40-45; [track] says whether track_endpoint_data returns normally. *)
Definition register_handler (track : string -> bool) (t : table) (hd : handler) : table * outc unit :=
  if negb (shas (h_route hd) t) then
    (sset (h_route hd) hd t, if track (h_route hd) then Ret tt else Exc (XOther "TypeError"))
  else (t, Exc (XOther (append "Handler command id [" (append (h_route hd) "] already exists")))).

(** requests/request_router.py 17-31: texts of routing exceptions. *)
Definition unknown_route (route : string) : exn :=
  XRouting 400 (append "status: [400] message: [Unknown route key '" (append route "']")).
Definition processing_failure (route m : string) : exn :=
  XRouting 600 (append "status: [600] message: [Processing Failure '" (append route (append "', message: '" (append m "']")))).

(** except ApplicationProcessingException as e: raise RouterProcessingException(...) *)
Definition app_to_router {A} (route : string) (m : Mon A) : Mon A :=
  fun h => match m h with (Exc (XApp s), h') => (Exc (processing_failure route s), h') | x => x end.

(** requests/request_router.py 54-67 *)
Definition route_request (t : table) (r : request) : Mon V :=
  match sget (rroute r) t with
  | None => raise (unknown_route (rroute r))
  | Some hd => app_to_router (rroute r)
      (bnd (run_before_routing 0 mws (rspan r) (Some r)) (fun p =>
       bnd (attempt_request hd p (rspan r)) (fun v =>
       run_after_routing 0 mws (rspan r) p v)))
  end.

Context (span_of : json -> option K).      (* pydantic's SpanKey from a JSON value *)
Context (loads : string -> outc json).     (* json.loads(request_text.strip()) *)

(** RequestDTO(ROUTE: str, SPAN: SpanKey, data: Any) from the keywords: data_transfer_objects/json_protocol.py 56-59;
    [None] is a ValidationError. *)
Definition request_of (d : list (string * json)) : option request :=
  match sget "route_key" d, sget "span_key" d, sget "data" d with
  | Some (JStr route), Some sk, Some data => match span_of sk with Some k => Some (mkReq route k data) | None => None end
  | _, _, _ => None
  end.

(** servers/server_base.py 55-77: the except clauses in order. *)
Definition except_clauses (span : option K) (x : exn) : outc response :=
  match x with
  | XDecode m => Ret (mkResp span 100 (RText m))
  | XValidation m => Ret (mkResp span 300 (RText m))
  | XRouting s m => Ret (mkResp span s (RText m))
  | XApp m | XPaused m | XOther m => Ret (mkResp span 999 (RText m))
  | XBase m => Exc (XBase m)
  end.

(** servers/server_base.py 31-77.  [span_key] is still None when decoding or validating the request fails. *)
Definition serve_request (t : table) (text : string) : outc response * hist :=
  match loads text with
  | Exc x => (except_clauses None x, [])
  | Ret (JObj d) =>
      match request_of d with
      | None => (except_clauses None (XValidation "ValidationError"), [])
      | Some r =>
          match bnd (route_request t r) (fun v => bnd (ask (CStats (rroute r)) (fun h => match stats h (rroute r) with Some m => Exc (XOther m) | None => Ret tt end)) (fun _ => ret v)) [] with
          | (Ret v, h) => (Ret (mkResp (Some (rspan r)) 0 (RVal v)), h)
          | (Exc x, h) => (except_clauses (Some (rspan r)) x, h)
          end
      end
  | Ret _ => (except_clauses None (XOther "TypeError"), [])
  end.

End Router.
Arguments request : clear implicits.
Arguments response : clear implicits.
Arguments rvalue : clear implicits.
Arguments arg : clear implicits.
Arguments call : clear implicits.
Arguments middleware : clear implicits.
Arguments bmiddleware : clear implicits.
Arguments handler : clear implicits.
Arguments hkind : clear implicits.
Arguments table : clear implicits.
