(** Model of the OTLP tracing middleware: ekosis_otlp_traces/ekosis_otlp_traces/middleware.py and buffered_middleware.py, with
    the calls that ekosis/requests/request_router.py and buffered_handler_base.py make of them, for any number of requests and
    buffered entries at once.

    None of the middleware's methods suspends, so each is one step; between them anything can happen.  Of OpenTelemetry's SDK:
    start_span, set_attribute, set_status and end, and the rule that a parent that is not valid is no parent.  Exporting is left
    out: what counts is which spans are started and ended, since a span that is never ended is never exported.  Span keys are
    those the server accepts as dictionary keys (see C33 for others). *)
From Coq Require Import String ZArith Bool Lia List Arith.
From Verif Require Import Base SpanKeyModel RouterModel WireModel.
Import ListNotations.
Local Open Scope Z_scope.

(** ** Spans *)
Inductive attr := AStr (s : string) | AInt (z : Z) | ABool (b : bool).
(** What a span was started for; the program does not keep this. *)
Inductive purpose := ForRequest (i : nat) | ForAttempt (a : nat).
(** [sp_parent]: the parent's span id and whether it is remote; [sp_end]: None while the span is open, else whether its status
    was set to OK. *)
Record span := mkSpan { sp_for : purpose; sp_name : string; sp_trace : Z; sp_id : Z; sp_parent : option (Z * bool);
                        sp_attrs : list (string * attr); sp_end : option bool }.
(** SpanContext.is_valid *)
Definition valid_context (t s : Z) : bool := (0 <? t) && (t <? 2 ^ 128) && (0 <? s) && (s <? 2 ^ 64).
(** Tracer.start_span under a NonRecordingSpan with trace [t], span [s]; [nt], [ns]: new ids from the id generator. *)
Definition start_span (f : purpose) (name : string) (t s : Z) (remote : bool) (attrs : list (string * attr)) (nt ns : Z) : span :=
  if valid_context t s then mkSpan f name t ns (Some (s, remote)) attrs None else mkSpan f name nt ns None attrs None.
Definition set_attribute (k : string) (v : attr) (x : span) : span :=
  mkSpan (sp_for x) (sp_name x) (sp_trace x) (sp_id x) (sp_parent x) (sset k v (sp_attrs x)) (sp_end x).
Definition end_span (ok : bool) (x : span) : span :=
  match sp_end x with
  | None => mkSpan (sp_for x) (sp_name x) (sp_trace x) (sp_id x) (sp_parent x) (sp_attrs x) (Some ok)
  | Some _ => x
  end.

(** ** Dictionaries from span keys (json_protocol.py 38-48: equal when their bytes are) to spans, given by their number *)
Definition key_eqb (a b : span_key) : bool := (trace_id a =? trace_id b) && (span_id a =? span_id b).
Definition dict := list (span_key * nat).
Fixpoint dget (k : span_key) (d : dict) : option nat :=
  match d with [] => None | (k', n) :: r => if key_eqb k k' then Some n else dget k r end.
Fixpoint dset (k : span_key) (n : nat) (d : dict) : dict :=
  match d with [] => [(k, n)] | (k', m) :: r => if key_eqb k k' then (k', n) :: r else (k', m) :: dset k n r end.
Definition dpop (k : span_key) (d : dict) : dict := filter (fun x => negb (key_eqb k (fst x))) d.
(** Change the [n]-th element. *)
Fixpoint modify {A} (n : nat) (f : A -> A) (l : list A) {struct l} : list A :=
  match l, n with [] , _ => [] | x :: r, O => f x :: r | x :: r, S m => x :: modify m f r end.

(** ** The application *)
Inductive rstatus := InFlight | Answered | Failed.
Record req := mkReq { r_key : span_key; r_route : string; r_status : rstatus }.
(** A buffered entry: its key, the name of its DTO class and its metadata; [e_by]: the request that pushed it (not kept by the
    program). *)
Record entry := mkEntry { e_key : span_key; e_dto : string; e_meta : list (string * json); e_by : nat }.
Inductive astatus := Running | Finished (success : bool) | Raised.
Record attempt := mkAttempt { a_entry : nat; a_retries : Z; a_status : astatus }.
Record world := mkWorld { spans : list span; active : dict; procs : dict; reqs : list req; entries : list entry; attempts : list attempt }.
Definition boot : world := mkWorld [] [] [] [] [] [].

Inductive event :=
| Receive (k : span_key) (route : string) (nt ns : Z)   (* a request for a known route: before_routing *)
| Push (i : nat) (dto : string) (others : list (string * json))
    (* the buffered handler of request [i] collects the metadata and queues an entry; [others]: what the other middlewares,
       registered later, add *)
| Respond (i : nat)                                      (* the handler of request [i] has returned: after_routing *)
| Fail (i : nat)                                         (* validating or handling request [i] raises *)
| Begin (e : nat) (retries nt ns : Z)                    (* entry [e] is taken from its queue: before_process *)
| Finish (a : nat) (success : bool)                      (* the handler returned: after_process *)
| Raise_ (a : nat)                                       (* the handler raises *)
| Restart.                                               (* the process ends and is started again; queued entries stay *)

Definition receive_key : string := "otlp_receive_span_id".
Definition id_attrs (k : span_key) : list (string * attr) :=
  [("request.trace_id", AStr (of_text (uuid_str (trace_id k)))); ("request.span_id", AStr (of_text (span_id_hex (span_id k))))]%string.
(** middleware.py 31-45; request_router.py 47-60 calls it when the route key is known *)
Definition before_routing (w : world) (k : span_key) (route : string) (nt ns : Z) : world :=
  let x := start_span (ForRequest (List.length (reqs w))) route (trace_id k) (span_id k) true
             (id_attrs k ++ [("request.route_key", AStr route)])%list%string nt ns in
  mkWorld (spans w ++ [x]) (dset k (List.length (spans w)) (active w)) (procs w) (reqs w ++ [mkReq k route InFlight]) (entries w) (attempts w).
Definition set_status (s : rstatus) (r : req) : req := mkReq (r_key r) (r_route r) s.
(** middleware.py 48-53 *)
Definition after_routing (w : world) (i : nat) (k : span_key) : world :=
  let sp := match dget k (active w) with Some n => modify n (end_span true) (spans w) | None => spans w end in
  mkWorld sp (dpop k (active w)) (procs w) (modify i (set_status Answered) (reqs w)) (entries w) (attempts w).
(** buffered_middleware.py 19-23 *)
Definition before_push (w : world) (k : span_key) : list (string * json) :=
  match dget k (active w) with
  | Some n => match nth_error (spans w) n with Some x => [(receive_key, JNum (sp_id x))] | None => [] end
  | None => []
  end.
(** buffered_middleware.py 26-44, metadata.get; a value that is neither None nor an int raises in SpanContext: None here. *)
Definition parent_of (k : span_key) (meta : list (string * json)) : option (Z * bool) :=
  match sget receive_key meta with
  | None | Some JNull => Some (span_id k, true)
  | Some (JNum z) => Some (z, false)
  | Some (JBool b) => Some (if b then 1 else 0, false)
  | Some _ => None
  end.
Definition before_process (w : world) (n : nat) (e : entry) (retries nt ns : Z) : world :=
  match parent_of (e_key e) (e_meta e) with
  | None => mkWorld (spans w) (active w) (procs w) (reqs w) (entries w) (attempts w ++ [mkAttempt n retries Raised])
  | Some (p, remote) =>
      let x := start_span (ForAttempt (List.length (attempts w))) (e_dto e ++ ".process") (trace_id (e_key e)) p remote
                 (id_attrs (e_key e) ++ [("request.retries", AInt retries)])%list%string nt ns in
      mkWorld (spans w ++ [x]) (active w) (dset (e_key e) (List.length (spans w)) (procs w)) (reqs w) (entries w)
        (attempts w ++ [mkAttempt n retries Running])
  end.
Definition set_astatus (s : astatus) (a : attempt) : attempt := mkAttempt (a_entry a) (a_retries a) s.
(** buffered_middleware.py 46-50 *)
Definition after_process (w : world) (a : nat) (k : span_key) (success : bool) : world :=
  let sp := match dget k (procs w) with
            | Some n => modify n (fun x => end_span false (set_attribute "process.success" (ABool success) x)) (spans w)
            | None => spans w
            end in
  mkWorld sp (active w) (dpop k (procs w)) (reqs w) (entries w) (modify a (set_astatus (Finished success)) (attempts w)).
(** The entry of a running attempt. *)
Definition running (w : world) (a : nat) : option entry :=
  match nth_error (attempts w) a with
  | Some x => match a_status x with Running => nth_error (entries w) (a_entry x) | _ => None end
  | None => None
  end.
Definition in_flight (w : world) (i : nat) : option req :=
  match nth_error (reqs w) i with Some r => match r_status r with InFlight => Some r | _ => None end | None => None end.
Definition cut_req (r : req) : req := match r_status r with InFlight => set_status Failed r | _ => r end.
Definition cut_attempt (a : attempt) : attempt := match a_status a with Running => set_astatus Raised a | _ => a end.
(** Events that make no sense (a request or an attempt that is over, an entry that is not there) change nothing. *)
Definition step (w : world) (ev : event) : world :=
  match ev with
  | Receive k route nt ns => before_routing w k route nt ns
  | Push i dto others =>
      match in_flight w i with
      | Some r => mkWorld (spans w) (active w) (procs w) (reqs w)
                    (entries w ++ [mkEntry (r_key r) dto (supdate (supdate [] (before_push w (r_key r))) others) i]) (attempts w)
      | None => w
      end
  | Respond i => match in_flight w i with Some r => after_routing w i (r_key r) | None => w end
  | Fail i =>
      match in_flight w i with
      | Some _ => mkWorld (spans w) (active w) (procs w) (modify i (set_status Failed) (reqs w)) (entries w) (attempts w)
      | None => w
      end
  | Begin n retries nt ns => match nth_error (entries w) n with Some e => before_process w n e retries nt ns | None => w end
  | Finish a success => match running w a with Some e => after_process w a (e_key e) success | None => w end
  | Raise_ a =>
      match running w a with
      | Some _ => mkWorld (spans w) (active w) (procs w) (reqs w) (entries w) (modify a (set_astatus Raised) (attempts w))
      | None => w
      end
  | Restart => mkWorld (spans w) [] [] (map cut_req (reqs w)) (entries w) (map cut_attempt (attempts w))
  end.
Definition run (w : world) (es : list event) : world := fold_left step es w.
