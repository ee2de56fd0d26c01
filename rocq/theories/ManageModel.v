(** Model of the endpoints with which an operator manages queues: ekosis/standard_endpoints/buffered_handler_manager.py and
    buffered_sender_manager.py, ekosis/state_keepers/buffered_handler_keeper.py and buffered_sender_keeper.py, the DTOs of
    ekosis/data_transfer_objects/queue_management.py.

    - The queues themselves are those of [HandlerModel] and [SenderModel]; a keeper is a dictionary from route keys to them.
    - None of the operations suspends, so a management request is one step; anything can happen between two requests.
    - Span keys are 192-bit numbers, as in [HandlerModel]; [key_text] is their text. *)
From Coq Require Import List ZArith NArith Bool String.
From Verif Require Import Base PQueueModel PendingModel HandlerModel SenderModel SpanKeyModel RouterModel WireModel.
Import ListNotations.
Local Open Scope string_scope.

(** json_protocol.py 53-54: str(span_key) of the key with these 24 bytes *)
Definition key_of_N (k : N) : span_key := mkKey (Z.of_N (k / 2 ^ 64)) (Z.of_N (k mod 2 ^ 64)).
Definition key_text (k : N) : string := of_text (key_str (key_of_N k)).

(** queue_management.py 14-36: what a response carries besides the message *)
Record endpoint_info := mkInfo { i_route : string; i_receiving_paused : bool; i_processing_paused : bool; i_pending : Z; i_error : Z }.
Record sender_info := mkSInfo { si_route : string; si_paused : bool; si_pending : Z; si_error : Z }.
Inductive queue_data := NoData | EndpointInfo (i : endpoint_info) | SenderInfo (i : sender_info) | SpanKeys (l : list string).
(** The response, or the exception that left the endpoint (which the server reports as an error, see C24). *)
Inductive answer (D : Type) := Answer (q : queue_data) (request : option D) (message : string) | Failed (e : string).
Arguments Answer {D}. Arguments Failed {D}.

(** What a keeper's method gives: None, False or a dictionary; for get_first_10 a list. *)
Inductive kept (I D : Type) := KNone | KFalse | KInfo (i : I) (request : option D) | KKeys (l : list string) | KExn (e : string).
Arguments KNone {I D}. Arguments KFalse {I D}. Arguments KInfo {I D}. Arguments KKeys {I D}. Arguments KExn {I D}.

(** The management requests for endpoints ... *)
Inductive eop :=
| Data | PauseReceiving | UnpauseReceiving | PauseProcessing | UnpauseProcessing | PauseAll | UnpauseAll
| First10 | ReprocessAll | Clear | ReprocessOne (k : N) | PopRequest (k : N) | InspectRequest (k : N).
(** ... and for senders. *)
Inductive sop :=
| SData | SPauseSending | SUnpauseSending | SFirst10 | SReprocessAll_ | SClear | SReprocessOne_ (k : N) | SPopRequest (k : N)
| SInspectRequest (k : N).

Section Model.
Context {D M : Type}.
Variable no_meta : M.
Variable truthy : D -> bool.
(** What each endpoint's and sender's DTO type accepts, and its max_retries; whether a sender waits. *)
Variables edto sdto : string -> D -> bool.
Variables eretries sretries : string -> Z.
Variable swait : string -> bool.

Notation est := (hstate D M). Notation sst := (sstate D M).
Notation estep r := (hstep no_meta (edto r) truthy (eretries r)).
Notation sstep_ r := (sstep no_meta (sdto r) truthy (swait r) (sretries r)).

(** ** Endpoints *)
(** buffered_handler_keeper.py 24-30 and buffered_handler_manager.py 15-24 *)
Definition einfo (r : string) (s : est) : endpoint_info :=
  mkInfo r (recv_paused s) (proc_paused s) (pending_size (hq s)) (error_size (hq s)).
(** What a step of the handler hands back: an exception, or the reply to pop / inspect / reprocess one. *)
Fixpoint eresult (o : list (hout D M)) : res (option D) :=
  match o with
  | [] => Ok None
  | HExn e :: _ => Raise e
  | HReply x :: _ => Ok x
  | _ :: r => eresult r
  end.
Definition eplain (r : string) (so : est * list (hout D M)) : est * kept endpoint_info D :=
  let (s, o) := so in (s, match eresult o with Raise e => KExn e | Ok _ => KInfo (einfo r s) None end).
(** [if not result: return False]: a DTO object is always true in an [if] *)
Definition efound (r : string) (so : est * list (hout D M)) : est * kept endpoint_info D :=
  let (s, o) := so in
  (s, match eresult o with Raise e => KExn e | Ok None => KFalse | Ok (Some d) => KInfo (einfo r s) (Some d) end).
(** buffered_handler_keeper.py 19-21, 33-36, 39-81, 84-91, 94-101, 104-115, 118-125, for a route key that is there *)
Definition ekeep (r : string) (s : est) (op : eop) : est * kept endpoint_info D :=
  match op with
  | Data => (s, KInfo (einfo r s) None)
  | PauseReceiving => eplain r (estep r s EPauseReceiving)
  | UnpauseReceiving => eplain r (estep r s EUnpauseReceiving)
  | PauseProcessing => eplain r (estep r s EPauseProcessing)
  | UnpauseProcessing => eplain r (estep r s EUnpauseProcessing)
  | PauseAll => eplain r (estep r (fst (estep r s EPauseReceiving)) EPauseProcessing)
  | UnpauseAll => eplain r (estep r (fst (estep r s EUnpauseReceiving)) EUnpauseProcessing)
  | First10 => (s, KKeys (map key_text (first_x_error (hq s) 10)))
  | ReprocessAll => eplain r (estep r s EReprocessAll)
  | Clear => eplain r (estep r s EClearError)
  | ReprocessOne k => efound r (estep r s (EReprocessOne k))
  | PopRequest k => efound r (estep r s (EPopError k))
  | InspectRequest k => efound r (estep r s (EInspectError k))
  end.
(** The texts of buffered_handler_manager.py *)
Definition edone (op : eop) (r : string) : string :=
  "Buffered Endpoint[" ++ r ++ "]: " ++
  match op with
  | Data => "Data retrieved."
  | PauseReceiving => "Paused RECEIVING."
  | UnpauseReceiving => "UN-Paused RECEIVING."
  | PauseProcessing => "Paused PROCESSING."
  | UnpauseProcessing => "UN-Paused PROCESSING."
  | PauseAll => "Paused ALL."
  | UnpauseAll => "UN-Paused ALL."
  | First10 => "Retrieved first 10 span-keys for error database."
  | ReprocessAll => "Error database entries, moved to incoming database."
  | Clear => "Error database cleared."
  | ReprocessOne k => "Error database entry[" ++ key_text k ++ "] moved to incoming database."
  | PopRequest k => "POPPED Error database entry[" ++ key_text k ++ "]."
  | InspectRequest k => "INSPECTING Error database entry[" ++ key_text k ++ "]."
  end.
Definition eno_queue (r : string) : string := "No queue for route key: [" ++ r ++ "]".
Definition eno_request (k : N) (r : string) : string :=
  "No request with span-key [" ++ key_text k ++ "] in error queue for route key: [" ++ r ++ "]".
(** buffered_handler_manager.py 27-204; a non-empty dictionary is true in an [if] *)
Definition eanswer (op : eop) (r : string) (x : kept endpoint_info D) : answer D :=
  match x with
  | KNone => Answer NoData None (eno_queue r)
  | KFalse => match op with
              | ReprocessOne k | PopRequest k | InspectRequest k => Answer NoData None (eno_request k r)
              | _ => Answer NoData None (eno_queue r)
              end
  | KInfo i d => Answer (EndpointInfo i) d (edone op r)
  | KKeys l => Answer (SpanKeys l) None (edone op r)
  | KExn e => Failed e
  end.
(** The keeper's dictionary of endpoints (buffered_handler_keeper.py 9-16). *)
Definition emanage (w : list (string * est)) (r : string) (op : eop) : list (string * est) * answer D :=
  match sget r w with
  | None => (w, eanswer op r KNone)
  | Some s => let (s', x) := ekeep r s op in (sset r s' w, eanswer op r x)
  end.

(** ** Senders *)
(** buffered_sender_keeper.py 29-34 and buffered_sender_manager.py 14-23 *)
Definition sinfo (r : string) (s : sst) : sender_info := mkSInfo r (spaused s) (pending_size (sq s)) (error_size (sq s)).
Fixpoint sresult (o : list (sout D)) : res (option D) :=
  match o with
  | [] => Ok None
  | OExn e :: _ => Raise e
  | OReply x :: _ => Ok x
  | _ :: r => sresult r
  end.
Definition splain (r : string) (so : sst * list (sout D)) : sst * kept sender_info D :=
  let (s, o) := so in (s, match sresult o with Raise e => KExn e | Ok _ => KInfo (sinfo r s) None end).
Definition sfound (r : string) (so : sst * list (sout D)) : sst * kept sender_info D :=
  let (s, o) := so in
  (s, match sresult o with Raise e => KExn e | Ok None => KFalse | Ok (Some d) => KInfo (sinfo r s) (Some d) end).
(** buffered_sender_keeper.py 23-102, for a route key that is there *)
Definition skeep (r : string) (s : sst) (op : sop) : sst * kept sender_info D :=
  match op with
  | SData => (s, KInfo (sinfo r s) None)
  | SPauseSending => splain r (sstep_ r s SPause)
  | SUnpauseSending => splain r (sstep_ r s SUnpause)
  | SFirst10 => (s, KKeys (map key_text (first_x_error (sq s) 10)))
  | SReprocessAll_ => splain r (sstep_ r s SReprocessAll)
  | SClear => splain r (sstep_ r s SClearError)
  | SReprocessOne_ k => sfound r (sstep_ r s (SReprocessOne k))
  | SPopRequest k => sfound r (sstep_ r s (SPopError k))
  | SInspectRequest k => sfound r (sstep_ r s (SInspectError k))
  end.
Definition sdone (op : sop) (r : string) : string :=
  "Buffered Sender[" ++ r ++ "]: " ++
  match op with
  | SData => "Data retrieved."
  | SPauseSending => "Paused SEND PROCESS."
  | SUnpauseSending => "UN-Paused SEND PROCESS."
  | SFirst10 => "Retrieved first 10 span-keys for error database."
  | SReprocessAll_ => "Error database entries, moved to Retry database."
  | SClear => "Error database cleared."
  | SReprocessOne_ k => "Error database entry[" ++ key_text k ++ "] moved to Retry database."
  | SPopRequest k => "POPPED Error database entry[" ++ key_text k ++ "]."
  | SInspectRequest k => "INSPECTING Error database entry[" ++ key_text k ++ "]."
  end.
Definition sno_queue (r : string) : string := "No buffered sender with route key: [" ++ r ++ "]".
Definition sno_request (k : N) (r : string) : string :=
  "No request with span-key [" ++ key_text k ++ "] in buffered sender error database, for route key: [" ++ r ++ "]".
(** buffered_sender_manager.py 26-151 *)
Definition sanswer (op : sop) (r : string) (x : kept sender_info D) : answer D :=
  match x with
  | KNone => Answer NoData None (sno_queue r)
  | KFalse => match op with
              | SReprocessOne_ k | SPopRequest k | SInspectRequest k => Answer NoData None (sno_request k r)
              | _ => Answer NoData None (sno_queue r)
              end
  | KInfo i d => Answer (SenderInfo i) d (sdone op r)
  | KKeys l => Answer (SpanKeys l) None (sdone op r)
  | KExn e => Failed e
  end.
Definition smanage (w : list (string * sst)) (r : string) (op : sop) : list (string * sst) * answer D :=
  match sget r w with
  | None => (w, sanswer op r KNone)
  | Some s => let (s', x) := skeep r s op in (sset r s' w, sanswer op r x)
  end.

(** ** An application with any number of both, and anything that happens in it *)
Record world := mkWorld { endpoints : list (string * est); senders : list (string * sst) }.
Inductive wev :=
| AtEndpoint (r : string) (ev : hev D M)      (* something happens at an endpoint: a request, a step of a task, ... *)
| AtSender (r : string) (ev : sev D)
| ManageEndpoint (r : string) (op : eop)
| ManageSender (r : string) (op : sop).
Definition wstep (w : world) (ev : wev) : world :=
  match ev with
  | AtEndpoint r e => match sget r (endpoints w) with
                      | Some s => mkWorld (sset r (fst (estep r s e)) (endpoints w)) (senders w)
                      | None => w
                      end
  | AtSender r e => match sget r (senders w) with
                    | Some s => mkWorld (endpoints w) (sset r (fst (sstep_ r s e)) (senders w))
                    | None => w
                    end
  | ManageEndpoint r op => mkWorld (fst (emanage (endpoints w) r op)) (senders w)
  | ManageSender r op => mkWorld (endpoints w) (fst (smanage (senders w) r op))
  end.
Definition wrun (w : world) (evs : list wev) : world := fold_left wstep evs w.
End Model.
