(** What managing a queue should do, for a queue that is two lists and its pauses. *)
From Coq Require Import List ZArith NArith Bool String.
From Verif Require Import Base PQueueModel PQueueSpec PendingModel PendingSpec HandlerModel SenderModel ManageModel.
Import ListNotations.
Local Open Scope string_scope.

Section Spec.
Context {D M : Type}.

(** A queue as the operator sees it. For senders [receiving] means nothing and [processing] is sending. *)
Record view := mkView { receiving_paused : bool; processing_paused : bool;
                        waiting : list (N * pentry D M); errors : list (N * eentry D M) }.
Definition endpoint_is (s : hstate D M) (v : view) : Prop :=
  recv_paused s = receiving_paused v /\ proc_paused s = processing_paused v /\ holds (hq s) (waiting v) (errors v).
Definition sender_is (s : sstate D M) (v : view) : Prop := spaused s = processing_paused v /\ holds (sq s) (waiting v) (errors v).

(** What the operator is told. *)
Inductive told := TheState | TheKeys (l : list N) | TheRequest (d : D) | NotThere.

Definition with_pauses (v : view) (r p : bool) : view := mkView r p (waiting v) (errors v).
Definition put_back (v : view) (l : list (N * eentry D M)) : list (N * pentry D M) :=
  waiting v ++ map retried (filter (fun e => negb (has (fst e) (waiting v))) l).
(** Look for the entry with key [k]; [v'] is the queue afterwards if it is there. *)
Definition item (v : view) (k : N) (v' : (N * eentry D M) -> view) : view * told :=
  match lookup k (errors v) with Some e => (v' (k, e), TheRequest (ee_data e)) | None => (v, NotThere) end.
Definition moved (v : view) (k : N) (e : N * eentry D M) : view :=
  mkView (receiving_paused v) (processing_paused v) (put_back v [e]) (without k (errors v)).
Definition taken (v : view) (k : N) : view := mkView (receiving_paused v) (processing_paused v) (waiting v) (without k (errors v)).
Definition all_moved (v : view) : view := mkView (receiving_paused v) (processing_paused v) (put_back v (errors v)) [].
Definition cleared (v : view) : view := mkView (receiving_paused v) (processing_paused v) (waiting v) [].

Definition endpoint_should (op : eop) (v : view) : view * told :=
  match op with
  | Data => (v, TheState)
  | PauseReceiving => (with_pauses v true (processing_paused v), TheState)
  | UnpauseReceiving => (with_pauses v false (processing_paused v), TheState)
  | PauseProcessing => (with_pauses v (receiving_paused v) true, TheState)
  | UnpauseProcessing => (with_pauses v (receiving_paused v) false, TheState)
  | PauseAll => (with_pauses v true true, TheState)
  | UnpauseAll => (with_pauses v false false, TheState)
  | First10 => (v, TheKeys (map fst (firstn 10 (errors v))))
  | ReprocessAll => (all_moved v, TheState)
  | Clear => (cleared v, TheState)
  | ReprocessOne k => item v k (moved v k)
  | PopRequest k => item v k (fun _ => taken v k)
  | InspectRequest k => item v k (fun _ => v)
  end.
Definition sender_should (op : sop) (v : view) : view * told :=
  match op with
  | SData => (v, TheState)
  | SPauseSending => (with_pauses v (receiving_paused v) true, TheState)
  | SUnpauseSending => (with_pauses v (receiving_paused v) false, TheState)
  | SFirst10 => (v, TheKeys (map fst (firstn 10 (errors v))))
  | SReprocessAll_ => (all_moved v, TheState)
  | SClear => (cleared v, TheState)
  | SReprocessOne_ k => item v k (moved v k)
  | SPopRequest k => item v k (fun _ => taken v k)
  | SInspectRequest k => item v k (fun _ => v)
  end.

(** The message begins with what happened. *)
Definition endpoint_message (op : eop) (r : string) (t : told) : string :=
  match t, op with
  | NotThere, (ReprocessOne k | PopRequest k | InspectRequest k) =>
      "No request with span-key [" ++ key_text k ++ "] in error queue for route key: [" ++ r ++ "]"
  | _, Data => "Buffered Endpoint[" ++ r ++ "]: Data retrieved."
  | _, PauseReceiving => "Buffered Endpoint[" ++ r ++ "]: Paused RECEIVING."
  | _, UnpauseReceiving => "Buffered Endpoint[" ++ r ++ "]: UN-Paused RECEIVING."
  | _, PauseProcessing => "Buffered Endpoint[" ++ r ++ "]: Paused PROCESSING."
  | _, UnpauseProcessing => "Buffered Endpoint[" ++ r ++ "]: UN-Paused PROCESSING."
  | _, PauseAll => "Buffered Endpoint[" ++ r ++ "]: Paused ALL."
  | _, UnpauseAll => "Buffered Endpoint[" ++ r ++ "]: UN-Paused ALL."
  | _, First10 => "Buffered Endpoint[" ++ r ++ "]: Retrieved first 10 span-keys for error database."
  | _, ReprocessAll => "Buffered Endpoint[" ++ r ++ "]: Error database entries, moved to incoming database."
  | _, Clear => "Buffered Endpoint[" ++ r ++ "]: Error database cleared."
  | _, ReprocessOne k => "Buffered Endpoint[" ++ r ++ "]: Error database entry[" ++ key_text k ++ "] moved to incoming database."
  | _, PopRequest k => "Buffered Endpoint[" ++ r ++ "]: POPPED Error database entry[" ++ key_text k ++ "]."
  | _, InspectRequest k => "Buffered Endpoint[" ++ r ++ "]: INSPECTING Error database entry[" ++ key_text k ++ "]."
  end.
Definition sender_message (op : sop) (r : string) (t : told) : string :=
  match t, op with
  | NotThere, (SReprocessOne_ k | SPopRequest k | SInspectRequest k) =>
      "No request with span-key [" ++ key_text k ++ "] in buffered sender error database, for route key: [" ++ r ++ "]"
  | _, SData => "Buffered Sender[" ++ r ++ "]: Data retrieved."
  | _, SPauseSending => "Buffered Sender[" ++ r ++ "]: Paused SEND PROCESS."
  | _, SUnpauseSending => "Buffered Sender[" ++ r ++ "]: UN-Paused SEND PROCESS."
  | _, SFirst10 => "Buffered Sender[" ++ r ++ "]: Retrieved first 10 span-keys for error database."
  | _, SReprocessAll_ => "Buffered Sender[" ++ r ++ "]: Error database entries, moved to Retry database."
  | _, SClear => "Buffered Sender[" ++ r ++ "]: Error database cleared."
  | _, SReprocessOne_ k => "Buffered Sender[" ++ r ++ "]: Error database entry[" ++ key_text k ++ "] moved to Retry database."
  | _, SPopRequest k => "Buffered Sender[" ++ r ++ "]: POPPED Error database entry[" ++ key_text k ++ "]."
  | _, SInspectRequest k => "Buffered Sender[" ++ r ++ "]: INSPECTING Error database entry[" ++ key_text k ++ "]."
  end.

(** The answer that reports the queue as it is afterwards. *)
Definition size {A} (l : list A) : Z := Z.of_nat (List.length l).
Definition answer_of (state : queue_data) (t : told) (message : string) : answer D :=
  match t with
  | TheState => Answer state None message
  | TheKeys l => Answer (SpanKeys (map key_text l)) None message
  | TheRequest d => Answer state (Some d) message
  | NotThere => Answer NoData None message
  end.
Definition endpoint_answer (op : eop) (r : string) (vt : view * told) : answer D :=
  let (v, t) := vt in
  answer_of (EndpointInfo (mkInfo r (receiving_paused v) (processing_paused v) (size (waiting v)) (size (errors v)))) t (endpoint_message op r t).
Definition sender_answer (op : sop) (r : string) (vt : view * told) : answer D :=
  let (v, t) := vt in
  answer_of (SenderInfo (mkSInfo r (processing_paused v) (size (waiting v)) (size (errors v)))) t (sender_message op r t).

(** The application starts with every queue as its files have it. *)
Definition started (no_meta : M) (w : world (D:=D) (M:=M)) : Prop :=
  (forall r s, In (r, s) (endpoints w) -> exists q, s = setup q /\ preachable no_meta q /\ usable q) /\
  (forall r s, In (r, s) (senders w) -> exists q, s = s_setup q /\ preachable no_meta q /\ usable q).
(** Reprocessing ends a pause of the processing. *)
Definition unpaused (v : view) : view := with_pauses v (receiving_paused v) false.
(** The key that a request is about. *)
Definition about (op : eop) : option N := match op with ReprocessOne k | PopRequest k | InspectRequest k => Some k | _ => None end.
Definition s_about (op : sop) : option N := match op with SReprocessOne_ k | SPopRequest k | SInspectRequest k => Some k | _ => None end.
Definition reprocesses (op : eop) : Prop := match op with ReprocessOne _ | ReprocessAll => True | _ => False end.
Definition s_reprocesses (op : sop) : Prop := match op with SReprocessOne_ _ | SReprocessAll_ => True | _ => False end.
End Spec.
Arguments view : clear implicits.
