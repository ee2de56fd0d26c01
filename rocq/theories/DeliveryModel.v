(** Model of a buffered sender of one application that sends to a buffered endpoint of another over transient stream
    connections (TCP or UDS), on a network that may lose requests and answers and delay them as long as it likes.

    - The sending application's part is [SenderModel] (ekosis/sending/buffered_sender_base.py), the receiving application's
      [HandlerModel] (ekosis/requests/buffered_handler_base.py); this file adds what lies between [send_data] of the one
      and [run] of the other: the client's retry loop (ekosis/clients/stream_client_base.py 34-67 and
      clients/client_base.py 65-85), the connections, and the receiver's way from a request to [run] and back
      (requests/handler_base.py 27-29, requests/request_router.py, servers/stream_server_base.py).
    - Each attempt of a client opens a connection of its own and sends one request over it, so an answer read on a
      connection answers the request sent over it.
    - The endpoint may have other clients ([WOther]).
    - Simplifications: the endpoint exists and its type accepts the data as sent or rejects it ([dto_b]); the sender's
      response type accepts BufferedEndpointResponseDTO; the middlewares before and after routing change nothing. *)
From Coq Require Import List ZArith NArith Bool String.
From Verif Require Import Base PQueueModel PQueueSpec PendingModel SenderModel HandlerModel.
Import ListNotations.
Local Open Scope Z_scope.

Section Model.
Context {D MA MB : Type}.
(** The sending application: as in [SenderModel]; [cmax]: the client's max_retries. *)
Variables (meta_a : MA) (dto_a truthy_a : D -> bool) (wait : bool) (max_a cmax : Z).
(** The receiving application: as in [HandlerModel]. *)
Variables (meta_b : MB) (dto_b truthy_b : D -> bool) (max_b : Z).

(** What the receiver answers: status 0; status 500 (BufferedRequestHandlerReceivingPausedException,
    buffered_handler_base.py 27-29); any other status, with the text of the exception the client raises for it
    (clients/client_base.py 39-62). *)
Inductive wanswer := AAccepted | ABusy | AError (e : string).

(** A connection: the request sent over it, and how far it got. *)
Inductive cstate :=
| CTravelling                 (* the request is on its way *)
| CArrived                    (* [run] is collecting metadata for it *)
| CAnswered (a : wanswer)      (* the answer is on its way *)
| CRead (a : wanswer)          (* the client has read the answer *)
| CNoRequest                  (* the request is lost *)
| CNoAnswer (a : wanswer).     (* the answer is lost *)
Record conn := mkConn { c_key : N; c_data : D; c_state : cstate }.

(** [wcalls i]: the call of [send_data] of sending task [i]: failed attempts so far and the connection it waits on.
    [collectors]: for whom the calls of [run] in [collecting] are made ([None]: another client), in the same order. *)
Record world := mkW {
  wa : sstate D MA; ao : list (sout D);
  wb : hstate D MB; bo : list (hout D MB);
  conns : list conn; collectors : list (option nat); wcalls : nat -> Z * option nat }.

Inductive wout :=
| LAttempt (k : N) (d : D)         (* a request is sent *)
| LFailed (k : N)                  (* an attempt raises *)
| LGot (k : N) (a : wanswer).       (* the client reads an answer *)

Inductive wev :=
| WSender (ev : sev D)             (* anything in the sending application but the end of send_data *)
| WAttempt (i : nat)               (* the client of sending task i connects and writes the request *)
| WFail (i : nat) (x : option string)   (* its attempt raises: a retryable exception (None) or another one *)
| WRead (i : nat)                  (* it reads the answer *)
| WArrive (c : nat)                (* the request of connection c reaches the endpoint *)
| WLose (c : nat)                  (* the request or the answer of connection c is lost *)
| WHandler (ev : hev D MB)         (* anything in the receiving application but a new request *)
| WOther (k : N) (d : D).          (* a request of another client reaches the endpoint *)

Definition set_a w s o cs := mkW s (ao w ++ o) (wb w) (bo w) (conns w) (collectors w) cs.
Definition set_b w s o cn cl := mkW (wa w) (ao w) s (bo w ++ o) cn cl (wcalls w).
Definition set_net w cn cs := mkW (wa w) (ao w) (wb w) (bo w) cn (collectors w) cs.
Definition call_upd (f : nat -> Z * option nat) (i : nat) (x : Z * option nat) : nat -> Z * option nat :=
  fun j => if Nat.eqb j i then x else f j.
(** Connection [c] gets into state [x]. *)
Definition set_conn (l : list conn) (c : nat) (x : cstate) : list conn :=
  match nth_error l c with
  | Some n => put_nth c (mkConn (c_key n) (c_data n) x) l
  | None => l
  end.

Definition sending (w : world) (i : nat) : option (pentry D MA) :=
  match nth_error (stasks (wa w)) i with Some (SSending e) => Some e | _ => None end.

(** send_data of task [i] ends with [r] *)
Definition end_call (w : world) (i : nat) (cn : list conn) (r : sres) : world :=
  let (s, o) := sstep meta_a dto_a truthy_a wait max_a (wa w) (STask i r) in
  mkW s (ao w ++ o) (wb w) (bo w) cn (collectors w) (call_upd (wcalls w) i (0, None)).

(** What the answer makes of the call (client_base.py 80-85, buffered_sender_base.py 97-104) *)
Definition outcome_of (a : wanswer) : sres :=
  match a with AAccepted => SenderModel.ROk | ABusy => RRetryable | AError e => RFails e end.

(** The receiver's collector [i] is done with answer [a] *)
Definition answered (w : world) (i : nat) (a : wanswer) : list conn :=
  match nth_error (collectors w) i with Some (Some c) => set_conn (conns w) c (CAnswered a) | _ => conns w end.

Definition wstep (w : world) (ev : wev) : world * list wout :=
  match ev with
  | WSender e =>
      match e with
      | STask i _ => match sending w i with
                     | Some _ => (w, [])
                     | None => let (s, o) := sstep meta_a dto_a truthy_a wait max_a (wa w) e in (set_a w s o (wcalls w), [])
                     end
      | SCancel i => let (s, o) := sstep meta_a dto_a truthy_a wait max_a (wa w) e in
                     (set_a w s o (call_upd (wcalls w) i (0, None)), [])
      | _ => let (s, o) := sstep meta_a dto_a truthy_a wait max_a (wa w) e in (set_a w s o (wcalls w), [])
      end
  | WAttempt i =>                                                       (* stream_client_base.py 35-36, 49-51 *)
      match sending w i, wcalls w i with
      | Some e, (n, None) =>
          if n <? cmax then
            (set_net w (conns w ++ [mkConn (pe_key e) (pe_data e) CTravelling])
                     (call_upd (wcalls w) i (n, Some (List.length (conns w)))), [LAttempt (pe_key e) (pe_data e)])
          else (end_call w i (conns w) (RFails "the JSON object must be str, bytes or bytearray, not NoneType"), [])
      | _, _ => (w, [])
      end
  | WFail i x =>                                                        (* stream_client_base.py 54-67 *)
      match sending w i with
      | Some e =>
          let (n, c) := wcalls w i in
          if n <? cmax then
            (match x with
             | Some m => end_call w i (conns w) (RFails m)
             | None => if cmax <=? n + 1 then end_call w i (conns w) RRetryable
                       else set_net w (conns w) (call_upd (wcalls w) i (n + 1, None))
             end, [LFailed (pe_key e)])
          else (w, [])
      | None => (w, [])
      end
  | WRead i =>                                                          (* stream_client_base.py 38-45, client_base.py 78-85 *)
      match sending w i, wcalls w i with
      | Some e, (_, Some c) =>
          match nth_error (conns w) c with
          | Some n => match c_state n with
                      | CAnswered a => (end_call w i (set_conn (conns w) c (CRead a)) (outcome_of a), [LGot (pe_key e) a])
                      | _ => (w, [])
                      end
          | None => (w, [])
          end
      | _, _ => (w, [])
      end
  | WArrive c =>                                                        (* handler_base.py 27-29, buffered_handler_base.py 220-226 *)
      match nth_error (conns w) c with
      | Some n =>
          match c_state n with
          | CTravelling =>
              if dto_b (c_data n) then
                let (s, o) := hstep meta_b dto_b truthy_b max_b (wb w) (ERequest (c_key n) (c_data n)) in
                if recv_paused (wb w) then (set_b w s o (set_conn (conns w) c (CAnswered ABusy)) (collectors w), [])
                else (set_b w s o (set_conn (conns w) c CArrived) (collectors w ++ [Some c]), [])
              else (set_b w (wb w) [] (set_conn (conns w) c (CAnswered (AError "validation"))) (collectors w), [])
          | _ => (w, [])
          end
      | None => (w, [])
      end
  | WLose c =>
      match nth_error (conns w) c with
      | Some n =>
          match c_state n with
          | CTravelling => (set_net w (set_conn (conns w) c CNoRequest) (wcalls w), [])
          | CAnswered a => (set_net w (set_conn (conns w) c (CNoAnswer a)) (wcalls w), [])
          | _ => (w, [])
          end
      | None => (w, [])
      end
  | WHandler e =>
      match e with
      | ERequest _ _ => (w, [])
      | ECollected i _ =>                                               (* buffered_handler_base.py 226-230 *)
          let (s, o) := hstep meta_b dto_b truthy_b max_b (wb w) e in
          (set_b w s o (answered w i AAccepted) (del_nth i (collectors w)), [])
      | ECollectFails i =>
          let (s, o) := hstep meta_b dto_b truthy_b max_b (wb w) e in
          (set_b w s o (answered w i (AError "unhandled")) (del_nth i (collectors w)), [])
      | _ => let (s, o) := hstep meta_b dto_b truthy_b max_b (wb w) e in (set_b w s o (conns w) (collectors w), [])
      end
  | WOther k d =>
      if dto_b d then
        let (s, o) := hstep meta_b dto_b truthy_b max_b (wb w) (ERequest k d) in
        (set_b w s o (conns w) (if recv_paused (wb w) then collectors w else collectors w ++ [None]), [])
      else (w, [])
  end.

Fixpoint wrun (w : world) (evs : list wev) : world * list wout :=
  match evs with
  | [] => (w, [])
  | ev :: r => let (w1, o1) := wstep w ev in let (w2, o2) := wrun w1 r in (w2, o1 ++ o2)
  end.

(** Both applications have just started on queues with the given content. *)
Definition wstart (qa : pqueue D MA) (qb : pqueue D MB) : world :=
  mkW (s_setup qa) [] (setup qb) [] [] [] (fun _ => (0, None)).

End Model.

Arguments conn : clear implicits.
Arguments world : clear implicits.
Arguments wout : clear implicits.
Arguments wev : clear implicits.
