(** Model of the clients: ekosis/clients/client_base.py, stream_client_base.py, persistent_stream_client_base.py and
    datagram_client_base.py.

    Several calls of send_message may be in progress on one client object.  They are tasks of the event loop; a schedule is
    a list of events, each of which lets one task run from one suspension point to the next, or is an action of the
    network.  Events that do not apply in a state are ignored. *)
From Coq Require Import List ZArith NArith Bool String Lia Arith.
From Verif Require Import RouterModel.
Import ListNotations.
Local Open Scope Z_scope.

(** Exceptions of the transport; [XCancel] is CancelledError, which is not an [Exception]. *)
Inductive texn := XTimeout | XReset | XAborted | XPipe | XRefused | XEmpty | XMisc (m : string) | XCancel.

(** How _send_message_retry_loop ends. *)
Inductive outcome (R : Type) :=
| OText (r : R)            (* returns the response's text *)
| ONone                    (* falls out of the loop: returns None *)
| OMax                     (* CommunicationsMaxRetriesReached *)
| ONonRetry (x : texn)     (* CommunicationsNonRetryable *)
| ORaw (x : texn).         (* another exception leaves the loop unchanged *)
Arguments OText {R} r. Arguments ONone {R}. Arguments OMax {R}. Arguments ONonRetry {R} x. Arguments ORaw {R} x.

Definition fupd {A} (f : nat -> A) (i : nat) (x : A) : nat -> A := fun j => if Nat.eqb j i then x else f j.

(** ** client_base.py: from the response's text to the caller *)
Section Response.
Context {D : Type}.
(** json.loads ([None]: JSONDecodeError); pydantic's reading of an [int] and of [SpanKey | None]; str() of a JSON value; the
    response DTO class ([None]: ValidationError). *)
Context (loads : string -> option json) (as_int : json -> option Z) (span_ok : json -> bool) (str_of : json -> string)
        (build : list (string * json) -> option D).

(** What send_message raises. *)
Inductive cexn :=
| CProtocol (m : string) | CDenied (m : string) | CValidation (m : string) | CUnknownRoute (m : string) | CBusy (m : string)
| CProcessing (m : string) | CUnhandled (m : string) | CUnknownStatus (s : Z) (m : string)
| CAttribute               (* AttributeError *)
| CType                    (* TypeError *)
| CDecode                  (* JSONDecodeError *)
| CPydantic                (* pydantic.ValidationError *)
| CMax | CNonRetry (x : texn) | CRaw (x : texn).
Inductive result := Returned (d : D) | Raised (x : cexn).

(** client_base.py 40-62.  [request.data.json()] is an attribute access on a str, int, list, dict, ... *)
Definition generate_response_exception (status : Z) (data : json) : cexn :=
  if Z.eqb status 100 then CProtocol (str_of data)
  else if Z.eqb status 200 then CAttribute
  else if Z.eqb status 300 then CValidation (str_of data)
  else if Z.eqb status 400 then CUnknownRoute (str_of data)
  else if Z.eqb status 500 then CBusy (str_of data)
  else if Z.eqb status 600 then CProcessing (str_of data)
  else if Z.eqb status 999 then CUnhandled (str_of data)
  else CUnknownStatus status (str_of data).

(** data_transfer_objects/json_protocol.py 63-66: ResponseDTO( **d ): status and data *)
Definition response_of (d : list (string * json)) : option (Z * json) :=
  match sget "status" d, sget "data" d with
  | Some s, Some v =>
      match as_int s with
      | None => None
      | Some n => match sget "span_key" d with
                  | None => Some (n, v)
                  | Some k => if span_ok k then Some (n, v) else None
                  end
      end
  | _, _ => None
  end.

(** client_base.py 77-85, given what the retry loop returned. *)
Definition receive (o : outcome string) : result :=
  match o with
  | OMax => Raised CMax
  | ONonRetry x => Raised (CNonRetry x)
  | ORaw x => Raised (CRaw x)
  | ONone => Raised CType                       (* json.loads(None) *)
  | OText text =>
      match loads text with
      | None => Raised CDecode
      | Some (JObj d) =>
          match response_of d with
          | None => Raised CPydantic
          | Some (s, v) =>
              if Z.eqb s 0 then
                match v with
                | JObj fields => match build fields with Some x => Returned x | None => Raised CPydantic end
                | _ => Raised CType             (* argument after ** must be a mapping *)
                end
              else Raised (generate_response_exception s v)
          end
      | Some _ => Raised CType
      end
  end.
End Response.
Arguments result : clear implicits.

(** ** The retry loops of stream_client_base.py 48-67 and datagram_client_base.py 73-86 *)
Section Retry.
Context {R : Type}.
(** max_retries, the exceptions that are retried, and whether the loop tests [self.success]. *)
Context (max : Z) (retries : texn -> bool) (flagged : bool).

(** One attempt (_send_message) returns a text or raises. *)
Inductive attempt := AGot (r : R) | AFail (x : texn).
Inductive tstate := TAttempt (n : Z) | TSleep (n : Z) | TDone (o : outcome R).
(** A call of send_message: where it is, and, for the statements, the outcomes of its attempts so far. *)
Record tcall := mkCall { tst : tstate; tlog : list attempt }.
Record client := mkClient { success : bool; ncalls : nat; calls : nat -> tcall }.
Inductive ev := EStart | EOut (i : nat) (o : attempt) | EWake (i : nat) | ECancel (i : nat).

(** while retry_count < self.max_retries and not self.success *)
Definition loop_test (s : client) (n : Z) : tstate :=
  if Z.ltb n max && negb (flagged && success s) then TAttempt n else TDone ONone.
Definition set_call (s : client) (i : nat) (c : tcall) : client := mkClient (success s) (ncalls s) (fupd (calls s) i c).
Definition live (s : client) (i : nat) : bool := Nat.ltb i (ncalls s).
Definition step (s : client) (e : ev) : client :=
  match e with
  | EStart =>   (* client_base.py 72-77 and the first test of the loop *)
      let s := mkClient false (S (ncalls s)) (calls s) in
      set_call s (Nat.pred (ncalls s)) (mkCall (loop_test s 0) [])
  | EOut i o =>
      if live s i then
        match tst (calls s i) with
        | TAttempt n =>
            let log := tlog (calls s i) ++ [o] in
            match o with
            | AGot r => set_call (mkClient true (ncalls s) (calls s)) i (mkCall (TDone (OText r)) log)
            | AFail XCancel => set_call s i (mkCall (TDone (ORaw XCancel)) log)
            | AFail x =>
                if retries x then
                  if Z.leb max (n + 1) then set_call s i (mkCall (TDone OMax) log)
                  else set_call s i (mkCall (TSleep (n + 1)) log)
                else set_call s i (mkCall (TDone (ONonRetry x)) log)
            end
        | _ => s
        end
      else s
  | EWake i =>
      if live s i then
        match tst (calls s i) with TSleep n => set_call s i (mkCall (loop_test s n) (tlog (calls s i))) | _ => s end
      else s
  | ECancel i =>   (* the caller is cancelled while it sleeps *)
      if live s i then
        match tst (calls s i) with TSleep n => set_call s i (mkCall (TDone (ORaw XCancel)) (tlog (calls s i))) | _ => s end
      else s
  end.
Definition start : client := mkClient false 0 (fun _ => mkCall (TDone ONone) []).
Definition run (evs : list ev) : client := fold_left step evs start.
End Retry.
Arguments attempt : clear implicits.
Arguments tstate : clear implicits.
Arguments tcall : clear implicits.
Arguments client : clear implicits.
Arguments ev : clear implicits.

(** stream_client_base.py 55-61 *)
Definition stream_retries (x : texn) : bool :=
  match x with XTimeout | XReset | XAborted | XPipe => true | _ => false end.
(** datagram_client_base.py 79 *)
Definition datagram_retries (x : texn) : bool := match x with XTimeout => true | _ => false end.
Definition stream_run {R} (max : Z) (evs : list (ev R)) : client R := run max stream_retries true evs.
Definition datagram_run {R} (max : Z) (evs : list (ev R)) : client R := run max datagram_retries false evs.

(** ** persistent_stream_client_base.py: one connection shared by the calls *)
Section Persistent.
Context (max : Z).

(** A connection: the requests written to it that the server has not answered, the responses that arrived and were not
    read (each named by the call that wrote the request), and whether the connection was lost.  The server answers in
    order (C27). *)
Record chan := mkChan { unans : list nat; inbox : list nat; dead : bool }.
Inductive pstate :=
| POpen (n : Z) (fresh : bool)  (* in open_connection: at the start of an attempt, or in the except clause after a failed one *)
| PWait (n : Z)                 (* the request is written; waiting for the read lock *)
| PRead (n : Z) (c : nat)       (* holds the read lock, in readline on connection c *)
| PSleep (n : Z)
| PDone (o : outcome nat).
(** [beat i]: task i is a heartbeat, not a call of send_message.  [tries i]: how often task i wrote its request. *)
Record pclient := mkP {
  connected : bool; cur : nat; nchan : nat; chans : nat -> chan; holder : option nat; waiters : list nat;
  psuccess : bool; ntasks : nat; tasks : nat -> pstate; beat : nat -> bool; tries : nat -> nat }.

Inductive pev :=
| PStart (heartbeat : bool) | POpened (i : nat) | POpenFail (i : nat) (x : texn) | PGrant | PData (i : nat)
| PEnd (i : nat) (x : texn) | PTimeout (i : nat) | PCancel (i : nat) | PWake (i : nat) | PAnswer (c : nat) | PDie (c : nat).

Definition set_task (s : pclient) (i : nat) (t : pstate) : pclient :=
  mkP (connected s) (cur s) (nchan s) (chans s) (holder s) (waiters s) (psuccess s) (ntasks s) (fupd (tasks s) i t) (beat s) (tries s).
Definition set_connected (s : pclient) (b : bool) : pclient :=
  mkP b (cur s) (nchan s) (chans s) (holder s) (waiters s) (psuccess s) (ntasks s) (tasks s) (beat s) (tries s).
Definition set_success (s : pclient) (b : bool) : pclient :=
  mkP (connected s) (cur s) (nchan s) (chans s) (holder s) (waiters s) b (ntasks s) (tasks s) (beat s) (tries s).
Definition set_lock (s : pclient) (h : option nat) (w : list nat) : pclient :=
  mkP (connected s) (cur s) (nchan s) (chans s) h w (psuccess s) (ntasks s) (tasks s) (beat s) (tries s).
Definition set_chan (s : pclient) (c : nat) (x : chan) : pclient :=
  mkP (connected s) (cur s) (nchan s) (fupd (chans s) c x) (holder s) (waiters s) (psuccess s) (ntasks s) (tasks s) (beat s) (tries s).
Definition count_try (s : pclient) (i : nat) : pclient :=
  mkP (connected s) (cur s) (nchan s) (chans s) (holder s) (waiters s) (psuccess s) (ntasks s) (tasks s) (beat s) (fupd (tries s) i (S (tries s i))).

(** Lines 60-67, 76-78 and 110-112: the request is written to the current connection; then the read lock is taken if it is
    free and nobody waits for it (asyncio.Lock serves waiters in order).  The write lock is never contended, because
    nothing is awaited while it is held. *)
Definition write_and_read (s : pclient) (i : nat) (n : Z) : pclient :=
  let c := chans s (cur s) in
  let s := count_try (set_chan s (cur s) (mkChan (unans c ++ [i]) (inbox c) (dead c))) i in
  match holder s, waiters s with
  | None, [] => set_task (set_lock s (Some i) []) i (PRead n (cur s))
  | _, _ => set_task (set_lock s (holder s) (waiters s ++ [i])) i (PWait n)
  end.
(** Lines 54-57, 104-110 *)
Definition begin_attempt (s : pclient) (i : nat) (n : Z) : pclient :=
  if connected s then write_and_read s i n else set_task s i (POpen n true).
(** Lines 122-129 *)
Definition retry_logic (s : pclient) (i : nat) (n : Z) : pclient :=
  if Z.leb max (n + 1) then set_task s i (PDone OMax) else set_task s i (PSleep (n + 1)).
(** Lines 140-152: an exception from _send_message. *)
Definition failed (s : pclient) (i : nat) (n : Z) (x : texn) : pclient :=
  match x with
  | XTimeout => retry_logic s i n
  | XReset | XAborted | XPipe | XEmpty => set_task (set_connected s false) i (POpen n false)
  | XCancel => set_task s i (PDone (ORaw XCancel))
  | _ => set_task s i (PDone (ONonRetry x))
  end.
Definition plive (s : pclient) (i : nat) : bool := Nat.ltb i (ntasks s).
Definition remove_waiter (i : nat) (l : list nat) : list nat := filter (fun j => negb (Nat.eqb j i)) l.

Definition pstep (s : pclient) (e : pev) : pclient :=
  match e with
  | PStart heartbeat =>   (* client_base.py 72-76, lines 131-135; for a heartbeat lines 70-78 *)
      let i := ntasks s in
      let s := mkP (connected s) (cur s) (nchan s) (chans s) (holder s) (waiters s) (if heartbeat then psuccess s else false) (S i)
                   (tasks s) (fupd (beat s) i heartbeat) (fupd (tries s) i 0%nat) in
      if heartbeat || Z.ltb 0 max then begin_attempt s i 0 else set_task s i (PDone ONone)
  | POpened i =>
      if plive s i then
        match tasks s i with
        | POpen n fresh =>
            let s := mkP true (nchan s) (S (nchan s)) (fupd (chans s) (nchan s) (mkChan [] [] false)) (holder s) (waiters s)
                         (psuccess s) (ntasks s) (tasks s) (beat s) (tries s) in
            if fresh then write_and_read s i n else retry_logic s i n
        | _ => s
        end
      else s
  | POpenFail i x =>
      if plive s i then
        match tasks s i with
        | POpen n true => if beat s i then set_task s i (PDone (ORaw x)) else failed s i n x
        | POpen n false => set_task s i (PDone (ORaw x))   (* raised inside the except clause *)
        | _ => s
        end
      else s
  | PGrant =>   (* the first waiter gets the lock and then looks up self.__reader *)
      match holder s, waiters s with
      | None, i :: r => match tasks s i with PWait n => set_task (set_lock s (Some i) r) i (PRead n (cur s)) | _ => s end
      | _, _ => s
      end
  | PData i =>   (* readline returns a line *)
      if plive s i then
        match tasks s i with
        | PRead n c =>
            match inbox (chans s c) with
            | [] => s
            | r :: rest =>
                let s := set_lock (set_chan s c (mkChan (unans (chans s c)) rest (dead (chans s c)))) None (waiters s) in
                if beat s i then set_task (if beat s r then s else set_connected s false) i (PDone ONone)
                else set_task (set_success s true) i (PDone (OText r))
            end
        | _ => s
        end
      else s
  | PEnd i x =>   (* the connection is lost: readline returns b'' ([XEmpty]) or raises; nothing can be read from it any more *)
      if plive s i then
        match tasks s i with
        | PRead n c =>
            if dead (chans s c) && (match x with XEmpty => match inbox (chans s c) with [] => true | _ => false end | _ => true end)
            then
              let s := set_lock (set_chan s c (mkChan (unans (chans s c)) [] true)) None (waiters s) in
              if beat s i then set_task (match x with XEmpty => set_connected s false | _ => s end) i (PDone ONone)
              else failed (match x with XEmpty => set_connected s false | _ => s end) i n x
            else s
        | _ => s
        end
      else s
  | PTimeout i =>
      if plive s i then
        match tasks s i with
        | PRead n c =>
            let s := set_lock s None (waiters s) in
            if beat s i then set_task s i (PDone ONone) else failed s i n XTimeout
        | _ => s
        end
      else s
  | PCancel i =>
      if plive s i then
        match tasks s i with
        | PRead n c => set_task (set_lock s None (waiters s)) i (PDone (ORaw XCancel))
        | PWait n => set_task (set_lock s (holder s) (remove_waiter i (waiters s))) i (PDone (ORaw XCancel))
        | PDone _ => s
        | _ => set_task s i (PDone (ORaw XCancel))
        end
      else s
  | PWake i =>
      if plive s i then
        match tasks s i with
        | PSleep n => if Z.ltb n max && negb (psuccess s) then begin_attempt s i n else set_task s i (PDone ONone)
        | _ => s
        end
      else s
  | PAnswer c =>
      match unans (chans s c) with
      | r :: rest => if dead (chans s c) then s else set_chan s c (mkChan rest (inbox (chans s c) ++ [r]) false)
      | [] => s
      end
  | PDie c => set_chan s c (mkChan (unans (chans s c)) (inbox (chans s c)) true)
  end.
Definition pstart : pclient :=
  mkP false 0 1 (fun _ => mkChan [] [] true) None [] false 0 (fun _ => PDone ONone) (fun _ => false) (fun _ => 0%nat).
Definition prun (evs : list pev) : pclient := fold_left pstep evs pstart.
End Persistent.

(** ** datagram_client_base.py: one endpoint shared by the calls.  The creation of the endpoint (lines 61-67) is left out. *)
Section Datagram.
Context (max : Z).

Inductive dstate := DWait (n : Z) | DSent (n : Z) | DSleep (n : Z) | DDone (o : outcome nat).
(** [dresponse]: the future in DatagramProtocolClient.response, if any: whether it was cancelled.  [net]: replies on their
    way, each named by the call that sent the request. *)
Record dclient := mkD { dheld : option nat; dwait : list nat; dresponse : option bool; net : list nat; dn : nat; dtasks : nat -> dstate }.
Inductive dev := DStart | DGrant | DReply (r : nat) | DLose (r : nat) | DCopy (r : nat) | DTimeout (i : nat) | DWake (i : nat).

Definition dset (s : dclient) (i : nat) (t : dstate) : dclient :=
  mkD (dheld s) (dwait s) (dresponse s) (net s) (dn s) (fupd (dtasks s) i t).
(** Lines 31-36, once the lock is held: a new future, then the datagram; the server's reply to it is now on its way. *)
Definition dsend (s : dclient) (i : nat) (n : Z) : dclient :=
  dset (mkD (Some i) (dwait s) (Some false) (net s ++ [i]) (dn s) (dtasks s)) i (DSent n).
(** Lines 69-70 *)
Definition dattempt (s : dclient) (i : nat) (n : Z) : dclient :=
  match dheld s, dwait s with
  | None, [] => dsend s i n
  | _, _ => dset (mkD (dheld s) (dwait s ++ [i]) (dresponse s) (net s) (dn s) (dtasks s)) i (DWait n)
  end.
Fixpoint take_out (r : nat) (l : list nat) : option (list nat) :=
  match l with
  | [] => None
  | x :: l => if Nat.eqb x r then Some l else match take_out r l with Some m => Some (x :: m) | None => None end
  end.
Definition dstep (s : dclient) (e : dev) : dclient :=
  match e with
  | DStart =>
      let s' := mkD (dheld s) (dwait s) (dresponse s) (net s) (S (dn s)) (dtasks s) in
      if Z.ltb 0 max then dattempt s' (dn s) 0 else dset s' (dn s) (DDone ONone)
  | DGrant =>
      match dheld s, dwait s with
      | None, i :: r => match dtasks s i with
                        | DWait n => dsend (mkD None r (dresponse s) (net s) (dn s) (dtasks s)) i n
                        | _ => s end
      | _, _ => s
      end
  | DReply r =>   (* lines 25-28; set_result on a cancelled future raises InvalidStateError in the callback *)
      match take_out r (net s) with
      | None => s
      | Some rest =>
          let s := mkD (dheld s) (dwait s) (dresponse s) rest (dn s) (dtasks s) in
          match dresponse s, dheld s with
          | Some false, Some i => dset (mkD None (dwait s) None (net s) (dn s) (dtasks s)) i (DDone (OText r))
          | _, _ => s
          end
      end
  | DLose r => match take_out r (net s) with
               | None => s | Some rest => mkD (dheld s) (dwait s) (dresponse s) rest (dn s) (dtasks s) end
  | DCopy r => match take_out r (net s) with
               | None => s | Some _ => mkD (dheld s) (dwait s) (dresponse s) (r :: net s) (dn s) (dtasks s) end
  | DTimeout i =>   (* lines 35 and 79-84; wait_for cancels the future *)
      if Nat.ltb i (dn s) then
        match dtasks s i with
        | DSent n =>
            let s := mkD None (dwait s) (Some true) (net s) (dn s) (dtasks s) in
            if Z.leb max (n + 1) then dset s i (DDone OMax) else dset s i (DSleep (n + 1))
        | _ => s
        end
      else s
  | DWake i =>
      if Nat.ltb i (dn s) then
        match dtasks s i with
        | DSleep n => if Z.ltb n max then dattempt s i n else dset s i (DDone ONone)
        | _ => s
        end
      else s
  end.
Definition dstart : dclient := mkD None [] None [] 0 (fun _ => DDone ONone).
Definition drun (evs : list dev) : dclient := fold_left dstep evs dstart.
End Datagram.
