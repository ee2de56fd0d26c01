(** Model of one request on its way from the caller of a client to the endpoint and back: every attempt of a transient stream
    client (clients/stream_client_base.py 34-68, clients/json/transient_tcp.py and transient_uds.py) opens a connection, whose
    bytes travel in arbitrary pieces; at its other end is the server (StreamModel.v) with the application's code
    (RouterModel.v). The retry loop is that of ClientModel.v, the texts are those of WireModel.v.

    Several calls may be in progress on one client object. A history is a list of events; each lets one task run from one
    suspension point to the next or is an action of the network. Events that do not apply in a state are ignored. *)
From Coq Require Import String Ascii ZArith NArith Bool List Arith.
From Verif Require Import Base SpanKeyModel RouterModel JsonModel JsonSpec StreamModel ClientModel WireModel.
Import ListNotations.

Section Ask.
Context {D V : Type}.
(** bytes.decode() does not raise; the JSON form of what endpoints return (model_dump_json) *)
Context (utf8 : list N -> bool) (dump : V -> json).
(** The limit of asyncio's StreamReader, 2 ** 16 on both sides; max_retries *)
Context (limit : nat) (max : Z).
(** The application behind the server, while it handles what arrives on connection [c]: arbitrary for each. *)
Record code := mkCode {
  c_bms : list (bmiddleware span_key D V); c_mws : list (middleware span_key D V);
  c_stats : list (call span_key D V) -> string -> option string; c_table : table span_key D V }.
Context (accepted_resp : span_key -> V) (app : nat -> code).

(** servers/server_base.py 31-77 *)
Definition serve (c : nat) (text : string) : outc (response span_key V) * list (call span_key D V) :=
  serve_request accepted_resp (c_bms (app c)) (c_mws (app c)) (c_stats (app c)) key_of_json server_loads (c_table (app c)) text.
(** servers/stream_server_base.py 38-42: the response's text, before the line feed *)
Definition value_json (d : rvalue V) : json := match d with RVal v => dump v | RText s => JStr s end.
Definition body (r : response span_key V) : string :=
  print (JObj [("span_key", opt_key (pspan r)); ("status", JNum (pstatus r)); ("data", value_json (pdata r))]%string).
Definition answer (c : nat) (_ : list string) (text : string) : option (list N) :=
  match fst (serve c text) with Ret r => Some (bytes (body r)) | Exc _ => None end.
Definition decode (b : list N) : option string := if utf8 b then Some (of_bytes b) else None.

(** A connection: the call that opened it; the server's side ([None]: accepted by the operating system, but the server is not
    running: stream_server_base.py 23-24); how many bytes of the request have reached the server and how many of those it
    wrote have reached the client; the end of file and the exception set in the client's reader. [l_ran] is a ghost: the
    requests handled to the end, with the calls made to the application's code; no step reads it. *)
Record link := mkLink {
  l_call : nat; l_conn : option (conn string); l_fed : nat; l_seen : nat; l_eof : bool; l_err : option texn;
  l_ran : list (string * list (call span_key D V)) }.
(** Where an attempt is: in open_connection, in readline, in wait_closed with the response's text; or there is none. *)
Inductive phase := POpen | PRead (c : nat) | PClose (c : nat) (t : string) | PIdle.
Record net := mkNet {
  cl : client string; asked : nat -> request span_key; phases : nat -> phase; nlinks : nat; links : nat -> link }.

Inductive event :=
| NStart (r : request span_key)         (* send_message(route_key, data, ..., span_key) *)
| NOpened (i : nat) (running : bool)    (* open_connection returns; the request is written *)
| NOpenFail (i : nat) (x : texn)        (* open_connection raises *)
| NUp (c n : nat) | NUpEof (c : nat) | NUpReset (c : nat)           (* what the server sees of the connection *)
| NDone (c : nat)                                                   (* _route_request returns *)
| NDown (c n : nat) | NDownEof (c : nat) | NDownErr (c : nat) (x : texn) (* what the client sees of it *)
| NRead (i : nat) (data_first : bool)   (* the task waiting in readline runs *)
| NTimeout (i : nat)
| NClosed (i : nat) (x : option texn)   (* wait_closed returns or raises *)
| NCancel (i : nat) | NWake (i : nat).

Definition cstep1 (s : net) (e : ev string) : client string := ClientModel.step max stream_retries true (cl s) e.
(** The phase after the retry loop has run to its next suspension point. *)
Definition rephase (c : client string) (i : nat) : phase := match tst (calls c i) with TAttempt _ => POpen | _ => PIdle end.
Definition tell (s : net) (i : nat) (e : ev string) : net :=
  let c := cstep1 s e in mkNet c (asked s) (fupd (phases s) i (rephase c i)) (nlinks s) (links s).
Definition set_phase (s : net) (i : nat) (p : phase) : net := mkNet (cl s) (asked s) (fupd (phases s) i p) (nlinks s) (links s).
Definition set_link (s : net) (c : nat) (l : link) : net := mkNet (cl s) (asked s) (phases s) (nlinks s) (fupd (links s) c l).
Definition with_conn (l : link) (k : conn string) (fed : nat) : link :=
  mkLink (l_call l) (Some k) fed (l_seen l) (l_eof l) (l_err l) (l_ran l).
(** client_base.py 75-77: the bytes of the request *)
Definition sent (s : net) (i : nat) : list N := let r := asked s i in bytes (request_text (rroute r) (rspan r) (rdata r)).
Definition written (l : link) : list N := match l_conn l with Some k => List.concat (cout k) | None => [] end.

(** asyncio's StreamReader.readline, when the task runs: a line (at the end of the stream what there is) or an exception;
    [None]: it goes on waiting. If the exception was set after data had woken the task up, the data count: [data_first]. *)
Definition readline (b : list N) (eof : bool) : option (list N + texn) :=
  match index 0 b with
  | Some i => if Nat.ltb limit i then Some (inr (XMisc "ValueError")) else Some (inl (firstn (S i) b))
  | None => if Nat.ltb limit (List.length b) then Some (inr (XMisc "ValueError")) else if eof then Some (inl b) else None
  end.
Definition read_result (l : link) (data_first : bool) : option (list N + texn) :=
  let r := readline (firstn (l_seen l) (written l)) (l_eof l) in
  match l_err l with
  | None => r
  | Some x => match r with Some _ => if data_first then r else Some (inr x) | None => Some (inr x) end
  end.

Definition server_event (s : net) (c : nat) (e : cev) : net :=
  match l_conn (links s c) with
  | Some k => set_link s c (with_conn (links s c) (cstep decode (answer c) limit k e) (l_fed (links s c)))
  | None => s
  end.
Definition step (s : net) (e : event) : net :=
  match e with
  | NStart r =>   (* client_base.py 72-77 *)
      let i := ncalls (cl s) in
      tell (mkNet (cl s) (fupd (asked s) i r) (phases s) (nlinks s) (links s)) i EStart
  | NOpened i running =>   (* stream_client_base.py 35-38 *)
      match phases s i with
      | POpen => mkNet (cl s) (asked s) (fupd (phases s) i (PRead (nlinks s))) (S (nlinks s))
                   (fupd (links s) (nlinks s) (mkLink i (if running then Some accept else None) 0 0 false None []))
      | _ => s
      end
  | NOpenFail i x => match phases s i with POpen => tell s i (EOut i (AFail x)) | _ => s end
  | NUp c n =>
      if Nat.ltb c (nlinks s) then
        match l_conn (links s c) with
        | Some k =>
            if ceof k then s else
            let chunk := firstn n (skipn (l_fed (links s c)) (sent s (l_call (links s c)))) in
            set_link s c (with_conn (links s c) (cstep decode (answer c) limit k (EFeed chunk)) (l_fed (links s c) + List.length chunk))
        | None => s
        end
      else s
  | NUpEof c => if Nat.ltb c (nlinks s) then server_event s c EEof else s
  | NUpReset c => if Nat.ltb c (nlinks s) then server_event s c EReset else s
  | NDone c =>
      if Nat.ltb c (nlinks s) then
        match l_conn (links s c) with
        | Some k =>
            match cst k with
            | Handling t =>
                let l := with_conn (links s c) (cstep decode (answer c) limit k EDone) (l_fed (links s c)) in
                set_link s c (mkLink (l_call l) (l_conn l) (l_fed l) (l_seen l) (l_eof l) (l_err l) (l_ran l ++ [(t, snd (serve c t))]))
            | _ => s
            end
        | None => s
        end
      else s
  | NDown c n =>
      if Nat.ltb c (nlinks s) && negb (l_eof (links s c)) then
        let l := links s c in
        set_link s c (mkLink (l_call l) (l_conn l) (l_fed l) (Nat.min (l_seen l + n) (List.length (written l))) (l_eof l) (l_err l) (l_ran l))
      else s
  | NDownEof c =>
      if Nat.ltb c (nlinks s) then
        let l := links s c in set_link s c (mkLink (l_call l) (l_conn l) (l_fed l) (l_seen l) true (l_err l) (l_ran l))
      else s
  | NDownErr c x =>
      if Nat.ltb c (nlinks s) then
        let l := links s c in set_link s c (mkLink (l_call l) (l_conn l) (l_fed l) (l_seen l) (l_eof l) (Some x) (l_ran l))
      else s
  | NRead i data_first =>   (* stream_client_base.py 38-44 *)
      match phases s i with
      | PRead c =>
          match read_result (links s c) data_first with
          | None => s
          | Some (inr x) => tell s i (EOut i (AFail x))
          | Some (inl []) => tell s i (EOut i (AFail XEmpty))
          | Some (inl d) =>
              match decode d with
              | None => tell s i (EOut i (AFail (XMisc "UnicodeDecodeError")))
              | Some t => set_phase s i (PClose c t)
              end
          end
      | _ => s
      end
  | NTimeout i => match phases s i with PRead _ => tell s i (EOut i (AFail XTimeout)) | _ => s end
  | NClosed i x =>   (* lines 44-45 *)
      match phases s i with
      | PClose _ t => tell s i (EOut i (match x with None => AGot t | Some x => AFail x end))
      | _ => s
      end
  | NCancel i =>
      match phases s i with
      | PIdle => tell s i (ECancel i)
      | _ => tell s i (EOut i (AFail XCancel))
      end
  | NWake i => match phases s i with PIdle => tell s i (EWake i) | _ => s end
  end.
Definition fresh : net := mkNet start (fun _ => mkReq EmptyString (mkKey 0 0) JNull) (fun _ => PIdle) 0 (fun _ => mkLink 0 None 0 0 false None []).
Definition run (es : list event) : net := fold_left step es fresh.

(** client_base.py 77-85: how the call ends, once the retry loop has; [R] is what the response DTO class makes of the data. *)
Definition outcome_of {R} (str_of : json -> string) (build : list (string * json) -> option R) (s : net) (i : nat) : option (result R) :=
  match tst (calls (cl s) i) with
  | TDone o => Some (receive parse client_int client_span_ok str_of build o)
  | _ => None
  end.
End Ask.
Arguments code : clear implicits.
Arguments link : clear implicits.
Arguments net : clear implicits.
