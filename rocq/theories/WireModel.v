(** Model of the messages on the wire: how clients/client_base.py and the servers write and read the protocol DTOs of
    data_transfer_objects/json_protocol.py as text.  Texts are strings of bytes (UTF-8). *)
From Coq Require Import String Ascii ZArith NArith Bool List.
From Verif Require Import Base SpanKeyModel RouterModel JsonModel.
Import ListNotations.
Local Open Scope Z_scope.

Definition of_text (t : text) : string := string_of_list_ascii t.
Definition to_text (s : string) : text := list_ascii_of_string s.
(** Serialisation of a SpanKey (json_protocol.py 8-10): pydantic writes a UUID as str(), SpanId has the serializer of
    span_id.py 48-51. *)
Definition key_json (k : span_key) : json :=
  JObj [("trace_id", JStr (of_text (uuid_str (trace_id k)))); ("span_id", JStr (of_text (span_id_hex (span_id k))))]%string.
(** pydantic's SpanKey from a JSON value: a UUID from its text, a SpanId by span_id.py 31-41 (True and False are ints).
    [None]: ValidationError.  pydantic's own reader of UUIDs accepts fewer texts than Lib/uuid.py, which is used here. *)
Definition trace_of_json (j : json) : option Z := match j with JStr s => match uuid_of_hex (to_text s) with Ok v => Some v | Raise _ => None end | _ => None end.
Definition ok_of {A} (r : res A) : option A := match r with Ok v => Some v | Raise _ => None end.
Definition spanid_of_json (j : json) : option Z :=
  match j with
  | JStr s => ok_of (span_id_of_hex (to_text s))
  | JNum n => ok_of (span_id_of_int n)
  | JBool b => ok_of (span_id_of_int (if b then 1 else 0))
  | _ => None
  end.
Definition key_of_json (j : json) : option span_key :=
  match j with
  | JObj d =>
      match sget "trace_id" d, sget "span_id" d with
      | Some t, Some s => match trace_of_json t, spanid_of_json s with Some t, Some s => Some (mkKey t s) | _, _ => None end
      | _, _ => None
      end
  | _ => None
  end.
(** client_base.py 75-77 *)
Definition lf : string := chr "010".
Definition request_text (route : string) (k : span_key) (data : json) : string :=
  (print (JObj [("route_key", JStr route); ("span_key", key_json k); ("data", data)]) ++ lf)%string.
(** stream_server_base.py 38-41: the ResponseDTO (json_protocol.py 63-66) *)
Definition opt_key (o : option span_key) : json := match o with Some k => key_json k | None => JNull end.
Definition response_text (span : option span_key) (status : Z) (data : json) : string :=
  (print (JObj [("span_key", opt_key span); ("status", JNum status); ("data", data)]) ++ lf)%string.

(** str.strip(), for ASCII *)
Definition is_blank (c : ascii) : bool := existsb (Nat.eqb (nat_of_ascii c)) [9; 10; 11; 12; 13; 28; 29; 30; 31; 32]%nat.
Fixpoint lstrip (s : string) : string := match s with String c r => if is_blank c then lstrip r else s | EmptyString => s end.
Fixpoint rstrip (s : string) : string :=
  match s with
  | EmptyString => EmptyString
  | String c r => match rstrip r with EmptyString => if is_blank c then EmptyString else chr c | t => String c t end
  end.
(** servers/server_base.py 35: json.loads(request_text.strip()) *)
Definition server_loads (t : string) : outc json :=
  match parse (rstrip (lstrip t)) with Some j => Ret j | None => Exc (XDecode "JSONDecodeError") end.
(** server_base.py 36: RequestDTO( **request_dict ); [None] when an exception is raised before the request is known *)
Definition server_read (t : string) : option (request span_key) :=
  match server_loads t with Ret (JObj d) => request_of key_of_json d | _ => None end.
(** The client's reading of a response's status (an int; pydantic would also take the text of one) and span key *)
Definition client_int (j : json) : option Z := match j with JNum z => Some z | JBool b => Some (if b then 1 else 0) | _ => None end.
Definition client_span_ok (j : json) : bool := match j with JNull => true | _ => match key_of_json j with Some _ => true | None => false end end.
