(** Vocabulary for the statements about log records. *)
From Coq Require Import String Ascii ZArith Bool List.
From Verif Require Import RouterModel RouterSpec SpanKeyModel SpanKeySpec EnvelopeModel.
Import ListNotations.
Local Open Scope Z_scope.

(** Decimal numerals. *)
Definition decimals : list (ascii * Z) := combine (list_ascii_of_string "0123456789") [0; 1; 2; 3; 4; 5; 6; 7; 8; 9].
Inductive numeral : string -> Z -> Prop :=
| num_one c d : In (c, d) decimals -> numeral (String c EmptyString) d
| num_snoc s v c d : numeral s v -> In (c, d) decimals -> numeral (s ++ String c EmptyString) (10 * v + d).
(** Microseconds from 1970 to the end of the year 9999, the last that datetime has. *)
Definition end_of_time : Z := 253402300800000000.
(** The severities of Python's five levels in OpenTelemetry. *)
Inductive severity : Z -> Z -> string -> Prop :=
| sev_debug : severity 10 5 "DEBUG"
| sev_info : severity 20 9 "INFO"
| sev_warning : severity 30 13 "WARN"
| sev_error : severity 40 17 "ERROR"
| sev_critical : severity 50 21 "FATAL"
| sev_other l : ~ In l [10; 20; 30; 40; 50] -> severity l 0 "UNSPECIFIED".
(** An attribute list holds [value] under [key]. *)
Definition attribute (key : string) (value : json) (l : list json) : Prop := In (JObj [("key", JStr key); ("value", value)]%string) l.
Definition str (s : string) : json := JObj [("stringValue", JStr s)]%string.
Definition int (z : Z) : json := JObj [("intValue", JNum z)]%string.
Definition bool_ (b : bool) : json := JObj [("boolValue", JBool b)]%string.
(** How OTLP writes a value: strings, whole numbers and booleans as such, anything else as a string. *)
Inductive otlp_value : json -> json -> Prop :=
| ov_str s : otlp_value (JStr s) (str s)
| ov_int z : otlp_value (JNum z) (int z)
| ov_bool b : otlp_value (JBool b) (bool_ b)
| ov_other v s : (forall t, v <> JStr t) -> (forall z, v <> JNum z) -> (forall b, v <> JBool b) -> otlp_value v (str s).
(** An id of [w] hexadecimal digits under [key], when there is one. *)
Definition hex_id (key : string) (w : nat) (o : option Z) (d : list (string * json)) : Prop :=
  match o with
  | Some v => exists s, finds key (JStr s) d /\ List.length (list_ascii_of_string s) = w /\ denotes (list_ascii_of_string s) v
  | None => missing key d
  end.
(** OTLP record [d] is record [r], logged by application [a] while span key [span] was current. Its time is left out. *)
Definition content (a : application) (span : option span_key) (r : record) (d : list (string * json)) : Prop :=
  (exists n t, severity (levelno r) n t /\ finds "severityNumber"%string (JNum n) d /\ finds "severityText"%string (JStr t) d) /\
  finds "body"%string (str (message r)) d /\
  (exists l, finds "attributes"%string (JArr l) d /\ List.length l = 6%nat /\
     attribute "application_name" (str (app_name a)) l /\ attribute "application_instance" (str (app_instance a)) l /\
     attribute "filename" (str (filename r)) l /\ attribute "lineno" (int (lineno r)) l /\
     attribute "module" (str (module_ r)) l /\ attribute "funcName" (str (funcname r)) l) /\
  hex_id "traceId" 32 (option_map trace_id span) d /\ hex_id "spanId" 16 (option_map span_id span) d.
(** One call of the logger. *)
Record entry := mkEntry { e_app : application; e_span : option span_key; e_record : record }.
(** The line that a call of the logger writes. *)
Definition line_of (e : entry) : string := JsonModel.print (format (e_app e) (e_span e) (e_record e)).
(** The OTLP message that reports [records] under service [name], instance [inst]. *)
Definition message_of (name inst : string) (records : list json) : json :=
  JObj [("resourceLogs", JArr [JObj [
    ("resource", JObj [("attributes", JArr [JObj [("key", JStr "service.name"); ("value", str name)];
                                            JObj [("key", JStr "service.instance.id"); ("value", str inst)]])]);
    ("scopeLogs", JArr [JObj [("scope", JObj []); ("logRecords", JArr records)]])]])]%string.
(** OTLP record [j] reports entry [e]: its time and its content. *)
Definition reports (e : entry) (j : json) : Prop :=
  exists d t, j = JObj d /\ finds "timeUnixNano"%string (JStr t) d /\ numeral t (1000 * created (e_record e)) /\ content (e_app e) (e_span e) (e_record e) d.
(** Logged before nanoseconds overflow 64 bits (July 2554), with a span key that is one. *)
Definition sane (e : entry) : Prop :=
  0 <= 1000 * created (e_record e) < 2 ^ 64 /\ (forall k, e_span e = Some k -> valid_key k).
