(** Model of the way of one log record: ekosis/logs/otlp_formatter.py, ekosis/data_transfer_objects/otlp_log_record.py, then
    ekosis_log_shipper/src/otlp_envelope.cpp.

    Library code that is modelled: Python's datetime.fromtimestamp(.., utc) and isoformat (Lib/datetime.py), C's sscanf with
    %d and literal characters, timegm, std::to_string. The text form of JSON values is that of JsonModel. A moment is a whole number of microseconds since 1970: record.created is a float, which
    fromtimestamp rounds to that. *)
From Coq Require Import String Ascii ZArith Bool Lia List Arith.
From Verif Require Import SpanKeyModel RouterModel JsonModel WireModel.
Import ListNotations.
Local Open Scope Z_scope.

(** ** Calendar: Lib/datetime.py *)
Definition is_leap (y : Z) : bool := (y mod 4 =? 0) && (negb (y mod 100 =? 0) || (y mod 400 =? 0)).
Definition days_before_year (y : Z) : Z := let p := y - 1 in p * 365 + p / 4 - p / 100 + p / 400.
Definition days_in_month_tab (m : Z) : Z := nth (Z.to_nat m) [0; 31; 28; 31; 30; 31; 30; 31; 31; 30; 31; 30; 31] 0.
Definition days_before_month_tab (m : Z) : Z := nth (Z.to_nat m) [0; 0; 31; 59; 90; 120; 151; 181; 212; 243; 273; 304; 334] 0.
Definition b2z (b : bool) : Z := if b then 1 else 0.
(** _ord2ymd *)
Definition month_day (n : Z) (leap : bool) : Z * Z :=
  let month := Z.shiftr (n + 50) 5 in
  let preceding := days_before_month_tab month + b2z ((2 <? month) && leap) in
  if n <? preceding
  then let month := month - 1 in
       let preceding := preceding - (days_in_month_tab month + b2z ((month =? 2) && leap)) in (month, n - preceding + 1)
  else (month, n - preceding + 1).
Definition ord2ymd (n : Z) : Z * Z * Z :=
  let n := n - 1 in
  let n400 := n / 146097 in let n := n mod 146097 in
  let n100 := n / 36524 in let n := n mod 36524 in
  let n4 := n / 1461 in let n := n mod 1461 in
  let n1 := n / 365 in let n := n mod 365 in
  let year := n400 * 400 + 1 + n100 * 100 + n4 * 4 + n1 in
  if (n1 =? 4) || (n100 =? 4) then (year - 1, 12, 31)
  else let leap := (n1 =? 3) && (negb (n4 =? 24) || (n100 =? 3)) in
       let '(month, day) := month_day n leap in (year, month, day).
(** 1970-01-01 is day 719163 *)
Definition epoch_day : Z := 719163.

(** ** Numbers as text *)
(** The last [w] digits of [n]: %0wd for a number of at most [w] digits. *)
Fixpoint padded (w : nat) (n : Z) : string :=
  match w with O => EmptyString | S w => (padded w (n / 10) ++ String (digit (n mod 10)) EmptyString)%string end.
(** datetime.isoformat with the offset of UTC *)
Definition isoformat (t : Z) : string :=
  let us := t mod 1000000 in let secs := t / 1000000 in
  let sod := secs mod 86400 in
  let '(y, m, d) := ord2ymd (secs / 86400 + epoch_day) in
  (padded 4 y ++ chr "-" ++ padded 2 m ++ chr "-" ++ padded 2 d ++ chr "T"
   ++ padded 2 (sod / 3600)%Z ++ chr ":" ++ padded 2 (sod mod 3600 / 60)%Z ++ chr ":" ++ padded 2 (sod mod 60)%Z
   ++ (if (us =? 0)%Z then EmptyString else chr "." ++ padded 6 us) ++ "+00:00")%string.

(** sscanf: %d. White space and the sign before the digits; overflow of int does not arise. *)
Definition is_space (c : ascii) : bool := existsb (Ascii.eqb c) [" "; "009"; "010"; "011"; "012"; "013"]%char.
Fixpoint skip_space (s : string) : string :=
  match s with String c r => if is_space c then skip_space r else s | EmptyString => s end.
Definition scan_digits (s : string) : option (Z * string) :=
  match s with String c _ => match digit_of c with Some _ => Some (digits 0 s) | None => None end | EmptyString => None end.
Definition scan_int (s : string) : option (Z * string) :=
  match skip_space s with
  | String c r => if Ascii.eqb c "-" then match scan_digits r with Some (n, r') => Some (- n, r') | None => None end
                  else if Ascii.eqb c "+" then scan_digits r else scan_digits (String c r)
  | EmptyString => None
  end.
(** "%d-%d-%dT%d:%d:%d.%d": the separator that follows each number; scanning stops at the first mismatch, and the numbers
    not reached keep their initial value 0. *)
Fixpoint scan_fields (seps : list ascii) (s : string) : list Z :=
  match scan_int s with
  | None => []
  | Some (n, r) =>
      match seps with
      | [] => [n]
      | c :: seps => match r with String c' r' => if Ascii.eqb c c' then n :: scan_fields seps r' else [n] | EmptyString => [n] end
      end
  end.
Definition u64 (z : Z) : Z := z mod 18446744073709551616.
(** timegm, for fields in their ranges *)
Definition timegm (y mo d h mi s : Z) : Z :=
  let days := days_before_year y + (days_before_month_tab mo + b2z ((2 <? mo) && is_leap y)) + d - epoch_day in
  days * 86400 + h * 3600 + mi * 60 + s.
(** otlp_envelope.cpp 15-31 *)
Definition parse_iso8601 (ts : string) : Z :=
  let f := scan_fields ["-"; "-"; "T"; ":"; ":"; "."]%char ts in
  let g i := nth i f 0 in
  u64 (u64 (timegm (g 0%nat) (g 1%nat) (g 2%nat) (g 3%nat) (g 4%nat) (g 5%nat)) * 1000000000 + u64 (g 6%nat) * 1000).
(** ** otlp_log_record.py 7-17 *)
Fixpoint sev_get (l : Z) (d : list (Z * (Z * string))) : option (Z * string) :=
  match d with [] => None | (k, v) :: r => if l =? k then Some v else sev_get l r end.
Definition severity_for_levelno (l : Z) : Z * string :=
  match sev_get l [(10, (5, "DEBUG")); (20, (9, "INFO")); (30, (13, "WARN")); (40, (17, "ERROR")); (50, (21, "FATAL"))]%string with
  | Some x => x
  | None => (0, "UNSPECIFIED"%string)
  end.

(** A log record, after getMessage, with the traceback of exc_info as text, which the formatter does not use; and the
    configuration's names. *)
Record record := mkRecord { created : Z; levelno : Z; message : string; filename : string; lineno : Z; module_ : string; funcname : string;
                            exc_info : option string }.
Record application := mkApp { app_name : string; app_instance : string }.
(** otlp_formatter.py 10-39; [span]: the current span key; UUID.hex is '%032x'. model_dump_json writes the fields
    in the order of the class. *)
Definition opt_str (o : option string) : json := match o with Some s => JStr s | None => JNull end.
Definition format (a : application) (span : option span_key) (r : record) : json :=
  JObj [("timestamp", JStr (isoformat (created r))); ("severity_number", JNum (fst (severity_for_levelno (levelno r))));
        ("severity_text", JStr (snd (severity_for_levelno (levelno r)))); ("body", JStr (message r));
        ("attributes", JObj [("application_name", JStr (app_name a)); ("application_instance", JStr (app_instance a));
                             ("filename", JStr (filename r)); ("lineno", JNum (lineno r)); ("module", JStr (module_ r)); ("funcName", JStr (funcname r))]);
        ("trace_id", opt_str (option_map (fun k => of_text (format_0x 32 (trace_id k))) span));
        ("span_id", opt_str (option_map (fun k => of_text (span_id_hex (span_id k))) span))]%string.

(** ** otlp_envelope.cpp *)
(** Lines 33-46; json::dump is [print], up to the order of the keys of nested objects. *)
Definition value_kv (v : json) : json :=
  match v with
  | JStr s => JObj [("stringValue", JStr s)]
  | JNum z => JObj [("intValue", JNum z)]
  | JBool b => JObj [("boolValue", JBool b)]
  | _ => JObj [("stringValue", JStr (print v))]
  end%string.
Definition attribute_kv (k : string) (v : json) : json := JObj [("key", JStr k); ("value", value_kv v)]%string.
(** nlohmann's objects are ordered by key; [items()] goes through them in that order. *)
Fixpoint insert (x : string * json) (l : list (string * json)) : list (string * json) :=
  match l with
  | [] => [x]
  | y :: r => match String.compare (fst x) (fst y) with Gt => y :: insert x r | _ => x :: l end
  end.
Definition by_key (d : list (string * json)) : list (string * json) := fold_right insert [] d.
(** [at] and [get], which throw: [None]. get<int> also converts booleans. *)
Definition get_str (k : string) (d : list (string * json)) : option string := match sget k d with Some (JStr s) => Some s | _ => None end.
Definition get_int (k : string) (d : list (string * json)) : option Z :=
  match sget k d with Some (JNum z) => Some z | Some (JBool b) => Some (b2z b) | _ => None end.
(** items() of a value that is not an object: an array's elements under their index, anything else under the empty key;
    here [None] for those (they do not come from the formatter). *)
Definition get_items (k : string) (d : list (string * json)) : option (list (string * json)) :=
  match sget k d with Some (JObj a) => Some a | None => Some [] | _ => None end.
(** Lines 63-68: absent or null is left out, another type throws *)
Definition get_id (k : string) (d : list (string * json)) : option (option string) :=
  match sget k d with None | Some JNull => Some None | Some (JStr s) => Some (Some s) | _ => None end.
Definition id_field (k : string) (o : option string) : list (string * json) := match o with Some s => [(k, JStr s)] | None => [] end.
(** Lines 48-70 *)
Definition convert_one_record (j : json) : option json :=
  match j with
  | JObj d =>
      match get_str "timestamp" d, get_int "severity_number" d, get_str "severity_text" d, get_str "body" d,
            get_items "attributes" d, get_id "trace_id" d, get_id "span_id" d with
      | Some ts, Some sn, Some st, Some b, Some at_, Some tid, Some sid =>
          Some (JObj ([("timeUnixNano", JStr (dec (parse_iso8601 ts))); ("severityNumber", JNum sn); ("severityText", JStr st);
                       ("body", JObj [("stringValue", JStr b)]); ("attributes", JArr (map (fun x => attribute_kv (fst x) (snd x)) (by_key at_)))]%string
                      ++ id_field "traceId" tid ++ id_field "spanId" sid)%list)
      | _, _, _, _, _, _, _ => None
      end
  | _ => None
  end.
(** Lines 75-89; a missing name stays empty, one that is not a string throws; [contains] on other than an object is false. *)
Definition name_of (k : string) (d : list (string * json)) : option string :=
  match sget k d with None => Some EmptyString | Some (JStr s) => Some s | _ => None end.
Definition extract_resource_info (j : json) : option (string * string) :=
  match j with
  | JObj d => match sget "attributes" d with
              | Some (JObj a) => match name_of "application_name" a, name_of "application_instance" a with
                                 | Some n, Some i => Some (n, i) | _, _ => None end
              | _ => Some (EmptyString, EmptyString)
              end
  | _ => Some (EmptyString, EmptyString)
  end.
Fixpoint all {A} (l : list (option A)) : option (list A) :=
  match l with
  | [] => Some []
  | None :: _ => None
  | Some x :: r => match all r with Some m => Some (x :: m) | None => None end
  end.
(** Lines 92-117 *)
Definition payload (resource : string * string) (records : list json) : json :=
  JObj [("resourceLogs", JArr [JObj [
    ("resource", JObj [("attributes", JArr [attribute_kv "service.name" (JStr (fst resource)); attribute_kv "service.instance.id" (JStr (snd resource))])]);
    ("scopeLogs", JArr [JObj [("scope", JObj []); ("logRecords", JArr records)]])]])]%string.
(** main.cpp 108-109, for the lines of one batch; json::parse is [parse] ([None]: it throws). *)
Definition build (lines : list string) : option json :=
  match lines with
  | [] => None
  | first :: _ =>
      match parse first with
      | None => None
      | Some j =>
          match extract_resource_info j,
                all (map (fun l => match parse l with Some j => convert_one_record j | None => None end) lines) with
          | Some r, Some records => Some (payload r records)
          | _, _ => None
          end
      end
  end.
(** Whether line [l] alone converts: what [good] stands for in ShipperModel. *)
Definition converts (l : string) : bool :=
  match parse l with
  | Some j => match extract_resource_info j, convert_one_record j with Some _, Some _ => true | _, _ => false end
  | None => false
  end.
