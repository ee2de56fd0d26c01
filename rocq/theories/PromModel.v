(** Model of ekosis_prometheus/ekosis_prometheus: stats_translator.py, scraper.py and service_discovery.py. *)
From Coq Require Import String Ascii ZArith Bool Lia List.
From Verif Require Import Base RouterModel StatsModel ConfigModel.
Import ListNotations.
Local Open Scope string_scope.

(** s.replace(a, b) for single characters *)
Fixpoint replace_char (a b : ascii) (s : string) : string :=
  match s with EmptyString => EmptyString | String c r => String (if Ascii.eqb c a then b else c) (replace_char a b r) end.

(** The metric names Prometheus allows; newer versions of prometheus_client can be set to allow more. *)
Definition name_start (c : ascii) : bool :=
  let n := nat_of_ascii c in (Nat.leb 97 n && Nat.leb n 122) || (Nat.leb 65 n && Nat.leb n 90) || Nat.eqb n 95 || Nat.eqb n 58.
Definition name_char (c : ascii) : bool := let n := nat_of_ascii c in name_start c || (Nat.leb 48 n && Nat.leb n 57).
Fixpoint all_chars (s : string) : bool := match s with EmptyString => true | String c r => name_char c && all_chars r end.
Definition valid_name (s : string) : bool := match s with EmptyString => false | String c r => name_start c && all_chars r end.

Section Prom.
Context (num : Type) (zero one : num).
(** x >= 0, and float(s) of a string (None: ValueError); float() of a number is the number. *)
Context (nonneg : num -> bool) (float_of : string -> option num).
(** str() of a value that is not a string; a label value becomes a string when the label is made. *)
Context (show : tree num -> string).
(** The metric names prometheus_client accepts; this depends on its version and settings, see [valid_name] below. *)
Context (name_ok : string -> bool).
Notation tree := (tree num). Notation dict := (dict num).

Definition labels := list (string * string).
Definition metric := (string * num * labels)%type.
(** What a generator yields, and the exception that ends it, if one does. *)
Definition gen := (list metric * option string)%type.
Definition stop (e : string) : gen := ([], Some e).
Definition nothing : gen := ([], None).
Definition yield (m : metric) : gen := ([m], None).
Definition seq (a b : gen) : gen := match snd a with Some e => a | None => ((fst a ++ fst b)%list, snd b) end.
Definition each {A} (f : A -> gen) (l : list A) : gen := fold_right (fun x g => seq (f x) g) nothing l.

Definition str (t : tree) : string := match t with Str _ s => s | _ => show t end.
(** float(t) *)
Definition to_float (t : tree) : res num :=
  match t with Num _ n => Ok n | Str _ s => match float_of s with Some n => Ok n | None => Raise "ValueError" end | Node _ _ => Raise "TypeError" end.
Definition emit (name : string) (t : tree) (l : labels) : gen :=
  match to_float t with Ok n => yield (name, n, l) | Raise e => stop e end.

(** stats_translator.py lines 11-17 *)
Definition safe_key (k : string) : string := replace_char "-"%char "_"%char (replace_char "."%char "_"%char k).
Fixpoint flatten (prefix : string) (t : tree) : list (string * num) :=
  match t with
  | Node _ d =>
      (fix go (d : dict) : list (string * num) :=
         match d with
         | [] => []
         | (k, v) :: r => (flatten (if String.eqb prefix "" then safe_key k else prefix ++ "_" ++ safe_key k) v ++ go r)%list
         end) d
  | Num _ n => [(prefix, n)]
  | Str _ _ => []
  end.
(** exclude_groups; the default is {"eco"} (line 7) *)
Definition excluded (exclude : list string) (g : string) : bool := existsb (String.eqb g) exclude.
(** {**labels, "group": group, "endpoint": endpoint_name} *)
Definition endpoint_labels (l : labels) (g e : string) : labels := (l ++ [("group", g); ("endpoint", e)])%list.
(** sizes.get(key), emitted if it is not None *)
Definition emit_key (d : dict) (key name : string) (l : labels) : gen := match sget key d with Some t => emit name t l | None => nothing end.
(** lines 21-41 *)
Definition iter_queue_groups (queue_data : dict) (exclude : list string) (metric_prefix : string) (l : labels) : gen :=
  each (fun ge => let (g, endpoints) := (ge : string * tree) in
    if excluded exclude g then nothing
    else match endpoints with
         | Node _ eps => each (fun es => let (e, sizes) := (es : string * tree) in
             match sizes with
             | Node _ sz => seq (emit_key sz "pending" (metric_prefix ++ "_queue_pending") (endpoint_labels l g e))
                                (emit_key sz "error" (metric_prefix ++ "_queue_error") (endpoint_labels l g e))
             | _ => nothing
             end) eps
         | _ => nothing
         end) queue_data.
(** lines 95-101: p is not None and p >= 0; comparing a string or a dict with 0 raises TypeError *)
Definition emit_percentile (d : dict) (key name : string) (l : labels) : gen :=
  match sget key d with
  | None => nothing
  | Some (Num _ n) => if nonneg n then yield (name, n, l) else nothing
  | Some _ => stop "TypeError"
  end.
(** lines 79-101 *)
Definition endpoint_metrics (endpoint_data : dict) (exclude : list string) (l : labels) : gen :=
  each (fun ge => let (g, endpoints) := (ge : string * tree) in
    if excluded exclude g then nothing
    else match endpoints with
         | Node _ eps => each (fun ed => let (e, data) := (ed : string * tree) in
             match data with
             | Node _ da =>
                 seq (emit_key da "call_count" "ekosis_endpoint_call_count" (endpoint_labels l g e))
                     (seq (emit_percentile da "p95" "ekosis_endpoint_p95_seconds" (endpoint_labels l g e))
                          (emit_percentile da "p99" "ekosis_endpoint_p99_seconds" (endpoint_labels l g e)))
             | _ => nothing
             end) eps
         | _ => nothing
         end) endpoint_data.
(** stats.get(key, {}) followed by .items() or .get(): AttributeError if it is not a dict *)
Definition get_dict (stats : dict) (key : string) : res dict :=
  match sget key stats with None => Ok [] | Some (Node _ d) => Ok d | Some _ => Raise "AttributeError" end.
(** lines 120-128 *)
Definition known_keys : list string :=
  ["application"; "endpoint_data"; "buffered_endpoint_sizes"; "buffered_sender_sizes"; "timestamp"; "uptime"; "gather_period"].
(** lines 129-133 *)
Definition custom_metrics (stats : dict) (l : labels) : gen :=
  (flat_map (fun kv => if existsb (String.eqb (fst kv)) known_keys then []
                       else map (fun m => ("ekosis_custom_" ++ fst m, snd m, l)) (flatten (fst kv) (snd kv))) stats, None).
(** lines 63-66, and scraper.py lines 106-108: who the report says it is from *)
Definition identity (stats : dict) (service_name instance : string) : res (string * string) :=
  bind (get_dict stats "application") (fun app =>
    Ok (match sget "name" app with Some t => str t | None => service_name end,
        match sget "instance" app with Some t => str t | None => instance end)).
(** lines 45-133 *)
Definition translate_gathered_stats (stats : dict) (service_name instance : string) (exclude : list string) : gen :=
  match identity stats service_name instance with
  | Raise e => stop e
  | Ok (s, i) =>
      let l := [("service", s); ("instance", i)] in
      seq (emit_key stats "uptime" "ekosis_uptime_seconds" l)
     (seq (emit_key stats "gather_period" "ekosis_gather_period_seconds" l)
     (seq (match get_dict stats "endpoint_data" with Ok d => endpoint_metrics d exclude l | Raise e => stop e end)
     (seq (match get_dict stats "buffered_endpoint_sizes" with Ok d => iter_queue_groups d exclude "ekosis_buffered_endpoint" l | Raise e => stop e end)
     (seq (match get_dict stats "buffered_sender_sizes" with Ok d => iter_queue_groups d exclude "ekosis_buffered_sender" l | Raise e => stop e end)
          (custom_metrics stats l)))))
  end.

(** prometheus_client: a metric name is checked when the gauge is made; a gauge has one value per tuple of label values
    (set() replaces it). *)
Definition sample_key := (string * labels)%type.
Fixpoint labels_eqb (a b : labels) : bool :=
  match a, b with
  | [], [] => true
  | (k, v) :: a', (k2, v2) :: b' => String.eqb k k2 && String.eqb v v2 && labels_eqb a' b'
  | _, _ => false
  end.
Definition key_eqb (a b : sample_key) : bool := String.eqb (fst a) (fst b) && labels_eqb (snd a) (snd b).
Definition samples := list (sample_key * num).
Fixpoint sample (k : sample_key) (s : samples) : option num :=
  match s with [] => None | (k', v) :: r => if key_eqb k k' then Some v else sample k r end.
Definition set_sample (k : sample_key) (v : num) (s : samples) : samples := (k, v) :: filter (fun e => negb (key_eqb k (fst e))) s.
(** gauges: name and label names *)
Record registry := mkR { gauges : list (string * list string); values : samples }.
Definition set_value (k : sample_key) (v : num) (r : registry) : registry := mkR (gauges r) (set_sample k v (values r)).
Fixpoint names_eqb (a b : list string) : bool :=
  match a, b with [], [] => true | x :: a', y :: b' => String.eqb x y && names_eqb a' b' | _, _ => false end.
(** scraper.py lines 112-115; the registry, and the exception if there is one. Label names are compared in order: those of
    one metric always come in the same order. *)
Definition add_metric (r : registry) (m : metric) : registry * option string :=
  let '(name, v, l) := m in
  match sget name (gauges r) with
  | Some names => if names_eqb names (map fst l) then (set_value (name, l) v r, None) else (r, Some "ValueError")
  | None => if name_ok name then (set_value (name, l) v (mkR (sset name (map fst l) (gauges r)) (values r)), None)
            else (r, Some "ValueError")
  end.
Fixpoint add_metrics (r : registry) (ms : list metric) : registry * option string :=
  match ms with
  | [] => (r, None)
  | m :: rest => match add_metric r m with (r', None) => add_metrics r' rest | x => x end
  end.
(** A target: the name and instance found by discovery, and what the poll brings: the report or an exception. *)
Record target := mkT { t_name : string; t_instance : string; t_answer : res dict }.
Definition health (s i : string) : sample_key := ("ekosis_service_health", [("service", s); ("instance", i)]).
(** scraper.py lines 99-120. The loop body consumes the generator, so metrics yielded before an exception are set. *)
Definition scrape_one (exclude : list string) (r : registry) (t : target) : registry :=
  let failed (r : registry) := set_value (health (t_name t) (t_instance t)) zero r in
  match t_answer t with
  | Raise _ => failed r
  | Ok stats =>
      match identity stats (t_name t) (t_instance t) with
      | Raise _ => failed r
      | Ok (s, i) =>
          let r := set_value (health s i) one r in
          let (ms, e) := translate_gathered_stats stats s i exclude in
          match add_metrics r ms with
          | (r, Some _) => failed r
          | (r, None) => match e with Some _ => failed r | None => r end
          end
      end
  end.
(** scraper.py lines 82-120 (targets always have a sender: discovery knows three protocols); line 92 registers the health gauge. *)
Definition scrape (exclude : list string) (ts : list target) : registry :=
  fold_left (scrape_one exclude) ts (mkR [("ekosis_service_health", ["service"; "instance"])] []).

(** service_discovery.py *)
(** lines 9-16 *)
Record service := mkSv { sv_name : string; sv_instance : string; sv_protocol : string; sv_host : option string; sv_port : option Z; sv_path : option string }.
(** str.rsplit(c, 1): None if [c] does not occur *)
Fixpoint rsplit (c : ascii) (s : string) : option (string * string) :=
  match s with
  | EmptyString => None
  | String d r => match rsplit c r with
                  | Some (h, t) => Some (String d h, t)
                  | None => if Ascii.eqb d c then Some (EmptyString, r) else None
                  end
  end.
End Prom.

Section Discovery.
(** str.lower() *)
Context (lower : string -> string).
(** lines 20-28 *)
Context (local_addresses : list string).
(** lines 32-38 *)
Definition parse_name_instance (raw : string) : string * string :=
  match rsplit "_"%char raw with Some (n, i) => (lower n, i) | None => (lower raw, "0") end.
(** lines 47-91: the service one variable stands for, if any. The three protocols exclude each other; int() is that of
    ConfigModel. *)
Definition discover_one (kv : string * string) : list service :=
  let (key, value) := kv in
  match strip "ECOENV_" key with
  | None => []
  | Some remainder =>
      let address (protocol raw_name : string) :=
        let (name, instance) := parse_name_instance raw_name in
        match rsplit ":"%char value with
        | None => []
        | Some (host, port_str) =>
            if negb (existsb (String.eqb host) local_addresses) then []
            else match int port_str with
                 | Raise _ => []
                 | Ok port => [mkSv name instance protocol (Some host) (Some port) None]
                 end
        end in
      match strip "TCP_" remainder with
      | Some raw_name => address "tcp" raw_name
      | None =>
          match strip "UDP_" remainder with
          | Some raw_name => address "udp" raw_name
          | None =>
              match strip "UDS_" remainder with
              | Some raw_name => let (name, instance) := parse_name_instance raw_name in [mkSv name instance "uds" None None (Some value)]
              | None => []
              end
          end
      end
  end.
(** lines 42-93 *)
Definition discover_local_services (env : environ) : list service := flat_map discover_one env.
End Discovery.
