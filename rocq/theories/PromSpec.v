(** Specification of the metrics a report of statistics stands for. *)
From Coq Require Import String Ascii ZArith Bool Lia List.
From Verif Require Import Base RouterModel StatsModel PromModel.
Import ListNotations.
Local Open Scope string_scope.

Section Spec.
Context {num : Type} (nonneg : num -> bool) (float_of : string -> option num).
Notation tree := (tree num). Notation dict := (dict num).

(** Keys of a dict are unique, at every level. *)
Inductive unique_keys : tree -> Prop :=
| uk_num : forall n, unique_keys (Num _ n)
| uk_str : forall s, unique_keys (Str _ s)
| uk_node : forall d, NoDup (map fst d) -> (forall k t, In (k, t) d -> unique_keys t) -> unique_keys (Node _ d).
(** [t] is found by following keys from a dict. *)
Inductive path : dict -> list string -> tree -> Prop :=
| path_here : forall d k t, In (k, t) d -> path d [k] t
| path_below : forall d k d' ks t, In (k, Node _ d') d -> path d' ks t -> path d (k :: ks) t.
(** The number a value stands for: itself, or what float() makes of a string. *)
Inductive number : tree -> num -> Prop :=
| number_num : forall n, number (Num _ n) n
| number_str : forall s n, float_of s = Some n -> number (Str _ s) n.

(** A key in a metric name: dots and dashes become underscores. *)
Fixpoint safe (k : string) : string :=
  match k with
  | EmptyString => EmptyString
  | String c r => String (if (Ascii.eqb c "." || Ascii.eqb c "-")%char then "_"%char else c) (safe r)
  end.
(** The name of the custom statistic under a path: the keys, joined by underscores. *)
Definition glue (name key : string) : string := if String.eqb name "" then key else name ++ "_" ++ key.
Definition custom_name (k : string) (ks : list string) : string := "ekosis_custom_" ++ fold_left glue (map safe ks) k.
(** Keys of the report that are not custom statistics. *)
Definition own_keys : list string :=
  ["application"; "endpoint_data"; "buffered_endpoint_sizes"; "buffered_sender_sizes"; "timestamp"; "uptime"; "gather_period"].

(** The metrics of a report of instance [i] of service [s], without the groups [exclude]. *)
Inductive expected (r : dict) (s i : string) (exclude : list string) : string * num * list (string * string) -> Prop :=
| exp_uptime : forall t v, path r ["uptime"] t -> number t v ->
    expected r s i exclude ("ekosis_uptime_seconds", v, [("service", s); ("instance", i)])
| exp_period : forall t v, path r ["gather_period"] t -> number t v ->
    expected r s i exclude ("ekosis_gather_period_seconds", v, [("service", s); ("instance", i)])
| exp_calls : forall g e t v, path r ["endpoint_data"; g; e; "call_count"] t -> ~ In g exclude -> number t v ->
    expected r s i exclude ("ekosis_endpoint_call_count", v, [("service", s); ("instance", i); ("group", g); ("endpoint", e)])
| exp_p95 : forall g e v, path r ["endpoint_data"; g; e; "p95"] (Num _ v) -> ~ In g exclude -> nonneg v = true ->
    expected r s i exclude ("ekosis_endpoint_p95_seconds", v, [("service", s); ("instance", i); ("group", g); ("endpoint", e)])
| exp_p99 : forall g e v, path r ["endpoint_data"; g; e; "p99"] (Num _ v) -> ~ In g exclude -> nonneg v = true ->
    expected r s i exclude ("ekosis_endpoint_p99_seconds", v, [("service", s); ("instance", i); ("group", g); ("endpoint", e)])
| exp_handler_pending : forall g e t v, path r ["buffered_endpoint_sizes"; g; e; "pending"] t -> ~ In g exclude -> number t v ->
    expected r s i exclude ("ekosis_buffered_endpoint_queue_pending", v, [("service", s); ("instance", i); ("group", g); ("endpoint", e)])
| exp_handler_error : forall g e t v, path r ["buffered_endpoint_sizes"; g; e; "error"] t -> ~ In g exclude -> number t v ->
    expected r s i exclude ("ekosis_buffered_endpoint_queue_error", v, [("service", s); ("instance", i); ("group", g); ("endpoint", e)])
| exp_sender_pending : forall g e t v, path r ["buffered_sender_sizes"; g; e; "pending"] t -> ~ In g exclude -> number t v ->
    expected r s i exclude ("ekosis_buffered_sender_queue_pending", v, [("service", s); ("instance", i); ("group", g); ("endpoint", e)])
| exp_sender_error : forall g e t v, path r ["buffered_sender_sizes"; g; e; "error"] t -> ~ In g exclude -> number t v ->
    expected r s i exclude ("ekosis_buffered_sender_queue_error", v, [("service", s); ("instance", i); ("group", g); ("endpoint", e)])
| exp_custom : forall k ks v, path r (k :: ks) (Num _ v) -> ~ In k own_keys ->
    expected r s i exclude (custom_name k ks, v, [("service", s); ("instance", i)]).

(** Who a report is from: its own statement, or else what was found by discovery. *)
Inductive says (r : dict) (key fallback : string) : string -> Prop :=
| says_so : forall s, path r ["application"; key] (Str _ s) -> says r key fallback s
| says_nothing : (forall t, ~ path r ["application"; key] t) -> says r key fallback fallback.
Definition from (r : dict) (s0 i0 s i : string) : Prop := says r "name" s0 s /\ says r "instance" i0 i.

(** The report has numbers and dicts where they belong. *)
Definition is_dict (t : tree) : Prop := exists d, t = Node _ d.
Definition is_number (t : tree) : Prop := exists v, t = Num _ v.
Record well_typed (r : dict) : Prop := {
  wt_dicts : forall k t, In k ["application"; "endpoint_data"; "buffered_endpoint_sizes"; "buffered_sender_sizes"] -> path r [k] t -> is_dict t;
  wt_top : forall k t, In k ["uptime"; "gather_period"] -> path r [k] t -> is_number t;
  wt_endpoint : forall g e k t, In k ["call_count"; "p95"; "p99"] -> path r ["endpoint_data"; g; e; k] t -> is_number t;
  wt_queues : forall q g e k t, In q ["buffered_endpoint_sizes"; "buffered_sender_sizes"] -> In k ["pending"; "error"] ->
    path r [q; g; e; k] t -> is_number t }.

(** A key without characters that are used as, or become, the separator. *)
Fixpoint plain (k : string) : Prop :=
  match k with EmptyString => True | String c r => (c <> "_" /\ c <> "." /\ c <> "-")%char /\ plain r end.

(** What a poll of a target stands for, and the identity its metrics are filed under: the report, if the target answered,
    with names [name_ok] accepts; else what discovery found. *)
Inductive scraped (name_ok : string -> bool) (exclude : list string) (t : target num) : string * string -> Prop :=
| scraped_down : forall e, t_answer _ t = Raise e -> scraped name_ok exclude t (t_name _ t, t_instance _ t)
| scraped_up : forall r s i, t_answer _ t = Ok r -> unique_keys (Node _ r) -> well_typed r -> from r (t_name _ t) (t_instance _ t) s i ->
    (forall m, expected r s i exclude m -> name_ok (fst (fst m)) = true) -> scraped name_ok exclude t (s, i).
End Spec.
