(** What the arguments of a command line tool say. *)
From Coq Require Import List ZArith NArith Bool String Ascii.
From Verif Require Import Base SpanKeyModel SpanKeySpec RouterModel WireModel ConfigSpec ManageModel CliModel CliSpec ArgModel.
Import ListNotations.
Local Open Scope string_scope.

Definition starts (p s : string) : Prop := exists r, s = p ++ r.
(** The two names of an option. *)
Definition name_of (o : opt) (n : string) : Prop := n = short o \/ n = long o.
(** Every name that a tool knows. *)
Definition known (opts : list opt) (n : string) : Prop := n = "-h" \/ n = "--help" \/ exists o, In o opts /\ name_of o n.
(** The word [a] means the name [n]: it is that name, or the beginning of that name and of no other. *)
Definition means (opts : list opt) (a n : string) : Prop :=
  a = n \/ ((2 <= String.length a)%nat /\ starts a n /\ forall m, known opts m -> starts a m -> m = n).
(** A flag is set by one of the arguments. *)
Definition sets (opts : list opt) (args : list string) (o : opt) : Prop := exists a n, In a args /\ name_of o n /\ means opts a n.
(** An option is given the value [s]: as the argument behind its name, behind "=" in the same argument, or behind a name of one letter. *)
Definition gives (opts : list opt) (args : list string) (o : opt) (s : string) : Prop :=
  (exists a n before after, name_of o n /\ means opts a n /\ args = (before ++ a :: s :: after)%list) \/
  (exists a n, name_of o n /\ means opts a n /\ In (a ++ "=" ++ s) args) \/
  (exists n, name_of o n /\ String.length n = 2%nat /\ In (n ++ s) args).

(** One of the arguments names the operation on a queue of an endpoint. *)
Definition says (args : list string) (op : eop) : Prop :=
  op = Data \/ (exists s l a, In (s, l, op) bem_asks /\ In a args /\ (means bem_options a s \/ means bem_options a l)) \/
  (exists s l a f k, op = f k /\ In (s, l, f) bem_asks_item /\ In a args /\ (means bem_options a s \/ means bem_options a l)).
Definition only_said (args : list string) (r : string) (l : list (string * json)) : Prop :=
  exists route data, l = [(route, data)] /\ forall k r' op, valid_key k -> endpoint_request (request_text route k data) = Some (r', op) -> r' = r /\ says args op.
(** shared_queue_argument_parser.py 26-32 *)
Definition span_key_option : opt := mkOpt "-sk" "--span_key" "span_key" Text false VNone false.
(** Spelled out: the operation has one of its two names. *)
Definition spelled_out (args : list string) (l : list (string * json)) : Prop :=
  forall route data k r op, In (route, data) l -> valid_key k -> endpoint_request (request_text route k data) = Some (r, op) -> requested args op.
