(** Specification of what a scrape shows of the calls a service has recorded. *)
From Coq Require Import String Ascii ZArith Bool Lia List.
From Verif Require Import Base RouterModel StatsModel StatsSpec.
Import ListNotations.
Local Open Scope string_scope.

Section Spec.
Context {num : Type}.
Notation op := (op num). Notation dict := (dict num).

(** How often endpoint [k] was called since the last gathering, and altogether. *)
Fixpoint total (k : string) (ops : list op) : nat :=
  match ops with
  | [] => 0
  | AddEndpoint _ j _ :: r => if String.eqb j k then S (total k r) else total k r
  | _ :: r => total k r
  end.
Definition no_gather (ops : list op) : Prop := forall e, ~ In (Gather _ e) ops.
Inductive calls (k : string) : list op -> nat -> Prop :=
| calls_first : forall ops, no_gather ops -> calls k ops (total k ops)
| calls_since : forall before e ops, no_gather ops -> calls k (before ++ Gather _ e :: ops)%list (total k ops).

(** Numbers that count: the [n]-th is what [n] additions of one to zero give. *)
Definition counts (zero one : num) (add : num -> num -> num) (tally : nat -> num) : Prop :=
  tally 0%nat = zero /\ (forall n, add (tally n) one = tally (S n)) /\ (forall n, add (tally n) zero = tally n).

(** The application leaves the number of calls of [k] alone. *)
Definition only_calls (k : string) (ops : list op) : Prop :=
  forall o, In o ops -> match o with
                        | Increment _ n _ | Decrement _ n _ | SetValue _ n _ | AddQueue _ n => n <> call_count k
                        | _ => True
                        end.
(** The application leaves the layout of the report alone: its own names do not take the place of the sections, nor lie
    below the numbers in them. *)
Definition sections : list string := ["endpoint_data"; "buffered_endpoint_sizes"; "buffered_sender_sizes"].
Definition numbers : list (string * string) :=
  [("endpoint_data", "call_count"); ("endpoint_data", "p95"); ("endpoint_data", "p99");
   ("buffered_endpoint_sizes", "pending"); ("buffered_endpoint_sizes", "error"); ("buffered_sender_sizes", "pending"); ("buffered_sender_sizes", "error")].
Definition laid_out (ops : list op) : Prop := forall n, In n (all_names ops) ->
  ~ In n sections /\
  forall q g e x, In (q, x) numbers -> dotless g -> dotless e -> ~ below (q ++ "." ++ g ++ "." ++ e ++ "." ++ x) n.

(** The history is not configured to hold nothing. *)
Definition keeps_reports (o : op) : Prop := match o with SetHistoryLength _ n => (1 <= n)%Z | _ => True end.

(** A report says that [k] was called [n] times; one from before [k] was known says nothing. *)
Definition says_calls (tally : nat -> num) (k : string) (d : dict) (n : nat) : Prop :=
  shows d (call_count k) (Num _ (tally n)) \/ n = 0%nat /\ forall v, ~ shows d (call_count k) (Num _ v).
End Spec.
