(** Specification of the statistics: names, what a name shows, and what it should show given the history. *)
From Coq Require Import String Ascii ZArith QArith Bool Lia List.
From Verif Require Import Base RouterModel StatsModel.
Import ListNotations.
Local Open Scope string_scope.

(** [b] lies below [a]: "a.b.c" below "a.b". *)
Definition below (a b : string) : Prop := exists c, b = a ++ "." ++ c.
Definition dotless (s : string) : Prop := forall a b, s <> a ++ "." ++ b.

Section Spec.
Context {num : Type} (zero one : num) (add sub : num -> num -> num).
Notation op := (op num). Notation dict := (dict num).

(** A report shows [t] under the dotted name [n]. *)
Inductive shows : dict -> string -> tree num -> Prop :=
| shows_here : forall d n t, dotless n -> sget n d = Some t -> shows d n t
| shows_below : forall d k d' n t, dotless k -> sget k d = Some (Node _ d') -> shows d' n t -> shows d (k ++ "." ++ n) t.

(** The names the keeper fills in itself. *)
Definition reserved : list string := ["timestamp"; "uptime"; "gather_period"; "application.name"; "application.instance"].
Definition call_count (k : string) := "endpoint_data." ++ k ++ ".call_count".
Definition p95 (k : string) := "endpoint_data." ++ k ++ ".p95".
Definition p99 (k : string) := "endpoint_data." ++ k ++ ".p99".
(** The names a call concerns. *)
Definition touched (o : op) : list string :=
  match o with
  | Increment _ k _ | Decrement _ k _ | SetValue _ k _ | AddQueue _ k => [k]
  | Track _ k | AddEndpoint _ k _ => [call_count k; p95 k; p99 k]
  | _ => []
  end.
Definition all_names (ops : list op) : list string := (reserved ++ flat_map touched ops)%list.
(** No name in use lies below another one. *)
Definition prefix_free_names (ops : list op) : Prop := forall a b, In a (all_names ops) -> In b (all_names ops) -> ~ below a b.
(** The names no call may use: the keeper's own and everything below "application". *)
Definition own (n : string) : Prop := In n reserved \/ below "application" n.
Definition avoids_own_names (ops : list op) : Prop := forall o n, In o ops -> In n (touched o) -> ~ own n.
Definition compatible (ops : list op) : Prop := prefix_free_names ops /\ avoids_own_names ops.
(** Endpoints are tracked before their calls are recorded. *)
Definition tracked_first (ops : list op) : Prop :=
  forall before k v after, (ops = before ++ AddEndpoint _ k v :: after)%list -> In (Track _ k) before.
(** [n] is a counter: not one of the values written by the keeper itself. *)
Definition counter (ops : list op) (n : string) : Prop :=
  ~ In n reserved /\ ~ In (AddQueue _ n) ops /\ (forall k, In (Track _ k) ops -> n <> p95 k /\ n <> p99 k).

(** The value of the counter [n]: the changes made to it since the last gathering, in order. *)
Definition or_zero (c : option num) : num := match c with Some v => v | None => zero end.
Definition change1 (n : string) (c : option num) (o : op) : option num :=
  match o with
  | Increment _ k v => if String.eqb k n then Some (add (or_zero c) v) else c
  | Decrement _ k v => if String.eqb k n then Some (sub (or_zero c) v) else c
  | SetValue _ k v => if String.eqb k n then Some v else c
  | Track _ k => if String.eqb (call_count k) n then Some (add (or_zero c) zero) else c
  | AddEndpoint _ k _ => if String.eqb (call_count k) n then Some (add (or_zero c) one) else c
  | Gather _ _ => match c with Some _ => Some zero | None => None end
  | _ => c
  end.
Definition value (n : string) (ops : list op) : option num := fold_left (change1 n) ops None.

(** The durations recorded for endpoint [k] since the last gathering. *)
Definition dur1 (k : string) (l : list num) (o : op) : list num :=
  match o with
  | Track _ j => if String.eqb j k then [] else l
  | AddEndpoint _ j v => if String.eqb j k then (l ++ [v])%list else l
  | Gather _ _ => []
  | _ => l
  end.
Definition recorded (k : string) (ops : list op) : list num := fold_left (dur1 k) ops [].

(** When the keeper was last started, and the gathering period last set. *)
Definition started1 (t : num) (o : op) : num := match o with Start _ t' => t' | _ => t end.
Definition started (t : num) (ops : list op) : num := fold_left started1 ops t.
Definition period1 (t : num) (o : op) : num := match o with SetGatherPeriod _ t' => t' | _ => t end.
Definition period (p : num) (ops : list op) : num := fold_left period1 ops p.

(** The reports gathered in a run, oldest first: what a query for the current statistics would have shown at each
    gathering. *)
Section Reports.
Context (pct : list num -> num * num) (app_name app_instance : string).
Fixpoint reports (s : state num) (ops : list op) : list dict :=
  match ops with
  | [] => []
  | o :: r =>
      let s' := fst (step num zero one add sub pct app_name app_instance s o) in
      match o with
      | Gather _ e =>
          match step num zero one add sub pct app_name app_instance s (Query _ e) with
          | (q, None) => current _ q :: reports s' r
          | (_, Some _) => reports s' r
          end
      | _ => reports s' r
      end
  end.
End Reports.
Definition no_length_change (o : op) : Prop := match o with SetHistoryLength _ _ => False | _ => True end.
End Spec.

(** Percentiles. *)
Definition is_min (m : Q) (l : list Q) : Prop := In m l /\ Forall (fun x => m <= x)%Q l.
Definition is_max (m : Q) (l : list Q) : Prop := In m l /\ Forall (fun x => x <= m)%Q l.
