(** Vocabulary for the statements about tracing. *)
From Coq Require Import String ZArith Bool List.
From Verif Require Import SpanKeyModel RouterModel TraceModel.
Import ListNotations.
Local Open Scope Z_scope.

(** [x] is the one span that was started for [f]. *)
Definition the_span (w : world) (f : purpose) (x : span) : Prop :=
  exists n, nth_error (spans w) n = Some x /\ sp_for x = f /\
  forall m y, nth_error (spans w) m = Some y -> sp_for y = f -> m = n.
Definition open (x : span) : Prop := sp_end x = None.
(** Request [i] is under way / answered. *)
Definition under_way (w : world) (i : nat) (r : req) : Prop := nth_error (reqs w) i = Some r /\ r_status r = InFlight.
(** Attempt [a], with its entry, is under way. *)
Definition attempt_of (w : world) (a : nat) (x : attempt) (e : entry) : Prop :=
  nth_error (attempts w) a = Some x /\ nth_error (entries w) (a_entry x) = Some e.
(** What holds of each event in the state it happens in. *)
Fixpoint always (P : world -> event -> Prop) (w : world) (es : list event) : Prop :=
  match es with [] => True | ev :: r => P w ev /\ always P (step w ev) r end.
(** A request comes in only while no other with the same span key is under way. *)
Definition requests_apart (w : world) (ev : event) : Prop :=
  match ev with Receive k _ _ _ => forall i r, under_way w i r -> r_key r <> k | _ => True end.
(** An entry is taken up only while no other with the same span key is being processed (in whichever queue). *)
Definition attempts_apart (w : world) (ev : event) : Prop :=
  match ev with
  | Begin n _ _ _ => forall e a x e', nth_error (entries w) n = Some e -> attempt_of w a x e' -> a_status x = Running -> e_key e' <> e_key e
  | _ => True
  end.
(** Nothing is cut short: no request fails, the process is not restarted. *)
Definition no_failure (_ : world) (ev : event) : Prop := match ev with Fail _ | Restart => False | _ => True end.
(** The id generator's ids are not zero; no other middleware writes to this one's metadata. *)
Definition good_ids (t s : Z) : Prop := 0 < t < 2 ^ 128 /\ 0 < s < 2 ^ 64.
Definition sane (_ : world) (ev : event) : Prop :=
  match ev with
  | Receive _ _ nt ns | Begin _ _ nt ns => good_ids nt ns
  | Push _ _ others => ~ In "otlp_receive_span_id"%string (map fst others)
  | _ => True
  end.
(** The ids of a span key, as a parent in a trace. *)
Definition good_key (k : span_key) : Prop := good_ids (trace_id k) (span_id k).
(** An attribute of a span. *)
Definition has_attr (x : span) (k : string) (v : attr) : Prop := sget k (sp_attrs x) = Some v.
