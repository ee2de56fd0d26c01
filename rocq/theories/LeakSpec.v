(** Vocabulary for the statements about connections that are closed. *)
From Coq Require Import List ZArith NArith String.
From Verif Require Import SpanKeyModel RouterModel JsonModel ClientModel AskModel.
Import ListNotations.

Section Spec.
Context {D V : Type} (run : list event -> net D V).
(** The client has called close() on its side of connection [c]. *)
Definition closed (es : list event) (c : nat) : Prop :=
  exists before after i t, es = before ++ after /\ phases (run before) i = PClose c t.
(** A call has ended. *)
Definition ended (s : net D V) (i : nat) : Prop := (i < ncalls (cl s))%nat /\ exists o, tst (calls (cl s) i) = TDone o.
End Spec.
(** How many attempts of a call failed. *)
Definition failures {R} (log : list (attempt R)) : nat := List.length (filter (fun a => match a with AFail _ => true | AGot _ => false end) log).
