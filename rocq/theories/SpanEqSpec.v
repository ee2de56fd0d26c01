(** What comparing span keys should mean. *)
From Coq Require Import List ZArith Ascii String.
From Verif Require Import Base SpanKeyModel SpanKeySpec SpanEqModel.
Import ListNotations.
Local Open Scope Z_scope.

(** The usual form of a key: the trace id as hexadecimal digits of either case in groups of 8, 4, 4, 4 and 12, a colon and
    the 16 digits of the span id. *)
Definition usual (s : text) (k : span_key) : Prop :=
  exists a b c d e f,
    s = a ++ ["-"%char] ++ b ++ ["-"%char] ++ c ++ ["-"%char] ++ d ++ ["-"%char] ++ e ++ [":"%char] ++ f /\
    map (@List.length ascii) [a; b; c; d; e; f] = [8; 4; 4; 4; 12; 16]%nat /\
    denotes (a ++ b ++ c ++ d ++ e) (trace_id k) /\ denotes f (span_id k).

(** A value that is a key: a valid key itself, a text in the usual form, or any other object (which is no key). *)
Definition proper_value (v : value) : Prop :=
  match v with Key k => valid_key k | Text s => exists k, usual s k | Object _ => True end.

(** The key that a value is. *)
Definition is_key (v : value) (k : span_key) : Prop :=
  match v with Key k' => k' = k | Text s => usual s k | Object _ => False end.
Definition a_text (v : value) : Prop := exists s, v = Text s.
