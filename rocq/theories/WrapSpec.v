(** Specification of text wrapping. *)
From Coq Require Import String Ascii ZArith Bool Lia List.
Import ListNotations.
Local Open Scope string_scope.

(** ASCII white space: tab, line feed, vertical tab, form feed, carriage return, the four separators, space. *)
Definition white (c : ascii) : Prop := (9 <= nat_of_ascii c <= 13)%nat \/ (28 <= nat_of_ascii c <= 32)%nat.
(** A word is not empty and has no white space. *)
Inductive word : string -> Prop :=
| word_one : forall c, ~ white c -> word (String c "")
| word_more : forall c s, ~ white c -> word s -> word (String c s).
(** The words of a text. *)
Inductive words : string -> list string -> Prop :=
| ws_nil : words "" []
| ws_white : forall c s ws, white c -> words s ws -> words (String c s) ws
| ws_last : forall w, word w -> words w [w]
| ws_word : forall w c s ws, word w -> white c -> words s ws -> words (w ++ String c s) (w :: ws).
Definition length_of (s : string) : Z := Z.of_nat (String.length s).
