(** C45: wrapping of help texts. *)
From Coq Require Import String Ascii ZArith Bool Lia List.
From Verif Require Import WrapModel WrapSpec WrapProofs.
Import ListNotations.
Local Open Scope string_scope.

(** The words of the lines are the words of the text, in order. *)
Theorem C45_words : forall text width, exists wss, Forall2 words (split_lines text width) wss /\ words text (concat wss).
Proof. exact (@split_lines_words). Qed.
Print Assumptions C45_words.
(** The words of a text are determined by the text, so this says all. *)
Theorem C45_words_unique : forall s us vs, words s us -> words s vs -> us = vs.
Proof. intros s us vs U V. apply words_of_unique in U, V. congruence. Qed.
Print Assumptions C45_words_unique.
(** A line fits unless it is a single word (or empty, for a negative width). *)
Theorem C45_width : forall text width l, In l (split_lines text width) -> l = "" \/ (length_of l <= width)%Z \/ word l.
Proof. exact (@split_lines_fit). Qed.
Print Assumptions C45_width.
(** Line breaks of the text are kept. *)
Theorem C45_breaks : forall s t width, (forall a b, s <> a ++ String newline b) ->
  split_lines (s ++ String newline t) width = (split_lines s width ++ split_lines t width)%list.
Proof. exact (@split_lines_flat). Qed.
Print Assumptions C45_breaks.
(** Other breaks are made only where the next word does not fit. *)
Theorem C45_greedy : forall s width a l1 l2 b, (forall a b, s <> a ++ String newline b) ->
  split_lines s width = (a ++ l1 :: l2 :: b)%list -> l1 <> "" ->
  exists w ws, words l2 (w :: ws) /\ (width < length_of l1 + 1 + length_of w)%Z.
Proof. exact (@split_lines_greedy). Qed.
Print Assumptions C45_greedy.

(** No blank lines are added. *)
Definition C45_no_blank : Prop := forall s width ws, (forall a b, s <> a ++ String newline b) -> words s ws -> ws <> [] -> (1 <= width)%Z ->
  ~ In "" (split_lines s width).
(** False of the code: a line that begins with a word longer than the width gets a blank line before it. *)
Theorem C45_no_blank_refuted : ~ C45_no_blank.
Proof.
  intros H. apply (H "--configuration-file path" 10%Z (words_of "--configuration-file path")).
  - intros a b E. repeat (destruct a as [|? a]; [discriminate E|injection E as _ E]). destruct a; discriminate.
  - apply words_of_ok.
  - vm_compute. discriminate.
  - lia.
  - vm_compute. auto.
Qed.
Print Assumptions C45_no_blank_refuted.
Theorem C45_no_blank_partial : forall s width ws, (forall a b, s <> a ++ String newline b) -> words s ws -> ws <> [] ->
  (forall w, In w ws -> (length_of w <= width)%Z) -> ~ In "" (split_lines s width).
Proof. exact (@split_lines_blank). Qed.
Print Assumptions C45_no_blank_partial.
(** An empty line stays one empty line. *)
Theorem C45_blank_line : forall s width, (forall a b, s <> a ++ String newline b) -> words s [] -> split_lines s width = [""].
Proof. exact (@split_lines_nothing). Qed.
Print Assumptions C45_blank_line.
(** Filled text is the wrapped text, each line indented, with newlines between. *)
Theorem C45_fill : forall text width indent, exists lines,
  fill_text text width indent = String.concat (String newline "") (map (fun l => indent ++ l) lines) /\
  lines = split_lines text (width - length_of indent) /\
  (forall l, In l lines -> l = "" \/ (length_of (indent ++ l) <= width)%Z \/ word l).
Proof.
  intros text width indent. exists (split_lines text (width - length_of indent)). split; [|split; auto].
  - unfold fill_text. change (len indent) with (length_of indent). generalize (map (fun line => indent ++ line) (split_lines text (width - length_of indent))).
    induction l as [|x l IH]; [reflexivity|]. cbn [join String.concat]. destruct l; [reflexivity|]. rewrite IH. reflexivity.
  - intros l Hl. destruct (split_lines_fit text (width - length_of indent) l Hl) as [H|[H|H]]; auto. right. left.
    change length_of with len in *. rewrite slen. lia.
Qed.
Print Assumptions C45_fill.

Definition ex_text : string := "The  quick brown fox" ++ String newline (String newline "jumps over").
Example C45_ex : split_lines ex_text 10 = ["The quick"; "brown fox"; ""; "jumps over"] /\
  split_lines "a verylongword b" 5 = ["a"; "verylongword"; "b"].
Proof. vm_compute. auto. Qed.
