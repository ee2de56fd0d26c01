(** Model of ekosis/cli/argparse_formatter.py: wrapping of help texts. *)
From Coq Require Import String Ascii ZArith Bool Lia List.
Import ListNotations.
Local Open Scope string_scope.

(** White space as str.split() sees it. Only the ASCII characters are modelled. *)
Definition blank (c : ascii) : bool := let n := nat_of_ascii c in (Nat.leb 9 n && Nat.leb n 13) || (Nat.leb 28 n && Nat.leb n 32).
(** str.split() : the word being read, then the words after it *)
Fixpoint split_words (s : string) : string * list string :=
  match s with
  | EmptyString => (EmptyString, [])
  | String c r =>
      let (w, ws) := split_words r in
      if blank c then (EmptyString, if String.eqb w "" then ws else w :: ws) else (String c w, ws)
  end.
Definition words_of (s : string) : list string := let (w, ws) := split_words s in if String.eqb w "" then ws else w :: ws.
(** str.split('\n') *)
Definition newline : ascii := ascii_of_nat 10.
Fixpoint split_newlines (s : string) : string * list string :=
  match s with
  | EmptyString => (EmptyString, [])
  | String c r => let (w, ws) := split_newlines r in if Ascii.eqb c newline then (EmptyString, w :: ws) else (String c w, ws)
  end.
(** sep.join(...) *)
Fixpoint join (sep : string) (l : list string) : string :=
  match l with
  | [] => ""
  | x :: r => match r with [] => x | _ => x ++ sep ++ join sep r end
  end.
Definition len (s : string) : Z := Z.of_nat (String.length s).

(** lines 12-25: one turn of the loop over words; (lines, line, line_len) *)
Definition word_step (width : Z) (st : list string * list string * Z) (word : string) : list string * list string * Z :=
  let '(lines, line, line_len) := st in
  let word_len := len word in
  let next_len := (line_len + word_len)%Z in
  let next_len := match line with [] => next_len | _ => (next_len + 1)%Z end in
  let '(lines, line, line_len) :=
    if Z.ltb width next_len then ((lines ++ [join " " line])%list, [], 0%Z)
    else match line with [] => (lines, line, line_len) | _ => (lines, line, (line_len + 1)%Z) end in
  (lines, (line ++ [word])%list, (line_len + word_len)%Z).
(** lines 9-27: one line of the text *)
Definition line_step (width : Z) (lines : list string) (line_str : string) : list string :=
  let '(lines, line, _) := fold_left (word_step width) (words_of line_str) (lines, [], 0%Z) in
  (lines ++ [join " " line])%list.
(** lines 7-28 *)
Definition split_lines (text : string) (width : Z) : list string :=
  let (l, ls) := split_newlines text in fold_left (line_step width) (l :: ls) [].
(** lines 30-31 *)
Definition fill_text (text : string) (width : Z) (indent : string) : string :=
  join (String newline "") (map (fun line => indent ++ line) (split_lines text (width - len indent))).
