(** Vocabulary for the statements about messages on the wire. *)
From Coq Require Import String Ascii List.
Import ListNotations.

(** The ASCII characters that Python's str.isspace accepts: tab to carriage return, the four separators, the space. *)
Definition white_chars : list ascii := ["009"; "010"; "011"; "012"; "013"; "028"; "029"; "030"; "031"; " "]%char.
(** A text of such characters only. *)
Definition white (s : string) : Prop := Forall (fun c => In c white_chars) (list_ascii_of_string s).
