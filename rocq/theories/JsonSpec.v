(** Vocabulary for the statements about JSON texts. *)
From Coq Require Import String Ascii ZArith Bool List.
From Verif Require Import RouterModel.
Import ListNotations.

(** A value as Python holds it: the keys of every dict are distinct. *)
Inductive proper : json -> Prop :=
| proper_null : proper JNull
| proper_bool : forall b, proper (JBool b)
| proper_num : forall z, proper (JNum z)
| proper_str : forall s, proper (JStr s)
| proper_arr : forall l, Forall proper l -> proper (JArr l)
| proper_obj : forall d, NoDup (map fst d) -> Forall (fun x => proper (snd x)) d -> proper (JObj d).
(** The bytes of a text. *)
Definition bytes (s : string) : list N := map N_of_ascii (list_ascii_of_string s).
(** Blanks, tabs, line feeds and carriage returns only. *)
Definition blank (s : string) : Prop := Forall (fun b => In b [32; 9; 10; 13]%N) (bytes s).
Definition of_bytes (b : list N) : string := string_of_list_ascii (map ascii_of_N b).
(** The replies to requests taken one after the other, one line each; [reply] sees the requests before it. *)
Fixpoint in_turn {K} (reply : list (option (request K)) -> option (request K) -> list N) (before rs : list (request K)) : list (list N) :=
  match rs with [] => [] | r :: l => (reply (map Some before) (Some r) ++ [10%N])%list :: in_turn reply (before ++ [r]) l end.
