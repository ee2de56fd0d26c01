(** Comparing span keys with each other, with texts and with other values; their hashes
    (ekosis/data_transfer_objects/json_protocol.py 40-48).
    A value is a key, a str or another object, of which the object's identity is all that matters. *)
From Coq Require Import List ZArith Bool Ascii String.
From Verif Require Import Base SpanKeyModel.
Local Open Scope Z_scope.

Inductive value := Key (k : span_key) | Text (s : text) | Object (id : Z).

(** json_protocol.py:40-45 ([SpanKey.__eq__]); [None] is NotImplemented. *)
Definition sk_eq (k : span_key) (other : value) : res (option bool) :=
  match other with
  | Key k2 => bind (key_eq k k2) (fun b => Ok (Some b))
  | Text s => bind (key_eq_text k s) (fun b => Ok (Some b))
  | Object _ => Ok None
  end.
(** CPython's str.__eq__ and object.__eq__ *)
Definition str_eq (s : text) (other : value) : option bool :=
  match other with Text t => Some (if list_eq_dec ascii_dec s t then true else false) | _ => None end.
Definition object_eq (i : Z) (other : value) : option bool :=
  match other with Object j => if i =? j then Some true else None | _ => None end.
Definition method_eq (a b : value) : res (option bool) :=
  match a with Key k => sk_eq k b | Text s => Ok (str_eq s b) | Object i => Ok (object_eq i b) end.

(** CPython's [a == b]: the left operand is asked, then the right one, then identity decides.  Objects of which neither
    knows an answer are the same only if they have one identity, for which object.__eq__ has answered True already. *)
Definition py_eq (a b : value) : res bool :=
  bind (method_eq a b) (fun r => match r with
    | Some x => Ok x
    | None => bind (method_eq b a) (fun r2 => match r2 with Some x => Ok x | None => Ok false end)
    end).

(** json_protocol.py:47-48 ([SpanKey.__hash__]); the hashes of bytes, texts and objects are the interpreter's. *)
Definition py_hash (hash_bytes : list Z -> Z) (hash_str : text -> Z) (hash_object : Z -> Z) (v : value) : res Z :=
  match v with
  | Key k => bind (key_bytes k) (fun b => Ok (hash_bytes b))
  | Text s => Ok (hash_str s)
  | Object i => Ok (hash_object i)
  end.
