(** How often a buffered sender calls send_data for a message. *)
From Coq Require Import List NArith Bool.
From Verif Require Import SenderModel.

Definition sends {D : Type} (k : N) (o : list (sout D)) : nat :=
  List.length (filter (fun x => match x with OSend k' _ => N.eqb k' k | _ => false end) o).
