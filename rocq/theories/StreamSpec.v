(** Vocabulary for the statements about connections, on plain byte lists. *)
From Coq Require Import NArith Bool Arith Lia String List.
From Verif Require Import StreamModel.
Import ListNotations.

(** The complete lines (up to and including each byte 10) of a byte string. *)
Fixpoint lines_from (cur : list N) (bs : list N) : list (list N) :=
  match bs with
  | [] => []
  | b :: r => if N.eqb b 10 then (cur ++ [b]) :: lines_from [] r else lines_from (cur ++ [b]) r
  end.
Definition lines (bs : list N) : list (list N) := lines_from [] bs.
Definition is_line (l : list N) : Prop := exists x, l = x ++ [10%N] /\ ~ In 10%N x.

(** The bytes received: everything before the end of the stream. *)
Fixpoint received (evs : list cev) : list N :=
  match evs with
  | [] => []
  | EFeed c :: r => c ++ received r
  | EEof :: _ => []
  | _ :: r => received r
  end.
Definition ended (evs : list cev) : bool := existsb (fun e => match e with EEof => true | _ => false end) evs.
Definition lost (evs : list cev) : bool := existsb (fun e => match e with EReset => true | _ => false end) evs.

Section Replies.
Context {T : Type} (decode : list N -> option T) (answer : list T -> T -> option (list N)) (limit : nat).

(** The replies to the lines, up to the first line that is too long, cannot be decoded or whose handling raises. *)
Fixpoint replies (before : list T) (ls : list (list N)) : list (list N) :=
  match ls with
  | [] => []
  | l :: r =>
      if Nat.ltb (S limit) (List.length l) then []
      else if N.eqb (hd 0%N l) 5 then [6%N; 10%N] :: replies before r
      else match decode l with
           | None => []
           | Some t => match answer before t with
                       | None => []
                       | Some a => (a ++ [10%N]) :: replies (before ++ [t]) r
                       end
           end
  end.
(** No line is too long or undecodable, and the handling of none raises. *)
Fixpoint harmless (before : list T) (ls : list (list N)) : Prop :=
  match ls with
  | [] => True
  | l :: r =>
      (List.length l <= S limit)%nat /\
      if N.eqb (hd 0%N l) 5 then harmless before r
      else match decode l with
           | None => False
           | Some t => match answer before t with None => False | Some a => harmless (before ++ [t]) r end
           end
  end.
End Replies.

Definition starts_with {A} (p l : list A) : Prop := exists r, l = p ++ r.

(** ** Datagrams *)
Section Udp.
Context {T A : Type} (decode : list N -> option T) (answer : list T -> T -> option (list N)).
(** Datagrams that end in LF and start with [b]. *)
Definition ends_lf (d : list N) : bool := N.eqb (last d 0%N) 10.
Definition begins (b : N) (d : list N) : bool := match d with x :: _ => N.eqb x b | [] => false end.
Definition enquiries (evs : list (uev A)) : list (list N * A) :=
  flat_map (fun e => match e with UDatagram d a => if ends_lf d && begins 6%N d then [([6%N; 10%N], a)] else [] | _ => [] end) evs.
Definition requests (evs : list (uev A)) : list (T * A) :=
  flat_map (fun e => match e with
    | UDatagram d a => if ends_lf d && negb (begins 6%N d) then match decode d with Some t => [(t, a)] | None => [] end else []
    | _ => [] end) evs.
(** The replies to requests handled one after the other, each to its sender. *)
Fixpoint answers (before : list T) (rs : list (T * A)) : list (list N * A) :=
  match rs with
  | [] => []
  | (t, a) :: r => match answer before t with Some x => [(x, a)] | None => [] end ++ answers (before ++ [t]) r
  end.
(** Two sequences shuffled together, each keeping its order. *)
Inductive shuffle {B} : list B -> list B -> list B -> Prop :=
| sh_nil : shuffle [] [] []
| sh_left x l m n : shuffle l m n -> shuffle (x :: l) m (x :: n)
| sh_right x l m n : shuffle l m n -> shuffle l (x :: m) (x :: n).
End Udp.
