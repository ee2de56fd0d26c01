(** Specification of the log shipper. *)
From Coq Require Import Bool Lia List Arith Ascii.
From Verif Require Import ShipperModel.
Import ListNotations.

(** The complete lines of a text, read from left to right. *)
Definition feed (a : list line * line) (c : byte) : list line * line :=
  if Ascii.eqb c newline then (fst a ++ [snd a], []) else (fst a, snd a ++ [c]).
Definition complete (b : list byte) : list line := fst (fold_left feed b ([], [])).
(** All complete lines ever written under the watched name, oldest first. *)
Definition written (s : sys) : list line := flat_map (fun i => complete (content s i)) (seq 0 (nfiles s)).

(** [b] stands in [w] after the first [m] lines. *)
Definition stands (w : list line) (m : nat) (b : list line) : Prop := exists x z, w = x ++ b ++ z /\ length x = m.
(** The batches [bs] brought the first [n] lines of [w], in order; a batch may begin before the point reached so far, and so
    repeat lines, but never after it. *)
Inductive brought (w : list line) : list (list line) -> nat -> Prop :=
| brought_nil : brought w [] 0
| brought_snoc : forall bs n m b, brought w bs n -> stands w m b -> m <= n -> brought w (bs ++ [b]) (Nat.max n (m + length b)).

(** The shipper has the file open that has the watched name. *)
Definition tailing (s : sys) : Prop := exists f, path s = Some f /\ held (ship s) = Some f.
(** The shipper starts on the file it was last on; or on the next one, when nothing of the last one is left to ship and the
    new file has another inode number. *)
Definition same_file (s : sys) : Prop :=
  match path s, saved_file s, saved s with
  | Some f, Some g, Some (i, o) => f = g \/ (f = S g /\ complete (skipn o (content s g)) = [] /\ ino s f <> i)
  | Some f, _, _ => f = 0
  | None, _, _ => True
  end.
(** No rotation is missed: a file is only renamed when the shipper has it open, and a restart finds the file it left. *)
Definition calm (s : sys) (e : event) : Prop :=
  match e with
  | Rename => path s = None \/ tailing s
  | Boot => same_file s
  | _ => True
  end.
Fixpoint always (P : sys -> event -> Prop) (good : line -> bool) (s : sys) (es : list event) : Prop :=
  match es with
  | [] => True
  | e :: r => P s e /\ always P good (step good s e) r
  end.
(** The process is not killed and a post succeeds exactly when it reached the endpoint. *)
Definition clean (e : event) : Prop := match e with Kill => False | Reply came ok => came = ok | _ => True end.
(** The shipper alone, with an endpoint that works. *)
Fixpoint quiet (k : nat) : list event := match k with 0 => [] | S k => Step :: Reply true true :: quiet k end.
Definition up (s : sys) : Prop := ship s <> Down.
