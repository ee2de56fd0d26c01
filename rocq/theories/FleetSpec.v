(** Specification of the whole log shipper. *)
From Coq Require Import Bool List Arith.
From Verif Require Import ShipperModel ShipperSpec FleetModel.
Import ListNotations.

(** No rotation of any file is missed: a file is only renamed when the shipper has it open; a file that is attached, when the
    process starts or when it turns up later, is the one the shipper left, or a new one. *)
Definition lists (s : fleet) (e : event) : bool :=
  match e with
  | FStart _ => match at_ s with Off => true | _ => false end
  | FStep _ => match at_ s with Top => true | _ => false end
  | _ => false
  end.
Definition fcalm (np : nat) (s : fleet) (e : event) : Prop :=
  (forall p, e = FWrite p Rename -> path (file s p) = None \/ tailing (file s p)) /\
  (lists s e = true -> forall p, p < np -> ship (file s p) = Down -> same_file (file s p)).
Fixpoint falways (P : fleet -> event -> Prop) (good : line -> bool) (np : nat) (s : fleet) (es : list event) : Prop :=
  match es with
  | [] => True
  | e :: r => P s e /\ falways P good np (fstep good np s e) r
  end.
(** The process is not killed from outside, and a post succeeds exactly when it reached the endpoint. *)
Definition fclean (e : event) : Prop := match e with FKill => False | FReply came ok => came = ok | _ => True end.
(** The shipper alone, with an endpoint that works; [orders] are the orders in which it sees the directory. *)
Fixpoint fquiet (orders : nat -> list nat) (k : nat) : list event :=
  match k with 0 => [] | S k => FStep (orders k) :: FReply true true :: fquiet orders k end.
