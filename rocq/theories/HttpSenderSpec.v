(** Specification of the posts of the log shipper. *)
From Coq Require Import Bool List ZArith String.
From Verif Require Import ShipperModel ShipperSpec HttpSenderModel.
Import ListNotations.
Local Open Scope Z_scope.

(** The collector has answered the post with a status between 200 and 299, and nothing went wrong on the way. *)
Definition acknowledged (x : transfer) : Prop := handle x = true /\ result x = 0 /\ 200 <= code x <= 299.
(** The batches that were acknowledged, in order. *)
Inductive acks : list (list line * transfer) -> list (list line) -> Prop :=
| acks_nil : acks [] []
| acks_yes : forall ps bs b x, acks ps bs -> acknowledged x -> acks (ps ++ [(b, x)]) (bs ++ [b])
| acks_no : forall ps bs b x, acks ps bs -> ~ acknowledged x -> acks (ps ++ [(b, x)]) bs.
(** The posts that were not, with the status and the detail the operator is told: the collector's own words if it has
    answered, else the reason why there is no answer. *)
Definition told (strerror : Z -> string) (x : transfer) (m : Z * string) : Prop :=
  (handle x = false -> m = (0, "curl_easy_init failed"%string)) /\
  (handle x = true -> result x = 0 -> m = (code x, body x)) /\
  (handle x = true -> result x <> 0 -> m = (code x, strerror (result x))).
Inductive tells (strerror : Z -> string) : list (list line * transfer) -> list (Z * string) -> Prop :=
| tells_nil : tells strerror [] []
| tells_ok : forall ps ms b x, tells strerror ps ms -> acknowledged x -> tells strerror (ps ++ [(b, x)]) ms
| tells_fail : forall ps ms b x m, tells strerror ps ms -> ~ acknowledged x -> told strerror x m -> tells strerror (ps ++ [(b, x)]) (ms ++ [m]).
(** The complete lines that lie before the position (file [g], offset [o]). *)
Definition lines_before (s : sys) (g o : nat) : list line :=
  flat_map (fun i => complete (content s i)) (seq 0 g) ++ complete (firstn o (content s g)).

(** Histories in which no rotation is missed, as in C43. *)
Fixpoint calmly (good : line -> bool) (strerror : Z -> string) (c : client) (es : list cevent) : Prop :=
  match es with
  | [] => True
  | e :: r => match e with Ev e => calm (core c) e | Posted _ => True end /\ calmly good strerror (cstep good strerror c e) r
  end.
(** The shipper alone, with a collector that acknowledges everything. *)
Fixpoint serving (x : transfer) (k : nat) : list cevent := match k with O => [] | S k => Ev Step :: Posted x :: serving x k end.
