(** What should hold of the files of an application. *)
From Coq Require Import List ZArith Bool String Ascii.
From Verif Require Import Base ConfigSpec FilesModel.
Import ListNotations.
Local Open Scope string_scope.

(** The kind and the route key of a declaration that needs queues. *)
Inductive queued : decl -> bool -> string -> Prop :=
| queued_endpoint : forall r, queued (BufferedEndpoint r) true r
| queued_sender : forall r, queued (BufferedSender r) false r.
(** Declared as the [n]th. *)
Definition declared (ds : list decl) (n : nat) (is_endpoint : bool) (r : string) : Prop := exists d, nth_error ds n = Some d /\ queued d is_endpoint r.
(** No two buffered senders for one route key. *)
Definition senders_differ (ds : list decl) : Prop := forall n m r, declared ds n false r -> declared ds m false r -> n = m.
(** The route key of an endpoint. *)
Definition endpoint_route (d : decl) (r : string) : Prop := d = Endpoint r \/ d = BufferedEndpoint r.

(** The application is started and the [n]th declaration has its two queues, in the files [p] and [e]. *)
Definition has_files (c : config) (ds : list decl) (n : nat) (p e : string) : Prop :=
  exists l, start c ds = Ok l /\ In (n, (p, e)) l.
(** A file of the [n]th declaration. *)
Definition file_of (c : config) (ds : list decl) (n : nat) (f : string) : Prop :=
  exists p e, has_files c ds n p e /\ (f = p \/ f = e).
Definition no_dash (s : string) : Prop := without "-"%char s.
