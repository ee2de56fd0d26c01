(** Vocabulary for the statements about calls over UDP. *)
From Coq Require Import String ZArith NArith Bool List Arith.
From Verif Require Import SpanKeyModel SpanKeySpec RouterModel JsonModel JsonSpec StreamModel ClientModel WireModel AskModel AskSpec DgModel.
Import ListNotations.

Section Spec.
Context {D V R : Type} (dump : V -> json) (accepted_resp : span_key -> V) (app : nat -> code D V)
        (str_of : json -> string) (build : list (string * json) -> option R).
(** The [k]-th request that the application handled was sent by call [j], and is what that call asks; the answer was [r]. *)
Definition handled_for (s : dg) (j k : nat) (r : response span_key V) (h : list (RouterModel.call span_key D V)) : Prop :=
  (j < gn (me s))%nat /\
  exists e, nth_error (ran s) k = Some (request_text (rroute (gasked (me s) j)) (rspan (gasked (me s) j)) (rdata (gasked (me s) j)), Mine e j) /\
  serve accepted_resp app k (request_text (rroute (gasked (me s) j)) (rspan (gasked (me s) j)) (rdata (gasked (me s) j))) = (Ret r, h).
(** [o] is what the application answered to the request of call [j]. *)
Definition answer_to (s : dg) (j : nat) (o : result R) : Prop :=
  exists k r h, handled_for s j k r h /\ o = told str_of build (pstatus r) (data_of dump r).
End Spec.
(** How often the application has handled the request of call [i] to the end. *)
Definition handled_count (s : dg) (i : nat) : nat :=
  List.length (filter (fun x => match snd x with Mine _ j => Nat.eqb j i | Other _ => false end) (ran s)).
(** How often the network duplicated a request. *)
Definition up_copies (es : list gevent) : nat :=
  List.length (filter (fun e => match e with GUpCopy _ => true | _ => false end) es).
(** Span key and data that can be sent. *)
Definition sendable (c : dcl) (i : nat) : Prop := valid_key (rspan (gasked c i)) /\ JsonSpec.proper (rdata (gasked c i)).
(** A datagram of call [j], or the answer to one, is on its way or in the server's hands. *)
Definition under_way (s : dg) (j : nat) : Prop :=
  exists e, In (Mine e j) (map snd (up s) ++ map snd (uwait (srv s)) ++ map snd (down s)) \/
    exists t, uheld (srv s) = Some (t, Mine e j).
(** What holds of each event in the state it happens in. *)
Fixpoint throughout (step : dg -> gevent -> dg) (P : dg -> gevent -> Prop) (s : dg) (es : list gevent) : Prop :=
  match es with [] => True | e :: r => P s e /\ throughout step P (step s e) r end.
(** The network duplicates nothing, and a call gives up waiting only when neither its request nor the answer to it can arrive
    any more. *)
Definition patient (s : dg) (e : gevent) : Prop :=
  match e with
  | GUpCopy _ | GDownCopy _ => False
  | GTimeout j | GCancel j => (exists n sock, tasks (me s) j = GSent n sock) -> ~ under_way s j
  | _ => True
  end.
(** A call starts, or goes on after its sleep, only while no other one is creating the client's socket. *)
Definition one_opens (s : dg) (e : gevent) : Prop :=
  match e with GStart _ | GWake _ => forall j n, tasks (me s) j <> GOpen n | _ => True end.
(** A call has not ended. *)
Definition in_progress (s : dg) (i : nat) : Prop := (i < gn (me s))%nat /\ forall o, tasks (me s) i <> GDone o.
(** Some call goes on in this event. *)
Definition goes_on (step : dg -> gevent -> dg) (s : dg) (e : gevent) : Prop := exists i, tasks (me (step s e)) i <> tasks (me s) i.
(** Events that need neither a datagram nor a decision of the application: a socket is there, the lock is given on, time passes. *)
Definition by_itself (e : gevent) : Prop := match e with GOpened _ None | GGrant | GTimeout _ | GWake _ => True | _ => False end.
