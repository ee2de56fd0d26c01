(** Vocabulary for the properties of an application that passes requests on. *)
From Coq Require Import List ZArith NArith Bool String.
From Verif Require Import Base PQueueModel PQueueSpec PendingModel PendingSpec SenderModel SenderSpec HandlerModel HandlerSpec
  DeliveryModel DeliverySpec RelayModel.
Import ListNotations.
Local Open Scope Z_scope.

Section Spec.
Context {DH MH D MA MB : Type}.
Notation relay := (relay DH MH D MA MB). Notation rev := (rev DH MH D MB).

(** The message a request is passed on as: same span key, data translated by [g]. *)
Definition passed (g : DH -> D) (x : item DH MH) : msg D := (key_of x, g (data_of x)).

(** The endpoint's function passes its request on: it sends that message and nothing else, once at most, returns True only
    after sending it and False only without having sent it.  It may raise or be cancelled at any point. *)
Definition keeps (g : DH -> D) (s : relay) (ev : rev) : Prop :=
  match ev with
  | RSend i k d => match calling s i with Some x => rsent s i = [] /\ (k, d) = passed g x | None => True end
  | RHandler (ETask i (RRet b)) =>
      match calling s i with Some x => rsent s i = if b then [passed g x] else [] | None => True end
  | _ => True
  end.
Fixpoint passes_on (step : relay -> rev -> relay * list (wout D)) (g : DH -> D) (s : relay) (evs : list rev) : Prop :=
  match evs with
  | [] => True
  | ev :: r => keeps g s ev /\ passes_on step g (fst (step s ev)) r
  end.

(** Parts of a history: what happens at the endpoint of the first application, and at the sender, on the network and in the
    second application; what other callers in the first application send. *)
Definition at_first (evs : list rev) : list (hev DH MH) := flat_map (fun ev => match ev with RHandler e => [e] | _ => [] end) evs.
Definition beyond (evs : list rev) : list (wev D MB) := flat_map (fun ev => match ev with RWorld e => [e] | _ => [] end) evs.
Definition sent_by_others (evs : list rev) : list (msg D) :=
  flat_map (fun ev => match ev with RWorld (WSender (SEnqueue k d)) => [(k, d)] | _ => [] end) evs.

(** Where a request can be at the endpoint of the first application, other than processed successfully. *)
Definition with_first (s : relay) (lp : list (N * pentry DH MH)) (le : list (N * eentry DH MH)) : list (item DH MH) :=
  pushing (rh s) ++ items_p lp ++ in_process (rh s) ++ items_e le ++ removed (ro s).

End Spec.
