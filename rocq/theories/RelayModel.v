(** Model of an application that passes requests on: the function of one of its buffered endpoints sends messages through
    one of its buffered senders, which delivers them to a buffered endpoint of a second application.

    - The endpoint is [HandlerModel] (ekosis/requests/buffered_handler_base.py); the sender, the network and the second
      application are [DeliveryModel]; this file adds what happens while the endpoint's function runs (line 189 of
      buffered_handler_base.py, [process_buffered_request]): it may call the buffered sender
      (ekosis/sending/buffered_sender.py 37-42, buffered_sender_base.py 55-59), any number of times, before it returns.
    - Everything is interleaved as asyncio may interleave it: other tasks run between two sends of one call.
    - The sender may have other callers in the application: [RWorld (WSender (SEnqueue k d))].
    - Simplifications: those of the two models. *)
From Coq Require Import List ZArith NArith Bool String.
From Verif Require Import Base PQueueModel PQueueSpec PendingModel SenderModel HandlerModel DeliveryModel.
Import ListNotations.
Local Open Scope Z_scope.

Section Model.
Context {DH MH D MA MB : Type}.
(** The first application's endpoint: as in [HandlerModel]. *)
Variables (meta_h : MH) (dto_h truthy_h : DH -> bool) (max_h : Z).
(** Its sender and the second application: as in [DeliveryModel]. *)
Variables (meta_a : MA) (dto_a truthy_a : D -> bool) (wait : bool) (max_a cmax : Z).
Variables (meta_b : MB) (dto_b truthy_b : D -> bool) (max_b : Z).

(** [rh], [ro]: the endpoint and its outputs so far; [rsent i]: what the last call of the endpoint's function by processing
    task [i] has sent so far (a record); [rw]: the sender, the network and the second application. *)
Record relay := mkR { rh : hstate DH MH; ro : list (hout DH MH); rsent : nat -> list (N * D); rw : world D MA MB }.

Inductive rev :=
| RHandler (ev : hev DH MH)             (* anything at the endpoint but what its function sends *)
| RSend (i : nat) (k : N) (d : D)       (* the function called by processing task i sends a message *)
| RWorld (ev : wev D MB).               (* anything else *)

(** The request the endpoint's function, called by processing task [i], is working on. *)
Definition calling (s : relay) (i : nat) : option (item DH MH) :=
  match nth_error (tasks (rh s)) i with Some (TCall e) => Some (item_p e) | _ => None end.
Definition sent_upd (f : nat -> list (N * D)) (i : nat) (x : list (N * D)) : nat -> list (N * D) :=
  fun j => if Nat.eqb j i then x else f j.

Definition rstep (s : relay) (ev : rev) : relay * list (wout D) :=
  match ev with
  | RHandler e =>
      let (h, o) := hstep meta_h dto_h truthy_h max_h (rh s) e in
      (mkR h (ro s ++ o)
           (match e with
            | ETask i _ => match nth_error (tasks (rh s)) i with
                           | Some (TBefore _) => sent_upd (rsent s) i []             (* buffered_handler_base.py 189: a new call *)
                           | _ => rsent s
                           end
            | _ => rsent s
            end) (rw s), [])
  | RSend i k d =>                                                                   (* buffered_sender_base.py 55-59 *)
      match calling s i with
      | Some _ => let (w, l) := wstep meta_a dto_a truthy_a wait max_a cmax meta_b dto_b truthy_b max_b (rw s) (WSender (SEnqueue k d)) in
                  (mkR (rh s) (ro s) (sent_upd (rsent s) i (rsent s i ++ [(k, d)])) w, l)
      | None => (s, [])
      end
  | RWorld e => let (w, l) := wstep meta_a dto_a truthy_a wait max_a cmax meta_b dto_b truthy_b max_b (rw s) e in
                (mkR (rh s) (ro s) (rsent s) w, l)
  end.

Fixpoint rrun (s : relay) (evs : list rev) : relay * list (wout D) :=
  match evs with
  | [] => (s, [])
  | ev :: r => let (s1, o1) := rstep s ev in let (s2, o2) := rrun s1 r in (s2, o1 ++ o2)
  end.

(** Both applications have just started. *)
Definition rstart (qh : pqueue DH MH) (qa : pqueue D MA) (qb : pqueue D MB) : relay :=
  mkR (setup qh) [] (fun _ => []) (wstart qa qb).

End Model.

Arguments relay : clear implicits.
Arguments rev : clear implicits.
