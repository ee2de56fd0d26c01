(** Recovery of two applications after an outage of the network between them: C125. *)
From Coq Require Import List ZArith NArith Bool String Lia Permutation.
From Verif Require Import Base PQueueModel PQueueSpec PQueueProofs PendingModel PendingSpec PendingProofs
  SenderModel SenderSpec SenderProofs HandlerModel HandlerSpec DeliveryModel DeliverySpec DeliveryProps RecoverySpec RecoveryProofs2.
Import ListNotations.
Local Open Scope Z_scope.

(** ** C125: after an outage everything gets through *)

(** [evs]: any history, with any losses, time-outs and delays, in which no task was cancelled and no user code raised; [w]: the
    world after it, in which neither application is paused or shut down.  Then there is a way on, without help of an operator,
    on which the network loses nothing (at most, the client first gives up the attempt it is waiting for), that empties the
    queues of both applications.  On it every message that was pending is delivered; the only message that may get into the
    sender's error queue is the one that was being sent; and at its end every message the sender ever had is in its error queue
    or was taken out of it by an operator, or has been processed by the endpoint, or is in the endpoint's error queue or was
    taken out of that. *)
Theorem C125_recovery :
  forall (D MA MB : Type) (meta_a : MA) (dto_a truthy_a : D -> bool) (wait : bool) (max_a cmax : Z)
         (meta_b : MB) (dto_b truthy_b : D -> bool) (max_b : Z) qa qb lpa lea lpb leb evs w l lp le,
  let wrun := wrun meta_a dto_a truthy_a wait max_a cmax meta_b dto_b truthy_b max_b in
  preachable meta_a qa -> usable qa -> holds qa lpa lea -> preachable meta_b qb -> usable qb -> holds qb lpb leb ->
  wrun (wstart qa qb) evs = (w, l) -> sclosed (wa w) = 0%nat -> closed (wb w) = 0%nat -> forallb calm evs = true ->
  let mine := enqueued (ao w) ++ msgs_p lpa ++ msgs_e lea in
  let theirs := map msg_of (items_p lpb ++ items_e leb) ++ others evs in
  Forall (fun x => dto_a (snd x) = true /\ dto_b (snd x) = true) mine -> NoDup (map fst mine) ->
  Forall (fun x => dto_b (data_of x) = true) (items_p lpb ++ items_e leb) ->
  (forall x y, In x mine -> In y theirs -> fst x = fst y -> x = y) ->
  holds (sq (wa w)) lp le -> 1 <= cmax ->
  spaused (wa w) = false -> sshut (wa w) = false -> recv_paused (wb w) = false -> proc_paused (wb w) = false -> shut (wb w) = false ->
  (lp <> [] \/ exists i t, nth_error (tasks (wb w)) i = Some t /\ live t) ->
  exists evs1 evs2 w' l' le' leb' del, gives_up evs1 /\ forallb healthy evs2 = true /\ wrun w (evs1 ++ evs2) = (w', l') /\
    holds (sq (wa w')) [] le' /\ in_hand (wa w') = [] /\
    holds (hq (wb w')) [] leb' /\ pushing (wb w') = [] /\ in_process (wb w') = [] /\
    delivered (ao w') = delivered (ao w) ++ del /\ incl (msgs_p lp) del /\
    (forall x, In x (msgs_e le') -> In x (msgs_e le) \/ In x (msgs_h (in_hand (wa w)))) /\
    forall x, In x mine -> In x (msgs_e le' ++ s_removed (ao w)) \/ In x (map msg_of (items_e leb' ++ finished (bo w') ++ removed (bo w))).
Proof. intros D MA MB meta_a dto_a truthy_a wait max_a cmax meta_b dto_b truthy_b max_b qa qb lpa lea lpb leb evs w l lp le. apply recovery. Qed.
Print Assumptions C125_recovery.

(** Three messages; the request of the first is lost, then the answer to its second attempt, which the endpoint accepted; the
    client waits for that answer, the other two are pending. *)
Definition re_evs : list (wev N N) :=
  [WSender (SEnqueue 1 10); WSender (SEnqueue 2 20); WSender (SEnqueue 3 30); WSender (STask 0 OK);
   WAttempt 0; WLose 0; WFail 0 None; WAttempt 0; WArrive 1; WHandler (ECollected 0 7); WLose 1]%N.
Example C125_example : let '(w, l) := de_run (wstart de_q de_q) re_evs in
  sclosed (wa w) = 0%nat /\ closed (wb w) = 0%nat /\ forallb calm re_evs = true /\
  Forall (fun x => de_dto (snd x) = true /\ de_dto_b (snd x) = true) (enqueued (ao w)) /\ NoDup (map fst (enqueued (ao w))) /\ others re_evs = [] /\
  contents (pend (sq (wa w))) = [(2, mkP 2 0 20 0); (3, mkP 3 0 30 0)]%N /\ in_hand (wa w) = [mkP 1 0 10 0]%N /\ wcalls w 0%nat = (1, Some 1%nat) /\
  spaused (wa w) = false /\ sshut (wa w) = false /\ recv_paused (wb w) = false /\ proc_paused (wb w) = false /\ shut (wb w) = false /\
  map msg_of (accepted (bo w)) = [(1, 10)]%N /\ delivered (ao w) = [].
Proof. vm_compute. repeat split; repeat constructor; try discriminate; intros H; repeat destruct H as [H|H]; try discriminate; exact H. Qed.
(** One way on: the message in hand is put back and sent last; the endpoint drops its second copy and processes all three. *)
Definition re_on : list (wev N N) :=
  [WFail 0 None] ++ de_send 0 2 ++ de_send 0 3 ++ de_send 0 4 ++ map WHandler (repeat (EPush 0) 4 ++ repeat (ETask 0 (RRet true)) 10).
Example C125_way_on : let '(w, l) := de_run (wstart de_q de_q) (re_evs ++ re_on) in
  delivered (ao w) = [(2, 20); (3, 30); (1, 10)]%N /\ contents (pend (sq (wa w))) = [] /\ contents (errq (sq (wa w))) = [] /\
  map msg_of (finished (bo w)) = [(1, 10); (2, 20); (3, 30)]%N /\ pushing (wb w) = [] /\ contents (pend (hq (wb w))) = [].
Proof. vm_compute. repeat split. Qed.
