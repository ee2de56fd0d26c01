(** Properties of messages from a buffered sender of one application to a buffered endpoint of another: C78 - C80. *)
From Coq Require Import List ZArith NArith Bool String Lia Permutation.
From Verif Require Import Base PQueueModel PQueueSpec PQueueProofs PendingModel PendingSpec PendingProofs
  SenderModel SenderSpec SenderProofs SenderProofs3 HandlerModel HandlerSpec HandlerProofs HandlerProofs3 HandlerProofs5
  DeliveryModel DeliverySpec DeliveryProofs3 DeliveryProofs4 DeliveryProofs5.
Import ListNotations.
Local Open Scope Z_scope.

(** ** Two concrete applications for the examples: numbers as data and metadata, data from 1000 on is rejected by the DTO
    type of the sender and data from 100 on by that of the endpoint, 0 is falsy; no wait period; three calls of send_data per message, two attempts of the client per call; two
    attempts of the endpoint.  Both start with empty queues. *)
Definition de_dto (d : N) : bool := (d <? 1000)%N.
Definition de_dto_b (d : N) : bool := (d <? 100)%N.
Definition de_true (d : N) : bool := negb (d =? 0)%N.
Notation de_run := (wrun (MA:=N) (MB:=N) 0%N de_dto de_true false 3 2 0%N de_dto_b de_true 2).
Definition de_q : pqueue N N := pq_open 2 [] [].
Lemma de_reach : preachable 0%N de_q. Proof. apply preach_fresh. Qed.
Lemma de_usable : usable de_q. Proof. split; discriminate. Qed.
Lemma de_holds : holds de_q [] [].
Proof. apply (holds_contents de_q (preachable_inv 0%N _ de_reach) de_usable). Qed.
Lemma de_unique evs w l lp le lp' le' : de_run (wstart de_q de_q) evs = (w, l) -> sclosed (wa w) = 0%nat -> closed (wb w) = 0%nat ->
  holds (sq (wa w)) lp le -> holds (hq (wb w)) lp' le' ->
  lp = contents (pend (sq (wa w))) /\ le = contents (errq (sq (wa w))) /\ lp' = contents (pend (hq (wb w))) /\ le' = contents (errq (hq (wb w))).
Proof.
  intros E Ca Cb Ha Hb.
  destruct (wrun_start 0%N de_dto de_true false 3 2 0%N de_dto_b de_true 2 _ _ _ _ _ E) as [ea [eb [Ea [Eb _]]]].
  destruct (reach_R 0%N de_dto de_true false 3 _ _ _ _ de_reach de_usable Ea Ca) as [a A].
  destruct (R_unique 0%N _ a lp le A Ha) as [-> ->].
  destruct (run_facts 0%N de_dto_b de_true 2 _ _ _ _ de_reach de_usable Eb Cb) as [H _].
  destruct (run_contents 0%N _ lp' le' H Hb) as [-> ->].
  destruct A as [A _]. rewrite <- (r_l _ _ _ A), <- (r_e _ _ _ A). auto.
Qed.

Notation OK := SenderModel.ROk.
(** Sending task [i] sends over connection [c] and reads the answer [run] gave at once. *)
Definition de_send (i c : nat) : list (wev N N) := [WAttempt i; WArrive c; WHandler (ECollected 0 7%N); WRead i].
(** Processing task [i] of the endpoint takes a request and processes it successfully. *)
Definition de_process (i : nat) : list (wev N N) :=
  map WHandler [ETask i HandlerModel.ROk; ETask i HandlerModel.ROk; ETask i (RRet true); ETask i HandlerModel.ROk].

(** Five messages: the first arrives and is processed although the answer to the first attempt is lost, the second's
    request is lost twice, so it is put back and is sent after the third, which the endpoint rejects by its content and
    which is in the sender's error queue then; the fourth is being sent and accepted, the fifth pending. *)
Definition de_evs : list (wev N N) :=
  [WSender (SEnqueue 1 10); WSender (SEnqueue 2 20); WSender (SEnqueue 3 300); WSender (STask 0 OK);
   WAttempt 0; WArrive 0; WHandler (ECollected 0 7); WHandler (EPush 0); WLose 0; WFail 0 None]%N ++ de_send 0 1 ++ [WHandler (EPush 0)] ++ de_process 0 ++
  [WAttempt 0; WLose 2; WFail 0 None; WAttempt 0; WLose 3; WFail 0 None;
   WAttempt 0; WArrive 4; WRead 0;
   WAttempt 0; WArrive 5; WHandler (ECollected 0 8); WRead 0;
   WSender (SEnqueue 4 40); WSender (SEnqueue 5 50); WSender (STask 1 OK); WAttempt 1; WArrive 6; WHandler (ECollected 0 9)]%N.
Example de_evs_runs : let '(w, l) := de_run (wstart de_q de_q) de_evs in
  sclosed (wa w) = 0%nat /\ closed (wb w) = 0%nat /\ forallb calm de_evs = true /\
  enqueued (ao w) = [(1, 10); (2, 20); (3, 300); (4, 40); (5, 50)]%N /\ delivered (ao w) = [(1, 10); (2, 20)]%N /\
  with_sender w (contents (pend (sq (wa w)))) (contents (errq (sq (wa w)))) = [(5, 50); (4, 40); (3, 300)]%N /\
  with_receiver w (contents (pend (hq (wb w)))) (contents (errq (hq (wb w)))) = [(2, 20); (4, 40); (1, 10)]%N /\
  map msg_of (accepted (bo w)) = [(1, 10); (1, 10); (2, 20); (4, 40)]%N /\
  map (fun k => attempts_failed k l) [1; 2; 3; 4; 5]%N = [1; 2; 0; 0; 0]%nat.
Proof. vm_compute. repeat split. Qed.

(** ** C78: between the applications no message is lost *)

(** What the client of the sender takes for delivered, the endpoint accepted, at least as often and with the same data.
    This holds whatever the network, the tasks, the operators and other clients do. *)
Theorem C78_delivered_was_accepted :
  forall (D MA MB : Type) (meta_a : MA) (dto_a truthy_a : D -> bool) (wait : bool) (max_a cmax : Z)
         (meta_b : MB) (dto_b truthy_b : D -> bool) (max_b : Z) qa qb evs w l,
  wrun meta_a dto_a truthy_a wait max_a cmax meta_b dto_b truthy_b max_b (wstart qa qb) evs = (w, l) ->
  exists rest, Permutation (map msg_of (accepted (bo w))) (delivered (ao w) ++ rest).
Proof. exact (@delivered_accepted). Qed.
Print Assumptions C78_delivered_was_accepted.

(** And what it accepted was enqueued with the sender, or requested by another client. *)
Theorem C78_accepted_was_enqueued :
  forall (D MA MB : Type) (meta_a : MA) (dto_a truthy_a : D -> bool) (wait : bool) (max_a cmax : Z)
         (meta_b : MB) (dto_b truthy_b : D -> bool) (max_b : Z) qa qb lpa lea evs w l x,
  preachable meta_a qa -> usable qa -> holds qa lpa lea ->
  wrun meta_a dto_a truthy_a wait max_a cmax meta_b dto_b truthy_b max_b (wstart qa qb) evs = (w, l) -> sclosed (wa w) = 0%nat ->
  In x (map msg_of (accepted (bo w))) ->
  In x (enqueued (ao w) ++ msgs_p lpa ++ msgs_e lea) \/ In x (others evs).
Proof. exact (@from_sender). Qed.
Print Assumptions C78_accepted_was_enqueued.

(** The claim: at any moment every message the sender ever had ([mine]) is with it or with the endpoint. *)
Definition C78_no_message_is_lost : Prop :=
  forall (D MA MB : Type) (meta_a : MA) (dto_a truthy_a : D -> bool) (wait : bool) (max_a cmax : Z)
         (meta_b : MB) (dto_b truthy_b : D -> bool) (max_b : Z) qa qb lpa lea lpb leb evs w l,
  preachable meta_a qa -> usable qa -> holds qa lpa lea -> preachable meta_b qb -> usable qb -> holds qb lpb leb ->
  wrun meta_a dto_a truthy_a wait max_a cmax meta_b dto_b truthy_b max_b (wstart qa qb) evs = (w, l) ->
  sclosed (wa w) = 0%nat -> closed (wb w) = 0%nat ->
  let mine := enqueued (ao w) ++ msgs_p lpa ++ msgs_e lea in
  Forall (fun x => dto_a (snd x) = true) mine ->
  Forall (fun x => dto_b (data_of x) = true) (items_p lpb ++ items_e leb) ->
  exists lp le lp' le', holds (sq (wa w)) lp le /\ holds (hq (wb w)) lp' le' /\
    forall x, In x mine -> In x (with_sender w lp le) \/ In x (with_receiver w lp' le').

(** A caller of the sender uses a span key again after the message with that key was delivered, while the endpoint still
    has the first message pending: the endpoint accepts the second one too, and drops it. *)
Definition de_again : list (wev N N) :=
  [WSender (SEnqueue 1 10)%N; WSender (STask 0 OK)] ++ de_send 0 0 ++
  [WHandler (EPush 0); WSender (SEnqueue 1 20)%N; WSender (STask 1 OK)] ++ de_send 1 1 ++ [WHandler (EPush 0)].
Theorem C78_no_message_is_lost_refuted : ~ C78_no_message_is_lost.
Proof.
  intros H. destruct (de_run (wstart de_q de_q) de_again) as [w l] eqn:E.
  assert (C : sclosed (wa w) = 0%nat /\ closed (wb w) = 0%nat /\ In (1, 20)%N (enqueued (ao w)) /\
    Forall (fun x => de_dto (snd x) = true) (enqueued (ao w) ++ msgs_p (M:=N) [] ++ msgs_e (M:=N) [])).
  { vm_compute in E. injection E as <- <-. split; [reflexivity|split; [reflexivity|split; [right; now left|repeat constructor]]]. }
  destruct C as [Ca [Cb [I Va]]].
  destruct (H _ _ _ _ _ _ _ _ _ _ _ _ _ _ _ _ _ _ _ _ _ _ de_reach de_usable de_holds de_reach de_usable de_holds E Ca Cb Va ltac:(constructor))
    as [lp [le [lp' [le' [Ha [Hb G]]]]]].
  destruct (de_unique _ _ _ _ _ _ _ E Ca Cb Ha Hb) as [-> [-> [-> ->]]].
  specialize (G (1, 20)%N (in_or_app _ _ _ (or_introl I))). clear -E G. vm_compute in E. injection E as <- <-. vm_compute in G.
  repeat destruct G as [G|G]; try discriminate; try destruct G.
Qed.
Print Assumptions C78_no_message_is_lost_refuted.

(** Missing in the partial theorem: cancelled tasks and user code that raises ([calm]), span keys used twice by the
    sender's callers, and span keys for which the endpoint gets different data from elsewhere. *)
Theorem C78_no_message_is_lost_partial :
  forall (D MA MB : Type) (meta_a : MA) (dto_a truthy_a : D -> bool) (wait : bool) (max_a cmax : Z)
         (meta_b : MB) (dto_b truthy_b : D -> bool) (max_b : Z) qa qb lpa lea lpb leb evs w l,
  preachable meta_a qa -> usable qa -> holds qa lpa lea -> preachable meta_b qb -> usable qb -> holds qb lpb leb ->
  wrun meta_a dto_a truthy_a wait max_a cmax meta_b dto_b truthy_b max_b (wstart qa qb) evs = (w, l) ->
  sclosed (wa w) = 0%nat -> closed (wb w) = 0%nat -> forallb calm evs = true ->
  let mine := enqueued (ao w) ++ msgs_p lpa ++ msgs_e lea in
  let theirs := map msg_of (items_p lpb ++ items_e leb) ++ others evs in
  Forall (fun x => dto_a (snd x) = true) mine -> NoDup (map fst mine) ->
  Forall (fun x => dto_b (data_of x) = true) (items_p lpb ++ items_e leb) ->
  (forall x y, In x mine -> In y theirs -> fst x = fst y -> x = y) ->
  exists lp le lp' le', holds (sq (wa w)) lp le /\ holds (hq (wb w)) lp' le' /\
    forall x, In x mine -> In x (with_sender w lp le) \/ In x (with_receiver w lp' le').
Proof. exact (@at_least_once). Qed.
Print Assumptions C78_no_message_is_lost_partial.

Example C78_example : let '(w, l) := de_run (wstart de_q de_q) de_evs in
  preachable 0%N de_q /\ usable de_q /\ holds de_q [] [] /\ sclosed (wa w) = 0%nat /\ closed (wb w) = 0%nat /\
  forallb calm de_evs = true /\ others de_evs = [] /\
  Forall (fun x => de_dto (snd x) = true) (enqueued (ao w) ++ [] ++ []) /\ NoDup (map fst (enqueued (ao w) ++ [] ++ [])) /\
  List.length (enqueued (ao w)) = 5%nat.
Proof.
  destruct (de_run (wstart de_q de_q) de_evs) as [w l] eqn:E. vm_compute in E. injection E as <- <-.
  split; [exact de_reach|split; [exact de_usable|split; [exact de_holds|]]].
  vm_compute. repeat (split; [first [reflexivity|repeat constructor; cbn; intuition discriminate]|]). reflexivity.
Qed.

(** ** C79: how often a message is accepted and processed *)

(** The claim: a message the sender has once is accepted and processed at most once. *)
Definition C79_at_most_once : Prop :=
  forall (D MA MB : Type) (meta_a : MA) (dto_a truthy_a : D -> bool) (wait : bool) (max_a cmax : Z)
         (meta_b : MB) (dto_b truthy_b : D -> bool) (max_b : Z) qa qb lpa lea lpb leb evs w l k,
  preachable meta_a qa -> usable qa -> holds qa lpa lea -> preachable meta_b qb -> usable qb -> holds qb lpb leb ->
  wrun meta_a dto_a truthy_a wait max_a cmax meta_b dto_b truthy_b max_b (wstart qa qb) evs = (w, l) ->
  sclosed (wa w) = 0%nat -> closed (wb w) = 0%nat -> forallb calm evs = true ->
  let mine := enqueued (ao w) ++ msgs_p lpa ++ msgs_e lea in
  Forall (fun x => dto_a (snd x) = true) mine -> NoDup (map fst mine) ->
  ~ In k (map fst (map msg_of (items_p lpb ++ items_e leb) ++ others evs)) ->
  (times k (map msg_of (finished (bo w))) <= 1)%nat.

(** The endpoint accepts and processes a message, its answer gets lost, the client tries again. *)
Definition de_twice : list (wev N N) :=
  [WSender (SEnqueue 1 10); WSender (STask 0 OK); WAttempt 0; WArrive 0; WHandler (ECollected 0 7); WHandler (EPush 0); WLose 0;
   WFail 0 None]%N ++ de_process 0 ++ de_send 0 1 ++ [WHandler (EPush 0)] ++ de_process 1.
Theorem C79_at_most_once_refuted : ~ C79_at_most_once.
Proof.
  intros H. destruct (de_run (wstart de_q de_q) de_twice) as [w l] eqn:E.
  assert (C : sclosed (wa w) = 0%nat /\ closed (wb w) = 0%nat /\ NoDup (map fst (enqueued (ao w) ++ msgs_p (M:=N) [] ++ msgs_e (M:=N) [])) /\
    Forall (fun x => de_dto (snd x) = true) (enqueued (ao w) ++ msgs_p (M:=N) [] ++ msgs_e (M:=N) [])).
  { vm_compute in E. injection E as <- <-. repeat constructor. intros []. }
  destruct C as [Ca [Cb [Nd Va]]].
  specialize (H _ _ _ _ _ _ _ _ _ _ _ _ _ _ _ _ _ _ _ _ _ _ 1%N de_reach de_usable de_holds de_reach de_usable de_holds E Ca Cb eq_refl Va Nd).
  assert (X : (times 1 (map msg_of (finished (bo w))) <= 1)%nat) by (apply H; intros []).
  clear -E X. vm_compute in E. injection E as <- <-. vm_compute in X. lia.
Qed.
Print Assumptions C79_at_most_once_refuted.

(** Accepted at most as often as delivered, once more for each attempt that failed, and once more while it is being sent. *)
Theorem C79_accepted_as_often_as_delivered :
  forall (D MA MB : Type) (meta_a : MA) (dto_a truthy_a : D -> bool) (wait : bool) (max_a cmax : Z)
         (meta_b : MB) (dto_b truthy_b : D -> bool) (max_b : Z) qa qb evs w l k,
  preachable meta_a qa -> usable qa ->
  wrun meta_a dto_a truthy_a wait max_a cmax meta_b dto_b truthy_b max_b (wstart qa qb) evs = (w, l) ->
  sclosed (wa w) = 0%nat -> forallb calm evs = true -> ~ In k (map fst (others evs)) ->
  (times k (map msg_of (accepted (bo w))) <=
     times k (delivered (ao w)) + attempts_failed k l + times k (msgs_h (in_hand (wa w))))%nat.
Proof. exact (@accepted_bound). Qed.
Print Assumptions C79_accepted_as_often_as_delivered.

(** So a message is accepted and processed at most once if no attempt for it failed, and once more per failed attempt
    otherwise.  Missing: that a second acceptance has no effect, which is false. *)
Theorem C79_at_most_once_partial :
  forall (D MA MB : Type) (meta_a : MA) (dto_a truthy_a : D -> bool) (wait : bool) (max_a cmax : Z)
         (meta_b : MB) (dto_b truthy_b : D -> bool) (max_b : Z) qa qb lpa lea lpb leb evs w l k,
  preachable meta_a qa -> usable qa -> holds qa lpa lea -> preachable meta_b qb -> usable qb -> holds qb lpb leb ->
  wrun meta_a dto_a truthy_a wait max_a cmax meta_b dto_b truthy_b max_b (wstart qa qb) evs = (w, l) ->
  sclosed (wa w) = 0%nat -> closed (wb w) = 0%nat -> forallb calm evs = true ->
  let mine := enqueued (ao w) ++ msgs_p lpa ++ msgs_e lea in
  Forall (fun x => dto_a (snd x) = true) mine -> NoDup (map fst mine) ->
  ~ In k (map fst (map msg_of (items_p lpb ++ items_e leb) ++ others evs)) ->
  (times k (map msg_of (accepted (bo w))) <= 1 + attempts_failed k l)%nat /\
  (times k (map msg_of (finished (bo w))) <= 1 + attempts_failed k l)%nat.
Proof. exact (@at_most). Qed.
Print Assumptions C79_at_most_once_partial.

(** The bounds are reached. *)
Example C79_example :
  (let '(w, l) := de_run (wstart de_q de_q) de_twice in
   times 1 (map msg_of (accepted (bo w))) = 2%nat /\ times 1 (map msg_of (finished (bo w))) = 2%nat /\ attempts_failed 1 l = 1%nat /\
   times 1 (delivered (ao w)) = 1%nat /\ forallb calm de_twice = true) /\
  (let '(w, l) := de_run (wstart de_q de_q) de_evs in
   map (fun k => times k (map msg_of (accepted (bo w)))) [1; 2; 3; 4; 5]%N = [2; 1; 0; 1; 0]%nat /\
   map (fun k => (times k (delivered (ao w)) + attempts_failed k l + times k (msgs_h (in_hand (wa w))))%nat) [1; 2; 3; 4; 5]%N =
     [2; 3; 0; 1; 0]%nat).
Proof. vm_compute. repeat split. Qed.

(** ** C80: order *)

(** The claim: the endpoint accepts a sender's messages in the order in which they are delivered, that is in the order in
    which they are at the head of the sender's queue. *)
Definition C80_accepted_in_order : Prop :=
  forall (D MA MB : Type) (meta_a : MA) (dto_a truthy_a : D -> bool) (wait : bool) (max_a cmax : Z)
         (meta_b : MB) (dto_b truthy_b : D -> bool) (max_b : Z) qa qb evs w l,
  preachable meta_a qa -> usable qa ->
  wrun meta_a dto_a truthy_a wait max_a cmax meta_b dto_b truthy_b max_b (wstart qa qb) evs = (w, l) ->
  sclosed (wa w) = 0%nat -> forallb calm evs = true -> others evs = [] ->
  NoDup (map fst (accepted (bo w))) -> in_hand (wa w) = [] ->
  map msg_of (accepted (bo w)) = delivered (ao w).

(** A request that was given up may still arrive, after requests sent later: here the first message's two attempts
    time out, the second message is delivered, and then the first one's request arrives. *)
Definition de_late : list (wev N N) :=
  [WSender (SEnqueue 1 10)%N; WSender (SEnqueue 2 20)%N; WSender (STask 0 OK); WAttempt 0; WFail 0 None; WAttempt 0; WFail 0 None] ++
  de_send 0 2 ++ [WArrive 0; WHandler (ECollected 0 7%N)].
(** ... the message is then sent again and meets a receiver that rejects it: paused, so that it is retried until it is in
    the sender's error queue. *)
Definition de_late_end : list (wev N N) :=
  [WHandler EPauseReceiving; WAttempt 0; WArrive 3; WRead 0; WAttempt 0; WArrive 4; WRead 0].
Theorem C80_accepted_in_order_refuted : ~ C80_accepted_in_order.
Proof.
  intros H. destruct (de_run (wstart de_q de_q) (de_late ++ de_late_end)) as [w l] eqn:E.
  assert (C : sclosed (wa w) = 0%nat /\ NoDup (map fst (accepted (bo w))) /\ in_hand (wa w) = []).
  { vm_compute in E. injection E as <- <-. repeat constructor; cbn; intuition discriminate. }
  destruct C as [Ca [Nd Hh]].
  specialize (H _ _ _ _ _ _ _ _ _ _ _ _ _ _ _ _ _ _ de_reach de_usable E Ca eq_refl eq_refl Nd Hh).
  clear -E H. vm_compute in E. injection E as <- <-. vm_compute in H. discriminate.
Qed.
Print Assumptions C80_accepted_in_order_refuted.

(** It holds when no attempt failed and there is no other client. *)
Theorem C80_accepted_in_order_partial :
  forall (D MA MB : Type) (meta_a : MA) (dto_a truthy_a : D -> bool) (wait : bool) (max_a cmax : Z)
         (meta_b : MB) (dto_b truthy_b : D -> bool) (max_b : Z) qa qb evs w l,
  preachable meta_a qa -> usable qa ->
  wrun meta_a dto_a truthy_a wait max_a cmax meta_b dto_b truthy_b max_b (wstart qa qb) evs = (w, l) ->
  sclosed (wa w) = 0%nat -> forallb calm evs = true -> others evs = [] ->
  (forall k, attempts_failed k l = 0%nat) ->
  map msg_of (accepted (bo w)) = delivered (ao w) \/
  exists e, in_hand (wa w) = [e] /\ map msg_of (accepted (bo w)) = delivered (ao w) ++ [msg_p e].
Proof. exact (@accepted_in_order). Qed.
Print Assumptions C80_accepted_in_order_partial.

(** Three messages without a failed attempt; the endpoint is paused when the first is sent, so that it comes second. *)
Definition de_ordered : list (wev N N) :=
  [WSender (SEnqueue 1 10)%N; WSender (SEnqueue 2 20)%N; WSender (SEnqueue 3 30)%N; WHandler EPauseReceiving; WSender (STask 0 OK); WAttempt 0;
   WArrive 0; WRead 0; WHandler EUnpauseReceiving] ++ de_send 0 1 ++ de_send 0 2 ++ [WAttempt 0; WArrive 3; WHandler (ECollected 0 7%N)].
Example C80_example : let '(w, l) := de_run (wstart de_q de_q) de_ordered in
  sclosed (wa w) = 0%nat /\ forallb calm de_ordered = true /\ others de_ordered = [] /\
  filter (fun x => match x with LFailed _ => true | _ => false end) l = [] /\
  map msg_of (accepted (bo w)) = [(2, 20); (3, 30); (1, 10)]%N /\ delivered (ao w) = [(2, 20); (3, 30)]%N /\
  map pe_key (in_hand (wa w)) = [1%N].
Proof. vm_compute. repeat split. Qed.
