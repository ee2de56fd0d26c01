(** Properties of an application that passes requests on to a second one: C115 - C117. *)
From Coq Require Import List ZArith NArith Bool String Lia Permutation.
From Verif Require Import Base PQueueModel PQueueSpec PQueueProofs PendingModel PendingSpec PendingProofs
  SenderModel SenderSpec SenderProofs SenderProofs3 HandlerModel HandlerSpec HandlerProofs HandlerProofs3 HandlerProofs5
  DeliveryModel DeliverySpec DeliveryProofs3 DeliveryProofs4 DeliveryProps RelayModel RelaySpec RelayProofs RelayProofs2.
Import ListNotations.
Local Open Scope Z_scope.

(** ** Two concrete applications for the examples: those of [DeliveryProps], the first with a buffered endpoint that accepts
    data below 100, makes two attempts per request and passes data on increased by one.  All queues are empty at first. *)
Notation re_step := (rstep (MH:=N) (MA:=N) (MB:=N) 0%N de_dto_b de_true 2 0%N de_dto de_true false 3 2 0%N de_dto_b de_true 2).
Notation re_run := (rrun (MH:=N) (MA:=N) (MB:=N) 0%N de_dto_b de_true 2 0%N de_dto de_true false 3 2 0%N de_dto_b de_true 2).
Notation re_start := (rstart (DH:=N) (MH:=N) (D:=N) (MA:=N) (MB:=N) de_q de_q de_q).
Definition re_g (d : N) : N := (d + 1)%N.
Notation revs := (list (rev N N N N)).
(** A request comes in and is queued. *)
Definition re_request (k d : N) : revs := map RHandler [ERequest k d; ECollected 0 7%N; EPush 0].
(** Processing task [i] takes a request and calls the function. *)
Definition re_take (i : nat) : revs := map RHandler [ETask i HandlerModel.ROk; ETask i HandlerModel.ROk].
(** The function passes it on and returns True; the request is done. *)
Definition re_pass (i : nat) (k d : N) : revs :=
  [RSend i k d; RHandler (ETask i (RRet true)); RHandler (ETask i HandlerModel.ROk)].
(** Sending task [i] sends over connection [c] and gets the answer. *)
Definition re_deliver (i c : nat) : revs := map RWorld (WSender (STask i OK) :: de_send i c).

(** Four requests: the first is passed on and processed in the second application; the second is refused by the function
    once, then passed on; it is accepted by the second application twice, as the answer to the first attempt is lost; the
    third is being passed on: its message is sent, but the function has not returned; the fourth is pending. *)
Definition re_evs : revs :=
  re_request 1 10 ++ re_take 0 ++ re_pass 0 1 11 ++ re_deliver 0 0 ++
  map RWorld (WHandler (EPush 0) :: de_process 0) ++
  re_request 2 20 ++ re_take 1 ++ [RHandler (ETask 1 (RRet false)); RHandler (ETask 1 HandlerModel.ROk)] ++
  [RHandler (ETask 1 HandlerModel.ROk)] ++ re_pass 1 2 21 ++
  map RWorld [WSender (STask 1 OK); WAttempt 1; WArrive 1; WHandler (ECollected 0 7%N); WLose 1; WFail 1 None] ++ map RWorld (de_send 1 2) ++
  re_request 3 30 ++ re_take 2 ++ [RSend 2 3%N 31%N] ++ re_request 4 40.
Example re_evs_runs : let '(s, l) := re_run re_start re_evs in
  closed (rh s) = 0%nat /\ sclosed (wa (rw s)) = 0%nat /\ closed (wb (rw s)) = 0%nat /\
  passes_on re_step re_g re_start re_evs /\ forallb (fun e => negb (failure e)) (at_first re_evs) = true /\ forallb calm (beyond re_evs) = true /\
  accepted (ro s) = [(1, 10, 7); (2, 20, 7); (3, 30, 7); (4, 40, 7)]%N /\ finished (ro s) = [(1, 10, 7); (2, 20, 7)]%N /\
  in_process (rh s) = [(3, 30, 7)]%N /\ map fst (contents (pend (hq (rh s)))) = [4%N] /\
  enqueued (ao (rw s)) = [(1, 11); (2, 21); (3, 31)]%N /\ sent_by_others re_evs = [] /\ others (beyond re_evs) = [] /\
  map msg_of (accepted (bo (rw s))) = [(1, 11); (2, 21); (2, 21)]%N /\ map msg_of (finished (bo (rw s))) = [(1, 11)]%N /\
  attempts_failed 2 l = 1%nat.
Proof. vm_compute. repeat split. Qed.

Lemma re_facts evs s l lp1 le1 lp le lp' le' : re_run re_start evs = (s, l) ->
  closed (rh s) = 0%nat -> sclosed (wa (rw s)) = 0%nat -> closed (wb (rw s)) = 0%nat ->
  holds (hq (rh s)) lp1 le1 -> holds (sq (wa (rw s))) lp le -> holds (hq (wb (rw s))) lp' le' ->
  lp1 = contents (pend (hq (rh s))) /\ le1 = contents (errq (hq (rh s))) /\
  lp = contents (pend (sq (wa (rw s)))) /\ le = contents (errq (sq (wa (rw s)))) /\
  lp' = contents (pend (hq (wb (rw s)))) /\ le' = contents (errq (hq (wb (rw s)))).
Proof.
  intros E Ch Ca Cb Hh Ha Hb.
  destruct (relay_parts 0%N de_dto_b de_true 2 0%N de_dto de_true false 3 2 0%N de_dto_b de_true 2 _ _ _ _ E)
    as [[o [Eh _]] [ew [Ew _]]]. cbn [rstart rh rw] in Eh, Ew.
  destruct (run_facts 0%N de_dto_b de_true 2 _ _ _ _ de_reach de_usable Eh Ch) as [H _].
  destruct (run_contents 0%N _ lp1 le1 H Hh) as [-> ->].
  destruct (de_unique _ _ _ _ _ _ _ Ew Ca Cb Ha Hb) as [-> [-> [-> ->]]]. auto 10.
Qed.

(** ** C115: a request is not lost over two hops *)

(** The claim: when the function passes requests on (as [g] of the data under the same span key) and nothing raises or is
    cancelled, every request the endpoint accepted, or had at the start, is still with it, or the message it is passed on
    as is with the sender or with the second application. *)
Definition C115_not_lost_over_two_hops : Prop :=
  forall (DH MH D MA MB : Type) (meta_h : MH) (dto_h truthy_h : DH -> bool) (max_h : Z)
         (meta_a : MA) (dto_a truthy_a : D -> bool) (wait : bool) (max_a cmax : Z)
         (meta_b : MB) (dto_b truthy_b : D -> bool) (max_b : Z) (g : DH -> D) qh qa qb lph leh lpa lea lpb leb evs s l,
  preachable meta_h qh -> usable qh -> holds qh lph leh -> preachable meta_a qa -> usable qa -> holds qa lpa lea ->
  preachable meta_b qb -> usable qb -> holds qb lpb leb ->
  rrun meta_h dto_h truthy_h max_h meta_a dto_a truthy_a wait max_a cmax meta_b dto_b truthy_b max_b (rstart qh qa qb) evs = (s, l) ->
  closed (rh s) = 0%nat -> sclosed (wa (rw s)) = 0%nat -> closed (wb (rw s)) = 0%nat ->
  passes_on (rstep meta_h dto_h truthy_h max_h meta_a dto_a truthy_a wait max_a cmax meta_b dto_b truthy_b max_b) g (rstart qh qa qb) evs ->
  forallb (fun e => negb (failure e)) (at_first evs) = true -> forallb calm (beyond evs) = true ->
  let requests := accepted (ro s) ++ items_p lph ++ items_e leh in
  let mine := map (passed g) requests ++ sent_by_others evs ++ msgs_p lpa ++ msgs_e lea in
  Forall (fun x => dto_h (data_of x) = true) requests -> Forall (fun x => dto_a (snd x) = true) mine ->
  Forall (fun x => dto_b (data_of x) = true) (items_p lpb ++ items_e leb) ->
  exists lp1 le1 lp le lp' le', holds (hq (rh s)) lp1 le1 /\ holds (sq (wa (rw s))) lp le /\ holds (hq (wb (rw s))) lp' le' /\
    forall x, In x requests -> In x (with_first s lp1 le1) \/
      In (passed g x) (with_sender (rw s) lp le) \/ In (passed g x) (with_receiver (rw s) lp' le').

(** Two requests with one span key, one after the other: the second is passed on while the second application still has the
    first pending, and is dropped there. *)
Definition re_again : revs :=
  re_request 1 10 ++ re_take 0 ++ re_pass 0 1 11 ++ re_deliver 0 0 ++ [RWorld (WHandler (EPush 0))] ++
  re_request 1 20 ++ re_take 1 ++ re_pass 1 1 21 ++ re_deliver 1 1 ++ [RWorld (WHandler (EPush 0))].
Theorem C115_not_lost_over_two_hops_refuted : ~ C115_not_lost_over_two_hops.
Proof.
  intros H. destruct (re_run re_start re_again) as [s l] eqn:E.
  assert (C : closed (rh s) = 0%nat /\ sclosed (wa (rw s)) = 0%nat /\ closed (wb (rw s)) = 0%nat /\ In (1, 20, 7)%N (accepted (ro s)) /\
    Forall (fun x => de_dto_b (data_of x) = true) (accepted (ro s) ++ items_p [] ++ items_e []) /\
    Forall (fun x => de_dto (snd x) = true) (map (passed re_g) (accepted (ro s) ++ items_p [] ++ items_e []) ++
      sent_by_others re_again ++ msgs_p (M:=N) [] ++ msgs_e (M:=N) [])).
  { vm_compute in E. injection E as <- <-. split; [reflexivity|split; [reflexivity|split; [reflexivity|split; [right; now left|]]]].
    split; repeat constructor. }
  destruct C as [Ch [Ca [Cb [I [Vh Va]]]]].
  assert (Po : passes_on re_step re_g re_start re_again) by (vm_compute; repeat split).
  destruct (H N N N N N _ _ _ _ _ _ _ _ _ _ _ _ _ _ re_g _ _ _ _ _ _ _ _ _ _ _ _ de_reach de_usable de_holds de_reach de_usable de_holds
    de_reach de_usable de_holds E Ch Ca Cb Po eq_refl eq_refl Vh Va ltac:(constructor)) as [lp1 [le1 [lp [le [lp' [le' [H1 [H2 [H3 G]]]]]]]]].
  destruct (re_facts _ _ _ _ _ _ _ _ _ E Ch Ca Cb H1 H2 H3) as [-> [-> [-> [-> [-> ->]]]]].
  specialize (G (1, 20, 7)%N (in_or_app _ _ _ (or_introl I))). clear -E G. vm_compute in E. injection E as <- <-. vm_compute in G.
  repeat destruct G as [G|G]; try discriminate; try destruct G.
Qed.
Print Assumptions C115_not_lost_over_two_hops_refuted.

(** Missing in the partial theorem: span keys used twice among what the endpoint, the sender's other callers and the
    sender's queues bring, and span keys under which the second application gets other data from elsewhere. *)
Theorem C115_not_lost_over_two_hops_partial :
  forall (DH MH D MA MB : Type) (meta_h : MH) (dto_h truthy_h : DH -> bool) (max_h : Z)
         (meta_a : MA) (dto_a truthy_a : D -> bool) (wait : bool) (max_a cmax : Z)
         (meta_b : MB) (dto_b truthy_b : D -> bool) (max_b : Z) (g : DH -> D) qh qa qb lph leh lpa lea lpb leb evs s l,
  preachable meta_h qh -> usable qh -> holds qh lph leh -> preachable meta_a qa -> usable qa -> holds qa lpa lea ->
  preachable meta_b qb -> usable qb -> holds qb lpb leb ->
  rrun meta_h dto_h truthy_h max_h meta_a dto_a truthy_a wait max_a cmax meta_b dto_b truthy_b max_b (rstart qh qa qb) evs = (s, l) ->
  closed (rh s) = 0%nat -> sclosed (wa (rw s)) = 0%nat -> closed (wb (rw s)) = 0%nat ->
  passes_on (rstep meta_h dto_h truthy_h max_h meta_a dto_a truthy_a wait max_a cmax meta_b dto_b truthy_b max_b) g (rstart qh qa qb) evs ->
  forallb (fun e => negb (failure e)) (at_first evs) = true -> forallb calm (beyond evs) = true ->
  let requests := accepted (ro s) ++ items_p lph ++ items_e leh in
  let mine := map (passed g) requests ++ sent_by_others evs ++ msgs_p lpa ++ msgs_e lea in
  let theirs := map msg_of (items_p lpb ++ items_e leb) ++ others (beyond evs) in
  Forall (fun x => dto_h (data_of x) = true) requests -> Forall (fun x => dto_a (snd x) = true) mine -> NoDup (map fst mine) ->
  Forall (fun x => dto_b (data_of x) = true) (items_p lpb ++ items_e leb) ->
  (forall x y, In x mine -> In y theirs -> fst x = fst y -> x = y) ->
  exists lp1 le1 lp le lp' le', holds (hq (rh s)) lp1 le1 /\ holds (sq (wa (rw s))) lp le /\ holds (hq (wb (rw s))) lp' le' /\
    forall x, In x requests -> In x (with_first s lp1 le1) \/
      In (passed g x) (with_sender (rw s) lp le) \/ In (passed g x) (with_receiver (rw s) lp' le').
Proof. exact (@relay_keeps). Qed.
Print Assumptions C115_not_lost_over_two_hops_partial.

(** When the function may also raise or be cancelled, or the data of a request be invalid, the requests lost are those the
    endpoint loses by that ([lost]: see C15); passing on adds no way of losing one. *)
Theorem C115_accounting :
  forall (DH MH D MA MB : Type) (meta_h : MH) (dto_h truthy_h : DH -> bool) (max_h : Z)
         (meta_a : MA) (dto_a truthy_a : D -> bool) (wait : bool) (max_a cmax : Z)
         (meta_b : MB) (dto_b truthy_b : D -> bool) (max_b : Z) (g : DH -> D) qh qa qb lph leh lpa lea lpb leb evs s l,
  preachable meta_h qh -> usable qh -> holds qh lph leh -> preachable meta_a qa -> usable qa -> holds qa lpa lea ->
  preachable meta_b qb -> usable qb -> holds qb lpb leb ->
  rrun meta_h dto_h truthy_h max_h meta_a dto_a truthy_a wait max_a cmax meta_b dto_b truthy_b max_b (rstart qh qa qb) evs = (s, l) ->
  closed (rh s) = 0%nat -> sclosed (wa (rw s)) = 0%nat -> closed (wb (rw s)) = 0%nat ->
  passes_on (rstep meta_h dto_h truthy_h max_h meta_a dto_a truthy_a wait max_a cmax meta_b dto_b truthy_b max_b) g (rstart qh qa qb) evs ->
  forallb calm (beyond evs) = true ->
  let requests := accepted (ro s) ++ items_p lph ++ items_e leh in
  let mine := map (passed g) requests ++ sent_by_others evs ++ msgs_p lpa ++ msgs_e lea in
  let theirs := map msg_of (items_p lpb ++ items_e leb) ++ others (beyond evs) in
  Forall (fun x => dto_a (snd x) = true) mine -> NoDup (map fst mine) ->
  Forall (fun x => dto_b (data_of x) = true) (items_p lpb ++ items_e leb) ->
  (forall x y, In x mine -> In y theirs -> fst x = fst y -> x = y) ->
  exists lp1 le1 lp le lp' le', holds (hq (rh s)) lp1 le1 /\ holds (sq (wa (rw s))) lp le /\ holds (hq (wb (rw s))) lp' le' /\
    forall x, In x requests -> In x (with_first s lp1 le1) \/ In x (lost (ro s)) \/
      In (passed g x) (with_sender (rw s) lp le) \/ In (passed g x) (with_receiver (rw s) lp' le').
Proof. exact (@relay_accounting). Qed.
Print Assumptions C115_accounting.

Example C115_example : let '(s, l) := re_run re_start re_evs in
  let mine := map (passed re_g) (accepted (ro s)) in
  NoDup (map fst mine) /\ Forall (fun x => de_dto_b (data_of x) = true) (accepted (ro s)) /\ Forall (fun x => de_dto (snd x) = true) mine /\
  with_first s (contents (pend (hq (rh s)))) (contents (errq (hq (rh s)))) = [(4, 40, 7); (3, 30, 7)]%N /\
  with_sender (rw s) (contents (pend (sq (wa (rw s))))) (contents (errq (sq (wa (rw s))))) = [(3, 31)]%N /\
  with_receiver (rw s) (contents (pend (hq (wb (rw s))))) (contents (errq (hq (wb (rw s))))) = [(2, 21); (2, 21); (1, 11)]%N.
Proof.
  destruct (re_run re_start re_evs) as [s l] eqn:E. vm_compute in E. injection E as <- <-. cbv zeta.
  split; [vm_compute; repeat constructor; cbn; intuition discriminate|]. split; [repeat constructor|]. split; [repeat constructor|].
  vm_compute. repeat split.
Qed.

(** ** C116: what the sender is given *)

(** In every run, whatever happens otherwise: the sender is given the message of every request processed successfully,
    exactly once, and beside it only messages of its other callers and of requests that are in process, or that were lost
    when the function or a middleware raised or was cancelled ([more]). *)
Theorem C116_exactly_the_processed_requests_are_sent :
  forall (DH MH D MA MB : Type) (meta_h : MH) (dto_h truthy_h : DH -> bool) (max_h : Z)
         (meta_a : MA) (dto_a truthy_a : D -> bool) (wait : bool) (max_a cmax : Z)
         (meta_b : MB) (dto_b truthy_b : D -> bool) (max_b : Z) (g : DH -> D) qh qa qb evs s l,
  rrun meta_h dto_h truthy_h max_h meta_a dto_a truthy_a wait max_a cmax meta_b dto_b truthy_b max_b (rstart qh qa qb) evs = (s, l) ->
  passes_on (rstep meta_h dto_h truthy_h max_h meta_a dto_a truthy_a wait max_a cmax meta_b dto_b truthy_b max_b) g (rstart qh qa qb) evs ->
  exists more, Permutation (enqueued (ao (rw s))) (map (passed g) (finished (ro s) ++ more) ++ sent_by_others evs) /\
    exists rest, Permutation (in_process (rh s) ++ lost (ro s)) (more ++ rest).
Proof. exact (@relay_given). Qed.
Print Assumptions C116_exactly_the_processed_requests_are_sent.

(** The run above; and one in which the function raises after sending: the request is lost at the endpoint, and passed on. *)
Definition re_raises : revs := re_request 1 10 ++ re_take 0 ++ [RSend 0 1%N 11%N; RHandler (ETask 0 RExn); RWorld (WSender (SEnqueue 9 90))]%N.
Example C116_example :
  (let '(s, l) := re_run re_start re_evs in passes_on re_step re_g re_start re_evs /\
   enqueued (ao (rw s)) = [(1, 11); (2, 21); (3, 31)]%N /\ finished (ro s) = [(1, 10, 7); (2, 20, 7)]%N /\
   in_process (rh s) ++ lost (ro s) = [(3, 30, 7)]%N) /\
  (let '(s, l) := re_run re_start re_raises in passes_on re_step re_g re_start re_raises /\
   enqueued (ao (rw s)) = [(1, 11); (9, 90)]%N /\ finished (ro s) = [] /\ lost (ro s) = [(1, 10, 7)]%N /\ sent_by_others re_raises = [(9, 90)]%N).
Proof. vm_compute. repeat split. Qed.

(** ** C117: how often the second application handles a request *)

(** The claim: at most once. *)
Definition C117_handled_at_most_once : Prop :=
  forall (DH MH D MA MB : Type) (meta_h : MH) (dto_h truthy_h : DH -> bool) (max_h : Z)
         (meta_a : MA) (dto_a truthy_a : D -> bool) (wait : bool) (max_a cmax : Z)
         (meta_b : MB) (dto_b truthy_b : D -> bool) (max_b : Z) (g : DH -> D) qh qa qb lph leh lpa lea lpb leb evs s l k,
  preachable meta_h qh -> usable qh -> holds qh lph leh -> preachable meta_a qa -> usable qa -> holds qa lpa lea ->
  preachable meta_b qb -> usable qb -> holds qb lpb leb ->
  rrun meta_h dto_h truthy_h max_h meta_a dto_a truthy_a wait max_a cmax meta_b dto_b truthy_b max_b (rstart qh qa qb) evs = (s, l) ->
  closed (rh s) = 0%nat -> sclosed (wa (rw s)) = 0%nat -> closed (wb (rw s)) = 0%nat ->
  passes_on (rstep meta_h dto_h truthy_h max_h meta_a dto_a truthy_a wait max_a cmax meta_b dto_b truthy_b max_b) g (rstart qh qa qb) evs ->
  forallb calm (beyond evs) = true ->
  let requests := accepted (ro s) ++ items_p lph ++ items_e leh in
  let mine := map (passed g) requests ++ sent_by_others evs ++ msgs_p lpa ++ msgs_e lea in
  Forall (fun x => dto_a (snd x) = true) mine -> NoDup (map fst mine) ->
  ~ In k (map fst (map msg_of (items_p lpb ++ items_e leb) ++ others (beyond evs))) ->
  (times k (map msg_of (finished (bo (rw s)))) <= 1)%nat.

(** As in C79: an answer gets lost after the second application has processed the request. *)
Definition re_twice : revs :=
  re_request 1 10 ++ re_take 0 ++ re_pass 0 1 11 ++
  map RWorld ([WSender (STask 0 OK); WAttempt 0; WArrive 0; WHandler (ECollected 0 7%N); WHandler (EPush 0); WLose 0; WFail 0 None] ++
              de_process 0 ++ de_send 0 1 ++ [WHandler (EPush 0)] ++ de_process 1).
Theorem C117_handled_at_most_once_refuted : ~ C117_handled_at_most_once.
Proof.
  intros H. destruct (re_run re_start re_twice) as [s l] eqn:E.
  assert (C : closed (rh s) = 0%nat /\ sclosed (wa (rw s)) = 0%nat /\ closed (wb (rw s)) = 0%nat /\
    let mine := map (passed re_g) (accepted (ro s) ++ items_p [] ++ items_e []) ++ sent_by_others re_twice ++ msgs_p (M:=N) [] ++ msgs_e (M:=N) [] in
    Forall (fun x => de_dto (snd x) = true) mine /\ NoDup (map fst mine)).
  { vm_compute in E. injection E as <- <-. split; [reflexivity|split; [reflexivity|split; [reflexivity|]]]. cbv zeta.
    split; [repeat constructor|]. vm_compute. repeat constructor. intros []. }
  destruct C as [Ch [Ca [Cb [Va Nd]]]].
  assert (Po : passes_on re_step re_g re_start re_twice) by (vm_compute; repeat split).
  assert (X : (times 1 (map msg_of (finished (bo (rw s)))) <= 1)%nat).
  { apply (H N N N N N _ _ _ _ _ _ _ _ _ _ _ _ _ _ re_g _ _ _ _ _ _ _ _ _ _ _ _ 1%N de_reach de_usable de_holds de_reach de_usable de_holds
    de_reach de_usable de_holds E Ch Ca Cb Po eq_refl Va Nd). intros []. }
  clear -E X. vm_compute in E. injection E as <- <-. vm_compute in X. lia.
Qed.
Print Assumptions C117_handled_at_most_once_refuted.

(** Once, and once more for each failed attempt of the sender's client; how often the endpoint of the first application had
    to call its function does not matter.  Missing: that a second acceptance has no effect, which is false. *)
Theorem C117_handled_at_most_once_partial :
  forall (DH MH D MA MB : Type) (meta_h : MH) (dto_h truthy_h : DH -> bool) (max_h : Z)
         (meta_a : MA) (dto_a truthy_a : D -> bool) (wait : bool) (max_a cmax : Z)
         (meta_b : MB) (dto_b truthy_b : D -> bool) (max_b : Z) (g : DH -> D) qh qa qb lph leh lpa lea lpb leb evs s l k,
  preachable meta_h qh -> usable qh -> holds qh lph leh -> preachable meta_a qa -> usable qa -> holds qa lpa lea ->
  preachable meta_b qb -> usable qb -> holds qb lpb leb ->
  rrun meta_h dto_h truthy_h max_h meta_a dto_a truthy_a wait max_a cmax meta_b dto_b truthy_b max_b (rstart qh qa qb) evs = (s, l) ->
  closed (rh s) = 0%nat -> sclosed (wa (rw s)) = 0%nat -> closed (wb (rw s)) = 0%nat ->
  passes_on (rstep meta_h dto_h truthy_h max_h meta_a dto_a truthy_a wait max_a cmax meta_b dto_b truthy_b max_b) g (rstart qh qa qb) evs ->
  forallb calm (beyond evs) = true ->
  let requests := accepted (ro s) ++ items_p lph ++ items_e leh in
  let mine := map (passed g) requests ++ sent_by_others evs ++ msgs_p lpa ++ msgs_e lea in
  Forall (fun x => dto_a (snd x) = true) mine -> NoDup (map fst mine) ->
  ~ In k (map fst (map msg_of (items_p lpb ++ items_e leb) ++ others (beyond evs))) ->
  (times k (map msg_of (accepted (bo (rw s)))) <= 1 + attempts_failed k l)%nat /\
  (times k (map msg_of (finished (bo (rw s)))) <= 1 + attempts_failed k l)%nat.
Proof. exact (@relay_at_most). Qed.
Print Assumptions C117_handled_at_most_once_partial.

Example C117_example : let '(s, l) := re_run re_start re_evs in
  passes_on re_step re_g re_start re_evs /\ forallb calm (beyond re_evs) = true /\
  map (fun k => times k (map msg_of (accepted (bo (rw s))))) [1; 2; 3]%N = [1; 2; 0]%nat /\
  map (fun k => attempts_failed k l) [1; 2; 3]%N = [0; 1; 0]%nat.
Proof. vm_compute. repeat split. Qed.
