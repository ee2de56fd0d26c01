(** Properties of messages between two applications whose processes both die at any moments, any number of times: C127. *)
From Coq Require Import List ZArith NArith Bool String Lia Permutation.
From Verif Require Import Base PQueueModel PQueueSpec PQueueProofs PendingModel PendingSpec SenderModel SenderSpec HandlerModel HandlerSpec
  DeliveryModel DeliverySpec DeliveryProps SCrashModel CrashModel BothCrashModel BothCrashSpec BothCrashProofs2 BothCrashProofs3.
Import ListNotations.
Local Open Scope Z_scope.

(** For any number of lives of both processes, each ended by a crash at any point or gracefully, any order of their
    events and anything the network does: every message enqueued with the sender is, now, with the sender (queued, being
    sent, in error, or taken out by an operator), with the endpoint (about to be queued, queued, being processed, in error,
    processed, or taken out by an operator), dropped as a duplicate or lost to a failure in one of them, or among those
    lost by the crashes; these are at most [na] for the sender and [nb] for the endpoint: per crash four pages and two
    messages, and for the endpoint those accepted but not yet queued. [again]: what the endpoint accepted more often than
    the sender took it for delivered; it has no other source than the sender and the other clients. *)
Theorem C127_messages_and_crashes_of_both_sides :
  forall (D MA MB : Type) (meta_a : MA) (dto_a truthy_a : D -> bool) (wait : bool) (max_a cmax : Z)
         (meta_b : MB) (dto_b truthy_b : D -> bool) (max_b : Z) na pa nb pb others w,
  wlives meta_a dto_a truthy_a wait max_a cmax meta_b dto_b truthy_b max_b na pa nb pb others w ->
  exists lp le lp' le' again crashed_a (crashed_b : list (item D MB)), holds (sq (wa w)) lp le /\ holds (hq (wb w)) lp' le' /\
    Permutation (enqueued (ao w) ++ again)
      (with_sender w lp le ++ with_receiver w lp' le' ++
       s_dropped (ao w) ++ s_lost (ao w) ++ map msg_of (dropped (bo w) ++ lost (bo w)) ++
       crashed_a ++ map msg_of crashed_b) /\
    Permutation (map msg_of (accepted (bo w))) (delivered (ao w) ++ again) /\
    (forall x, In x again -> In x (enqueued (ao w)) \/ In x others) /\
    Z.of_nat (List.length crashed_a) <= na /\ Z.of_nat (List.length crashed_b) <= nb.
Proof. exact (@both_accounting). Qed.
Print Assumptions C127_messages_and_crashes_of_both_sides.

(** ** An example: seven messages are enqueued; the first two are accepted, and the second answer is read but the sender
    dies before it takes the third message; then the endpoint dies with the second message accepted and not yet queued.
    After both have been started again, two more messages are delivered and one of them is processed. The crashes took
    messages 1 and 2 at the endpoint and message 7 at the sender. *)
Notation de_lives := (wlives (MA:=N) (MB:=N) 0%N de_dto de_true false 3 2 0%N de_dto_b de_true 2).
Notation de_step := (wstep (MA:=N) (MB:=N) 0%N de_dto de_true false 3 2 0%N de_dto_b de_true 2).

Lemma de_go na pa nb pb ot evs : forall w, de_lives na pa nb pb ot w ->
  (fix ok (evs : list (wev N N)) (w : world N N N) : bool := match evs with
     | [] => true
     | ev :: r => let w' := fst (de_step w ev) in
         Nat.eqb (sclosed (wa w')) 0 && Nat.eqb (closed (wb w')) 0 &&
         match ev with WOther _ _ => false | _ => true end && ok r w' end) evs w = true ->
  de_lives na pa nb pb ot (fst (de_run w evs)).
Proof.
  induction evs as [|ev r IH]; intros w L H; [exact L|]. cbn [wrun]. destruct (de_step w ev) as [w' l] eqn:E.
  cbn [fst] in H. apply andb_prop in H as [H H4]. apply andb_prop in H as [H H3]. apply andb_prop in H as [H1 H2].
  apply Nat.eqb_eq in H1, H2.
  assert (L' : de_lives na pa nb pb ot w').
  { pose proof (wl_step _ _ _ _ _ _ _ _ _ _ _ _ _ _ _ _ _ _ _ L E H1 H2) as X. destruct ev; try discriminate H3; now rewrite app_nil_r in X. }
  specialize (IH w' L' H4). destruct (de_run w' r). exact IH.
Qed.

Definition bx_evs1 : list (wev N N) :=
  map (fun k => WSender (SEnqueue k (10 * k)%N)) [1; 2; 3; 4; 5; 6; 7]%N ++ [WSender (STask 0 OK)] ++ de_send 0 0 ++
  [WHandler (EPush 0)] ++ [WAttempt 0; WArrive 1; WHandler (ECollected 0 7%N)].
Definition bx_w1 := fst (de_run (wstart de_q de_q) bx_evs1).
Example bx_life1 : de_lives 0 2 0 2 [] bx_w1.
Proof. apply de_go; [apply (wl_start _ _ _ _ _ _ _ _ _ _ 2 2); lia|vm_compute; reflexivity]. Qed.

(** The sender dies between the delivery of message 2 and the taking of message 3. *)
Definition bx_hand : pentry N N := match sending bx_w1 0 with Some e => e | None => mkP 0%N 0 0%N 0%N end.
Definition bx_settled := s_settle 0%N 3 (wa bx_w1) bx_hand OK.
Definition bx_w2 := restart_a bx_w1 (set_conn (conns bx_w1) 1 (CRead AAccepted)) (snd bx_settled) 2 (files_of (sq (fst bx_settled))).
Example bx_life2 : de_lives 10 2 0 2 [] bx_w2.
Proof.
  eapply (wl_crash_a _ _ _ _ _ _ _ _ _ _ 0 2 0 2 [] bx_w1 (STask 0 OK) _ _ _ 0); [exact bx_life1| | |apply op_none|lia].
  - eapply (ad_read bx_w1 0 (snd bx_settled) bx_hand 0 1); vm_compute; (reflexivity || discriminate).
  - eapply sc_settled; [vm_compute; reflexivity|]. apply surjective_pairing.
Qed.

(** The endpoint dies. *)
Definition bx_w3 := restart_b bx_w2 [] 2 (files_of (hq (wb bx_w2))).
Example bx_life3 : de_lives 10 2 11 2 [] bx_w3.
Proof. apply (wl_crash_b _ _ _ _ _ _ _ _ _ _ 10 2 0 2 [] bx_w2 EShutDown (files_of (hq (wb bx_w2))) _ 0); [exact bx_life2|apply ca_before|apply op_none|lia]. Qed.

Definition bx_evs4 : list (wev N N) := [WSender (STask 0 OK)] ++ de_send 0 2 ++ [WHandler (EPush 0)] ++ de_process 0 ++ de_send 0 3.
Definition bx_w4 := fst (de_run bx_w3 bx_evs4).
Example C127_example : de_lives 10 2 11 2 [] bx_w4 /\
  map fst (enqueued (ao bx_w4)) = [1; 2; 3; 4; 5; 6; 7]%N /\ map fst (delivered (ao bx_w4)) = [1; 2; 3; 4]%N /\
  map key_of (accepted (bo bx_w4)) = [1; 2; 3; 4]%N /\ map key_of (finished (bo bx_w4)) = [3%N] /\
  map key_of (pushing (wb bx_w4)) = [4%N] /\ map fst (with_sender bx_w4 (contents (pend (sq (wa bx_w4)))) []) = [5; 6]%N /\
  map fst (with_receiver bx_w4 (contents (pend (hq (wb bx_w4)))) []) = [4; 3]%N.
Proof. split; [apply de_go; [exact bx_life3|vm_compute; reflexivity]|]. vm_compute. repeat split. Qed.

(** ** C128: how often a message is accepted and processed, when both processes may die at any moments *)

(** For every key that no other client uses: the endpoint accepts it at most as often as the client makes attempts, that
    is [cmax] times for each call of send_data; the sender calls send_data for a message enqueued once at most
    max(1, max_retries) times between two operator commands that put it back, over all its lives; so without such commands
    the message is accepted at most [cmax] times max(1, max_retries) times, and it is processed successfully at most as
    often as it was accepted. *)
Theorem C128_bounded_processing :
  forall (D MA MB : Type) (meta_a : MA) (dto_a truthy_a : D -> bool) (wait : bool) (max_a cmax : Z)
         (meta_b : MB) (dto_b truthy_b : D -> bool) (max_b : Z) na pa nb pb others w k,
  wlives meta_a dto_a truthy_a wait max_a cmax meta_b dto_b truthy_b max_b na pa nb pb others w ->
  ~ In k (map fst others) ->
  (times k (map msg_of (finished (bo w))) <= times k (map msg_of (accepted (bo w))))%nat /\
  Z.of_nat (times k (map msg_of (accepted (bo w)))) <= Z.max 0 cmax * Z.of_nat (sends k (ao w)) /\
  (NoDup (map fst (enqueued (ao w))) ->
     attempts_of k 0 (ao w) <= Z.max 1 max_a /\
     (~ In (OReprocessed k) (ao w) ->
        Z.of_nat (times k (map msg_of (accepted (bo w)))) <= Z.max 0 cmax * Z.max 1 max_a)).
Proof.
  intros D MA MB meta_a dto_a truthy_a wait max_a cmax meta_b dto_b truthy_b max_b na pa nb pb others w k H No.
  destruct (accepted_vs_sends _ _ _ _ _ _ _ _ _ _ _ _ _ _ _ _ k H No) as [A B]. split; [exact B|]. split; [exact A|].
  intros Nd. split; [exact (proj2 (sends_bound _ _ _ _ _ _ _ _ _ _ _ _ _ _ _ _ k H Nd))|].
  intros Nr. exact (proj1 (times_bound _ _ _ _ _ _ _ _ _ _ _ _ _ _ _ _ k H No Nd Nr)).
Qed.
Print Assumptions C128_bounded_processing.

(** The bound is reached: two attempts for each of three calls of send_data, every request is accepted and every answer
    lost. The endpoint dies after the third. *)
Definition tx_try (c : nat) : list (wev N N) :=
  [WAttempt 0; WArrive c; WHandler (ECollected 0 7%N); WLose c; WFail 0 None; WHandler (EPush 0)].
Definition tx_w1 := fst (de_run (wstart de_q de_q) ([WSender (SEnqueue 1 10)%N; WSender (STask 0 OK)] ++ flat_map tx_try [0; 1; 2]%nat)).
Example tx_life1 : de_lives 0 2 0 2 [] tx_w1.
Proof. apply de_go; [apply (wl_start _ _ _ _ _ _ _ _ _ _ 2 2); lia|vm_compute; reflexivity]. Qed.
Definition tx_w2 := restart_b tx_w1 [] 2 (files_of (hq (wb tx_w1))).
Example tx_life2 : de_lives 0 2 10 2 [] tx_w2.
Proof. apply (wl_crash_b _ _ _ _ _ _ _ _ _ _ 0 2 0 2 [] tx_w1 EShutDown (files_of (hq (wb tx_w1))) _ 0); [exact tx_life1|apply ca_before|apply op_none|lia]. Qed.
Definition tx_w3 := fst (de_run tx_w2 (flat_map tx_try [3; 4; 5]%nat ++ de_process 0)).
Example C128_example : de_lives 0 2 10 2 [] tx_w3 /\ times 1%N (map msg_of (accepted (bo tx_w3))) = 6%nat /\
  sends 1%N (ao tx_w3) = 3%nat /\ attempts_of 1%N 0 (ao tx_w3) = 3 /\ times 1%N (map msg_of (finished (bo tx_w3))) = 1%nat /\
  NoDup (map fst (enqueued (ao tx_w3))) /\ ~ In (OReprocessed 1%N) (ao tx_w3).
Proof.
  split; [apply de_go; [exact tx_life2|vm_compute; reflexivity]|]. vm_compute. repeat split.
  - repeat constructor. intros [].
  - intuition discriminate.
Qed.
