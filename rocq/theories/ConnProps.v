(** Properties of the connections of a persistent client. *)
From Coq Require Import List ZArith NArith Bool String Lia Arith.
From Verif Require Import RouterModel ClientModel EndSpec ConnSpec ConnProofs ConnProofs2 ConnProofs3.
Import ListNotations.
Local Open Scope Z_scope.

(** *** C136: a persistent client keeps one connection.  Full claim. *)
Definition C136_one_connection : Prop :=
  forall max evs c d, open_now (prun max evs) c -> open_now (prun max evs) d -> c = d.
(** False of the code: any number of first calls made at the same time open a connection each, and all of them stay open
    although nothing failed. *)
Theorem C136_racing_refuted :
  forall max k, 0 < max -> exists evs, (forall e, In e evs -> e = PStart false \/ exists i, e = POpened i) /\
  opened (prun max evs) = k /\ forall c, (1 <= c <= k)%nat -> open_now (prun max evs) c.
Proof. exact racing_k. Qed.
Print Assumptions C136_racing_refuted.
Theorem C136_one_connection_refuted : ~ C136_one_connection.
Proof.
  intros H. destruct (racing_k 1 2 eq_refl) as (evs & _ & _ & O). specialize (H 1 evs 1%nat 2%nat (O 1%nat ltac:(lia)) (O 2%nat ltac:(lia))). discriminate.
Qed.
Print Assumptions C136_one_connection_refuted.
(** Nor is it enough that calls and heartbeats follow one another and that no connection is lost: a heartbeat that reads the late
    response of a call that timed out gives up its connection without closing it, each time. *)
Theorem C136_heartbeat_refuted :
  forall k, exists evs, one_at_a_time 1 evs /\ (forall e, In e evs -> match e with PDie _ | PCancel _ => False | _ => True end) /\
  opened (prun 1 evs) = k /\ forall c, (1 <= c <= k)%nat -> open_now (prun 1 evs) c.
Proof. exact beats_k. Qed.
Print Assumptions C136_heartbeat_refuted.
(** Nor is it enough that no two connection attempts overlap: when a connection with two calls in progress is lost, both
    replace it. *)
Definition lost_with_two : list pev :=
  [PStart false; POpened 0; PStart false; PDie 1; PEnd 0 XEmpty; PGrant; POpened 0; PEnd 1 XEmpty; POpened 1].
Theorem C136_loss_refuted :
  no_racing_opens 3 lost_with_two /\ (forall e, In e lost_with_two -> match e with PTimeout _ | PCancel _ | PStart true => False | _ => True end) /\
  open_now (prun 3 lost_with_two) 2 /\ open_now (prun 3 lost_with_two) 3.
Proof.
  split; [|split; [|split; (split; [vm_compute; lia|vm_compute; reflexivity])]].
  - intros b a i j n f m g E Hi Hj. unfold lost_with_two in E.
    assert (forall k, (k <= 9)%nat -> b = firstn k lost_with_two -> i = j) as G.
    { intros k Hk ->. do 10 (destruct k as [|k]; [destruct i as [|[|i]], j as [|[|j]]; try reflexivity; vm_compute in Hi, Hj; try discriminate|]). lia. }
    apply (G (List.length b)); [|unfold lost_with_two; rewrite E, firstn_app, firstn_all, Nat.sub_diag; cbn [firstn]; now rewrite app_nil_r].
    apply (f_equal (@List.length pev)) in E. rewrite app_length in E. cbn [List.length] in E. lia.
  - intros e He. cbn in He. repeat (destruct He as [<-|He]; [exact Logic.I|]). destruct He.
Qed.
Print Assumptions C136_loss_refuted.
(** It holds when each call and heartbeat begins after the one before has ended and either there are no heartbeats or no read
    times out or is cancelled, whatever else happens to the connections. *)
Theorem C136_calls_partial :
  forall max evs, one_at_a_time max evs -> (forall e, In e evs -> e <> PStart true) ->
  forall c d, open_now (prun max evs) c -> open_now (prun max evs) d -> c = d.
Proof. exact one_calls. Qed.
Print Assumptions C136_calls_partial.
Theorem C136_heartbeats_partial :
  forall max evs, one_at_a_time max evs -> (forall e, In e evs -> match e with PTimeout _ | PCancel _ => False | _ => True end) ->
  forall c d, open_now (prun max evs) c -> open_now (prun max evs) d -> c = d.
Proof. exact one_beats. Qed.
Print Assumptions C136_heartbeats_partial.
(** In every schedule a call opens at most two connections per attempt, and a heartbeat one; there are no others. *)
Theorem C136_opened_by : forall max evs i,
  Z.of_nat (opened_by max i pstart evs) <= if beat (prun max evs) i then 1 else 2 * Z.max 1 max.
Proof. exact opened_by_each. Qed.
Print Assumptions C136_opened_by.
Theorem C136_opened : forall max evs,
  opened (prun max evs) = list_sum (map (fun i => opened_by max i pstart evs) (seq 0 (ntasks (prun max evs)))).
Proof. exact opened_all. Qed.
Print Assumptions C136_opened.

(** A call whose connection is lost twice, in both senses: it opens as many connections as C136_opened_by allows when max = 1. *)
Example C136_ex_two : opened_by 1 0 pstart [PStart false; POpened 0; PDie 1; PEnd 0 XEmpty; POpened 0] = 2%nat.
Proof. reflexivity. Qed.
(** A call, a heartbeat, a loss and a second call, one after the other. *)
Definition one_by_one : list pev :=
  [PStart false; POpened 0; PAnswer 1; PData 0; PStart true; PAnswer 1; PData 1; PDie 1; PStart false; PEnd 2 XEmpty; POpened 2; PWake 2; PAnswer 2; PData 2].
Example C136_ex_one_by_one :
  one_at_a_time 3 one_by_one /\ (forall e, In e one_by_one -> match e with PTimeout _ | PCancel _ => False | _ => True end) /\
  tasks (prun 3 one_by_one) 2 = PDone (OText 2%nat) /\ opened (prun 3 one_by_one) = 2%nat /\ open_now (prun 3 one_by_one) 2.
Proof.
  split; [|split; [|split; [vm_compute; reflexivity|split; [vm_compute; reflexivity|split; [vm_compute; lia|vm_compute; reflexivity]]]]].
  - intros b hb a E. unfold one_by_one in E. 
    assert (forall k, (k <= 14)%nat -> b = firstn k one_by_one -> nth_error one_by_one k = Some (PStart hb) -> forall j, exists o, tasks (prun 3 b) j = PDone o) as G.
    { intros k Hk -> Nt j. do 15 (destruct k as [|k]; [first [discriminate Nt|destruct j as [|[|[|j]]]; vm_compute; eexists; reflexivity]|]). lia. }
    apply (G (List.length b)).
    + apply (f_equal (@List.length pev)) in E. rewrite app_length in E. cbn [List.length] in E. lia.
    + unfold one_by_one. rewrite E, firstn_app, firstn_all, Nat.sub_diag. cbn [firstn]. now rewrite app_nil_r.
    + unfold one_by_one. rewrite E, nth_error_app2, Nat.sub_diag by lia. reflexivity.
  - intros e He. cbn in He. repeat (destruct He as [<-|He]; [exact Logic.I|]). destruct He.
Qed.
(** And one with a timeout but no heartbeats. *)
Example C136_ex_calls : one_at_a_time 1 [PStart false; POpened 0; PTimeout 0; PAnswer 1; PStart false] /\ opened (prun 1 [PStart false; POpened 0; PTimeout 0; PAnswer 1; PStart false]) = 1%nat.
Proof.
  split; [|vm_compute; reflexivity]. intros b hb a E.
  assert (forall k, (k <= 5)%nat -> b = firstn k [PStart false; POpened 0; PTimeout 0; PAnswer 1; PStart false] -> nth_error [PStart false; POpened 0; PTimeout 0; PAnswer 1; PStart false] k = Some (PStart hb) -> forall j, exists o, tasks (prun 1 b) j = PDone o) as G.
  { intros k Hk -> Nt j. do 6 (destruct k as [|k]; [first [discriminate Nt|destruct j as [|j]; vm_compute; eexists; reflexivity]|]). lia. }
  apply (G (List.length b)).
  - apply (f_equal (@List.length pev)) in E. rewrite app_length in E. cbn [List.length] in E. lia.
  - rewrite E, firstn_app, firstn_all, Nat.sub_diag. cbn [firstn]. now rewrite app_nil_r.
  - rewrite E, nth_error_app2, Nat.sub_diag by lia. reflexivity.
Qed.
