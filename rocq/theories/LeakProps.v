(** Property theorems: which of its connections a transient client closes. *)
From Coq Require Import List ZArith NArith Bool String Lia Arith.
From Verif Require Import Base SpanKeyModel RouterModel JsonModel StreamModel ClientModel WireModel AskModel AskSpec AskProofs2 AskProps LeakSpec LeakProofs.
Import ListNotations.

(** ** C135: a call closes the connections it opens *)
(** Full claim: when a call of send_message has ended, the client has closed every connection it opened for it. *)
Definition C135_closes_all : Prop :=
  forall (D V : Type) utf8 (dump : V -> json) limit max accepted_resp (app : nat -> code D V) es i,
  let run := AskModel.run utf8 dump limit max accepted_resp app in
  ended (run es) i -> forall c, In c (opened_by (run es) i) -> closed run es c.
(** What an attempt that gets no answer in time, or that is cancelled, opened, is never closed, whatever happens later. *)
Theorem C135_given_up_stays_open : forall (D V : Type) utf8 (dump : V -> json) limit max accepted_resp (app : nat -> code D V) es i c e es',
  let run := AskModel.run utf8 dump limit max accepted_resp app in
  phases (run es) i = PRead c -> e = NTimeout i \/ e = NCancel i -> ~ closed run (es ++ e :: es') c.
Proof.
  intros D V utf8 dump limit max ar app es i c e es' run P E. pose proof (given_up utf8 dump limit max ar app es i c e P E es') as H.
  rewrite <- app_assoc in H. exact H.
Qed.
Print Assumptions C135_given_up_stays_open.
(** So the claim is false: the first attempt times out, the second one succeeds. *)
Definition lx_late : list event := [NStart ax_req; NOpened 0 true].
Definition lx_then : list event := [NWake 0; NOpened 0 true; NUp 1 1000; NDone 1; NDown 1 1000; NRead 0 true; NClosed 0 None].
Theorem C135_closes_all_refuted : ~ C135_closes_all.
Proof.
  intros H. specialize (H string string (fun _ => true) ax_dump asyncio_limit 3%Z (fun _ => EmptyString) ax_app (lx_late ++ NTimeout 0 :: lx_then) 0).
  cbv zeta in H. refine (C135_given_up_stays_open string string (fun _ => true) ax_dump asyncio_limit 3%Z (fun _ => EmptyString) ax_app lx_late 0 0 (NTimeout 0) lx_then _ _ (H _ 0 _)).
  - vm_compute. reflexivity.
  - now left.
  - split; [vm_compute; lia|]. eexists. vm_compute. reflexivity.
  - vm_compute. now left.
Qed.
Print Assumptions C135_closes_all_refuted.
(** True: the client has closed all connections of a call that has ended, but at most one for each of its failed attempts. *)
Theorem C135_closes_all_partial : forall (D V : Type) utf8 (dump : V -> json) limit max accepted_resp (app : nat -> code D V) es i,
  let run := AskModel.run utf8 dump limit max accepted_resp app in
  ended (run es) i -> exists L : list nat,
    List.length L <= failures (tlog (calls (cl (run es)) i)) /\ forall c, In c (opened_by (run es) i) -> closed run es c \/ In c L.
Proof.
  intros D V utf8 dump limit max ar app es i run [Hi (o & T)]. destruct (left_ok utf8 dump limit max ar app es i) as (L & B & _ & A). exists L. split; [|exact A].
  pose proof (v_calls _ _ _ _ _ _ _ (run_inv utf8 dump limit max ar app es) i Hi) as C. unfold CallOk in C. fold run in C, B. rewrite T in C. destruct C as (C & _). rewrite C in B. cbn [reading] in B. lia.
Qed.
Print Assumptions C135_closes_all_partial.
(** In particular a call without a failed attempt leaves nothing open. *)
Corollary C135_no_failure_partial : forall (D V : Type) utf8 (dump : V -> json) limit max accepted_resp (app : nat -> code D V) es i,
  let run := AskModel.run utf8 dump limit max accepted_resp app in
  ended (run es) i -> failures (tlog (calls (cl (run es)) i)) = 0 -> forall c, In c (opened_by (run es) i) -> closed run es c.
Proof.
  intros D V utf8 dump limit max ar app es i run E F c H. destruct (C135_closes_all_partial D V utf8 dump limit max ar app es i E) as (L & B & A). fold run in B, A. rewrite F in B.
  destruct L; [|cbn in B; lia]. destruct (A c H) as [X|[]]. exact X.
Qed.
Print Assumptions C135_no_failure_partial.
Example C135_example :
  let s := ax_run asyncio_limit (lx_late ++ NTimeout 0 :: lx_then) in
  ended s 0 /\ failures (tlog (calls (cl s) 0)) = 1 /\ opened_by s 0 = [0; 1] /\
  let s' := ax_run asyncio_limit (ax_there ++ [NDown 0 1000; NRead 0 true; NClosed 0 None]) in
  ended s' 0 /\ failures (tlog (calls (cl s') 0)) = 0 /\ opened_by s' 0 = [0].
Proof. cbv zeta. repeat split; try (vm_compute; lia); try (vm_compute; reflexivity); eexists; vm_compute; reflexivity. Qed.
