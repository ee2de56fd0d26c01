(** Property theorems: calls of stream clients end. *)
From Coq Require Import List ZArith NArith Bool String Lia Arith.
From Verif Require Import Base SpanKeyModel RouterModel JsonModel StreamModel ClientModel WireModel AskModel AskProofs2 AskProps DgModel DgSpec DgProofs DgProofs4 DgProps EndSpec EndProofs EndProofs2 EndProofs3.
Import ListNotations.

(** ** C133: every call of a persistent client ends *)
(** While a call or a heartbeat has not ended, something can happen that lets one go on and that needs no answer: whatever
    happened before, nobody waits for a lock that nobody gives on. *)
Theorem C133_never_stuck : forall max evs i, unfinished (prun max evs) i ->
  exists e j, alone e /\ ClientModel.tasks (pstep max (prun max evs) e) j <> ClientModel.tasks (prun max evs) j.
Proof.
  intros max evs i [Hi P]. destruct (EndProofs.not_stuck max (prun max evs) i (EndProofs.prun_inv max evs) Hi P) as (e & A & j & H). exists e, j. auto.
Qed.
Print Assumptions C133_never_stuck.
(** Each goes on at most 5 * max(1, max_retries) times, whatever happens, other calls included. *)
Theorem C133_bounded : forall max evs evs' i k, (i < ntasks (prun max evs))%nat ->
  moves (pstep max) (fun s => ClientModel.tasks s i) (prun max evs) evs' k -> (Z.of_nat k <= 5 * Z.max 1 max)%Z.
Proof.
  intros max evs evs' i k Hi Mv. pose proof (EndProofs.prun_inv max evs) as I. etransitivity; [exact (EndProofs.each_bound max i evs' _ k I Hi Mv)|].
  apply EndProofs.weight_pos. apply (l_range _ _ _ _ _ I).
Qed.
Print Assumptions C133_bounded.
(** Two calls and a heartbeat, and no server behind the connections; and a call whose every attempt loses its connection: the
    most that a call can do. *)
Definition ex_start : list pev := [PStart false; PStart false; PStart true].
Definition ex_alone : list pev :=
  [POpened 0; POpened 1; POpened 2; PTimeout 0; PGrant; PTimeout 1; PGrant; PTimeout 2; PWake 0; PWake 1; PTimeout 0; PGrant; PTimeout 1; PWake 0; PTimeout 0; PWake 1; PTimeout 1].
Definition ex_longest : list pev :=
  [POpened 1; PGrant; PDie 2; PEnd 1 XEmpty; POpened 1; PWake 1; PDie 3; PEnd 1 XReset; POpened 1; PWake 1; PDie 4; PEnd 1 XPipe; POpened 1].
Example C133_example : let s := prun 3 ex_start in
  unfinished s 0 /\ unfinished s 1 /\ unfinished s 2 /\ moves (pstep 3) (fun s => ClientModel.tasks s 1) s ex_alone 8 /\
  (let d := fold_left (pstep 3) ex_alone s in ClientModel.tasks d 0 = PDone OMax /\ ClientModel.tasks d 1 = PDone OMax /\ ClientModel.tasks d 2 = PDone ONone) /\
  let s' := prun 3 [PStart false; PStart false; POpened 0] in
  moves (pstep 3) (fun s => ClientModel.tasks s 1) s' (POpened 1 :: PTimeout 0 :: tl ex_longest) 10 /\
  ClientModel.tasks (fold_left (pstep 3) (POpened 1 :: PTimeout 0 :: tl ex_longest) s') 1 = PDone OMax.
Proof.
  cbv zeta. split; [split; [cbn; lia|intros o; discriminate]|]. split; [split; [cbn; lia|intros o; discriminate]|]. split; [split; [cbn; lia|intros o; discriminate]|].
  split; [unfold ex_alone; repeat (first [apply moves_nil|apply moves_same; [vm_compute; reflexivity|]|apply moves_more; [vm_compute; discriminate|]])|].
  split; [vm_compute; repeat split|]. split; [|vm_compute; reflexivity].
  unfold ex_longest; cbn [tl]; repeat (first [apply moves_nil|apply moves_same; [vm_compute; reflexivity|]|apply moves_more; [vm_compute; discriminate|]]).
Qed.

(** ** C134: every call of a transient client ends *)
(** Whatever the network, the server and the application do: a call that has not ended can go on without an answer. *)
Theorem C134_never_stuck : forall (D V : Type) utf8 (dump : V -> json) limit max accepted_resp (app : nat -> code D V) es i,
  let s := AskModel.run utf8 dump limit max accepted_resp app es in
  pending s i -> exists e, alone_t i e /\ place i (AskModel.step utf8 dump limit max accepted_resp app s e) <> place i s.
Proof. intros D V utf8 dump limit max ar app es i s P. apply (EndProofs2.not_stuck utf8 dump limit max ar app s i); [apply run_inv|exact P]. Qed.
Print Assumptions C134_never_stuck.
(** And it goes on at most 4 * max_retries times. *)
Theorem C134_bounded : forall (D V : Type) utf8 (dump : V -> json) limit max accepted_resp (app : nat -> code D V) es es' i k,
  let s := AskModel.run utf8 dump limit max accepted_resp app es in
  (i < ncalls (cl s))%nat -> moves (AskModel.step utf8 dump limit max accepted_resp app) (place i) s es' k -> (Z.of_nat k <= Z.max 0 (4 * max))%Z.
Proof.
  intros D V utf8 dump limit max ar app es es' i k s Hi Mv. pose proof (run_inv utf8 dump limit max ar app es) as I. fold s in I.
  etransitivity; [exact (EndProofs2.each_bound utf8 dump limit max ar app i es' s k I Hi Mv)|]. apply (weight_range utf8 dump limit max ar app s i I Hi).
Qed.
Print Assumptions C134_bounded.
(** The first attempt gets no answer, the connection of the second one is reset, of the third one the closing fails. *)
Definition ax_end : list event :=
  [NOpened 0 false; NTimeout 0; NWake 0; NOpened 0 true; NUpEof 1; NDownErr 1 XReset; NRead 0 true; NWake 0; NOpened 0 true; NUp 2 1000; NDone 2; NDown 2 1000; NRead 0 true; NClosed 0 (Some XReset)].
Example C134_example : let s := ax_run asyncio_limit [NStart ax_req] in
  pending s 0 /\ moves (AskModel.step (fun _ => true) ax_dump asyncio_limit 3 (fun _ => EmptyString) ax_app) (place 0) s ax_end 9 /\
  ax_out (ax_run asyncio_limit (NStart ax_req :: ax_end)) 0 = Some (Raised CMax).
Proof.
  cbv zeta. split; [split; [vm_compute; lia|intros o; vm_compute; discriminate]|]. split; [|vm_compute; reflexivity].
  unfold ax_end. repeat (first [apply moves_nil|apply moves_same; [vm_compute; reflexivity|]|apply moves_more; [vm_compute; discriminate|]]).
Qed.

(** ** C132, for each call: whatever happens, other calls included, a call over UDP goes on at most 4 * max_retries times *)
Theorem C132_bounded_each : forall (D V : Type) utf8 (dump : V -> json) max accepted_resp (app : nat -> code D V) es es' i k,
  let s := grun utf8 dump max accepted_resp app es in
  (i < gn (me s))%nat -> moves (gstep utf8 dump max accepted_resp app) (fun s => DgModel.tasks (me s) i) s es' k -> (Z.of_nat k <= Z.max 0 (4 * max))%Z.
Proof.
  intros D V utf8 dump max ar app es es' i k s Hi Mv. pose proof (grun_inv utf8 dump max ar app es) as I. fold s in I.
  etransitivity; [exact (EndProofs3.each_bound utf8 dump max ar app i es' s k I (grun_q utf8 dump max ar app es) Hi Mv)|].
  apply (weights max app); [apply (DgProofs.v_c _ _ _ _ _ _ I)|exact Hi].
Qed.
Print Assumptions C132_bounded_each.
(** While two more calls are made. *)
Example C132_example_each : let s := dx_run [GStart (dx_req "one")] in
  (0 < gn (me s))%nat /\ moves dx_step (fun s => DgModel.tasks (me s) 0) s [GOpened 0 None; GStart (dx_req "two"); GTimeout 0; GGrant; GWake 0; GStart (dx_req "three"); GTimeout 1; GGrant; GTimeout 0] 5.
Proof.
  cbv zeta. split; [vm_compute; lia|].
  repeat (first [apply moves_nil|apply moves_same; [vm_compute; reflexivity|]|apply moves_more; [vm_compute; discriminate|]]).
Qed.
