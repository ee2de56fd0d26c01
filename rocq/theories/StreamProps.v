(** Properties of the servers' connections: C27, C52 (streams) and C53 (datagrams). *)
From Coq Require Import NArith Bool Arith Lia String List.
From Verif Require Import StreamModel StreamSpec StreamProofs.
Import ListNotations.

(** ** A concrete server: texts are byte strings without 255; a request is answered by the number of requests before it
    followed by the request; requests starting with "!" (33) make the handling raise. *)
Definition sx_decode (l : list N) : option (list N) := if existsb (N.eqb 255) l then None else Some l.
Definition sx_answer (before : list (list N)) (t : list N) : option (list N) :=
  if N.eqb (hd 0%N t) 33 then None else Some (N.of_nat (List.length before) :: removelast t).
Notation sx_run := (crun sx_decode sx_answer 8).
Definition sx_text : list N := [65; 66; 10; 5; 10; 67; 10; 68]%N.

(** ** C27: answers in order, whatever the chunking *)

(** For every sequence of arrivals and completions, what has been written is, in order, an initial part of the replies
    to the complete lines received; on a connection that was not lost it is all of them as soon as no request is being
    handled. *)
Theorem C27_replies_in_order :
  forall (T : Type) decode answer limit (evs : list cev) (c : conn T), c = crun decode answer limit evs ->
  starts_with (cout c) (replies decode answer limit [] (lines (received evs))) /\
  (lost evs = false -> (forall t, cst c <> Handling t) -> cout c = replies decode answer limit [] (lines (received evs))).
Proof. intros T decode answer limit evs c ->. split; [apply written_prefix|apply written_all]. Qed.
Print Assumptions C27_replies_in_order.

(** The answers depend only on the bytes received, not on how they were cut into chunks or on when the requests
    completed. *)
Theorem C27_chunking_is_irrelevant :
  forall (T : Type) decode answer limit (evs evs' : list cev) (c c' : conn T),
  c = crun decode answer limit evs -> c' = crun decode answer limit evs' -> received evs = received evs' ->
  lost evs = false -> lost evs' = false -> (forall t, cst c <> Handling t) -> (forall t, cst c' <> Handling t) ->
  cout c = cout c'.
Proof.
  intros T decode answer limit evs evs' c c' -> -> E L L' H H'. rewrite !written_all, E; auto.
Qed.
Print Assumptions C27_chunking_is_irrelevant.

(** Lines are what they should be: they are the received bytes, cut after each LF, without the unterminated rest. *)
Theorem C27_lines : forall bs : list N, exists rest, bs = concat (lines bs) ++ rest /\ ~ In 10%N rest /\ Forall is_line (lines bs).
Proof. exact lines_cut. Qed.
Print Assumptions C27_lines.

Example C27_ex :
  let c := sx_run [EFeed [65; 66]%N; EFeed [10; 5]%N; EDone; EFeed [10; 67; 10]%N; EFeed [68]%N; EDone; EEof] in
  let c' := sx_run [EFeed sx_text; EDone; EEof; EDone] in
  cout c = [[0; 65; 66; 10]; [6; 10]; [1; 67; 10]]%N /\ cout c' = cout c /\ cst c = Closed /\ cst c' = Closed.
Proof. vm_compute. repeat split. Qed.
Example C27_lines_ex : lines sx_text = [[65; 66; 10]; [5; 10]; [67; 10]]%N.
Proof. reflexivity. Qed.

(** ** C52: every complete line is answered *)

(** Full claim: when no request is being handled, on a connection that was not lost there are as many replies as complete
    lines.  False of the code: an exception other than ConnectionResetError ends the task that serves the connection. *)
Definition C52_every_line_answered : Prop :=
  forall (T : Type) decode answer limit (evs : list cev) (c : conn T), c = crun decode answer limit evs ->
  lost evs = false -> (forall t, cst c <> Handling t) -> List.length (cout c) = List.length (lines (received evs)).
(** A byte string that is not UTF-8 is never answered, and neither is anything sent after it. *)
Theorem C52_every_line_answered_refuted : ~ C52_every_line_answered.
Proof.
  intros H. specialize (H _ sx_decode sx_answer 8 [EFeed [65; 255; 10; 66; 10]%N] _ eq_refl eq_refl).
  vm_compute in H. assert (A : 0 = 2) by (apply H; intros t; discriminate). discriminate.
Qed.
Print Assumptions C52_every_line_answered_refuted.
(** It holds as long as no line is undecodable or longer than the reader's limit and no handling raises. *)
Theorem C52_every_line_answered_partial :
  forall (T : Type) decode answer limit (evs : list cev) (c : conn T), c = crun decode answer limit evs ->
  lost evs = false -> (forall t, cst c <> Handling t) -> harmless decode answer limit [] (lines (received evs)) ->
  List.length (cout c) = List.length (lines (received evs)).
Proof. intros T decode answer limit evs c ->. apply one_reply_per_line. Qed.
Print Assumptions C52_every_line_answered_partial.
(** A connection never waits for more bytes once the stream has ended, and while it waits nothing complete is unread. *)
Theorem C52_never_stuck :
  forall (T : Type) decode answer limit (evs : list cev) (c : conn T), c = crun decode answer limit evs ->
  match cst c with Reading _ => ended evs = false /\ lost evs = false /\ ~ In 10%N (cbuf c) /\ (List.length (cbuf c) <= limit)%nat | _ => True end.
Proof.
  intros T decode answer limit evs c ->. destruct (run_inv decode answer limit evs) as [_ I]. rewrite run_exc in I.
  destruct (cst _); auto. destruct I as (A & B & C & D & E & _). rewrite C in E. auto.
Qed.
Print Assumptions C52_never_stuck.
Example C52_ex :
  harmless sx_decode sx_answer 8 [] (lines (received [EFeed sx_text; EDone; EDone])) /\
  List.length (cout (sx_run [EFeed sx_text; EDone; EDone])) = 3 /\ cst (sx_run [EFeed sx_text; EDone; EDone]) = Reading 1.
Proof. vm_compute. repeat split; lia. Qed.
(** Lines that are too long kill the connection as well. *)
Example C52_ex_long : let c := sx_run [EFeed [65; 65; 65; 65; 65]%N; EFeed [65; 65; 65; 65; 65; 10; 66; 10]%N] in
  cst c = Died "ValueError" /\ cout c = [].
Proof. vm_compute. repeat split. Qed.

(** ** C53: datagrams *)

(** For every sequence of datagrams and completions: the datagrams that are requests (LF at the end, not an enquiry,
    decodable) are handled one at a time in order of arrival, each answer goes to the sender of its request, an exception
    in one costs only its own answer, and enquiries are answered at once. *)
Theorem C53_datagrams :
  forall (T A : Type) decode answer (evs : list (uev A)) (u : udp T A), u = urun decode answer evs ->
  exists done rest, requests decode evs = done ++ rest /\ uprev u = map fst done /\
    shuffle (enquiries evs) (answers answer [] done) (usent u) /\
    (uheld u = None -> rest = []).
Proof.
  intros T A decode answer evs u ->. destruct (udp_inv decode answer evs) as [done [R [P [S W]]]].
  exists done. eexists. split; [exact R|]. split; [exact P|]. split; [exact S|]. intros E. rewrite E, W; auto.
Qed.
Print Assumptions C53_datagrams.
(** Each completion makes progress: the oldest unanswered request is done. *)
Theorem C53_progress :
  forall (T A : Type) (decode : list N -> option T) answer (evs : list (uev A)) n, List.length (requests decode evs) = n ->
  let u := urun decode answer (evs ++ repeat UDone n) in
  uheld u = None /\ uprev u = map fst (requests decode evs) /\
  shuffle (enquiries evs) (answers answer [] (requests decode evs)) (usent u).
Proof. exact (@udp_progress). Qed.
Print Assumptions C53_progress.
(** No request goes without an answer in silence: each one handled is either answered or ends in an exception that is reported. *)
Theorem C53_answered_or_reported :
  forall (T A : Type) (decode : list N -> option T) answer (evs : list (uev A)), let u := urun decode answer evs in
  (ufailed u + List.length (usent u) = List.length (enquiries evs) + List.length (uprev u))%nat.
Proof. exact (@udp_failed). Qed.
Print Assumptions C53_answered_or_reported.
Example C53_ex :
  let evs := [UDatagram [65; 10]%N 1; UDatagram [33; 10]%N 2; UDatagram [6; 10]%N 3; UDatagram [66; 10]%N 4; UDatagram [67]%N 5; UDatagram [255; 10]%N 6] in
  requests sx_decode evs = [([65; 10]%N, 1); ([33; 10]%N, 2); ([66; 10]%N, 4)] /\
  usent (urun sx_decode sx_answer (evs ++ [UDone; UDone; UDone])) = [([6; 10]%N, 3); ([0; 65]%N, 1); ([2; 66]%N, 4)] /\
  ufailed (urun sx_decode sx_answer (evs ++ [UDone; UDone; UDone])) = 1%nat.
Proof. vm_compute. repeat split. Qed.

(** Full claim of the stream servers for datagrams: an ENQ line is answered by ACK.  False of the code, which tests for ACK
    where the stream server tests for ENQ. *)
Definition C53_enquiry_answered : Prop :=
  forall (T A : Type) decode answer (d : list N) (addr : A), ends_lf d = true -> begins 5%N d = true ->
  usent (urun (T := T) decode answer [UDatagram d addr]) = [([6; 10]%N, addr)].
Theorem C53_enquiry_answered_refuted : ~ C53_enquiry_answered.
Proof. intros H. specialize (H _ _ sx_decode sx_answer [5; 10]%N tt eq_refl eq_refl). vm_compute in H. discriminate. Qed.
Print Assumptions C53_enquiry_answered_refuted.
