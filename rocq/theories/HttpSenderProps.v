(** C126: the log shipper and the collector's answers. *)
From Coq Require Import Bool Lia List Arith Ascii ZArith String.
From Verif Require Import ShipperModel ShipperSpec ShipperProofs ShipperProofs2 ShipperProps HttpSenderModel HttpSenderSpec HttpSenderProofs.
Import ListNotations.
Local Open Scope list_scope.

(** At any time, with crashes, restarts and failing posts anywhere: the batches the collector acknowledged (with a status
    between 200 and 299) brought the first [n] lines written, in order and without a gap, and the position in the state store
    lies not after them. *)
Theorem C126_only_acknowledged_lines_are_passed : forall good strerror es, calmly good strerror cfresh es ->
  let c := crun good strerror cfresh es in
  exists bs n, acks (posts c) bs /\ brought (written (core c)) bs n /\
    forall i o, saved (core c) = Some (i, o) -> exists g, saved_file (core c) = Some g /\ i = ino (core c) g /\ g < nfiles (core c) /\
      List.length (lines_before (core c) g o) <= n.
Proof.
  intros good strerror es A c. destruct (saved_acked good strerror es A) as (n & B & S). exists (arrived (core c)), n.
  split; [apply (book_run good strerror es cfresh (book_fresh strerror))|]. split; [exact B|exact S].
Qed.
Print Assumptions C126_only_acknowledged_lines_are_passed.

(** Whatever the answers were, if the process was not killed, no line was acknowledged twice and none left out; and when the
    collector answers everything with 2xx, every line written is acknowledged: exactly once without kills, at least once with. *)
Theorem C126_every_line_is_acknowledged : forall good strerror es x k, calmly good strerror cfresh es -> acknowledged x -> 6 <= k ->
  let c := crun good strerror cfresh es in
  up (core c) -> Forall (fun l => good l = true) (written (core c)) ->
  exists bs, acks (posts (crun good strerror c (serving x k))) bs /\
    brought (written (core c)) bs (List.length (written (core c))) /\
    (~ In (Ev Kill) es -> List.concat bs = written (core c)).
Proof.
  intros good strerror es x k A X K c U G.
  exists (arrived (core (crun good strerror c (serving x k)))).
  split; [apply book_run; apply (book_run good strerror es cfresh (book_fresh strerror))|].
  rewrite core_run, (serving_quiet strerror x k X). unfold c in *. rewrite core_run in *. cbn [core cfresh] in *. apply calm_run in A. cbn [core cfresh] in A.
  split; [apply (C43_at_least_once_partial good _ A U G k K)|].
  intros N. destruct (C43_exactly_once_partial good _ A (clean_run strerror es N)) as (_ & E). apply (E U G k K).
Qed.
Print Assumptions C126_every_line_is_acknowledged.
Theorem C126_acknowledged_once : forall good strerror es, calmly good strerror cfresh es -> ~ In (Ev Kill) es ->
  let c := crun good strerror cfresh es in
  exists bs n, acks (posts c) bs /\ List.concat bs = firstn n (written (core c)).
Proof.
  intros good strerror es A N c. exists (arrived (core c)). unfold c.
  pose proof (k_acks _ _ (book_run good strerror es cfresh (book_fresh strerror))) as B. rewrite core_run in *. cbn [core cfresh] in *.
  apply calm_run in A. cbn [core cfresh] in A.
  destruct (C43_exactly_once_partial good _ A (clean_run strerror es N)) as ((n & E) & _). exists n. split; [exact B|exact E].
Qed.
Print Assumptions C126_acknowledged_once.

(** A batch that was not acknowledged is posted again, the same lines, and nothing else in between, unless the process is
    killed; in any history. *)
Theorem C126_retried : forall good strerror es, ~ In (Ev Kill) es ->
  forall p q b x b' x', posts (crun good strerror cfresh es) = p ++ (b, x) :: (b', x') :: q -> ~ acknowledged x -> b' = b.
Proof. intros good strerror es N. apply (hand_run good strerror es cfresh (proj1 (hand_fresh good)) (proj2 (hand_fresh good)) N). Qed.
Print Assumptions C126_retried.

(** In any history there is one complaint for each post that was not acknowledged, in order, with the collector's status and
    words or the reason why there are none. *)
Theorem C126_failures_are_told : forall good strerror es,
  tells strerror (posts (crun good strerror cfresh es)) (complaints (crun good strerror cfresh es)).
Proof. intros good strerror es. apply (book_run good strerror es cfresh (book_fresh strerror)). Qed.
Print Assumptions C126_failures_are_told.

(** Two lines; the posts fail in four ways before the fifth is acknowledged, and another line comes meanwhile. *)
Definition hs_strerror (z : Z) : string := if Z.eqb z 28 then "Timeout was reached"%string else "?"%string.
Definition hs_fail (h : bool) (r k : Z) (t : string) : list cevent := [Posted (mkTr h r k t); Ev Step].
Definition hs_ok : transfer := mkTr true 0 200 "{}"%string.
Definition hs_events : list cevent :=
  map Ev [Create 1; Boot; Step; Append [a_; newline]; Step; Step] ++
  hs_fail false 0 0 "" ++ hs_fail true 28 0 "" ++ [Ev (Append [b_; newline])] ++ hs_fail true 0 503 "full" ++ hs_fail true 0 300 "" ++
  [Posted (mkTr true 0 299 ""); Ev Step].
Example C126_example : calmly any_line hs_strerror cfresh hs_events /\ acknowledged hs_ok /\ ~ In (Ev Kill) hs_events /\
  up (core (crun any_line hs_strerror cfresh hs_events)) /\
  map fst (posts (crun any_line hs_strerror cfresh hs_events)) = [[[a_]]; [[a_]]; [[a_]]; [[a_]]; [[a_]]] /\
  complaints (crun any_line hs_strerror cfresh hs_events) =
    [(0%Z, "curl_easy_init failed"%string); (0%Z, "Timeout was reached"%string); (503%Z, "full"%string); (300%Z, ""%string)] /\
  saved (core (crun any_line hs_strerror cfresh hs_events)) = Some (1, 2) /\
  written (core (crun any_line hs_strerror cfresh hs_events)) = [[a_]; [b_]] /\
  map fst (posts (crun any_line hs_strerror cfresh (hs_events ++ serving hs_ok 2))) = [[[a_]]; [[a_]]; [[a_]]; [[a_]]; [[a_]]; [[b_]]].
Proof.
  split; [vm_compute; repeat split|]. split; [unfold acknowledged, hs_ok; cbn; lia|]. split; [cbn; intuition discriminate|].
  split; [vm_compute; discriminate|]. repeat split; vm_compute; reflexivity.
Qed.
