(** Properties C70 and C71: what an operator's requests do to the queues of an application. *)
From Coq Require Import List ZArith NArith Bool String Lia.
From Verif Require Import Base PQueueModel PQueueSpec PQueueProofs PendingModel PendingSpec PendingProofs HandlerModel SenderModel RouterModel
  ManageModel ManageSpec ManageProofs.
Import ListNotations.
Local Open Scope Z_scope.

(** *** An application to try it on *)
Definition ex_dto (_ : string) (d : N) : bool := (d <? 1000)%N.
Definition ex_true (d : N) : bool := negb (d =? 0)%N.
Definition ex_retries (_ : string) : Z := 2.
Definition ex_wait (_ : string) : bool := false.
Definition q_of (x : res (pqueue N N)) : pqueue N N := match x with Ok q => q | Raise _ => pq_open 2 [] [] end.
(** One request waits; of the errors 7 is an ordinary one, 8 has an empty object as its data and 9 is not what the endpoint takes any more. *)
Definition ex_calls : list (pcall N N) :=
  [PushPending 5 50 0 (Some 1); PushError 7 70 "Max retries reached." (Some 1); PushError 8 0 "Max retries reached." (Some 1);
   PushError 9 2000 "Max retries reached." (Some 1)]%N.
Definition ex_q : pqueue N N := q_of (psteps 0%N (pq_open 2 [] []) ex_calls).
Lemma ex_reach : preachable 0%N ex_q.
Proof. apply (psteps_reachable 0%N ex_calls (pq_open 2 [] [])); [apply preach_fresh|vm_compute; reflexivity]. Qed.
Lemma ex_usable : usable ex_q. Proof. split; vm_compute; discriminate. Qed.
Definition ex_world : world (D:=N) (M:=N) :=
  mkWorld [("orders"%string, setup ex_q); ("mail"%string, setup (pq_open 2 [] []))] [("orders"%string, s_setup ex_q); ("bills"%string, s_setup (pq_open 2 [] []))].
Lemma ex_started : started 0%N ex_world.
Proof.
  assert (X : preachable (D:=N) 0%N (pq_open 2 [] []) /\ usable (D:=N) (M:=N) (pq_open 2 [] [])) by (split; [apply preach_fresh|split; discriminate]).
  split; cbn [endpoints senders ex_world In]; intros r s [E|[E|[]]]; injection E as <- <-; eexists; (split; [reflexivity|]); auto using ex_reach, ex_usable.
Qed.
Definition ex_view (r p : bool) : view N N :=
  mkView r p [(5, mkP 5 0 50 1)]%N [(7, mkE 7 70 "Max retries reached." 1); (8, mkE 8 0 "Max retries reached." 1); (9, mkE 9 2000 "Max retries reached." 1)]%N.
Lemma ex_holds : holds ex_q (waiting (ex_view false false)) (errors (ex_view false false)).
Proof. exact (holds_contents ex_q (preachable_inv 0%N _ ex_reach) ex_usable). Qed.
Notation ex_run := (wrun 0%N ex_true ex_dto ex_dto ex_retries ex_retries ex_wait).
Notation ex_emanage := (emanage 0%N ex_true ex_dto ex_retries).
Notation ex_smanage := (smanage 0%N ex_true ex_dto ex_retries ex_wait).

(** ** C70: the queues of buffered endpoints *)
(** The full claim: after anything that happened in the application, a request about a buffered endpoint that is not shut down does to its queue what
    its name says, and the answer is the queue as it is then. *)
Definition C70_managed (what : eop -> Prop) : Prop :=
  forall (D M : Type) (no_meta : M) truthy edto sdto eretries sretries swait w0 evs r s (v : view D M) op,
  what op -> started no_meta w0 ->
  let w := wrun no_meta truthy edto sdto eretries sretries swait w0 evs in
  sget r (endpoints w) = Some s -> closed s = 0%nat -> endpoint_is s v ->
  let (es, a) := emanage no_meta truthy edto eretries (endpoints w) r op in
  (exists s', sget r es = Some s' /\ endpoint_is s' (fst (endpoint_should op v))) /\ a = endpoint_answer op r (endpoint_should op v).

(** False: not all of the first ten keys are listed (see C08), ... *)
Theorem C70_first10_refuted : ~ C70_managed (fun op => op = First10).
Proof.
  intros H. specialize (H N N 0%N ex_true ex_dto ex_dto ex_retries ex_retries ex_wait ex_world [ManageEndpoint "orders" (PopRequest 7)]%string "orders"%string
    (fst (ekeep 0%N ex_true ex_dto ex_retries "orders" (setup ex_q) (PopRequest 7))) (taken (ex_view false false) 7)%N First10 eq_refl ex_started eq_refl eq_refl).
  assert (V : endpoint_is (fst (ekeep 0%N ex_true ex_dto ex_retries "orders" (setup ex_q) (PopRequest 7))) (taken (ex_view false false) 7%N)).
  { pose proof (endpoint_managed 0%N ex_true ex_dto ex_dto ex_retries ex_retries ex_wait ex_world [] "orders"%string (setup ex_q) (ex_view false false) (PopRequest 7)%N ex_started
      eq_refl eq_refl (conj eq_refl (conj eq_refl ex_holds))) as X.
    cbn [wrun fold_left endpoints ex_world] in X. unfold emanage in X. cbn [sget String.eqb Ascii.eqb Bool.eqb] in X.
    destruct (ekeep 0%N ex_true ex_dto ex_retries "orders" (setup ex_q) (PopRequest 7)) as [s' x]. destruct X as [(s1 & A & B) _].
    cbn [sset sget String.eqb Ascii.eqb Bool.eqb] in A. injection A as <-. exact B. }
  specialize (H V). destruct (emanage _ _ _ _ _ _ _) as [es a] eqn:E in H. destruct H as [_ ->]. vm_compute in E. discriminate E.
Qed.
Print Assumptions C70_first10_refuted.

(** ... reprocessing ends a pause (see C19), ... *)
Theorem C70_reprocess_all_refuted : ~ C70_managed (fun op => op = ReprocessAll).
Proof.
  intros H. specialize (H N N 0%N ex_true ex_dto ex_dto ex_retries ex_retries ex_wait ex_world [ManageEndpoint "orders" PauseProcessing]%string "orders"%string
    (set_proc (setup ex_q) true) (ex_view false true) ReprocessAll eq_refl ex_started eq_refl eq_refl (conj eq_refl (conj eq_refl ex_holds))).
  destruct (emanage _ _ _ _ _ _ _) as [es a] eqn:E in H. destruct H as [_ ->]. vm_compute in E. discriminate E.
Qed.
Print Assumptions C70_reprocess_all_refuted.

(** ... a request whose data is an empty object is "not there" although it is taken out (see C12), and one that is no longer a valid DTO is taken out
    and the answer is an error: either way its contents are lost. *)
Theorem C70_pop_request_refuted : ~ C70_managed (fun op => exists k, op = PopRequest k).
Proof.
  intros H. specialize (H N N 0%N ex_true ex_dto ex_dto ex_retries ex_retries ex_wait ex_world [] "orders"%string
    (setup ex_q) (ex_view false false) (PopRequest 8) (ex_intro _ 8%N eq_refl) ex_started eq_refl eq_refl (conj eq_refl (conj eq_refl ex_holds))).
  destruct (emanage _ _ _ _ _ _ _) as [es a] eqn:E in H. destruct H as [_ ->]. vm_compute in E. discriminate E.
Qed.
Print Assumptions C70_pop_request_refuted.
Example C70_lost_by_pop : let (es, a) := ex_emanage (endpoints ex_world) "orders" (PopRequest 9) in
  a = Failed "ValidationError" /\ option_map (fun s => map fst (contents (errq (hq s)))) (sget "orders"%string es) = Some [7; 8]%N.
Proof. vm_compute. auto. Qed.

(** What holds. The queue is always what it should be, except that reprocessing ends a pause of the processing. *)
Theorem C70_queue_partial :
  forall (D M : Type) (no_meta : M) truthy edto sdto eretries sretries swait w0 evs r s (v : view D M) op, started no_meta w0 ->
  let w := wrun no_meta truthy edto sdto eretries sretries swait w0 evs in
  sget r (endpoints w) = Some s -> closed s = 0%nat -> endpoint_is s v ->
  exists s', sget r (fst (emanage no_meta truthy edto eretries (endpoints w) r op)) = Some s' /\
    (~ reprocesses op -> endpoint_is s' (fst (endpoint_should op v))) /\ (reprocesses op -> endpoint_is s' (unpaused (fst (endpoint_should op v)))).
Proof.
  intros D M no_meta truthy edto sdto eretries sretries swait w0 evs r s v op S w E C V.
  pose proof (endpoint_managed no_meta truthy edto sdto eretries sretries swait w0 evs r s v op S E C V) as X. fold w in X.
  destruct (emanage _ _ _ _ _ _ _) as [es a]. destruct X as [(s' & A & B) _]. exists s'. split; [exact A|]. unfold endpoint_does in B.
  destruct op; cbn [reprocesses]; (split; [intros N|intros N]); try exact B; try contradiction; elim N; exact I.
Qed.
Print Assumptions C70_queue_partial.

(** The answer is right, unless it lists keys, reprocesses while the processing is paused, or is about an entry whose data is empty or not valid any more. *)
Theorem C70_answer_partial :
  forall (D M : Type) (no_meta : M) truthy edto sdto eretries sretries swait w0 evs r s (v : view D M) op, started no_meta w0 ->
  let w := wrun no_meta truthy edto sdto eretries sretries swait w0 evs in
  sget r (endpoints w) = Some s -> closed s = 0%nat -> endpoint_is s v ->
  op <> First10 -> (reprocesses op -> processing_paused v = false) ->
  (forall k e, about op = Some k -> lookup k (errors v) = Some e -> truthy (ee_data e) = true /\ edto r (ee_data e) = true) ->
  snd (emanage no_meta truthy edto eretries (endpoints w) r op) = endpoint_answer op r (endpoint_should op v).
Proof.
  intros D M no_meta truthy edto sdto eretries sretries swait w0 evs r s v op S w E C V P Q R.
  pose proof (endpoint_managed no_meta truthy edto sdto eretries sretries swait w0 evs r s v op S E C V) as X. fold w in X.
  destruct (emanage _ _ _ _ _ _ _) as [es a]. apply X. now split.
Qed.
Print Assumptions C70_answer_partial.

(** A list of keys is the beginning of the list of errors, of at most ten. *)
Theorem C70_first10_partial :
  forall (D M : Type) (no_meta : M) truthy edto sdto eretries sretries swait w0 evs r s (v : view D M), started no_meta w0 ->
  let w := wrun no_meta truthy edto sdto eretries sretries swait w0 evs in
  sget r (endpoints w) = Some s -> closed s = 0%nat -> endpoint_is s v ->
  exists m, (m <= 10)%nat /\ snd (emanage no_meta truthy edto eretries (endpoints w) r First10) =
    answer_of NoData (TheKeys (map fst (firstn m (errors v)))) (endpoint_message (D:=D) First10 r TheState).
Proof.
  intros D M no_meta truthy edto sdto eretries sretries swait w0 evs r s v S w E C V.
  destruct (endpoint_first10 no_meta truthy edto sdto eretries sretries swait w0 evs r s v S E C V) as (m & L & X). exists m. split; [exact L|]. fold w in X. now rewrite X.
Qed.
Print Assumptions C70_first10_partial.

(** A request is about the endpoint it names: it leaves every other one, and every sender, as they are; if it names none it changes nothing and says so. *)
Theorem C70_only_the_named :
  forall (D M : Type) (no_meta : M) truthy edto sdto eretries sretries swait (w : world (D:=D) (M:=M)) r op,
  let w' := wstep no_meta truthy edto sdto eretries sretries swait w (ManageEndpoint r op) in
  senders w' = senders w /\ (forall r', r' <> r -> sget r' (endpoints w') = sget r' (endpoints w)) /\
  (sget r (endpoints w) = None -> w' = w /\
     snd (emanage no_meta truthy edto eretries (endpoints w) r op) = Answer NoData None ("No queue for route key: [" ++ r ++ "]")%string).
Proof.
  intros D M no_meta truthy edto sdto eretries sretries swait w r op w'. split; [reflexivity|]. split.
  - intros r' N. unfold w'. cbn [wstep endpoints]. now apply endpoint_only.
  - intros E. unfold w'. cbn [wstep]. unfold emanage. rewrite E. destruct w. split; reflexivity.
Qed.
Print Assumptions C70_only_the_named.

(** A state with which the hypotheses are met: the processing was paused and unpaused, a request arrived and one was popped. *)
Example C70_example : let w := ex_run ex_world [ManageEndpoint "orders" PauseProcessing; AtEndpoint "orders" (ERequest 6 60)%N; ManageEndpoint "orders" (PopRequest 7%N);
    ManageSender "orders" SClear]%string in
  snd (ex_emanage (endpoints w) "orders" Data) = Answer (EndpointInfo (mkInfo "orders" false true 1 2)) None "Buffered Endpoint[orders]: Data retrieved." /\
  snd (ex_emanage (endpoints w) "mail" (InspectRequest 7)) =
    Answer NoData None "No request with span-key [00000000-0000-0000-0000-000000000000:0000000000000007] in error queue for route key: [mail]" /\
  snd (ex_emanage (endpoints w) "bills" Clear) = Answer NoData None "No queue for route key: [bills]" /\
  option_map (closed (D:=N) (M:=N)) (sget "orders"%string (endpoints w)) = Some 0%nat.
Proof. vm_compute. repeat split. Qed.

(** ** C71: the queues of buffered senders *)
Definition C71_managed (what : sop -> Prop) : Prop :=
  forall (D M : Type) (no_meta : M) truthy edto sdto eretries sretries swait w0 evs r s (v : view D M) op,
  what op -> started no_meta w0 ->
  let w := wrun no_meta truthy edto sdto eretries sretries swait w0 evs in
  sget r (senders w) = Some s -> sclosed s = 0%nat -> sender_is s v ->
  let (ss, a) := smanage no_meta truthy sdto sretries swait (senders w) r op in
  (exists s', sget r ss = Some s' /\ sender_is s' (fst (sender_should op v))) /\ a = sender_answer op r (sender_should op v).

Theorem C71_reprocess_all_refuted : ~ C71_managed (fun op => op = SReprocessAll_).
Proof.
  intros H. specialize (H N N 0%N ex_true ex_dto ex_dto ex_retries ex_retries ex_wait ex_world [ManageSender "orders" SPauseSending]%string "orders"%string
    (set_spaused (s_setup ex_q) true) (ex_view false true) SReprocessAll_ eq_refl ex_started eq_refl eq_refl (conj eq_refl ex_holds)).
  destruct (smanage _ _ _ _ _ _ _ _) as [es a] eqn:E in H. destruct H as [_ ->]. vm_compute in E. discriminate E.
Qed.
Print Assumptions C71_reprocess_all_refuted.
Theorem C71_pop_request_refuted : ~ C71_managed (fun op => exists k, op = SPopRequest k).
Proof.
  intros H. specialize (H N N 0%N ex_true ex_dto ex_dto ex_retries ex_retries ex_wait ex_world [] "orders"%string
    (s_setup ex_q) (ex_view false false) (SPopRequest 8) (ex_intro _ 8%N eq_refl) ex_started eq_refl eq_refl (conj eq_refl ex_holds)).
  destruct (smanage _ _ _ _ _ _ _ _) as [es a] eqn:E in H. destruct H as [_ ->]. vm_compute in E. discriminate E.
Qed.
Print Assumptions C71_pop_request_refuted.
Theorem C71_first10_refuted : ~ C71_managed (fun op => op = SFirst10).
Proof.
  intros H. specialize (H N N 0%N ex_true ex_dto ex_dto ex_retries ex_retries ex_wait ex_world [ManageSender "orders" (SPopRequest 7)]%string "orders"%string
    (fst (skeep 0%N ex_true ex_dto ex_retries ex_wait "orders" (s_setup ex_q) (SPopRequest 7))) (taken (ex_view false false) 7)%N SFirst10 eq_refl ex_started eq_refl eq_refl).
  assert (V : sender_is (fst (skeep 0%N ex_true ex_dto ex_retries ex_wait "orders" (s_setup ex_q) (SPopRequest 7))) (taken (ex_view false false) 7%N)).
  { pose proof (sender_managed 0%N ex_true ex_dto ex_dto ex_retries ex_retries ex_wait ex_world [] "orders"%string (s_setup ex_q) (ex_view false false) (SPopRequest 7)%N ex_started
      eq_refl eq_refl (conj eq_refl ex_holds)) as X.
    cbn [wrun fold_left senders ex_world] in X. unfold smanage in X. cbn [sget String.eqb Ascii.eqb Bool.eqb] in X.
    destruct (skeep 0%N ex_true ex_dto ex_retries ex_wait "orders" (s_setup ex_q) (SPopRequest 7)) as [s' x]. destruct X as [(s1 & A & B) _].
    cbn [sset sget String.eqb Ascii.eqb Bool.eqb] in A. injection A as <-. exact B. }
  specialize (H V). destruct (smanage _ _ _ _ _ _ _ _) as [es a] eqn:E in H. destruct H as [_ ->]. vm_compute in E. discriminate E.
Qed.
Print Assumptions C71_first10_refuted.

Theorem C71_queue_partial :
  forall (D M : Type) (no_meta : M) truthy edto sdto eretries sretries swait w0 evs r s (v : view D M) op, started no_meta w0 ->
  let w := wrun no_meta truthy edto sdto eretries sretries swait w0 evs in
  sget r (senders w) = Some s -> sclosed s = 0%nat -> sender_is s v ->
  exists s', sget r (fst (smanage no_meta truthy sdto sretries swait (senders w) r op)) = Some s' /\
    (~ s_reprocesses op -> sender_is s' (fst (sender_should op v))) /\ (s_reprocesses op -> sender_is s' (unpaused (fst (sender_should op v)))).
Proof.
  intros D M no_meta truthy edto sdto eretries sretries swait w0 evs r s v op S w E C V.
  pose proof (sender_managed no_meta truthy edto sdto eretries sretries swait w0 evs r s v op S E C V) as X. fold w in X.
  destruct (smanage _ _ _ _ _ _ _ _) as [es a]. destruct X as [(s' & A & B) _]. exists s'. split; [exact A|]. unfold sender_does in B.
  destruct op; cbn [s_reprocesses]; (split; [intros N|intros N]); try exact B; try contradiction; elim N; exact I.
Qed.
Print Assumptions C71_queue_partial.
Theorem C71_answer_partial :
  forall (D M : Type) (no_meta : M) truthy edto sdto eretries sretries swait w0 evs r s (v : view D M) op, started no_meta w0 ->
  let w := wrun no_meta truthy edto sdto eretries sretries swait w0 evs in
  sget r (senders w) = Some s -> sclosed s = 0%nat -> sender_is s v ->
  op <> SFirst10 -> (s_reprocesses op -> processing_paused v = false) ->
  (forall k e, s_about op = Some k -> lookup k (errors v) = Some e -> truthy (ee_data e) = true /\ sdto r (ee_data e) = true) ->
  snd (smanage no_meta truthy sdto sretries swait (senders w) r op) = sender_answer op r (sender_should op v).
Proof.
  intros D M no_meta truthy edto sdto eretries sretries swait w0 evs r s v op S w E C V P Q R.
  pose proof (sender_managed no_meta truthy edto sdto eretries sretries swait w0 evs r s v op S E C V) as X. fold w in X.
  destruct (smanage _ _ _ _ _ _ _ _) as [es a]. apply X. now split.
Qed.
Print Assumptions C71_answer_partial.
Theorem C71_first10_partial :
  forall (D M : Type) (no_meta : M) truthy edto sdto eretries sretries swait w0 evs r s (v : view D M), started no_meta w0 ->
  let w := wrun no_meta truthy edto sdto eretries sretries swait w0 evs in
  sget r (senders w) = Some s -> sclosed s = 0%nat -> sender_is s v ->
  exists m, (m <= 10)%nat /\ snd (smanage no_meta truthy sdto sretries swait (senders w) r SFirst10) =
    answer_of NoData (TheKeys (map fst (firstn m (errors v)))) (sender_message (D:=D) SFirst10 r TheState).
Proof.
  intros D M no_meta truthy edto sdto eretries sretries swait w0 evs r s v S w E C V.
  destruct (sender_first10 no_meta truthy edto sdto eretries sretries swait w0 evs r s v S E C V) as (m & L & X). exists m. split; [exact L|]. fold w in X. now rewrite X.
Qed.
Print Assumptions C71_first10_partial.
Theorem C71_only_the_named :
  forall (D M : Type) (no_meta : M) truthy edto sdto eretries sretries swait (w : world (D:=D) (M:=M)) r op,
  let w' := wstep no_meta truthy edto sdto eretries sretries swait w (ManageSender r op) in
  endpoints w' = endpoints w /\ (forall r', r' <> r -> sget r' (senders w') = sget r' (senders w)) /\
  (sget r (senders w) = None -> w' = w /\
     snd (smanage no_meta truthy sdto sretries swait (senders w) r op) = Answer NoData None ("No buffered sender with route key: [" ++ r ++ "]")%string).
Proof.
  intros D M no_meta truthy edto sdto eretries sretries swait w r op w'. split; [reflexivity|]. split.
  - intros r' N. unfold w'. cbn [wstep senders]. now apply sender_only.
  - intros E. unfold w'. cbn [wstep]. unfold smanage. rewrite E. destruct w. split; reflexivity.
Qed.
Print Assumptions C71_only_the_named.

Example C71_example : let w := ex_run ex_world [ManageSender "orders" SPauseSending; AtSender "orders" (SEnqueue 6 60)%N; ManageSender "orders" (SPopRequest 7%N);
    ManageEndpoint "orders" Clear]%string in
  snd (ex_smanage (senders w) "orders" SData) = Answer (SenderInfo (mkSInfo "orders" true 2 2)) None "Buffered Sender[orders]: Data retrieved." /\
  snd (ex_smanage (senders w) "mail" SClear) = Answer NoData None "No buffered sender with route key: [mail]" /\
  option_map (sclosed (D:=N) (M:=N)) (sget "orders"%string (senders w)) = Some 0%nat.
Proof. vm_compute. auto. Qed.

(** Every queue that is not shut down has a view, so the hypotheses are always met. *)
Theorem C70_endpoint_has_a_view :
  forall (D M : Type) (no_meta : M) truthy edto sdto eretries sretries swait w0 evs r (s : hstate D M), started no_meta w0 ->
  sget r (endpoints (wrun no_meta truthy edto sdto eretries sretries swait w0 evs)) = Some s -> closed s = 0%nat -> exists v, endpoint_is s v.
Proof. exact (@endpoint_viewed). Qed.
Print Assumptions C70_endpoint_has_a_view.
Theorem C71_sender_has_a_view :
  forall (D M : Type) (no_meta : M) truthy edto sdto eretries sretries swait w0 evs r (s : sstate D M), started no_meta w0 ->
  sget r (senders (wrun no_meta truthy edto sdto eretries sretries swait w0 evs)) = Some s -> sclosed s = 0%nat -> exists v, sender_is s v.
Proof. exact (@sender_viewed). Qed.
Print Assumptions C71_sender_has_a_view.
