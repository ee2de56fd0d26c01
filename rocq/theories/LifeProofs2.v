From Coq Require Import List ZArith NArith Bool String Permutation Lia.
From Verif Require Import Base PQueueModel PQueueSpec PQueueProofs PQueueProofs2 LifeModel LifeSpec LifeProofs.
Import ListNotations.
Local Open Scope Z_scope.

Section Proofs.
Context {V : Type}.
Notation app := (app V). Notation ev := (ev V). Notation out := (LifeModel.out V).
Implicit Types (a : app) (o : list out) (files : list (Z * table V * table V)) (x : ev) (evs all : list ev).

(** ** Exit *)
Definition report (cause : option string) : list out :=
  match cause with
  | Some e => if String.eqb e signal_exn || String.eqb e "CancelledError" then [] else [OTrace e]
  | None => []
  end.
Lemma exit_eq a cause sg : exit a cause sg =
  (set_now (fst (perform a sg (plan a))) (Exited (snd (perform a sg (plan a)))),
   (report cause ++ match snd (perform a sg (plan a)) with Some e => [OTrace e; OExit 1] | None => [OExit 0] end)%list).
Proof. unfold exit, report. now destruct (perform a sg (plan a)). Qed.
Lemma report_calls i w cause : calls i w (report cause) = [].
Proof. unfold report. destruct cause as [e|]; [|auto]. now destruct (_ || _). Qed.
Lemma exit_calls i w a cause sg : calls i w (snd (exit a cause sg)) = [].
Proof.
  rewrite exit_eq. cbn [snd]. rewrite calls_app, report_calls. now destruct (snd (perform a sg (plan a))).
Qed.
Lemma kept_more f i o o2 c : calls i Pending o2 = [] -> calls i Errors o2 = [] -> kept f i o c -> kept f i (o ++ o2) c.
Proof. unfold kept. intros A B H. now rewrite !calls_app, A, B, !app_nil_r. Qed.

Lemma work_outs a i w c z : ~ In (OExit z) (snd (work a i w c)) /\ now (fst (work a i w c)) = now a.
Proof.
  unfold work, with_comp. destruct (nth_error (comps a) i) as [x|]; [|cbn; auto]. destruct (queue_of x w); [cbn; auto|].
  destruct (step q c) as [[q' r]|]; cbn; [|auto]. split; [|auto]. intros [H|[]]. discriminate.
Qed.
Lemma server_event_outs a i b f : snd (server_event a i b f) = [].
Proof. unfold server_event. destruct (nth_error (servers a) i) as [s|]; [|auto]. now destruct (task s), b. Qed.
(** The exit status is given when [__exit__] has ended, and only then. *)
Lemma step_status a x z : In (OExit z) (snd (lstep a x)) ->
  exists e, now (fst (lstep a x)) = Exited e /\ (e = None <-> z = 0).
Proof.
  unfold lstep. destruct (now a) as [|k| | |cause|r] eqn:NW; try (destruct x; cbn; contradiction).
  - destruct x; try (cbn; contradiction). unfold with_comp. destruct (nth_error (comps a) k) as [c|]; [|cbn; contradiction].
    destruct (setup c o) as [c' [e|]]; cbn; contradiction.
  - destruct x as [| |e|oc| |e|i|i|i e|e|i w c|w|sg]; rewrite ?server_event_outs; try (cbn; contradiction).
    + intros H. exfalso. eapply work_outs; eauto.
    + destruct w; cbn [on_signal]; rewrite ?server_event_outs; try (cbn; contradiction); [cbn; intros [H|[]]; discriminate|].
      pose proof (work_outs a i Errors (Push k v) z) as [W _]. destruct (work a i Errors (Push k v)) as [a2 o2]. cbn [snd] in *.
      intros H. apply in_app_or in H as [H|H]; [contradiction|]. destruct o2; [destruct H|]. destruct H as [H|[]]. discriminate.
  - destruct x as [| |e|oc| |e|i|i|i e|e|i w c|w|sg]; rewrite ?server_event_outs; try (cbn; contradiction).
    + intros H. exfalso. eapply work_outs; eauto.
    + destruct w; cbn [on_signal]; rewrite ?server_event_outs; try (cbn; contradiction); [cbn; intros [H|[]]; discriminate|].
      pose proof (work_outs a i Errors (Push k v) z) as [W _]. destruct (work a i Errors (Push k v)) as [a2 o2]. cbn [snd] in *.
      intros H. apply in_app_or in H as [H|H]; [contradiction|]. destruct o2; [destruct H|]. destruct H as [H|[]]. discriminate.
  - destruct x; try (cbn; contradiction). rewrite exit_eq. cbn [fst snd now set_now]. intros H.
    apply in_app_or in H as [H|H].
    + exfalso. unfold report in H. destruct cause as [e|]; [|destruct H]. destruct (_ || _); [destruct H|]. destruct H as [H|[]]. discriminate.
    + eexists. split; [reflexivity|]. destruct (snd (perform a signal (plan a))) as [e|].
      * destruct H as [H|[H|[]]]; [discriminate|]. injection H as <-. split; discriminate.
      * destruct H as [H|[]]. injection H as <-. tauto.
Qed.
Lemma exited_stays : forall evs a e, now a = Exited e -> lrun a evs = (a, []).
Proof.
  induction evs as [|x evs IH]; intros a e E; [auto|]. cbn [lrun]. assert (lstep a x = (a, [])) as -> by (unfold lstep; now rewrite E).
  now rewrite (IH a e E).
Qed.
Lemma run_status : forall evs a z, In (OExit z) (snd (lrun a evs)) -> exists e, now (fst (lrun a evs)) = Exited e /\ (e = None <-> z = 0).
Proof.
  induction evs as [|x evs IH]; intros a z H; [destruct H|]. cbn [lrun] in *. pose proof (step_status a x z) as S.
  destruct (lstep a x) as [a1 o1]. specialize (IH a1 z). destruct (lrun a1 evs) as [a2 o2] eqn:R. cbn [fst snd] in *.
  apply in_app_or in H as [H|H]; [|auto]. destruct (S H) as [e [A B]]. rewrite (exited_stays evs a1 e A) in R. injection R as <- _. eauto.
Qed.

(** ** The end of a run *)
Section Run.
Variables (files : list (Z * table V * table V)) (ts : list transport).
Hypothesis usable : usable_files files.

Lemma reach_linv evs a o : lrun (new_app files ts) evs = (a, o) -> linv files evs (~ never_interrupted (new_app files ts) evs) a o.
Proof.
  intros E. apply (run_linv files evs _ usable evs (new_app files ts) [] a o); auto.
  - apply new_linv.
  - intros x X. exact X.
  - intros pre x post X I N. eapply N; eauto.
Qed.

Definition good_server (s : server) : Prop := running s = true -> is_stream (kind s) = true -> handle s = true.
Lemma good_or_stuck (l : list server) : Forall good_server l \/ Exists stuck l.
Proof.
  induction l as [|s l [IH|IH]]; auto.
  assert (good_server s \/ stuck s) as [G|G]; [|left; constructor; auto|right; now left].
  unfold good_server, stuck. destruct (running s), (is_stream (kind s)), (handle s); auto; left; discriminate.
Qed.
Lemma quiet_good (intr : Prop) a c : ~ intr -> now a = Ended c -> servers_ok intr a -> Forall good_server (servers a).
Proof.
  intros N E [S T]. rewrite E in T. apply Forall_forall. intros s I. pose proof (proj1 (Forall_forall _ _) S s I) as A.
  pose proof (proj1 (Forall_forall _ _) T s I) as B. cbn beta in B. unfold sinv in A. intros R K.
  destruct B as [B|B]; rewrite B in A; [destruct A; congruence|]. destruct A as [_ A]. destruct (A R) as [_ [_ X]]. contradiction.
Qed.

Lemma ready_is f i o (c : comp V) : ready f i o c -> has_future c = true -> is_ready c = true.
Proof. intros [_ [qp [qe [A [B _]]]]] H. unfold is_ready. now rewrite A, B. Qed.

(** Everything up to the failing set-up is shut down, the rest is as it was. *)
Lemma stopped_kept all k a o : stopped files all k a o -> (forall e, ~ In (ESetup (RaisesAt BetweenFiles e)) all) ->
  forall i f, nth_error files i = Some f -> exists c, nth_error (fst (shut_list (comps a))) i = Some c /\ kept f i o c.
Proof.
  intros [L S] NH i f FE.
  destruct (nth_error (comps a) i) as [c|] eqn:CE.
  2:{ apply nth_error_None in CE. assert (i < List.length files)%nat by (apply nth_error_Some; congruence). lia. }
  assert (P : forall j d, (j < k)%nat -> nth_error (comps a) j = Some d -> is_ready d = true).
  { intros j d J D. destruct (nth_error files j) as [g|] eqn:G.
    - destruct (S j g d G D) as [X _]. destruct (X J). eapply ready_is; eauto.
    - apply nth_error_None in G. assert (j < List.length (comps a))%nat by (apply nth_error_Some; congruence). lia. }
  destruct (S i f c FE CE) as [A [B C]]. destruct (lt_eq_lt_dec i k) as [[X|X]|X].
  - exists (shut_comp c). split; [apply shut_list_nth; auto; intros j d J D; apply (P j d); [lia|exact D]|].
    eapply ready_kept; eauto. now apply A.
  - exists (shut_comp c). split; [apply shut_list_nth; auto; intros j d J D; apply (P j d); [lia|exact D]|].
    destruct (C X) as [Y|[Y|Y]].
    + destruct (untouched_kept files usable f i o c FE Y) as [Z ->]. exact Z.
    + eapply ready_kept; eauto.
    + destruct Y as [[e E] _]. destruct (NH e E).
  - destruct (untouched_kept files usable f i o c FE (B X)) as [Y Z].
    destruct (shut_list_cases _ _ _ CE) as [W|W]; [rewrite Z in W|]; eauto.
Qed.
Lemma all_ready_none all a o : stopped files all (List.length files) a o -> snd (shut_list (comps a)) = None.
Proof.
  intros [L S]. assert (F : forall i c, nth_error (comps a) i = Some c -> is_ready c = true).
  { intros i c CE. destruct (nth_error files i) as [f|] eqn:FE.
    - destruct (S i f c FE CE) as [A _]. destruct A; [apply nth_error_Some; congruence|]. eapply ready_is; eauto.
    - apply nth_error_None in FE. assert (i < List.length (comps a))%nat by (apply nth_error_Some; congruence). lia. }
  clear S L. revert F. induction (comps a) as [|c cs IH]; intros F; [auto|]. cbn [shut_list]. rewrite (F 0%nat c eq_refl).
  assert (IHr : snd (shut_list cs) = None) by (apply IH; intros i d D; now apply (F (S i) d)). now destruct (shut_list cs).
Qed.
Lemma none_all_kept all k a o : stopped files all k a o -> snd (shut_list (comps a)) = None ->
  forall i f, nth_error files i = Some f -> exists c, nth_error (fst (shut_list (comps a))) i = Some c /\ kept f i o c.
Proof.
  intros [L S] N i f FE. destruct (shut_list_none _ N) as [E R]. rewrite E, nth_error_map.
  destruct (nth_error (comps a) i) as [c|] eqn:CE.
  2:{ apply nth_error_None in CE. assert (i < List.length files)%nat by (apply nth_error_Some; congruence). lia. }
  cbn [option_map]. exists (shut_comp c). split; [auto|].
  assert (RC : is_ready c = true) by (eapply forallb_forall in R; eauto using nth_error_In).
  destruct (S i f c FE CE) as [A [B C]].
  assert (NU : ~ untouched f i o c). { intros [_ [U _]]. unfold is_ready in RC. rewrite U in RC. discriminate. }
  assert (NHf : ~ half all f i o c). { intros [_ [_ [[t U] _]]]. unfold is_ready in RC. rewrite U in RC. discriminate. }
  destruct (lt_eq_lt_dec i k) as [[X|X]|X]; [|destruct (C X) as [Y|[Y|Y]]; [tauto| |tauto]|destruct NU; auto];
    eapply ready_kept; eauto. now apply A.
Qed.

(** Shut-downs. *)
Lemma exit_clean intr all a o c sg : now a = Ended c -> ends files all a o -> servers_ok intr a ->
  snd (perform a sg (plan a)) = None ->
  flushed (fst (exit a c sg)) = true /\
  forall i f, nth_error files i = Some f -> exists d, nth_error (comps (fst (exit a c sg))) i = Some d /\ kept f i (o ++ snd (exit a c sg)) d.
Proof.
  intros N [k [S _]] SO P. destruct (perform a sg (plan a)) as [a' e] eqn:PE. cbn [snd] in P. subst e.
  pose proof (perform_signal _ _ _ _ PE) as PN. pose proof (stopped_fine files all k a o S) as FI.
  destruct (good_or_stuck (servers a)) as [G|G].
  2:{ destruct (plan_stuck a None G) as [a2 [e [A _]]]. congruence. }
  destruct (plan_ok a FI G) as [a2 [A [B C]]]. rewrite PN in A. injection A as <- E. symmetry in E.
  rewrite exit_eq, PE. cbn [fst snd set_now flushed comps]. split; [auto|].
  intros i f FE. rewrite B. destruct (none_all_kept all k a o S E i f FE) as [d [D K]]. exists d. split; [auto|].
  apply kept_more; auto; rewrite calls_app, report_calls; reflexivity.
Qed.
Lemma exit_quiet intr all a o c : now a = Ended c -> ends files all a o -> servers_ok intr a -> Forall good_server (servers a) ->
  (forall e, ~ In (ESetup (RaisesAt BetweenFiles e)) all) ->
  forall i f, nth_error files i = Some f -> exists d, nth_error (comps (fst (exit a c None))) i = Some d /\ kept f i (o ++ snd (exit a c None)) d.
Proof.
  intros N [k [S _]] SO G NH i f FE. pose proof (stopped_fine files all k a o S) as FI.
  destruct (plan_ok a FI G) as [a2 [A [B C]]]. rewrite exit_eq, A. cbn [fst snd set_now flushed comps]. rewrite B.
  destruct (stopped_kept all k a o S NH i f FE) as [d [D K]]. exists d. split; [auto|].
  apply kept_more; auto; rewrite calls_app, report_calls; destruct (snd (shut_list (comps a))); reflexivity.
Qed.
Lemma exit_zero all a o c : now a = Ended c -> stopped files all (List.length files) a o -> Forall good_server (servers a) ->
  snd (perform a None (plan a)) = None.
Proof.
  intros N S G. pose proof (stopped_fine files all _ a o S) as FI. destruct (plan_ok a FI G) as [a2 [A _]]. rewrite A. cbn [snd].
  eapply all_ready_none; eauto.
Qed.

(** Sockets. *)
Lemma act_listening (x : action) a : Forall (fun s => listening s = false) (servers a) -> Forall (fun s => listening s = false) (servers (fst (act a x))).
Proof.
  intros F. destruct x; cbn [act].
  - destruct (nth_error (servers a) i) as [s|] eqn:S; [|auto]. assert (listening s = false) by (eapply Forall_forall in F; eauto using nth_error_In).
    unfold sv_stop. destruct (running s); [destruct (is_stream (kind s)); [destruct (handle s)|]|]; cbn; apply Forall_set_nth; auto.
  - destruct (nth_error (comps a) i); [|auto]. unfold close. destruct (queue_of _ _); [auto|]. destruct (q_shut_down q); auto.
  - destruct (nth_error (comps a) i); [|auto]. unfold close. destruct (queue_of _ _); [auto|]. destruct (q_shut_down q); auto.
  - destruct (nth_error (comps a) i); auto.
  - auto.
Qed.
Lemma perform_listening : forall (xs : list action) sg a, Forall (fun s => listening s = false) (servers a) ->
  Forall (fun s => listening s = false) (servers (fst (perform a sg xs))).
Proof.
  induction xs as [|x xs IH]; intros sg a F; [auto|]. cbn [perform]. pose proof (act_listening x a F) as G.
  destruct sg as [[|n]|]; [auto| |]; destruct (act a x) as [a' [e|]]; cbn [fst] in *; auto; now apply IH.
Qed.
Lemma ended_listening intr a c : now a = Ended c -> servers_ok intr a -> Forall (fun s => listening s = false) (servers a).
Proof.
  intros E [S T]. rewrite E in T. apply Forall_forall. intros s I. pose proof (proj1 (Forall_forall _ _) S s I) as A.
  pose proof (proj1 (Forall_forall _ _) T s I) as B. cbn beta in B. unfold sinv in A. destruct B as [B|B]; rewrite B in A; tauto.
Qed.
Lemma over_listening evs a o : lrun (new_app files ts) evs = (a, o) -> ended a = true -> Forall (fun s => listening s = false) (servers a).
Proof.
  intros E N. pose proof (reach_linv evs a o E) as I. unfold linv in I. unfold ended in N.
  destruct (now a) as [| | | |c|c] eqn:NW; try discriminate.
  - destruct I as [_ S]. eapply ended_listening; eauto.
  - destruct I as [a1 [o1 [cause [sg [o2 [A [B [C [D [X Y]]]]]]]]]]. rewrite exit_eq in X. injection X as <- _. cbn [servers set_now].
    apply perform_listening. eapply ended_listening; eauto.
Qed.

(** ** A run that is over *)
Lemma over_parts evs a o : lrun (new_app files ts) evs = (a, o) -> over a ->
  exists a1 o1 cause sg, now a1 = Ended cause /\ ends files evs a1 o1 /\
    servers_ok (~ never_interrupted (new_app files ts) evs) a1 /\ In (EExit sg) evs /\
    a = fst (exit a1 cause sg) /\ o = (o1 ++ snd (exit a1 cause sg))%list.
Proof.
  intros E [e OV]. pose proof (reach_linv evs a o E) as I. unfold linv in I. rewrite OV in I.
  destruct I as [a1 [o1 [cause [sg [o2 [A [B [C [D [X Y]]]]]]]]]]. exists a1, o1, cause, sg. rewrite X. cbn [fst snd]. auto 10.
Qed.

Lemma clean_exit_kept evs a o : lrun (new_app files ts) evs = (a, o) -> exits_with 0 o ->
  over a /\ flushed a = true /\
  forall i f, nth_error files i = Some f -> exists d, nth_error (comps a) i = Some d /\ kept f i o d.
Proof.
  intros E X. assert (R : exists e, now a = Exited e /\ (e = None <-> 0 = 0)).
  { pose proof (run_status evs (new_app files ts) 0) as R. rewrite E in R. apply R. exact X. }
  destruct R as [e [N Z]]. assert (e = None) as -> by now apply Z. split; [exists None; auto|].
  destruct (over_parts evs a o E (ex_intro _ None N)) as [a1 [o1 [c [sg [A [B [C [D [-> ->]]]]]]]]].
  apply (exit_clean _ evs a1 o1 c sg A B C). rewrite exit_eq in N. cbn [fst now set_now] in N. congruence.
Qed.

Lemma existsb_false {A} (p : A -> bool) l y : existsb p l = false -> In y l -> p y = false.
Proof.
  intros E I. destruct (p y) eqn:P; [|auto]. assert (existsb p l = true) by (apply existsb_exists; eauto). congruence.
Qed.

Lemma quiet_kept evs a o : lrun (new_app files ts) evs = (a, o) -> over a -> never_interrupted (new_app files ts) evs ->
  existsb second_signal evs = false -> existsb half_set_up evs = false ->
  forall i f, nth_error files i = Some f -> exists d, nth_error (comps a) i = Some d /\ kept f i o d.
Proof.
  intros E OV NI S2 H. destruct (over_parts evs a o E OV) as [a1 [o1 [c [sg [A [B [C [D [-> ->]]]]]]]]].
  pose proof (existsb_false _ _ _ S2 D) as SG. destruct sg as [n|]; [discriminate|].
  eapply (exit_quiet _ evs a1 o1 c A B C); [apply (quiet_good _ a1 c (fun n => n NI) A C)|].
  intros e I. pose proof (existsb_false _ _ _ H I). discriminate.
Qed.

Lemma quiet_zero evs a o : lrun (new_app files ts) evs = (a, o) -> over a -> never_interrupted (new_app files ts) evs ->
  existsb second_signal evs = false -> existsb bad_setup evs = false -> ~ In EBodyEnds evs -> (forall e, ~ In (EBodyRaises e) evs) ->
  exits_with 0 o.
Proof.
  intros E OV NI S2 H NB NR. destruct (over_parts evs a o E OV) as [a1 [o1 [c [sg [A [B [C [D [-> ->]]]]]]]]].
  pose proof (existsb_false _ _ _ S2 D) as SG. destruct sg as [n|]; [discriminate|].
  destruct B as [k [S [->|CS]]].
  - rewrite exit_eq, (exit_zero evs a1 o1 c A S); [|apply (quiet_good _ a1 c (fun n => n NI) A C)]. cbn [snd]. apply in_or_app. right. apply in_or_app. right. now left.
  - exfalso. destruct CS as [[p [e I]]|[I|[e I]]]; [pose proof (existsb_false _ _ _ H I); discriminate|contradiction|eapply NR; eauto].
Qed.

(** ** An interrupted start *)
Lemma ended_run : forall evs a c, now a = Ended c -> over (fst (lrun a evs)) ->
  exists sg, In (EExit sg) evs /\ lrun a evs = exit a c sg.
Proof.
  induction evs as [|x evs IH]; intros a c N [e OV]; [cbn in OV; congruence|]. cbn [lrun] in *.
  assert (S : lstep a x = match x with EExit sg => exit a c sg | _ => (a, []) end) by (unfold lstep; now rewrite N).
  destruct x; rewrite S in *; try (destruct (lrun a evs) as [a2 o2] eqn:R; cbn [fst] in OV;
    edestruct (IH a c N) as [sg [P Q]]; [rewrite R; exists e; exact OV|]; exists sg; split; [now right|]; rewrite R in Q; exact Q).
  exists signal. split; [now left|]. rewrite exit_eq in *. cbn [lrun] in *.
  rewrite (exited_stays evs _ (snd (perform a signal (plan a)))) in * by reflexivity. now rewrite app_nil_r.
Qed.

Lemma task_failed_flushed a e : flushed (task_failed a e) = flushed a.
Proof. unfold task_failed. destruct (now a); try (destruct (failed a)); reflexivity. Qed.
Lemma work_flushed a i w c : flushed (fst (work a i w c)) = flushed a.
Proof.
  unfold work, with_comp. destruct (nth_error (comps a) i) as [x|]; [|auto]. destruct (queue_of x w); [auto|].
  destruct (step q c) as [[q' r]|]; reflexivity.
Qed.
Lemma server_event_flushed a i b f : (forall s, flushed (f s) = flushed a) -> flushed (fst (server_event a i b f)) = flushed a.
Proof.
  intros H. unfold server_event. destruct (nth_error (servers a) i) as [s|]; [|auto]. destruct (task s), b; cbn [fst]; auto.
Qed.
Lemma step_flushed a x : (exists e, now (fst (lstep a x)) = Exited e) \/ flushed (fst (lstep a x)) = flushed a.
Proof.
  unfold lstep. destruct (now a) as [|k| | |cause|r] eqn:NW.
  - right. destruct x; auto. cbn [fst]. unfold after_setup. destruct (Nat.ltb _ _); reflexivity.
  - right. destruct x; auto. unfold with_comp. destruct (nth_error (comps a) k) as [c|]; [|auto]. destruct (setup c o) as [c' [e|]]; [reflexivity|].
    cbn [fst]. unfold after_setup. destruct (Nat.ltb _ _); reflexivity.
  - right. destruct x as [| |e|oc| |e|i|i|i e|e|i w c|w|sg]; auto.
    + destruct (failed a); reflexivity.
    + apply server_event_flushed. reflexivity.
    + apply server_event_flushed. reflexivity.
    + apply server_event_flushed. intros s. destruct (sv_fails s e). now rewrite task_failed_flushed.
    + cbn [fst]. apply task_failed_flushed.
    + apply work_flushed.
    + destruct w; cbn [on_signal]; auto; [apply task_failed_flushed| |].
      * apply server_event_flushed. intros s. destruct (sv_fails s signal_exn). now rewrite task_failed_flushed.
      * pose proof (work_flushed a i Errors (Push k v)). now destruct (work a i Errors (Push k v)).
  - right. destruct x as [| |e|oc| |e|i|i|i e|e|i w c|w|sg]; auto.
    + apply server_event_flushed. reflexivity.
    + apply server_event_flushed. reflexivity.
    + apply server_event_flushed. intros s. destruct (sv_fails s e). now rewrite task_failed_flushed.
    + cbn [fst]. apply task_failed_flushed.
    + apply work_flushed.
    + destruct w; cbn [on_signal]; auto; [apply task_failed_flushed| |].
      * apply server_event_flushed. intros s. destruct (sv_fails s signal_exn). now rewrite task_failed_flushed.
      * pose proof (work_flushed a i Errors (Push k v)). now destruct (work a i Errors (Push k v)).
  - destruct x; auto. left. rewrite exit_eq. cbn. eauto.
  - now right.
Qed.
Lemma run_unflushed : forall evs a, flushed a = false -> (exists e, now (fst (lrun a evs)) = Exited e) \/ flushed (fst (lrun a evs)) = false.
Proof.
  induction evs as [|x evs IH]; intros a F; [auto|]. cbn [lrun]. pose proof (step_flushed a x) as S. destruct (lstep a x) as [a1 o1].
  cbn [fst] in S. destruct S as [[e S]|S].
  - rewrite (exited_stays evs a1 e S). left. eauto.
  - specialize (IH a1 ltac:(congruence)). now destruct (lrun a1 evs).
Qed.

Lemma interrupts_stuck evs a o x : lrun (new_app files ts) evs = (a, o) -> interrupts a x ->
  Exists stuck (servers (fst (lstep a x))) /\ comps (fst (lstep a x)) = comps a /\ flushed (fst (lstep a x)) = false /\
  exists c, now (fst (lstep a x)) = Ended c.
Proof.
  intros E [NE [EN [j [s [J [[K T] NA]]]]]]. pose proof (reach_linv evs a o E) as I. unfold linv in I.
  assert (FL : flushed a = false). { pose proof (run_unflushed evs (new_app files ts) eq_refl) as [[r R]|R]; rewrite E in R; [|exact R].
    unfold ended in NE. cbn [fst] in R. now rewrite R in NE. }
  assert (ST : forall intr a2 e, Forall (sinv intr) (servers a2) -> nth_error (servers a2) j = Some s -> Exists stuck (servers (end_run a2 e))).
  { intros intr a2 e F2 J2. apply Exists_exists. exists (sv_cancel s). cbn [servers end_run set_now set_servers].
    split; [apply in_map; eapply nth_error_In; eauto|]. pose proof (proj1 (Forall_forall _ _) F2 s (nth_error_In _ _ J2)) as SI.
    unfold sinv in SI. rewrite T in SI. unfold stuck, sv_cancel. rewrite T, K. cbn. tauto. }
  assert (TF : forall intr a2 e, Forall (sinv intr) (servers a2) -> nth_error (servers a2) j = Some s -> comps a2 = comps a -> flushed a2 = false ->
     ended (task_failed a2 e) = true -> now a2 = now a ->
     Exists stuck (servers (task_failed a2 e)) /\ comps (task_failed a2 e) = comps a /\ flushed (task_failed a2 e) = false /\
     exists c, now (task_failed a2 e) = Ended c).
  { intros intr a2 e F2 J2 C2 FL2 EN2 N2. unfold task_failed in *. unfold ended in NE, EN2.
    destruct (now a2) eqn:NW; rewrite <- N2 in NE; try discriminate;
      try (destruct (failed a2); cbn [now set_failed] in EN2; rewrite ?NW in EN2; discriminate).
    split; [apply (ST intr); auto|]. cbn. eauto. }
  assert (HS : now a = Hook \/ now a = Serving \/ (exists k, now a = Setting k) \/ now a = Entered).
  { unfold ended in NE. destruct (now a); eauto; discriminate. }
  assert (NT : ~ Forall (fun s => task s = TNone) (servers a)).
  { intros F. pose proof (proj1 (Forall_forall _ _) F s (nth_error_In _ _ J)). cbn beta in *. congruence. }
  assert (HL : live a).
  { unfold live. destruct HS as [H|[H|[[k H]|H]]]; auto; exfalso; rewrite H in I; apply NT.
    - destruct I as [_ [_ [_ X]]]. now rewrite H in X.
    - destruct I as [_ [_ X]]. now rewrite H in X. }
  assert (SI : Forall (sinv (~ never_interrupted (new_app files ts) evs)) (servers a)).
  { destruct HL as [H|H]; rewrite H in I; destruct I as [_ [X _]]; exact X. }
  assert (SF : forall i e, i <> j -> ended (fst (server_event a i TStarting (fun s => let (s', e') := sv_fails s e in
        task_failed (set_servers a (set_nth i s' (servers a))) e'))) = true ->
     let a' := fst (server_event a i TStarting (fun s => let (s', e') := sv_fails s e in
        task_failed (set_servers a (set_nth i s' (servers a))) e')) in
     Exists stuck (servers a') /\ comps a' = comps a /\ flushed a' = false /\ exists c, now a' = Ended c).
  { intros i e NI. unfold server_event. destruct (nth_error (servers a) i) as [t|] eqn:TI; [|cbn [fst]; congruence].
    destruct (task t) eqn:TT; cbn [fst]; try congruence.
    pose proof (proj1 (Forall_forall _ _) SI t (nth_error_In _ _ TI)) as TS. destruct (sv_fails_ok _ t e TS TT) as [P Q].
    destruct (sv_fails t e) as [s' e']. cbn [fst] in P, Q. intros EN2. cbn zeta. eapply (TF (~ never_interrupted (new_app files ts) evs)); eauto; cbn [servers set_servers].
    - now apply Forall_set_nth.
    - rewrite nth_set_nth. destruct (Nat.eqb i j) eqn:EQ; [apply Nat.eqb_eq in EQ; contradiction|exact J]. }
  assert (SAME : ended a = true -> Exists stuck (servers a) /\ comps a = comps a /\ flushed a = false /\ exists c, now a = Ended c) by congruence.
  assert (GO : (lstep a x = (match x with
      | EHookDone => match now a with
                     | Hook => (match failed a with None => set_now a Serving | Some e => end_run a (Some e) end, [])
                     | _ => (a, []) end
      | EHookRaises e => match now a with Hook => (end_run a (Some e), []) | _ => (a, []) end
      | EServerStarts i => server_event a i TCreated (fun s => set_servers a (set_nth i (sv_start s) (servers a)))
      | EServerBound i => server_event a i TStarting (fun s => set_servers a (set_nth i (sv_bound s) (servers a)))
      | EServerFails i e => server_event a i TStarting (fun s =>
            let (s', e') := sv_fails s e in task_failed (set_servers a (set_nth i s' (servers a))) e')
      | ETaskFails e => (task_failed a e, [])
      | EWork i w o => work a i w o
      | ESignal w => on_signal a w
      | _ => (a, [])
      end))).
  { unfold lstep. destruct HL as [L|L]; rewrite L; reflexivity. }
  assert (SE : forall i b f, (forall t, ended (f t) = ended a) -> ended (fst (server_event a i b f)) = true -> False).
  { intros i b f H. unfold server_event. destruct (nth_error (servers a) i) as [t|]; [|cbn; congruence].
    destruct (task t), b; cbn [fst]; rewrite ?H; congruence. }
  assert (WK : forall i w c, ended (fst (work a i w c)) = true -> False).
  { intros i w c. pose proof (work_outs a i w c 0) as [_ W]. unfold ended in *. rewrite W. congruence. }
  rewrite GO in EN |- *. clear GO.
  destruct x as [| |e|oc| |e|i|i|i e|e|i w c|w|sg]; try (apply SAME; exact EN).
  - destruct (now a) eqn:NW; try (exfalso; cbn [fst] in EN; congruence). destruct (failed a); [|now cbn in EN]. cbn [fst]. split; [eapply (ST (~ never_interrupted (new_app files ts) evs)); eauto|]. cbn. eauto.
  - destruct (now a) eqn:NW; try (exfalso; cbn [fst] in EN; congruence). cbn [fst]. split; [eapply (ST (~ never_interrupted (new_app files ts) evs)); eauto|]. cbn. eauto.
  - exfalso. eapply SE; [|exact EN]. reflexivity.
  - exfalso. eapply SE; [|exact EN]. reflexivity.
  - apply SF; auto. intros ->. apply NA. left. eauto.
  - cbn [fst] in *. eapply (TF (~ never_interrupted (new_app files ts) evs)); eauto.
  - exfalso. eapply WK; eauto.
  - destruct w as [| | |i| | | |i k v]; cbn [on_signal] in *; try (apply SAME; exact EN).
    + cbn [fst]. split; [eapply (ST (~ never_interrupted (new_app files ts) evs)); eauto|]. cbn. eauto.
    + cbn [fst]. split; [eapply (ST (~ never_interrupted (new_app files ts) evs)); eauto|]. cbn. eauto.
    + cbn [fst] in *. eapply (TF (~ never_interrupted (new_app files ts) evs)); eauto.
    + apply SF; auto. intros ->. apply NA. right. eauto.
    + exfalso. apply (WK i Errors (Push k v)). destruct (work a i Errors (Push k v)). exact EN.
Qed.

(** The whole run. *)
Lemma interrupted_run pre x post a : fst (lrun (new_app files ts) (pre ++ x :: post)) = a -> over a ->
  interrupts (fst (lrun (new_app files ts) pre)) x ->
  comps a = comps (fst (lrun (new_app files ts) pre)) /\ flushed a = false /\ exists e, now a = Exited (Some e).
Proof.
  intros <- OV IN. rewrite lrun_app in *. cbn [fst] in *. destruct (lrun (new_app files ts) pre) as [a1 o1] eqn:R. cbn [fst] in *.
  destruct (interrupts_stuck pre a1 o1 x R IN) as [S [C [F [c N]]]]. cbn [lrun] in *. destruct (lstep a1 x) as [a2 o2]. cbn [fst] in *.
  destruct (ended_run post a2 c N) as [sg [_ Q]]; [now destruct (lrun a2 post)|].
  destruct (lrun a2 post) as [a3 o3]. cbn [fst] in *. rewrite exit_eq in Q. injection Q as -> _.
  destruct (plan_stuck a2 sg S) as [a4 [e [A [B D]]]]. rewrite A. cbn. split; [congruence|]. split; [congruence|eauto].
Qed.

(** ** Ends of a serving application *)
Lemma kept_all a o : (forall i f, nth_error files i = Some f -> exists d, nth_error (comps a) i = Some d /\ kept f i o d) -> all_kept files a o.
Proof.
  intros H i ps tp te lp le F A B. destruct (H i (ps, tp, te) F) as [d [D K]]. exists d. split; [auto|]. exact (K lp le A B).
Qed.
Lemma serving_parts evs a o : lrun (new_app files ts) evs = (a, o) -> now a = Serving ->
  front files (List.length files) a o /\ failed a = None /\
  forall s, In s (servers a) -> task s <> TNone /\ task s <> TDone /\ sinv (~ never_interrupted (new_app files ts) evs) s.
Proof.
  intros E N. pose proof (reach_linv evs a o E) as I. unfold linv in I. rewrite N in I. destruct I as [F [S T]]. rewrite N in T.
  destruct T as [T FA]. split; [auto|]. split; [auto|]. intros s H. pose proof (proj1 (Forall_forall _ _) S s H).
  pose proof (proj1 (Forall_forall _ _) T s H) as X. cbn beta in X. tauto.
Qed.
Lemma cancel_good intr s : sinv intr s -> task s <> TDone -> ~ starting s -> good_server (sv_cancel s) /\ listening (sv_cancel s) = false.
Proof.
  unfold sinv, starting, good_server, sv_cancel. destruct (task s) eqn:T; intros S D N; try congruence; cbn [running kind handle listening].
  - intuition congruence.
  - intuition congruence.
  - split; [|tauto]. destruct (is_stream (kind s)); [tauto|]. discriminate.
  - split; [discriminate|reflexivity].
Qed.

Lemma serving_end evs a o a2 c : lrun (new_app files ts) evs = (a, o) -> now a = Serving -> comps a2 = comps a ->
  Forall (fun s => good_server (sv_cancel s) /\ listening (sv_cancel s) = false) (servers a2) ->
  exists a', exit (end_run a2 c) c None = (a', (report c ++ [OExit 0])%list) /\ now a' = Exited None /\ flushed a' = true /\
    Forall (fun s => listening s = false) (servers a') /\ all_kept files a' (o ++ report c ++ [OExit 0]).
Proof.
  intros E N C S. destruct (serving_parts evs a o E N) as [F _].
  assert (ST : stopped files evs (List.length files) (end_run a2 c) o).
  { apply front_stopped. eapply front_same; [|exact F]. exact C. }
  assert (G : Forall good_server (servers (end_run a2 c))).
  { cbn [servers end_run set_now set_servers]. apply Forall_map. eapply Forall_impl; [|exact S]. cbv beta. intros s [A _]. exact A. }
  assert (L : Forall (fun s => listening s = false) (servers (end_run a2 c))).
  { cbn [servers end_run set_now set_servers]. apply Forall_map. eapply Forall_impl; [|exact S]. cbv beta. intros s [_ A]. exact A. }
  pose proof (exit_zero evs (end_run a2 c) o c eq_refl ST G) as Z.
  pose proof (stopped_fine files evs _ _ o ST) as FI. destruct (plan_ok _ FI G) as [a3 [A [B D]]].
  pose proof (perform_listening (plan (end_run a2 c)) None _ L) as PL. rewrite A in Z, PL. cbn [fst snd] in Z, PL.
  rewrite exit_eq, A, Z. cbn [fst snd]. exists (set_now a3 (Exited None)). cbn [now set_now flushed servers]. repeat split; auto.
  apply kept_all. intros i f FE. cbn [comps set_now]. rewrite B.
  destruct (none_all_kept evs _ _ o ST Z i f FE) as [d [P K]]. exists d. split; [auto|].
  apply kept_more; auto; rewrite calls_app, report_calls; reflexivity.
Qed.

Lemma run_two evs a o x a1 o1 y : lrun (new_app files ts) evs = (a, o) -> lstep a x = (a1, o1) ->
  lrun (new_app files ts) (evs ++ [x; y]) = (fst (lstep a1 y), (o ++ o1 ++ snd (lstep a1 y))%list).
Proof.
  intros E S. rewrite lrun_app, E. cbn [fst snd lrun]. rewrite S. destruct (lstep a1 y). cbn [fst snd]. now rewrite app_nil_r.
Qed.
End Run.
End Proofs.
