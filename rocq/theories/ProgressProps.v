(** C121, C122: progress of buffered endpoints. *)
From Coq Require Import List ZArith NArith Bool String Lia Permutation.
From Verif Require Import Base PermTac PQueueModel PQueueSpec PQueueProofs PendingModel PendingSpec PendingProofs
  HandlerModel HandlerSpec HandlerProofs HandlerProofs2 HandlerProofs3 HandlerProofs4 HandlerProofs5 HandlerProofs6 HandlerProps ProgressSpec ProgressProofs.
Import ListNotations.
Local Open Scope Z_scope.

Section Facts.
Context {D M : Type}.
Variable no_meta : M.
Variables dto_ok truthy : D -> bool.
Variable max_retries : Z.
Notation hrun := (@hrun D M no_meta dto_ok truthy max_retries).

Lemma open_run evs : forall s s' o, shut s = false -> forallb (fun ev => match ev with EShutDown => false | _ => true end) evs = true ->
  hrun s evs = (s', o) -> closed s' = closed s /\ shut s' = false.
Proof.
  induction evs as [|ev r IH]; intros s s' o S F E; cbn [HandlerModel.hrun] in E; [injection E as <- <-; auto|].
  cbn [forallb] in F. apply andb_prop in F as [F1 F2].
  destruct (hstep no_meta dto_ok truthy max_retries s ev) as [s1 o1] eqn:E1. destruct (hrun s1 r) as [s2 o2] eqn:E2. injection E as <- <-.
  destruct (step_open no_meta dto_ok truthy max_retries s ev s1 o1 S ltac:(intros ->; discriminate) E1) as [C1 S1].
  destruct (IH s1 s2 o2 S1 F2 E2) as [C2 S2]. split; congruence.
Qed.
(** what a reachable state of an endpoint that was not shut down gives *)
Lemma reach_going q0 lp0 le0 evs s o lp le i t : preachable no_meta q0 -> usable q0 -> holds q0 lp0 le0 ->
  hrun (setup q0) evs = (s, o) -> forallb (fun ev => match ev with EShutDown => false | _ => true end) evs = true ->
  Forall (fun x => dto_ok (data_of x) = true) (accepted o ++ items_p lp0 ++ items_e le0) ->
  proc_paused s = false -> nth_error (tasks s) i = Some t -> live t -> holds (hq s) lp le ->
  closed s = 0%nat /\ going no_meta s i t /\ held_ok dto_ok t /\ lp = pc (hq s) /\ le = ec (hq s) /\ data_ok dto_ok (pc (hq s)).
Proof.
  intros R U H0 E Ns Ok P N L Hh.
  destruct (setup_ok no_meta q0 R U) as [Hi [Ha Hc]].
  assert (S0 : shut (setup q0) = false) by reflexivity.
  destruct (open_run evs _ _ _ S0 Ns E) as [C S]. rewrite Hc in C.
  pose proof (run_inv no_meta dto_ok truthy max_retries q0 evs s o R U E C) as Hs.
  destruct (run_contents no_meta s lp le Hs Hh) as [-> ->].
  destruct (conservation no_meta dto_ok truthy max_retries q0 lp0 le0 evs s o R U H0 E C) as (lp & le & Hh' & Pm).
  destruct (run_contents no_meta s lp le Hs Hh') as [-> ->].
  assert (All : Forall (fun x => dto_ok (data_of x) = true)
     (pushing s ++ items_p (pc (hq s)) ++ in_process s ++ items_e (ec (hq s)) ++ finished o ++ removed o ++ dropped o ++ lost o)).
  { eapply Forall_perm; [exact Pm|exact Ok]. }
  rewrite !Forall_app in All. destruct All as (_ & A1 & A2 & _).
  split; [exact C|]. split; [constructor; auto|]. split; [|split; [reflexivity|split; [reflexivity|]]].
  - assert (X : forall x, In x (held t) -> dto_ok (data_of x) = true).
    { intros x Hx. rewrite Forall_forall in A2. apply A2. unfold in_process. apply in_flat_map. exists t. split; [|exact Hx].
      eapply nth_error_In; eauto. }
    destruct t; cbn; auto; apply (X (item_p e)); now left.
  - unfold data_ok. unfold items_p in A1. rewrite Forall_map in A1. exact A1.
Qed.
Lemma measure_needed (s : hstate D M) i t : nth_error (tasks s) i = Some t -> (measure max_retries s t <= steps_needed max_retries s (pc (hq s)))%nat.
Proof.
  intros N. unfold steps_needed, measure. rewrite map_app, list_sum_app.
  assert (Cp : cost max_retries (pc (hq s)) = (3 * list_sum (map (fun e => attempts_left max_retries (pe_retries e)) (map snd (pc (hq s)))))%nat).
  { induction (pc (hq s)) as [|x l IH]; [reflexivity|]. cbn [cost map list_sum fold_right]. unfold list_sum in IH. rewrite IH. unfold att. lia. }
  rewrite Cp.
  assert (Hs : forall e, In e (match t with TBefore e | TCall e | TAfter e _ => [e] | _ => [] end) ->
     (attempts_left max_retries (pe_retries e) <= list_sum (map (fun e => attempts_left max_retries (pe_retries e)) (held_entries s)))%nat).
  { intros e He. assert (Hin : In e (held_entries s)).
    { unfold held_entries. apply in_flat_map. exists t. split; [eapply nth_error_In; eauto|exact He]. }
    clear -Hin. induction (held_entries s) as [|x l IH]; [destruct Hin|]. cbn. unfold list_sum in IH. destruct Hin as [->|Hin]; [lia|]. specialize (IH Hin). lia. }
  assert (P1 : forall r, (1 <= attempts_left max_retries r)%nat) by (intros r; unfold attempts_left; lia).
  destruct t; cbn [left held_cost] in *; try lia; specialize (Hs e (or_introl eq_refl)); specialize (P1 (pe_retries e)); unfold att; lia.
Qed.
End Facts.

(** ** C121: bounded waiting *)
(** The endpoint has run in any way; it is not shut down and processing is not paused; a processing task is live; a request is
    pending with [List.length pre] requests before it.  Then whatever else happens (undisturbed: no exceptions, no pause), the
    endpoint's function is called with the request by the time the task has made that many steps. *)
Theorem C121_bounded_waiting :
  forall (D M : Type) (no_meta : M) (dto_ok truthy : D -> bool) (max_retries : Z) q0 lp0 le0 evs s o pre k e post le i t evs' s' o',
  preachable no_meta q0 -> usable q0 -> holds q0 lp0 le0 ->
  hrun no_meta dto_ok truthy max_retries (setup q0) evs = (s, o) ->
  forallb (fun ev => match ev with EShutDown => false | _ => true end) evs = true ->
  Forall (fun x => dto_ok (data_of x) = true) (accepted o ++ items_p lp0 ++ items_e le0) ->
  proc_paused s = false -> nth_error (tasks s) i = Some t -> live t ->
  holds (hq s) (pre ++ (k, e) :: post) le ->
  hrun no_meta dto_ok truthy max_retries s evs' = (s', o') -> forallb undisturbed evs' = true ->
  (3 * List.length pre + 4 <= steps_of i evs')%nat ->
  In (HCalled k (pe_data e)) o'.
Proof.
  intros D M no_meta dto_ok truthy max_retries q0 lp0 le0 evs s o pre k e post le i t evs' s' o' R U H0 E Ns Ok P N L Hh E' Und St.
  destruct (reach_going no_meta dto_ok truthy max_retries q0 lp0 le0 evs s o _ le i t R U H0 E Ns Ok P N L Hh) as (C & G & Ht & Pc & _ & Da).
  assert (K : pe_key e = k).
  { pose proof (pi_pk _ (hi_q _ _ (go_inv _ _ _ _ G))) as Q. rewrite <- Pc in Q. apply Forall_app in Q as [_ Q]. inversion Q; auto. }
  rewrite <- K. apply (bounded_waiting no_meta dto_ok truthy max_retries evs' s s' o' i t pre k e post G Ht); auto.
  - rewrite <- Pc in Da. unfold data_ok in *. apply Forall_app in Da as [D1 D2]. apply Forall_app. split; [exact D1|]. inversion D2; subst. now repeat constructor.
  - destruct t; cbn [left]; lia.
Qed.
Print Assumptions C121_bounded_waiting.

(** ** C122: draining *)
(** From then on only the processing task runs, and the function returns any booleans [bs]: after [steps_needed] steps nothing is
    pending or in process, and every request that was ever accepted or there at the start has been processed successfully, is in
    the error queue, or was removed by the operator. *)
Theorem C122_drains :
  forall (D M : Type) (no_meta : M) (dto_ok truthy : D -> bool) (max_retries : Z) q0 lp0 le0 evs s o lp le i t bs s' o',
  preachable no_meta q0 -> usable q0 -> holds q0 lp0 le0 ->
  hrun no_meta dto_ok truthy max_retries (setup q0) evs = (s, o) ->
  forallb (fun ev => match ev with EShutDown => false | _ => true end) evs = true ->
  forallb (fun ev => negb (failure ev)) evs = true ->
  Forall (fun x => dto_ok (data_of x) = true) (accepted o ++ items_p lp0 ++ items_e le0) ->
  NoDup (map key_of (accepted o ++ items_p lp0 ++ items_e le0)) ->
  proc_paused s = false -> pushing s = [] -> nth_error (tasks s) i = Some t -> live t -> holds (hq s) lp le ->
  hrun no_meta dto_ok truthy max_retries s (map (fun b => ETask i (RRet b)) bs) = (s', o') ->
  (steps_needed max_retries s lp <= List.length bs)%nat ->
  exists le', holds (hq s') [] le' /\ in_process s' = [] /\
    Permutation (accepted o ++ items_p lp0 ++ items_e le0) (items_e le' ++ finished (o ++ o') ++ removed o).
Proof.
  intros D M no_meta dto_ok truthy max_retries q0 lp0 le0 evs s o lp le i t bs s' o' R U H0 E Ns Nf Ok Nd P Pu N L Hh E' Le.
  destruct (reach_going no_meta dto_ok truthy max_retries q0 lp0 le0 evs s o lp le i t R U H0 E Ns Ok P N L Hh) as (C & G & Ht & -> & _ & Da).
  pose proof (measure_needed max_retries s i t N) as Me.
  destruct (drains no_meta dto_ok truthy max_retries bs s s' o' i t G Ht Da E') as (H' & S' & Pc' & T' & Pu'); [lia|].
  assert (Ea : hrun no_meta dto_ok truthy max_retries (setup q0) (evs ++ map (fun b => ETask i (RRet b)) bs) = (s', o ++ o')).
  { clear -E E'. revert E. generalize (setup q0). intros s0 E. revert s0 s o E E'. induction evs as [|ev r IH]; intros s0 s o E E'; cbn [HandlerModel.hrun app] in *.
    - injection E as <- <-. exact E'.
    - destruct (hstep no_meta dto_ok truthy max_retries s0 ev) as [s1 o1]. destruct (hrun no_meta dto_ok truthy max_retries s1 r) as [s2 o2] eqn:E2.
      injection E as <- <-. rewrite (IH s1 s2 o2 E2 E'). now rewrite app_assoc. }
  assert (Ns' : forallb (fun ev : hev D M => match ev with EShutDown => false | _ => true end) (evs ++ map (fun b => ETask i (RRet b)) bs) = true).
  { rewrite forallb_app, Ns. cbn [andb]. clear. induction bs as [|b bs IH]; [reflexivity|exact IH]. }
  assert (Nf' : forallb (fun ev : hev D M => negb (failure ev)) (evs ++ map (fun b => ETask i (RRet b)) bs) = true).
  { rewrite forallb_app, Nf. cbn [andb]. clear. induction bs as [|b bs IH]; [reflexivity|exact IH]. }
  destruct (open_run no_meta dto_ok truthy max_retries _ _ _ _ (eq_refl : shut (setup q0) = false) Ns' Ea) as [C' _].
  destruct (setup_ok no_meta q0 R U) as [_ [_ Hc]]. rewrite Hc in C'.
  assert (Own : forall l s0 s1 o1, hrun no_meta dto_ok truthy max_retries s0 (map (fun b => ETask i (RRet b)) l) = (s1, o1) ->
            accepted o1 = [] /\ removed o1 = [] /\ cur s1 = cur s0).
  { clear. intros l. induction l as [|b l IH]; intros s0 s1 o1 E; cbn [map HandlerModel.hrun] in E; [injection E as <- <-; auto|].
    destruct (hstep no_meta dto_ok truthy max_retries s0 (ETask i (RRet b))) as [s2 o2] eqn:E2.
    destruct (hrun no_meta dto_ok truthy max_retries s2 (map (fun b => ETask i (RRet b)) l)) as [s3 o3] eqn:E3. injection E as <- <-.
    destruct (IH s2 s3 o3 E3) as (A1 & A2 & A3). rewrite accepted_app, removed_app, A1, A2, A3, !app_nil_r.
    pose proof (tame_step no_meta dto_ok truthy max_retries s0 i b) as (B1 & B2 & B3). rewrite E2 in *. cbn [fst snd] in *. auto. }
  destruct (Own bs s s' o' E') as (Ac & Re & Cu).
  destruct (exactly_one_place no_meta dto_ok truthy max_retries q0 lp0 le0 _ s' (o ++ o') R U H0 Ea C' Nf') as (lp & le' & Hh' & Pm & _).
  { now rewrite accepted_app, Ac, app_nil_r. }
  { now rewrite accepted_app, Ac, app_nil_r. }
  destruct (run_contents no_meta s' lp le' H' Hh') as [-> ->]. rewrite Pc' in *.
  assert (Ip : in_process s' = []).
  { unfold in_process. assert (Fm : forall l : list (tstate D M), (forall t0, In t0 l -> held t0 = []) -> flat_map held l = []).
    { clear. induction l as [|x l IH]; intros F; [reflexivity|]. cbn. rewrite F by (now left). apply IH. intros t0 Ht0. apply F. now right. }
    apply Fm. intros t0 Hin. apply In_nth_error in Hin as [j Hj].
    destruct t0; auto; exfalso; pose proof (hi_live _ _ H' _ _ Hj ltac:(discriminate)) as X;
      rewrite Cu, (hi_live _ _ (go_inv _ _ _ _ G) _ _ N L) in X; injection X as <-; rewrite T' in Hj; discriminate Hj. }
  exists (ec (hq s')). split; [exact Hh'|]. split; [exact Ip|].
  rewrite accepted_app, Ac, app_nil_r, removed_app, Re, app_nil_r, Ip, Pu', Pu in Pm. exact Pm.
Qed.
Print Assumptions C122_drains.

(** ** Example: [ex_evs] until all three requests are queued and the first one is being processed. *)
Definition pr_evs : list (hev N N) := firstn 11 ex_evs.
Definition pr_s : hstate N N := Eval vm_compute in fst (ex_run (setup ex_q0) pr_evs).
Definition pr_o : list (hout N N) := Eval vm_compute in snd (ex_run (setup ex_q0) pr_evs).
Lemma pr_run : ex_run (setup ex_q0) pr_evs = (pr_s, pr_o). Proof. vm_compute. reflexivity. Qed.
Lemma pr_holds : holds (hq pr_s) [(2, mkP 2 0 20 6); (3, mkP 3 0 30 7)]%N [].
Proof.
  assert (C : closed pr_s = 0%nat) by reflexivity.
  pose proof (run_holds 0%N pr_s (run_inv 0%N ex_dto ex_true 2 _ _ _ _ ex_reach ex_usable pr_run C)) as H. exact H.
Qed.
(** Request 3 is called although another request arrives, is pushed, and the second one fails. *)
Example C121_example : In (@HCalled N N 3%N 30%N)
  (snd (ex_run pr_s ([ERequest 4%N 40%N; ETask 0 (RRet true); ETask 0 (RRet true); ECollected 0 8%N; ETask 0 (RRet true); EPush 0;
        ETask 0 (RRet false); ETask 0 (RRet false); ETask 0 (RRet false); ETask 0 (RRet true)]))).
Proof.
  set (evs' := [ERequest 4%N 40%N; ETask 0 (RRet true); ETask 0 (RRet true); ECollected 0 8%N; ETask 0 (RRet true); EPush 0;
        ETask 0 (RRet false); ETask 0 (RRet false); ETask 0 (RRet false); ETask 0 (RRet true)]).
  destruct (ex_run pr_s evs') as [s' o'] eqn:E'.
  refine (C121_bounded_waiting N N 0%N ex_dto ex_true 2 ex_q0 [] [] pr_evs pr_s pr_o [(2, mkP 2 0 20 6)]%N 3%N (mkP 3 0 30 7)%N [] [] 0
            (TCall (mkP 1 0 10 5)%N) evs' s' o' ex_reach ex_usable ex_holds pr_run eq_refl _ eq_refl eq_refl _ pr_holds E' eq_refl _).
  - vm_compute. repeat constructor.
  - discriminate.
  - vm_compute. repeat constructor.
Qed.
(** Two attempts each: 1 + 3 * (2 + 2 + 2) steps are enough, whatever the function returns. *)
Example C122_example_bound : steps_needed 2 pr_s [(2, mkP 2 0 20 6); (3, mkP 3 0 30 7)]%N = 19%nat.
Proof. reflexivity. Qed.
Example C122_example : let '(s', o') := ex_run pr_s (map (fun b => ETask 0 (RRet b)) (repeat false 19)) in
  in_process s' = [] /\ exists le', holds (hq s') [] le' /\ Permutation [(1, 10, 5); (2, 20, 6); (3, 30, 7)]%N (items_e le' ++ finished (pr_o ++ o')).
Proof.
  destruct (ex_run pr_s (map (fun b => ETask 0 (RRet b)) (repeat false 19))) as [s' o'] eqn:E'.
  destruct (C122_drains N N 0%N ex_dto ex_true 2 ex_q0 [] [] pr_evs pr_s pr_o [(2, mkP 2 0 20 6); (3, mkP 3 0 30 7)]%N [] 0 (TCall (mkP 1 0 10 5)%N) (repeat false 19) s' o'
              ex_reach ex_usable ex_holds pr_run eq_refl eq_refl) as (le' & A & B & C); try reflexivity; try exact pr_holds; try exact E'.
  - vm_compute. repeat constructor.
  - vm_compute. repeat constructor; cbn; intuition discriminate.
  - discriminate.
  - split; [exact B|]. exists le'. split; [exact A|]. change (removed pr_o) with (@nil (item N N)) in C. rewrite (app_nil_r (finished _)) in C. exact C.
Qed.
