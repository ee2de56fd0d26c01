(** C37-C39: statistics. *)
From Coq Require Import String Ascii ZArith QArith Bool Lia Lqa List.
From Verif Require Import Base RouterModel StatsModel StatsSpec StatsProofs StatsProofs2 StatsProofs3.
Import ListNotations.
Local Open Scope string_scope.

(** The state after the calls [ops], from the start, and what they raised; over any numbers. *)
Definition after {num} zero one add sub pct nm inst p t ops : state num := fst (run num zero one add sub pct nm inst (init num p t) ops).
Definition raised {num} zero one add sub pct nm inst p t ops := snd (run num zero one add sub pct nm inst (init num p t) ops).

(** C37. With a configured length [h] the history is the newest [h] of all reports gathered, newest first, whatever
    else happens. *)
Theorem C37_history : forall (num : Type) (zero one : num) add sub pct nm inst p t h ops,
  Forall no_length_change ops ->
  hist num (after zero one add sub pct nm inst p t (SetHistoryLength _ h :: ops)) =
  firstn (Z.to_nat h) (rev (reports zero one add sub pct nm inst (init num p t) (SetHistoryLength _ h :: ops))).
Proof. exact (@history). Qed.
Print Assumptions C37_history.
(** The statistics endpoint: the statistics now, the whole history, or the newest report gathered. *)
Theorem C37_endpoint : forall (num : Type) (zero one : num) add sub pct nm inst p t h ops e type,
  Forall no_length_change ops -> (1 <= h)%Z ->
  let s := after zero one add sub pct nm inst p t (SetHistoryLength _ h :: ops) in
  let rs := reports zero one add sub pct nm inst (init num p t) (SetHistoryLength _ h :: ops) in
  eco_statistics_get num sub pct nm inst type e s =
    if String.eqb type "current" then inr (current num (fst (step num zero one add sub pct nm inst s (Query _ e))))
    else if String.eqb type "full" then inl (firstn (Z.to_nat h) (rev rs))
    else inr (List.last rs []).
Proof. exact (@answers). Qed.
Print Assumptions C37_endpoint.
(** If the length may be changed while running, the history can be longer than the current setting: each gathering removes
    one report only. *)
Definition C37_bounded : Prop := forall (num : Type) (zero one : num) add sub pct nm inst p t ops,
  (Z.of_nat (List.length (hist num (after zero one add sub pct nm inst p t ops))) <=
   Z.max 0 (history_length num (after zero one add sub pct nm inst p t ops)))%Z.
Definition env0 : env Q := mkEnv Q (0%Q) (fun _ => 0%Q).
Theorem C37_bounded_refuted : ~ C37_bounded.
Proof.
  intros H. specialize (H Q 0%Q 1%Q Qplus Qminus percentiles "app" "0" 300%Q 0%Q
    [Gather _ env0; Gather _ env0; Gather _ env0; SetHistoryLength _ 1; Gather _ env0]). vm_compute in H. apply H. reflexivity.
Qed.
Print Assumptions C37_bounded_refuted.
Theorem C37_bounded_partial : forall (num : Type) (zero one : num) add sub pct nm inst p t m ops, (12 <= m)%Z ->
  Forall (fun o => match o with SetHistoryLength _ n => (n <= m)%Z | _ => True end) ops ->
  (Z.of_nat (List.length (hist num (after zero one add sub pct nm inst p t ops))) <= m)%Z.
Proof. exact (@bounded_by_largest). Qed.
Print Assumptions C37_bounded_partial.

(** C38, for all sets of names none of which lies below another. *)
Definition C38_counters : Prop := forall (num : Type) (zero one : num) add sub pct nm inst p t ops n v,
  prefix_free_names ops -> tracked_first ops -> counter ops n ->
  shows (current num (after zero one add sub pct nm inst p t ops)) n (Num num v) <-> value zero one add sub n ops = Some v.

(** A test for [below]. *)
Definition below_b (a b : string) : bool := String.prefix (a ++ ".") b.
Lemma below_b_ok : forall a b, below a b -> below_b a b = true.
Proof.
  intros a b (c & ->). unfold below_b. induction a as [|x a IH]; [cbn; destruct c; reflexivity|].
  cbn [append String.prefix]. destruct (ascii_dec x x); [exact IH|congruence].
Qed.
Definition compat_b (names : list string) : bool := forallb (fun a => forallb (fun b => negb (below_b a b)) names) names.
Lemma compat_b_ok : forall num (ops : list (op num)), compat_b (all_names ops) = true -> prefix_free_names ops.
Proof.
  intros num ops H a b Ha Hb B. apply below_b_ok in B. unfold compat_b in H. rewrite forallb_forall in H. specialize (H a Ha).
  rewrite forallb_forall in H. specialize (H b Hb). rewrite B in H. discriminate.
Qed.

(** False of the code: what lies below "application" is thrown away by every query and gathering. *)
Theorem C38_counters_refuted : ~ C38_counters.
Proof.
  intros H. set (ops := [Increment _ "application.requests" 3%Q; Query _ env0]).
  specialize (H Q 0%Q 1%Q Qplus Qminus percentiles "app" "0" 300%Q 0%Q ops "application.requests" (0 + 3)%Q).
  destruct H as (_ & H).
  - apply compat_b_ok. vm_compute. reflexivity.
  - intros before k v aft E. assert (X : In (AddEndpoint Q k v) ops) by (rewrite E; apply in_or_app; right; left; reflexivity).
    cbn in X. destruct X as [X|[X|[]]]; discriminate.
  - split; [|split]; [intros X; cbn in X; repeat (destruct X as [X|X]; [discriminate|]); exact X|intros [X|[X|[]]]; discriminate|].
    intros k [X|[X|[]]]; discriminate.
  - specialize (H eq_refl). apply shows_get in H. vm_compute in H. discriminate.
Qed.
Print Assumptions C38_counters_refuted.
(** And names of which one lies below the other make calls fail: the second increment, and with routes "db" and "db.p95" every
    query and gathering and every call of the second. *)
Example C38_conflict :
  raised 0%Q 1%Q Qplus Qminus percentiles "app" "0" 300%Q 0%Q
    [Increment _ "db" 1%Q; Increment _ "db.errors" 1%Q; Track _ "db"; Track _ "db.p95"; Query _ env0; AddEndpoint _ "db.p95" 1%Q]
  = [None; Some "TypeError"; None; None; Some "TypeError"; Some "TypeError"].
Proof. vm_compute. reflexivity. Qed.
(** It holds for every sequence of calls that keeps away from the keeper's own names; no call fails; and the same value is
    in what a query shows then. Numbers and their arithmetic are arbitrary, so this covers floats. *)
Theorem C38_counters_partial : forall (num : Type) (zero one : num) add sub pct nm inst p t ops n v,
  compatible ops -> tracked_first ops -> counter ops n ->
  shows (current num (after zero one add sub pct nm inst p t ops)) n (Num num v) <-> value zero one add sub n ops = Some v.
Proof. exact (@counters). Qed.
Print Assumptions C38_counters_partial.
Theorem C38_no_exception_partial : forall (num : Type) (zero one : num) add sub pct nm inst p t ops,
  compatible ops -> tracked_first ops -> Forall (fun x => x = None) (raised zero one add sub pct nm inst p t ops).
Proof. exact (@no_exception). Qed.
Print Assumptions C38_no_exception_partial.
Theorem C38_query_partial : forall (num : Type) (zero one : num) add sub pct nm inst p t ops e,
  compatible ops -> tracked_first ops ->
  exists s', step num zero one add sub pct nm inst (after zero one add sub pct nm inst p t ops) (Query _ e) = (s', None) /\
    (forall n v, counter ops n -> (shows (current num s') n (Num num v) <-> value zero one add sub n ops = Some v)) /\
    (forall k, In (AddQueue _ k) ops -> shows (current num s') k (Num num (sizes num e k))) /\
    (forall k, In (Track _ k) ops -> ~ In (AddQueue _ (p95 k)) ops -> ~ In (AddQueue _ (p99 k)) ops ->
       shows (current num s') (p95 k) (Num num (fst (pct (recorded k ops)))) /\
       shows (current num s') (p99 k) (Num num (snd (pct (recorded k ops))))).
Proof. exact (@queried). Qed.
Print Assumptions C38_query_partial.
(** The keeper's own values: the time, the time since the start, the period, and who reports. *)
Theorem C38_own_values_partial : forall (num : Type) (zero one : num) add sub pct nm inst p t ops e, compatible ops -> tracked_first ops ->
  let d := current num (fst (step num zero one add sub pct nm inst (after zero one add sub pct nm inst p t ops) (Query _ e))) in
  shows d "timestamp" (Num num (now num e)) /\ shows d "uptime" (Num num (sub (now num e) (started t ops))) /\
  shows d "gather_period" (Num num (period p ops)) /\
  shows d "application.name" (Str num nm) /\ shows d "application.instance" (Str num inst).
Proof. exact (@own_values). Qed.
Print Assumptions C38_own_values_partial.
(** A gathering puts exactly that in front of the history. *)
Theorem C38_gathered : forall (num : Type) (zero one : num) add sub pct nm inst s e s',
  step num zero one add sub pct nm inst s (Query _ e) = (s', None) -> (1 <= history_length num s)%Z ->
  exists older, hist num (fst (step num zero one add sub pct nm inst s (Gather _ e))) = current num s' :: older.
Proof. exact (@gathered). Qed.
Print Assumptions C38_gathered.

Fixpoint tracked_b {num} (seen : list string) (ops : list (op num)) : bool :=
  match ops with
  | [] => true
  | Track _ k :: r => tracked_b (k :: seen) r
  | AddEndpoint _ k _ :: r => existsb (String.eqb k) seen && tracked_b seen r
  | _ :: r => tracked_b seen r
  end.
Lemma tracked_b_ok : forall num (ops : list (op num)), tracked_b [] ops = true -> tracked_first ops.
Proof.
  intros num.
  assert (A : forall (before : list (op num)) seen ops k v aft, tracked_b seen ops = true -> (ops = before ++ AddEndpoint num k v :: aft)%list ->
    In k seen \/ In (Track num k) before).
  { induction before as [|o before IH]; intros seen ops k v aft H ->.
    - cbn in H. apply andb_true_iff in H. destruct H as (H & _). apply existsb_exists in H. destruct H as (x & Hx & E).
      apply String.eqb_eq in E. subst. auto.
    - destruct o; cbn [app tracked_b] in H; try (destruct (IH seen _ k v aft H eq_refl); [auto|right; right; auto]).
      + destruct (IH _ _ k v aft H eq_refl) as [[->|Hk]|Hk]; [right; left; reflexivity|auto|right; right; auto].
      + apply andb_true_iff in H. destruct H as (_ & H). destruct (IH seen _ k v aft H eq_refl); [auto|right; right; auto]. }
  intros ops H before k v aft E. destruct (A before [] ops k v aft H E) as [[]|]; auto.
Qed.
Definition ex_ops : list (op Q) :=
  [Start _ 100; Track _ "shop.order"; AddQueue _ "queues.orders"; Increment _ "shop.sales" 5; Decrement _ "shop.sales" 2;
   AddEndpoint _ "shop.order" (1#2); AddEndpoint _ "shop.order" (3#2); Increment _ "shop.refunds" 1; Query _ env0;
   Gather _ (mkEnv _ 400 (fun _ => 7)); Increment _ "shop.sales" 4; AddEndpoint _ "shop.order" (2#1)]%Q.
Example C38_ex :
  compatible ex_ops /\ tracked_first ex_ops /\ counter ex_ops "shop.sales" /\ counter ex_ops (call_count "shop.order") /\
  value 0%Q 1%Q Qplus Qminus "shop.sales" ex_ops = Some (0 + 4)%Q /\ value 0%Q 1%Q Qplus Qminus "shop.refunds" ex_ops = Some 0%Q /\
  match hist Q (after 0%Q 1%Q Qplus Qminus percentiles "app" "0" 300%Q 0%Q ex_ops) with
  | [d] => option_map (fun t => match t with Num _ q => Qred q | _ => 0%Q end) (deep_get _ (Node _ d) ["shop"; "sales"]) = Some 3%Q /\
           deep_get _ (Node _ d) ["queues"; "orders"] = Some (Num _ 7%Q)
  | _ => False
  end.
Proof.
  split; [split|].
  - apply compat_b_ok. vm_compute. reflexivity.
  - assert (A : forallb (fun o => forallb (fun n => negb (existsb (String.eqb n) reserved) && negb (below_b "application" n)) (touched o)) ex_ops = true)
      by (vm_compute; reflexivity).
    intros o n Ho Hn Hown. rewrite forallb_forall in A. specialize (A o Ho). rewrite forallb_forall in A. specialize (A n Hn).
    apply andb_true_iff in A. destruct A as (A1 & A2). destruct Hown as [Hr|Hb].
    + replace (existsb (String.eqb n) reserved) with true in A1; [discriminate|]. symmetry. apply existsb_exists.
      exists n. split; auto. apply String.eqb_refl.
    + rewrite (below_b_ok _ _ Hb) in A2. discriminate.
  - split.
    { apply tracked_b_ok. vm_compute. reflexivity. }
    split; [|split; [|vm_compute; repeat split]].
    + split; [|split]; [intros X; cbn in X; repeat (destruct X as [X|X]; [discriminate|]); exact X| |].
      * intros X; cbn in X; repeat (destruct X as [X|X]; [discriminate|]); exact X.
      * intros k X; cbn in X; repeat (destruct X as [X|X]; [discriminate || (injection X as <-; split; vm_compute; discriminate)|]); destruct X.
    + split; [|split]; [intros X; vm_compute in X; repeat (destruct X as [X|X]; [discriminate|]); exact X| |].
      * intros X; vm_compute in X; repeat (destruct X as [X|X]; [discriminate|]); exact X.
      * intros k X; cbn in X; repeat (destruct X as [X|X]; [discriminate || (injection X as <-; split; vm_compute; discriminate)|]); destruct X.
Qed.

(** C39 *)
Definition C39_percentiles : Prop := forall l m M, is_min m l -> is_max M l ->
  (m <= fst (percentiles l) /\ fst (percentiles l) <= snd (percentiles l) /\ snd (percentiles l) <= M)%Q.
(** False of the code: the quantiles are extrapolated. Calls that took 0 and 1 seconds give a p95 of 1.85 seconds. *)
Theorem C39_percentiles_refuted : ~ C39_percentiles.
Proof.
  intros H. specialize (H [0; 1] 0 1)%Q. destruct H as (_ & _ & H).
  - split; [left; reflexivity|repeat constructor; discriminate].
  - split; [right; left; reflexivity|repeat constructor; discriminate].
  - vm_compute in H. apply H. reflexivity.
Qed.
Print Assumptions C39_percentiles_refuted.
Example C39_beyond : Qred (fst (percentiles [0; 1]%Q)) = (37#20)%Q /\ Qred (snd (percentiles [0; 1]%Q)) = (197#100)%Q.
Proof. vm_compute. auto. Qed.
(** The lower bound and the order hold always, the upper bound from 19 (p95) and 99 (p99) calls on; p99 never exceeds the
    maximum by more than 0.97 of the spread. *)
Theorem C39_percentiles_partial : forall l m M, is_min m l -> is_max M l ->
  (m <= fst (percentiles l) /\ fst (percentiles l) <= snd (percentiles l) /\
   snd (percentiles l) <= M + (97#100) * (M - m) /\
   ((19 <= List.length l)%nat -> fst (percentiles l) <= M) /\
   ((99 <= List.length l)%nat -> snd (percentiles l) <= M) /\
   (List.length l = 1%nat -> snd (percentiles l) <= M))%Q.
Proof. exact percentiles_ok. Qed.
Print Assumptions C39_percentiles_partial.
(** An endpoint that was not called, and only such a one, shows negative percentiles: -1. *)
Theorem C39_not_called : forall l, Forall (fun x => 0 <= x)%Q l ->
  ((fst (percentiles l) < 0)%Q <-> l = []) /\ ((snd (percentiles l) < 0)%Q <-> l = []) /\ (l = [] -> percentiles l = ((-1)%Q, (-1)%Q)).
Proof.
  intros l P. assert (E : l = [] -> percentiles l = ((-1)%Q, (-1)%Q)) by (intros ->; reflexivity).
  assert (MM : l <> [] -> exists m M, is_min m l /\ is_max M l).
  { clear. induction l as [|x l IH]; [congruence|]. intros _. destruct l as [|y l].
    - exists x, x. repeat split; try (now left); repeat constructor; apply Qle_refl.
    - destruct IH as (m & M & [I1 F1] & [I2 F2]); [discriminate|]. exists (if Qle_bool x m then x else m), (if Qle_bool M x then x else M).
      destruct (Qle_bool x m) eqn:E1; [apply Qle_bool_iff in E1|assert (E1' : (m <= x)%Q) by (apply Qlt_le_weak, Qnot_le_lt; intros H; apply Qle_bool_iff in H; congruence)];
      (destruct (Qle_bool M x) eqn:E2; [apply Qle_bool_iff in E2|assert (E2' : (x <= M)%Q) by (apply Qlt_le_weak, Qnot_le_lt; intros H; apply Qle_bool_iff in H; congruence)]);
      (split; (split; [first [left; reflexivity|right; assumption]|])); constructor; try apply Qle_refl; auto;
      first [eapply Forall_impl; [|exact F1]; intros z Hz; cbv beta in *; solve [eauto using Qle_trans]|eapply Forall_impl; [|exact F2]; intros z Hz; cbv beta in *; solve [eauto using Qle_trans]]. }
  assert (NN : l <> [] -> (0 <= fst (percentiles l))%Q /\ (0 <= snd (percentiles l))%Q).
  { intros N. destruct (MM N) as (m & M & Hm & HM). destruct (percentiles_ok l m M Hm HM) as (A & B & _). destruct Hm as [Hm _]. rewrite Forall_forall in P. specialize (P m Hm).
    split; [exact (Qle_trans _ _ _ P A)|exact (Qle_trans _ _ _ P (Qle_trans _ _ _ A B))]. }
  assert (D : l = [] \/ l <> []) by (destruct l; [left; reflexivity|right; discriminate]).
  split; [|split; [|exact E]]; (split; [intros H; destruct D as [D|D]; [exact D|]; destruct (NN D) as [X Y]; exfalso; eapply Qlt_not_le; eassumption|intros H; rewrite (E H); reflexivity]).
Qed.
Print Assumptions C39_not_called.
Example C39_not_called_ex : Forall (fun x => 0 <= x)%Q [0; 1]%Q /\ (fst (percentiles []) < 0)%Q.
Proof. split; [repeat constructor; discriminate|reflexivity]. Qed.
Definition calls : list Q := map (fun n => inject_Z (Z.of_nat n) / 10)%Q (seq 1 20).
Example C39_ex : is_min (1/10) calls /\ is_max (20/10) calls /\ (19 <= List.length calls)%nat /\
  Qred (fst (percentiles (rev calls))) = (399#200)%Q /\ Qred (snd (percentiles (rev calls))) = (2079#1000)%Q.
Proof.
  split; [|split; [|split; [vm_compute; lia|vm_compute; auto]]].
  - split; [left; reflexivity|]. apply Forall_forall. intros x Hx. apply Qle_bool_iff. revert x Hx. apply Forall_forall. vm_compute. repeat constructor.
  - split; [vm_compute; tauto|]. apply Forall_forall. intros x Hx. apply Qle_bool_iff. revert x Hx. apply Forall_forall. vm_compute. repeat constructor.
Qed.
