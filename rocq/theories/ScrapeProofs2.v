(** The gathered report, its translation, and all reports together. *)
From Coq Require Import String Ascii ZArith Bool Lia List.
From Verif Require Import Base RouterModel RouterSpec RouterProofs RouterProofs2 ConfigModel PromModel PromSpec PromProofs PromProofs2
  StatsModel StatsSpec StatsProofs StatsProofs2 StatsProofs3 ScrapeSpec ScrapeProofs.
Import ListNotations.
Local Open Scope list_scope.

Section Report.
Context {num : Type} (zero one : num) (add sub : num -> num -> num).
Context (pct : list num -> num * num) (nm inst : string).
Notation step := (step num zero one add sub pct nm inst).
Notation run := (run num zero one add sub pct nm inst).
Notation after p t ops := (fst (run (init num p t) ops)).
Notation get d p := (deep_get num (Node num d) p).

Lemma own_path : forall n l, path n = l -> (3 <= List.length l)%nat -> ~ In n reserved.
Proof.
  intros n l <- L X. assert (E : In (path n) (map path reserved)) by (apply in_map, X). cbn in E.
  repeat (destruct E as [E|E]; [rewrite <- E in L; cbn in L; lia|]). exact E.
Qed.
Lemma word : forall x, In x ["endpoint_data"; "buffered_endpoint_sizes"; "buffered_sender_sizes"; "call_count"; "p95"; "p99"; "pending"; "error"; "application"]%string -> dotless x.
Proof. intros x H. apply dotless_word. cbn in H. repeat (destruct H as [<-|H]; [reflexivity|]). destruct H. Qed.
Lemma number_words : forall q x, In (q, x) numbers -> dotless q /\ dotless x.
Proof.
  intros q x H. cbn in H. repeat (destruct H as [H|H]; [injection H as <- <-; split; apply dotless_word; reflexivity|]). destruct H.
Qed.
Lemma nn : forall (x : string) l, x :: l <> [].
Proof. discriminate. Qed.
Lemma in_N : forall (ops : list (op num)) l, In l (N ops) -> exists n, path n = l /\ In n (all_names ops).
Proof. intros ops l H. unfold N, NS in H. apply in_map_iff in H. destruct H as (n & <- & H). eauto. Qed.

Lemma typed : forall p t ops e s', compatible ops -> tracked_first ops -> laid_out ops ->
  step (after p t ops) (Query _ e) = (s', None) -> unique_keys (Node _ (current num s')) /\ well_typed (current num s').
Proof.
  intros p t ops e s' HC HT HL HS.
  assert (U : unique_keys (Node _ (current num s'))).
  { pose proof (uk_step zero one add sub pct nm inst (after p t ops) (Query _ e)) as X. rewrite HS in X. apply X.
    apply uk_run. apply uk_nil. }
  destruct (run_ok zero one add sub pct nm inst ops HC HT p t ops [] (eq_sym (app_nil_r ops))) as (I & _).
  destruct (update_ok zero one add sub pct nm inst ops HC _ ops e I (incl_refl _)) as (s1 & E & I' & _ & _ & _ & _ & _ & _ & _ & R).
  cbn [StatsModel.step] in HS. rewrite E in HS. injection HS as ->. split; [exact U|].
  pose proof (I_good _ _ _ _ _ _ _ I') as G.
  assert (FOUR : forall q g ep x u, In (q, x) numbers ->
    PromSpec.path (current num s') [q; g; ep; x] u -> is_number u).
  { intros q g ep x u Hq P. apply path_get in P; [|exact U]. destruct P as (_ & P). pose proof (G _ _ (nn _ _) P) as F.
    destruct (number_words q x Hq) as (Dq & Dx).
    assert (LEAF : In [q; g; ep; x] (N ops) -> is_number u).
    { intros X. destruct (in_N ops _ X) as (n & En & Hn).
      apply (I_num _ _ _ _ _ _ _ I' n u Hn); [eapply own_path; [exact En|cbn; lia]|]. rewrite En. exact P. }
    destruct u as [v|v|d]; cbn [fits] in F; [apply LEAF, F|apply LEAF, F|].
    exfalso. destruct F as (r & Hr & X). destruct (in_N ops _ X) as (n & En & Hn).
    assert (Dg : dotless g) by (apply (path_elems n); rewrite En; cbn; auto). assert (De : dotless ep) by (apply (path_elems n); rewrite En; cbn; auto).
    apply (proj2 (HL n Hn) q g ep x Hq Dg De). apply below_path. exists r. rewrite path_four by assumption. auto. }
  assert (DICT : forall k u, In k ("application"%string :: sections) -> PromSpec.path (current num s') [k] u -> is_dict u).
  { intros k u Hk P. apply path_get in P; [|exact U]. destruct P as (_ & P). pose proof (G _ _ (nn _ _) P) as F.
    assert (LEAF : ~ In [k] (N ops)).
    { intros X. destruct (in_N ops _ X) as (n & En & Hn). apply path_single in En. destruct En as (-> & _). destruct Hk as [<-|Hk].
      - apply (proj1 HC "application" "application.name")%string; [exact Hn|apply in_or_app; left; cbn; auto|exists "name"%string; reflexivity].
      - exact (proj1 (HL k Hn) Hk). }
    destruct u as [v|v|d]; cbn [fits] in F; [exfalso; exact (LEAF F)|exfalso; exact (LEAF F)|eexists; reflexivity]. }
  constructor.
  - intros k u Hk. apply DICT. exact Hk.
  - intros k u Hk P. apply path_get in P; [|exact U]. destruct P as (_ & P).
    assert (X : exists v, get (current num s') (path k) = Some (Num num v)).
    { destruct Hk as [<-|[<-|[]]]; eexists; apply R; cbn; eauto. }
    destruct X as (v & X). replace (path k) with [k] in X by (destruct Hk as [<-|[<-|[]]]; reflexivity). exists v. congruence.
  - intros g ep x u Hx. apply FOUR. cbn in Hx |- *. repeat (destruct Hx as [<-|Hx]; [tauto|]). destruct Hx.
  - intros q g ep x u Hq Hx. apply FOUR. cbn in Hq, Hx |- *. repeat (destruct Hq as [<-|Hq]; [repeat (destruct Hx as [<-|Hx]; [tauto|]); destruct Hx|]). destruct Hq.
Qed.
Lemma reporter : forall p t ops e s' s0 i0, compatible ops -> tracked_first ops -> laid_out ops ->
  step (after p t ops) (Query _ e) = (s', None) -> from (current num s') s0 i0 nm inst.
Proof.
  intros p t ops e s' s0 i0 HC HT HL HS. destruct (typed p t ops e s' HC HT HL HS) as (U & _).
  pose proof (own_values zero one add sub pct nm inst p t ops e HC HT) as (_ & _ & _ & A & B). rewrite HS in A, B. cbn [fst] in A, B.
  split; apply says_so; (apply path_get; [exact U|split; [discriminate|]]); apply shows_get in A, B; [exact A|exact B].
Qed.

(** The newest report. *)
Lemma len_step : forall s o, keeps_reports o -> (1 <= history_length num s)%Z -> (1 <= history_length num (fst (step s o)))%Z.
Proof.
  intros s o K H. assert (X : (forall e, o <> Gather _ e) -> no_length_change o -> (1 <= history_length num (fst (step s o)))%Z).
  { intros G L. rewrite (proj2 (other_hist zero one add sub pct nm inst s o G L)). exact H. }
  destruct o; try (apply X; [discriminate|exact I]).
  - rewrite (proj1 (gather_hist zero one add sub pct nm inst s e)). exact H.
  - exact K.
Qed.
Lemma len_run : forall ops s, Forall keeps_reports ops -> (1 <= history_length num s)%Z -> (1 <= history_length num (fst (run s ops)))%Z.
Proof.
  induction ops as [|o ops IH]; intros s F H; [exact H|]. inversion F; subst. rewrite run_cons. apply IH; [assumption|]. apply len_step; assumption.
Qed.
Lemma hist_later : forall ops s, no_gather ops -> hist num (fst (run s ops)) = hist num s.
Proof.
  induction ops as [|o ops IH]; intros s H; [reflexivity|]. apply no_gather_tail in H. destruct H as (H & Ho). rewrite run_cons, IH by exact H.
  destruct o; try (exact (proj1 (other_hist zero one add sub pct nm inst s _ Ho I))). reflexivity.
Qed.
Lemma run_app : forall a b s, fst (run s (a ++ b)) = fst (run (fst (run s a)) b).
Proof. induction a as [|o a IH]; intros b s; [reflexivity|]. cbn [app]. rewrite !run_cons. apply IH. Qed.
Lemma newest : forall p t ops e later s', Forall keeps_reports ops -> no_gather later -> step (after p t ops) (Query _ e) = (s', None) ->
  forall e', eco_statistics_get num sub pct nm inst "gathered" e' (after p t (ops ++ Gather _ e :: later)) = inr (current num s').
Proof.
  intros p t ops e later s' F NG HS e'. rewrite run_app, run_cons. unfold eco_statistics_get. cbn [String.eqb Ascii.eqb Bool.eqb].
  rewrite hist_later by exact NG.
  destruct (gathered zero one add sub pct nm inst (after p t ops) e s' HS) as (older & E).
  - apply len_run; [exact F|]. cbn. lia.
  - rewrite E. reflexivity.
Qed.

Context (nonneg : num -> bool) (float_of : string -> option num) (show : tree num -> string).
Context (tally : nat -> num) (T : counts zero one add tally).
Notation translate := (translate_gathered_stats num nonneg float_of show).

Lemma calls_metric : forall p t ops e s' s0 i0 exclude g ep n v, compatible ops -> tracked_first ops -> laid_out ops ->
  dotless g -> dotless ep -> ~ In g exclude -> In (Track _ (g ++ "." ++ ep)%string) ops -> only_calls (g ++ "." ++ ep)%string ops ->
  calls (g ++ "." ++ ep)%string ops n -> step (after p t ops) (Query _ e) = (s', None) ->
  (In ("ekosis_endpoint_call_count", v, [("service", nm); ("instance", inst); ("group", g); ("endpoint", ep)])%string
      (fst (translate (current num s') s0 i0 exclude)) <-> v = tally n).
Proof.
  intros p t ops e s' s0 i0 exclude g ep n v HC HT HL Dg De Hg Tr OC Cn HS.
  destruct (typed p t ops e s' HC HT HL HS) as (U & W). pose proof (reporter p t ops e s' s0 i0 HC HT HL HS) as F.
  rewrite (translate_exact nonneg float_of show _ s0 i0 nm inst exclude _ U F (translate_none nonneg float_of show _ s0 i0 exclude U W)).
  destruct (queried zero one add sub pct nm inst p t ops e HC HT) as (s1 & E1 & Q & _). rewrite HS in E1. injection E1 as <-.
  specialize (Q (call_count (g ++ "." ++ ep)) (tally n) (only_counter _ _ OC)).
  assert (V : value zero one add sub (call_count (g ++ "." ++ ep)) ops = Some (tally n)).
  { apply calls_ncalls in Cn. subst n. destruct (value_calls zero one add sub tally T _ _ OC) as [V|(_ & _ & X)]; [exact V|contradiction]. }
  apply Q in V. apply shows_get in V. rewrite (call_count_two g ep Dg De) in V.
  assert (P : PromSpec.path (current num s') ["endpoint_data"; g; ep; "call_count"]%string (Num num (tally n))) by (apply path_get; [exact U|split; [discriminate|exact V]]).
  split.
  - intros X. inversion X as [| |g' e' u v' Pu Hg' Nu| | | | | | |k ks v' Pk Hk E]; subst.
    + apply path_get in Pu; [|exact U]. destruct Pu as (_ & Pu). rewrite V in Pu. injection Pu as <-. inversion Nu. reflexivity.
  - intros ->. apply (exp_calls nonneg float_of _ _ _ _ g ep _ _ P Hg). constructor.
Qed.

Lemma no_other_metric : forall p t ops e s' s0 i0 exclude v l, compatible ops -> tracked_first ops -> laid_out ops ->
  step (after p t ops) (Query _ e) = (s', None) ->
  In ("ekosis_endpoint_call_count"%string, v, l) (fst (translate (current num s') s0 i0 exclude)) ->
  exists g ep, l = [("service", nm); ("instance", inst); ("group", g); ("endpoint", ep)]%string /\ ~ In g exclude /\
    In (call_count (g ++ "." ++ ep)) (all_names ops).
Proof.
  intros p t ops e s' s0 i0 exclude v l HC HT HL HS X.
  destruct (typed p t ops e s' HC HT HL HS) as (U & W). pose proof (reporter p t ops e s' s0 i0 HC HT HL HS) as F.
  rewrite (translate_exact nonneg float_of show _ s0 i0 nm inst exclude _ U F (translate_none nonneg float_of show _ s0 i0 exclude U W)) in X.
  destruct (run_ok zero one add sub pct nm inst ops HC HT p t ops [] (eq_sym (app_nil_r ops))) as (I & _).
  destruct (update_ok zero one add sub pct nm inst ops HC _ ops e I (incl_refl _)) as (s1 & E & I' & _).
  cbn [StatsModel.step] in HS. rewrite E in HS. injection HS as ->.
  inversion X as [| |g ep u v' Pu Hg Nu| | | | | | |k ks v' Pk Hk E2]; subst.
  - exists g, ep. split; [reflexivity|]. split; [exact Hg|]. pose proof Pu as Pg. apply path_get in Pg; [|exact U]. destruct Pg as (_ & Pg).
    pose proof (I_good _ _ _ _ _ _ _ I' _ _ (nn _ _) Pg) as Ft.
    assert (ND : ~ is_dict u).
    { intros (d & ->). inversion Nu. }
    assert (H : In ["endpoint_data"; g; ep; "call_count"]%string (N ops)).
    { destruct u as [x|x|x]; [exact Ft|exact Ft|exfalso; apply ND; eexists; reflexivity]. }
    destruct (in_N ops _ H) as (n & En & Hn).
    assert (Dg : dotless g) by (apply (path_elems n); rewrite En; cbn; auto). assert (De : dotless ep) by (apply (path_elems n); rewrite En; cbn; auto).
    rewrite <- (call_count_two g ep Dg De) in En. apply path_inj in En. subst n. exact Hn.
Qed.

Lemma other_metrics : forall p t ops e s' s0 i0 exclude, compatible ops -> tracked_first ops -> laid_out ops ->
  step (after p t ops) (Query _ e) = (s', None) ->
  let ms := fst (translate (current num s') s0 i0 exclude) in
  snd (translate (current num s') s0 i0 exclude) = None /\
  In ("ekosis_uptime_seconds", sub (now num e) (started t ops), [("service", nm); ("instance", inst)])%string ms /\
  In ("ekosis_gather_period_seconds", period p ops, [("service", nm); ("instance", inst)])%string ms /\
  forall g ep, dotless g -> dotless ep -> ~ In g exclude -> let k := (g ++ "." ++ ep)%string in In (Track _ k) ops ->
    ~ In (AddQueue _ (p95 k)) ops -> ~ In (AddQueue _ (p99 k)) ops ->
    (nonneg (fst (pct (recorded k ops))) = true ->
     In ("ekosis_endpoint_p95_seconds", fst (pct (recorded k ops)), [("service", nm); ("instance", inst); ("group", g); ("endpoint", ep)])%string ms) /\
    (nonneg (snd (pct (recorded k ops))) = true ->
     In ("ekosis_endpoint_p99_seconds", snd (pct (recorded k ops)), [("service", nm); ("instance", inst); ("group", g); ("endpoint", ep)])%string ms).
Proof.
  intros p t ops e s' s0 i0 exclude HC HT HL HS.
  destruct (typed p t ops e s' HC HT HL HS) as (U & W). pose proof (reporter p t ops e s' s0 i0 HC HT HL HS) as F. cbv zeta.
  pose proof (translate_none nonneg float_of show (current num s') s0 i0 exclude U W) as TN. split; [exact TN|].
  pose proof (fun m => translate_exact nonneg float_of show (current num s') s0 i0 nm inst exclude m U F TN) as TE.
  pose proof (own_values zero one add sub pct nm inst p t ops e HC HT) as (_ & A & B & _). rewrite HS in A, B. cbn [fst] in A, B. apply shows_get in A, B.
  split; [|split].
  - apply TE. eapply exp_uptime; [apply path_get; [exact U|split; [discriminate|exact A]]|constructor].
  - apply TE. eapply exp_period; [apply path_get; [exact U|split; [discriminate|exact B]]|constructor].
  - intros g ep Dg De Hg Tr Q5 Q9. destruct (queried zero one add sub pct nm inst p t ops e HC HT) as (s1 & E1 & _ & _ & Q). rewrite HS in E1. injection E1 as <-.
    destruct (Q _ Tr Q5 Q9) as (V5 & V9). apply shows_get in V5, V9. rewrite (p95_two g ep Dg De) in V5. rewrite (p99_two g ep Dg De) in V9. split; intros NN; apply TE.
    + apply exp_p95; [apply path_get; [exact U|split; [discriminate|exact V5]]|exact Hg|exact NN].
    + apply exp_p99; [apply path_get; [exact U|split; [discriminate|exact V9]]|exact Hg|exact NN].
Qed.

(** All reports. *)
Notation reports := (reports zero one add sub pct nm inst).
Lemma reports_snoc : forall ops s o, reports s (ops ++ [o]) = reports s ops ++
  match o with Gather _ e => match step (fst (run s ops)) (Query _ e) with (q, None) => [current num q] | (_, Some _) => [] end | _ => [] end.
Proof.
  induction ops as [|a ops IH]; intros s o.
  - cbn [app StatsSpec.reports]. change (fst (run s [])) with s. destruct o; reflexivity.
  - cbn [app]. rewrite run_cons. cbn [StatsSpec.reports]. rewrite IH. destruct a; try reflexivity. destruct (step s (Query _ e)) as (q, [x|]); reflexivity.
Qed.
Lemma compatible_prefix : forall a b : list (op num), compatible (a ++ b) -> compatible a.
Proof.
  intros a b (H1 & H2). split.
  - intros x y Hx Hy. apply H1; unfold all_names in *; rewrite flat_map_app, in_app_iff in *; rewrite in_app_iff; tauto.
  - intros o n Ho Hn. apply (H2 o n); [apply in_or_app; auto|exact Hn].
Qed.
Lemma tracked_prefix : forall a b : list (op num), tracked_first (a ++ b) -> tracked_first a.
Proof. intros a b H before k v aft E. apply (H before k v (aft ++ b)). rewrite E, <- app_assoc. reflexivity. Qed.
Lemma only_prefix : forall k (a b : list (op num)), only_calls k (a ++ b) -> only_calls k a.
Proof. intros k a b H o Ho. apply H, in_or_app. auto. Qed.
Lemma all_reports : forall k p t ops, compatible ops -> tracked_first ops -> only_calls k ops ->
  exists ns, Forall2 (says_calls tally k) (reports (init num p t) ops) ns /\ (list_sum ns + ncalls k ops)%nat = total k ops.
Proof.
  intros k p t. induction ops as [|o ops IH] using rev_ind; intros HC HT OC.
  - exists []. split; [constructor|reflexivity].
  - pose proof (compatible_prefix _ _ HC) as HC'. pose proof (tracked_prefix _ _ HT) as HT'. pose proof (only_prefix _ _ _ OC) as OC'.
    destruct (IH HC' HT' OC') as (ns & F & S). rewrite reports_snoc, ncalls_snoc, total_app.
    assert (KEEP : match o with Gather _ _ => False | _ => True end -> exists ns0, Forall2 (says_calls tally k) (reports (init num p t) ops ++ []) ns0 /\
      (list_sum ns0 + call1 k (ncalls k ops) o)%nat = (total k ops + total k [o])%nat).
    { intros K. exists ns. rewrite app_nil_r. split; [exact F|]. destruct o; cbn [call1 total]; try lia. destruct (String.eqb key k); lia. }
    destruct o; try (apply KEEP; exact I).
    destruct (queried zero one add sub pct nm inst p t ops e HC' HT') as (s1 & E1 & Q & _). rewrite E1.
    exists (ns ++ [ncalls k ops]). split.
    + apply Forall2_app; [exact F|]. constructor; [|constructor].
      destruct (value_calls zero one add sub tally T k ops OC') as [V|(V & V0 & _)].
      * left. apply Q; [apply only_counter, OC'|exact V].
      * right. split; [exact V0|]. intros v Hv. apply Q in Hv; [congruence|apply only_counter, OC'].
    + rewrite list_sum_app. cbn [list_sum fold_right call1 total]. unfold list_sum in *. lia.
Qed.
End Report.
