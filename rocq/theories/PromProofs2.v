(** Proofs about reports and scrapes. *)
From Coq Require Import String Ascii ZArith Bool Lia List.
From Verif Require Import Base RouterModel RouterSpec RouterProofs RouterProofs2 StatsModel ConfigModel PromModel PromSpec PromProofs.
Import ListNotations.
Local Open Scope string_scope.

Section Proofs.
Set Default Proof Using "Type".
Context {num : Type} (zero one : num) (nonneg : num -> bool) (float_of : string -> option num) (show : tree num -> string).
Context (name_ok : string -> bool).
Notation tree := (tree num). Notation dict := (dict num).
Notation gen := (gen num). Notation yields g m := (In m (fst (g : gen))).
Notation translate := (translate_gathered_stats num nonneg float_of show).
Notation expected := (expected nonneg float_of).
Notation get_dict := (get_dict num). Notation identity := (identity num show).

Lemma get_dict_section : forall (r : dict) q d, unique_keys (Node _ r) -> get_dict r q = Ok d ->
  unique_keys (Node _ d) /\ (forall ks t, path r (q :: ks) t /\ ks <> [] <-> path d ks t).
Proof.
  intros r q d U H. apply unique_node in U. destruct U as (N & U). unfold PromModel.get_dict in H. destruct (sget q r) as [t|] eqn:E.
  - destruct t as [|s|d']; try discriminate. injection H as ->. apply sget_path in E; auto. split; [apply (U _ _ E)|].
    intros ks t. split.
    + intros (P & ne). inversion P as [? ? t0 Ht|? ? d' ks' t0 Ht P']; subst; [congruence|].
      apply sget_path in Ht; auto. apply sget_path in E; auto. congruence.
    + intros P. split; [eapply path_below; eauto|]. inversion P; discriminate.
  - injection H as <-. split; [constructor; [constructor|intros k t []]|]. intros ks t. split.
    + intros (P & ne). exfalso. inversion P as [? ? t0 Ht|? ? d' ks' t0 Ht P']; subst; [congruence|]. apply sget_path in Ht; auto. congruence.
    + intros P. exfalso. inversion P as [? ? ? Hx|? ? ? ? ? Hx]; subst; destruct Hx.
Qed.
Lemma says_get : forall (app : dict) r key fb s, unique_keys (Node _ r) -> get_dict r "application" = Ok app -> says r key fb s ->
  match sget key app with Some t => str num show t | None => fb end = s.
Proof.
  intros app r key fb s U H S. destruct (get_dict_section r "application" app U H) as (Ua & P). apply unique_node in Ua. destruct Ua as (Na & _).
  inversion S as [s' Hp|Hn]; subst.
  - assert (Q : path app [key] (Str _ s)) by (apply P; split; [auto|discriminate]). apply path1, sget_path in Q; auto. rewrite Q. reflexivity.
  - destruct (sget key app) as [t|] eqn:E; auto. apply sget_path in E; auto. exfalso. apply (Hn t). apply P. apply path_here. auto.
Qed.
Lemma identity_from : forall (r app : dict) s0 i0 s i, unique_keys (Node _ r) -> get_dict r "application" = Ok app -> from r s0 i0 s i ->
  identity r s0 i0 = Ok (s, i).
Proof.
  intros r app s0 i0 s i U H (F1 & F2). unfold PromModel.identity. rewrite H. cbn [bind].
  rewrite (says_get app r "name" s0 s U H F1), (says_get app r "instance" i0 i U H F2). reflexivity.
Qed.

Lemma seq_both : forall (a b : gen) m, snd (seq _ a b) = None -> snd a = None /\ snd b = None /\ (yields (seq _ a b) m <-> yields a m \/ yields b m).
Proof. intros a b m H. pose proof H as H0. apply seq_none in H0. destruct H0 as (A & B). split; [exact A|split; [exact B|apply seq_yields; exact H]]. Qed.

Lemma translate_exact : forall r s0 i0 s i ex m, unique_keys (Node _ r) -> from r s0 i0 s i -> snd (translate r s0 i0 ex) = None ->
  (yields (translate r s0 i0 ex) m <-> expected r s i ex m).
Proof.
  intros r s0 i0 s i ex m U F H. unfold translate_gathered_stats in *.
  destruct (get_dict r "application") as [app|e] eqn:A.
  2: { unfold PromModel.identity in H. rewrite A in H. discriminate. }
  rewrite (identity_from r app s0 i0 s i U A F) in *. cbv zeta in *. set (l := [("service", s); ("instance", i)]) in *.
  destruct (seq_both _ _ m H) as (_ & H1 & ->). destruct (seq_both _ _ m H1) as (_ & H2 & ->). destruct (seq_both _ _ m H2) as (E3 & H3 & ->).
  destruct (seq_both _ _ m H3) as (E4 & H4 & ->). destruct (seq_both _ _ m H4) as (E5 & _ & ->). clear H H1 H2 H3 H4.
  pose proof (unique_node _ U) as (N & _).
  rewrite !emit_key_yields by exact N. rewrite custom_yields.
  destruct (get_dict r "endpoint_data") as [d3|e] eqn:G3; [|discriminate]. destruct (get_dict_section r _ d3 U G3) as (U3 & P3).
  destruct (get_dict r "buffered_endpoint_sizes") as [d4|e] eqn:G4; [|discriminate]. destruct (get_dict_section r _ d4 U G4) as (U4 & P4).
  destruct (get_dict r "buffered_sender_sizes") as [d5|e] eqn:G5; [|discriminate]. destruct (get_dict_section r _ d5 U G5) as (U5 & P5).
  rewrite endpoint_yields by assumption. rewrite !queue_yields by assumption.
  assert (Q : forall q d, (forall ks t, path r (q :: ks) t /\ ks <> [] <-> path d ks t) -> forall g e k t, path d [g; e; k] t <-> path r [q; g; e; k] t).
  { intros q d P g e k t. rewrite <- P. split; [intros (X & _); exact X|]. intros X. split; [exact X|discriminate]. }
  pose proof (Q _ _ P3) as Q3. pose proof (Q _ _ P4) as Q4. pose proof (Q _ _ P5) as Q5. clear P3 P4 P5 Q.
  split.
  - intros [(t & v & H1 & H2 & ->)|[(t & v & H1 & H2 & ->)|[(g & e & v & X & H)|[(g & e & t & v & X & V & H)|[(g & e & t & v & X & V & H)|(k & ks & v & H1 & H2 & ->)]]]]].
    + eapply exp_uptime; [apply path1; exact H1|auto].
    + eapply exp_period; [apply path1; exact H1|auto].
    + destruct H as [(t & P & V & ->)|[(P & V & ->)|(P & V & ->)]]; apply Q3 in P; [eapply exp_calls|eapply exp_p95|eapply exp_p99]; eauto.
    + destruct H as [(P & ->)|(P & ->)]; apply Q4 in P; [eapply exp_handler_pending|eapply exp_handler_error]; eauto.
    + destruct H as [(P & ->)|(P & ->)]; apply Q5 in P; [eapply exp_sender_pending|eapply exp_sender_error]; eauto.
    + apply exp_custom; auto.
  - intros H. destruct H as [t v P V|t v P V|g e t v P X V|g e v P X V|g e v P X V|g e t v P X V|g e t v P X V|g e t v P X V|g e t v P X V|k ks v P X].
    + left. exists t, v. rewrite path1 in P. auto.
    + right; left. exists t, v. rewrite path1 in P. auto.
    + right; right; left. exists g, e, v. split; auto. left. exists t. rewrite Q3. auto.
    + right; right; left. exists g, e, v. split; auto. right; left. rewrite Q3. auto.
    + right; right; left. exists g, e, v. split; auto. right; right. rewrite Q3. auto.
    + do 3 right; left. exists g, e, t, v. split; auto. split; auto. left. rewrite Q4. auto.
    + do 3 right; left. exists g, e, t, v. split; auto. split; auto. right. rewrite Q4. auto.
    + do 4 right; left. exists g, e, t, v. split; auto. split; auto. left. rewrite Q5. auto.
    + do 4 right; left. exists g, e, t, v. split; auto. split; auto. right. rewrite Q5. auto.
    + do 5 right. exists k, ks, v. auto.
Qed.

Lemma emit_key_none : forall (d : dict) k n l, NoDup (map fst d) -> (forall t, In (k, t) d -> is_number t) -> snd (emit_key num float_of d k n l) = None.
Proof.
  intros d k n l N H. unfold emit_key. destruct (sget k d) as [t|] eqn:E; [|reflexivity]. apply sget_path in E; auto.
  destruct (H t E) as (v & ->). reflexivity.
Qed.
Lemma percentile_none : forall (d : dict) k n l, NoDup (map fst d) -> (forall t, In (k, t) d -> is_number t) ->
  snd (emit_percentile num nonneg d k n l) = None.
Proof.
  intros d k n l N H. unfold emit_percentile. destruct (sget k d) as [t|] eqn:E; [|reflexivity]. apply sget_path in E; auto.
  destruct (H t E) as (v & ->). destruct (nonneg v); reflexivity.
Qed.
Lemma get_dict_ok : forall (r : dict) k, NoDup (map fst r) -> (forall t, path r [k] t -> is_dict t) -> exists d, get_dict r k = Ok d.
Proof.
  intros r k N H. unfold PromModel.get_dict. destruct (sget k r) as [t|] eqn:E; [|eauto]. apply sget_path in E; auto.
  destruct (H t) as (d & ->); [apply path_here; auto|]. eauto.
Qed.
Lemma translate_none : forall r s0 i0 ex, unique_keys (Node _ r) -> well_typed r -> snd (translate r s0 i0 ex) = None.
Proof.
  intros r s0 i0 ex U [W1 W2 W3 W4]. pose proof (unique_node _ U) as (N & _). unfold translate_gathered_stats.
  assert (Gd : forall k, In k ["application"; "endpoint_data"; "buffered_endpoint_sizes"; "buffered_sender_sizes"] -> exists d, get_dict r k = Ok d).
  { intros k Hk. apply get_dict_ok; auto. intros t. apply W1. auto. }
  destruct (Gd "application") as (app & A); [cbn; auto|]. unfold PromModel.identity. rewrite A. cbn [bind].
  set (s := match sget "name" app with Some t => str num show t | None => s0 end).
  set (i := match sget "instance" app with Some t => str num show t | None => i0 end). cbv zeta.
  set (l := [("service", s); ("instance", i)]).
  rewrite !seq_none. split; [|split; [|split; [|split; [|split]]]].
  - apply emit_key_none; auto. intros t H. apply (W2 "uptime"); [cbn; auto|apply path_here; auto].
  - apply emit_key_none; auto. intros t H. apply (W2 "gather_period"); [cbn; auto|apply path_here; auto].
  - destruct (Gd "endpoint_data") as (d & G); [cbn; auto|]. rewrite G. destruct (get_dict_section r _ d U G) as (Ud & P).
    unfold endpoint_metrics. apply each_none. intros (g, eps) Hg. destruct (excluded ex g); [reflexivity|]. destruct eps as [|x|eps]; try reflexivity.
    apply unique_node in Ud. destruct Ud as (Nd & Ud). pose proof (Ud _ _ Hg) as Ug. apply unique_node in Ug. destruct Ug as (Ng & Ug).
    apply each_none. intros (e, da) He. destruct da as [|x|da]; try reflexivity. pose proof (Ug _ _ He) as Ue. apply unique_node in Ue. destruct Ue as (Ne & _).
    assert (X : forall k t, In k ["call_count"; "p95"; "p99"] -> In (k, t) da -> is_number t).
    { intros k t Hk Ht. apply (W3 g e k); auto. apply P. apply path3. exists eps, da. auto. }
    rewrite !seq_none. split; [|split]; [apply emit_key_none|apply percentile_none|apply percentile_none]; auto; intros t Ht; eapply X; eauto; cbn; auto.
  - destruct (Gd "buffered_endpoint_sizes") as (d & G); [cbn; auto|]. rewrite G. destruct (get_dict_section r _ d U G) as (Ud & P).
    unfold iter_queue_groups. apply each_none. intros (g, eps) Hg. destruct (excluded ex g); [reflexivity|]. destruct eps as [|x|eps]; try reflexivity.
    apply unique_node in Ud. destruct Ud as (Nd & Ud). pose proof (Ud _ _ Hg) as Ug. apply unique_node in Ug. destruct Ug as (Ng & Ug).
    apply each_none. intros (e, da) He. destruct da as [|x|da]; try reflexivity. pose proof (Ug _ _ He) as Ue. apply unique_node in Ue. destruct Ue as (Ne & _).
    assert (X : forall k t, In k ["pending"; "error"] -> In (k, t) da -> is_number t).
    { intros k t Hk Ht. apply (W4 "buffered_endpoint_sizes" g e k); auto; [cbn; auto|]. apply P. apply path3. exists eps, da. auto. }
    rewrite !seq_none. split; apply emit_key_none; auto; intros t Ht; eapply X; eauto; cbn; auto.
  - destruct (Gd "buffered_sender_sizes") as (d & G); [cbn; auto|]. rewrite G. destruct (get_dict_section r _ d U G) as (Ud & P).
    unfold iter_queue_groups. apply each_none. intros (g, eps) Hg. destruct (excluded ex g); [reflexivity|]. destruct eps as [|x|eps]; try reflexivity.
    apply unique_node in Ud. destruct Ud as (Nd & Ud). pose proof (Ud _ _ Hg) as Ug. apply unique_node in Ug. destruct Ug as (Ng & Ug).
    apply each_none. intros (e, da) He. destruct da as [|x|da]; try reflexivity. pose proof (Ug _ _ He) as Ue. apply unique_node in Ue. destruct Ue as (Ne & _).
    assert (X : forall k t, In k ["pending"; "error"] -> In (k, t) da -> is_number t).
    { intros k t Hk Ht. apply (W4 "buffered_sender_sizes" g e k); auto; [cbn; auto|]. apply P. apply path3. exists eps, da. auto. }
    rewrite !seq_none. split; apply emit_key_none; auto; intros t Ht; eapply X; eauto; cbn; auto.
  - reflexivity.
Qed.

(** The registry *)
Lemma labels_eqb_eq : forall a b, labels_eqb a b = true <-> a = b.
Proof.
  induction a as [|(k, v) a IH]; intros [|(k2, v2) b]; cbn [labels_eqb]; try (split; congruence).
  rewrite !andb_true_iff, IH, !String.eqb_eq. split; [intros ((-> & ->) & ->); auto|intros H; injection H as -> -> ->; auto].
Qed.
Lemma key_eqb_eq : forall a b, key_eqb a b = true <-> a = b.
Proof.
  intros (a1, a2) (b1, b2). unfold key_eqb. cbn [fst snd]. rewrite andb_true_iff, String.eqb_eq, labels_eqb_eq.
  split; [intros (-> & ->); auto|intros H; injection H as -> ->; auto].
Qed.
Lemma key_eqb_neq : forall a b, key_eqb a b = false <-> a <> b.
Proof. intros a b. rewrite <- key_eqb_eq. destruct (key_eqb a b); split; congruence. Qed.
Lemma names_eqb_refl : forall a, names_eqb a a = true.
Proof. induction a as [|x a IH]; cbn [names_eqb]; auto. rewrite String.eqb_refl. auto. Qed.
Lemma sample_set : forall k k' v (s : samples num), sample num k (set_sample num k' v s) = if key_eqb k k' then Some v else sample num k s.
Proof.
  intros k k' v s. unfold set_sample. cbn [sample]. destruct (key_eqb k k') eqn:E; auto. apply key_eqb_neq in E.
  induction s as [|(k2, v2) s IH]; [reflexivity|]. cbn [filter fst]. destruct (key_eqb k' k2) eqn:E2; cbn [negb].
  - apply key_eqb_eq in E2. subst k2. cbn [sample]. replace (key_eqb k k') with false by (symmetry; apply key_eqb_neq; auto). exact IH.
  - cbn [sample]. rewrite IH. reflexivity.
Qed.

Definition four : list string :=
  ["ekosis_endpoint_call_count"; "ekosis_endpoint_p95_seconds"; "ekosis_endpoint_p99_seconds"; "ekosis_buffered_endpoint_queue_pending";
   "ekosis_buffered_endpoint_queue_error"; "ekosis_buffered_sender_queue_pending"; "ekosis_buffered_sender_queue_error"].
Definition lnames (n : string) : list string :=
  if existsb (String.eqb n) four then ["service"; "instance"; "group"; "endpoint"] else ["service"; "instance"].
Definition gauges_ok (r : registry num) : Prop := forall n ns, sget n (gauges num r) = Some ns -> ns = lnames n.
Notation mkey m := (fst (fst m), snd m).
Definition lastv (k : sample_key) (ms : list (metric num)) (a : option num) : option num :=
  fold_left (fun a m => if key_eqb k (mkey m) then Some (snd (fst m)) else a) ms a.
Lemma add_metrics_ok : forall ms r, gauges_ok r -> Forall (fun m => map fst (snd m) = lnames (fst (fst m)) /\ name_ok (fst (fst m)) = true) ms ->
  exists r', add_metrics num name_ok r ms = (r', None) /\ gauges_ok r' /\ forall k, sample num k (values num r') = lastv k ms (sample num k (values num r)).
Proof.
  induction ms as [|((n, v), l) ms IH]; intros r G F.
  - exists r. split; [reflexivity|]. auto.
  - inversion F as [|? ? (L & O) F2]; subst. cbn [fst snd] in L, O. cbn [add_metrics]. unfold add_metric.
    assert (X : forall r1, gauges_ok r1 -> values num r1 = values num r ->
      exists r', add_metrics num name_ok (set_value num (n, l) v r1) ms = (r', None) /\ gauges_ok r' /\
        forall k, sample num k (values num r') = lastv k ((n, v, l) :: ms) (sample num k (values num r))).
    { intros r1 G1 V1. destruct (IH (set_value num (n, l) v r1)) as (r' & E & G' & S); auto. exists r'. split; auto. split; auto.
      intros k. rewrite S. unfold lastv. cbn [fold_left fst snd]. cbn [set_value values]. rewrite sample_set, V1. reflexivity. }
    destruct (sget n (gauges num r)) as [ns|] eqn:E.
    + pose proof (G n ns E) as ->. rewrite L, names_eqb_refl. apply X; auto.
    + rewrite O. apply X; [|reflexivity]. intros n2 ns2. cbn [gauges]. rewrite sget_sset. destruct (String.eqb_spec n2 n) as [->|]; [congruence|apply G].
Qed.
Lemma lastv_none : forall k ms a, (forall m, In m ms -> mkey m <> k) -> lastv k ms a = a.
Proof.
  intros k. unfold lastv. induction ms as [|m ms IH]; intros a H; [reflexivity|]. cbn [fold_left].
  destruct (key_eqb k (mkey m)) eqn:E; [|apply IH; intros m2 H2; apply H; cbn; auto]. apply key_eqb_eq in E. exfalso. apply (H m); cbn; auto.
Qed.
Lemma lastv_some : forall k v ms a, (exists m, In m ms /\ mkey m = k) -> (forall m, In m ms -> mkey m = k -> snd (fst m) = v) -> lastv k ms a = Some v.
Proof.
  intros k v ms. induction ms as [|m ms IH] using rev_ind; intros a (m0 & I & K) H; [destruct I|].
  unfold lastv. rewrite fold_left_app. cbn [fold_left]. destruct (key_eqb k (mkey m)) eqn:E.
  - apply key_eqb_eq in E. f_equal. apply H; [apply in_or_app; cbn; auto|auto].
  - apply key_eqb_neq in E. apply IH.
    + exists m0. split; auto. apply in_app_or in I. destruct I as [I|[<-|[]]]; auto. congruence.
    + intros m2 I2. apply H. apply in_or_app. auto.
Qed.

Definition owned (s i : string) (k : sample_key) : Prop := exists rest, snd k = (("service", s) :: ("instance", i) :: rest).
Lemma expected_shape : forall r s i ex m, expected r s i ex m ->
  map fst (snd m) = lnames (fst (fst m)) /\ owned s i (mkey m) /\ mkey m <> health s i.
Proof.
  intros r s i ex m H. destruct H; cbn [fst snd map]; (split; [|split; [eexists; reflexivity|]]); try reflexivity; try (unfold health; intros E; discriminate E).
Qed.

Notation scraped := (scraped nonneg float_of name_ok).
Notation scrape_one := (scrape_one num zero one nonneg float_of show name_ok).
Definition has_result (ex : list string) (t : target num) (s i : string) (r : registry num) : Prop :=
  (forall e, t_answer num t = Raise e -> sample num (health s i) (values num r) = Some zero) /\
  (forall rep, t_answer num t = Ok rep -> sample num (health s i) (values num r) = Some one /\
     forall n v l, expected rep s i ex (n, v, l) -> (forall v', expected rep s i ex (n, v', l) -> v' = v) -> sample num (n, l) (values num r) = Some v).
Lemma says_again : forall (r : dict) k fb s, says r k fb s -> says r k s s.
Proof. intros r k fb s H. destruct H; [apply says_so; auto|apply says_nothing; auto]. Qed.
Lemma scrape_one_ok : forall ex t s i r, gauges_ok r -> scraped ex t (s, i) ->
  gauges_ok (scrape_one ex r t) /\ has_result ex t s i (scrape_one ex r t) /\
  forall k, ~ owned s i k -> sample num k (values num (scrape_one ex r t)) = sample num k (values num r).
Proof.
  intros ex t s i r G S.
  assert (OH : forall k, ~ owned s i k -> key_eqb k (health s i) = false).
  { intros k H. apply key_eqb_neq. intros ->. apply H. exists []. reflexivity. }
  inversion S as [e A E|rep s' i' A U W F O E]; subst.
  - unfold PromModel.scrape_one. rewrite A. split; [|split].
    + exact G.
    + split; [|congruence]. intros _ _. cbn [set_value values]. rewrite sample_set. unfold health. rewrite (proj2 (key_eqb_eq _ _) eq_refl). reflexivity.
    + intros k H. cbn [set_value values]. rewrite sample_set. rewrite (OH k H). reflexivity.
  - unfold PromModel.scrape_one. rewrite A.
    pose proof (unique_node _ U) as (N & _).
    destruct (get_dict_ok rep "application" N) as (app & GA). { intros x. apply (wt_dicts _ W). cbn. auto. }
    rewrite (identity_from rep app _ _ s i U GA F). cbv zeta.
    assert (F2 : from rep s i s i) by (destruct F as (F1 & F2); split; eapply says_again; eauto).
    pose proof (translate_none rep s i ex U W) as TN. pose proof (fun m => translate_exact rep s i s i ex m U F2 TN) as TE.
    destruct (translate rep s i ex) as (ms, e) eqn:T. cbn [fst snd] in TN, TE. subst e.
    destruct (add_metrics_ok ms (set_value num (health s i) one r)) as (r' & E & G' & SV).
    { exact G. }
    { apply Forall_forall. intros m Hm. apply TE in Hm. split; [apply (expected_shape _ _ _ _ _ Hm)|apply O; auto]. }
    rewrite E. split; [exact G'|]. split.
    + split; [congruence|]. intros rep2 E2. assert (rep2 = rep) by congruence. subst rep2. split.
      * rewrite SV, lastv_none.
        -- cbn [set_value values]. rewrite sample_set, (proj2 (key_eqb_eq _ _) eq_refl). reflexivity.
        -- intros m Hm. apply TE in Hm. apply (expected_shape _ _ _ _ _ Hm).
      * intros n v l X1 X2. rewrite SV. apply lastv_some.
        -- exists (n, v, l). split; [apply TE; auto|reflexivity].
        -- intros ((n2, v2), l2) Hm K. apply TE in Hm. cbn [fst snd] in K |- *. injection K as -> ->. auto.
    + intros k H. rewrite SV, lastv_none.
      * cbn [set_value values]. rewrite sample_set, (OH k H). reflexivity.
      * intros m Hm E2. apply TE in Hm. apply H. rewrite <- E2. apply (expected_shape _ _ _ _ _ Hm).
Qed.

Lemma owned_health : forall s i, owned s i (health s i).
Proof. intros s i. exists []. reflexivity. Qed.
Lemma owned_unique : forall s i s2 i2 k, owned s i k -> owned s2 i2 k -> (s, i) = (s2, i2).
Proof. intros s i s2 i2 k (x & E) (y & E2). congruence. Qed.
Lemma scrape_frame : forall ex ts ids, Forall2 (scraped ex) ts ids -> forall r k s i, gauges_ok r -> owned s i k -> ~ In (s, i) ids ->
  sample num k (values num (fold_left (scrape_one ex) ts r)) = sample num k (values num r).
Proof.
  intros ex ts ids F. induction F as [|t (s1, i1) ts ids S F IH]; intros r k s i G O NI; [reflexivity|]. cbn [fold_left].
  destruct (scrape_one_ok ex t s1 i1 r G S) as (G2 & _ & FR). rewrite (IH _ k s i G2 O) by (intros H; apply NI; cbn; auto).
  apply FR. intros O2. apply NI. left. eapply owned_unique; eauto.
Qed.
Lemma scrape_from : forall ex ts ids, Forall2 (scraped ex) ts ids -> NoDup ids -> forall r t s i, gauges_ok r ->
  In (t, (s, i)) (combine ts ids) -> has_result ex t s i (fold_left (scrape_one ex) ts r).
Proof.
  intros ex ts ids F. induction F as [|t1 (s1, i1) ts ids S F IH]; intros ND r t s i G I; [destruct I|]. inversion ND as [|? ? NI ND2]; subst.
  cbn [fold_left combine In] in *. destruct (scrape_one_ok ex t1 s1 i1 r G S) as (G2 & (R1 & R2) & FR).
  destruct I as [I|I]; [|apply IH; auto]. injection I as -> -> ->. split.
  - intros e A. rewrite (scrape_frame ex ts ids F _ (health s i) s i G2 (owned_health s i) NI). eapply R1; eauto.
  - intros rep A. destruct (R2 rep A) as (H1 & H2). split.
    + rewrite (scrape_frame ex ts ids F _ (health s i) s i G2 (owned_health s i) NI). auto.
    + intros n v l X1 X2. pose proof (expected_shape _ _ _ _ _ X1) as (_ & O & _). cbn [fst snd] in O.
      rewrite (scrape_frame ex ts ids F _ (n, l) s i G2 O NI). apply H2; auto.
Qed.
Lemma scrape_ok : forall ex ts ids t s i, Forall2 (scraped ex) ts ids -> NoDup ids -> In (t, (s, i)) (combine ts ids) ->
  has_result ex t s i (scrape num zero one nonneg float_of show name_ok ex ts).
Proof.
  intros ex ts ids t s i F ND I. unfold scrape. eapply scrape_from; eauto.
  intros n ns. cbn [gauges sget]. destruct (String.eqb_spec n "ekosis_service_health") as [->|]; [|discriminate]. intros H. injection H as <-. reflexivity.
Qed.
End Proofs.

(** Names of custom statistics *)
Lemma sapp_assoc : forall a b c : string, (a ++ b) ++ c = a ++ b ++ c.
Proof. induction a as [|x a IH]; intros b c; [reflexivity|]. exact (f_equal (String x) (IH b c)). Qed.
Lemma sapp_inj : forall a b c : string, a ++ b = a ++ c -> b = c.
Proof. induction a as [|x a IH]; intros b c H; [exact H|]. injection H as H. auto. Qed.
Lemma safe_plain : forall k, plain k -> safe k = k.
Proof.
  induction k as [|c k IH]; intros H; [reflexivity|]. cbn [plain safe] in *. destruct H as ((_ & H2 & H3) & H). rewrite (IH H).
  destruct (Ascii.eqb_spec c "."); [congruence|]. destruct (Ascii.eqb_spec c "-"); [congruence|]. reflexivity.
Qed.
Lemma plain_split : forall a b x y, plain a -> plain b -> a ++ String "_"%char x = b ++ String "_"%char y -> a = b /\ x = y.
Proof.
  induction a as [|c a IH]; intros b x y A B H.
  - destruct b as [|d b]; cbn in H; injection H; [auto|]. intros _ E. cbn [plain] in B. destruct B as ((B & _) & _). congruence.
  - cbn [plain] in A. destruct A as ((A1 & _) & A2). destruct b as [|d b]; cbn in H.
    + injection H as E _. congruence.
    + cbn [plain] in B. destruct B as (_ & B2). injection H as -> H. destruct (IH b x y A2 B2 H) as (-> & ->). auto.
Qed.
Lemma plain_no : forall a b x, plain a -> a <> b ++ String "_"%char x.
Proof.
  induction a as [|c a IH]; intros b x A H; [destruct b; discriminate|]. cbn [plain] in A. destruct A as ((A1 & _) & A2).
  destruct b as [|d b]; cbn in H; injection H; [congruence|]. intros H2 _. eapply IH; eauto.
Qed.
Fixpoint tail (ks : list string) : string := match ks with [] => "" | k :: r => String "_"%char (k ++ tail r) end.
Lemma glue_tail : forall ks k, k <> "" -> fold_left glue ks k = k ++ tail ks.
Proof.
  induction ks as [|x ks IH]; intros k H; cbn [fold_left tail].
  - clear H. induction k as [|c k IH]; [reflexivity|]. exact (f_equal (String c) IH).
  - unfold glue at 2. destruct (String.eqb_spec k "") as [|_]; [congruence|]. rewrite IH; [|destruct k; discriminate]. rewrite !sapp_assoc. reflexivity.
Qed.
Lemma tail_inj : forall ks ls k l, Forall plain ks -> Forall plain ls -> plain k -> plain l -> k ++ tail ks = l ++ tail ls -> k = l /\ ks = ls.
Proof.
  assert (E0 : forall a : string, a ++ "" = a) by (induction a as [|c a IH]; [reflexivity|exact (f_equal (String c) IH)]).
  induction ks as [|x ks IH]; intros ls k l K L Pk Pl H; destruct ls as [|y ls]; cbn [tail] in H; rewrite ?E0 in H.
  - auto.
  - exfalso. exact (plain_no _ _ _ Pk H).
  - exfalso. symmetry in H. exact (plain_no _ _ _ Pl H).
  - apply plain_split in H; auto. destruct H as (-> & H). inversion K; inversion L; subst. split; auto. apply IH in H; auto. destruct H. congruence.
Qed.
Lemma custom_name_inj : forall k ks l ls, k <> "" -> l <> "" -> Forall plain (k :: ks) -> Forall plain (l :: ls) ->
  custom_name k ks = custom_name l ls -> k = l /\ ks = ls.
Proof.
  intros k ks l ls Nk Nl K L H. unfold custom_name in H. apply sapp_inj in H. inversion K; inversion L; subst.
  assert (M : forall xs, Forall plain xs -> map safe xs = xs).
  { induction 1 as [|x xs P F IH]; [reflexivity|]. cbn [map]. rewrite (safe_plain x P), IH. reflexivity. }
  rewrite !M in H by auto. rewrite !glue_tail in H by auto. apply tail_inj in H; auto.
Qed.

(** Characters allowed in a metric name. *)
Lemma all_chars_app : forall a b, all_chars (a ++ b) = all_chars a && all_chars b.
Proof. induction a as [|c a IH]; intros b; [reflexivity|]. cbn [append all_chars]. rewrite IH, andb_assoc. reflexivity. Qed.
Lemma custom_name_valid : forall k ks, all_chars k = true -> Forall (fun x => all_chars (safe x) = true) ks -> valid_name (custom_name k ks) = true.
Proof.
  intros k ks K F. unfold custom_name. assert (G : all_chars (fold_left glue (map safe ks) k) = true).
  { revert k K. induction F as [|x ks X F IH]; intros k K; [exact K|]. cbn [map fold_left]. apply IH. unfold glue. destruct (String.eqb k ""); auto.
    rewrite all_chars_app, K. cbn [andb]. change ("_" ++ safe x) with (String "_"%char (safe x)). cbn [all_chars]. rewrite X. reflexivity. }
  change ("ekosis_custom_" ++ fold_left glue (map safe ks) k) with (String "e"%char ("kosis_custom_" ++ fold_left glue (map safe ks) k)).
  cbn [valid_name]. rewrite all_chars_app, G. reflexivity.
Qed.
