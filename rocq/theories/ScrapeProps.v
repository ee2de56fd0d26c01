(** C141: a scrape shows how often each endpoint was called in the last gathering period. *)
From Coq Require Import String Ascii ZArith Bool Lia List.
From Verif Require Import Base RouterModel RouterSpec RouterProofs ConfigModel PromModel PromSpec PromProofs PromProofs2
  StatsModel StatsSpec StatsProofs StatsProofs2 StatsProofs3 StatsProps ScrapeSpec ScrapeProofs ScrapeProofs2.
Import ListNotations.
Local Open Scope string_scope.

Notation translate := translate_gathered_stats.
(** What the statistics endpoint answers to the scraper, after the calls [ops]. *)
Definition answer {num} zero one add sub pct nm inst p t (ops : list (op num)) e : list (dict num) + dict num :=
  eco_statistics_get num sub pct nm inst "gathered" e (after zero one add sub pct nm inst p t ops).
Definition labels_of (s i g e : string) : list (string * string) := [("service", s); ("instance", i); ("group", g); ("endpoint", e)].

(** Every endpoint outside the group eco: the number of its calls between the last two gatherings, under its route key. *)
Definition C141_every_endpoint : Prop := forall (num : Type) (zero one : num) add sub pct nm inst p t ops e later e' nonneg float_of show tally s0 i0 k n r,
  counts zero one add tally -> compatible ops -> tracked_first ops -> laid_out ops -> Forall keeps_reports ops -> no_gather later ->
  In (Track _ k) ops -> only_calls k ops -> calls k ops n -> k <> "eco" -> ~ below "eco" k ->
  answer zero one add sub pct nm inst p t (ops ++ Gather _ e :: later) e' = inr r ->
  exists g ep, (k = g ++ "." ++ ep \/ k = g /\ ep = "" \/ g = "" /\ k = ep) /\
    In ("ekosis_endpoint_call_count", tally n, labels_of nm inst g ep) (fst (translate num nonneg float_of show r s0 i0 ["eco"])).

Lemma short_names : forall num (ops : list (op num)),
  forallb (fun n => Nat.leb (List.length (path n)) 4 && negb (existsb (String.eqb n) sections)) (all_names ops) = true -> laid_out ops.
Proof.
  intros num ops H n Hn. rewrite forallb_forall in H. specialize (H n Hn). apply andb_true_iff in H. destruct H as (H1 & H2). split.
  - intros X. apply negb_true_iff in H2. assert (Y : existsb (String.eqb n) sections = true) by (apply existsb_exists; exists n; split; [exact X|apply String.eqb_refl]). congruence.
  - intros q g e x Hq Dg De B. apply below_path in B. destruct B as (r & Hr & E). destruct (number_words q x Hq) as (Dq & Dx).
    rewrite path_four in E by assumption.
    apply Nat.leb_le in H1. rewrite E, app_length in H1. cbn in H1. destruct r; [congruence|cbn in H1; lia].
Qed.
Lemma avoids_b : forall num (ops : list (op num)),
  forallb (fun o => forallb (fun n => negb (existsb (String.eqb n) reserved) && negb (below_b "application" n)) (touched o)) ops = true -> avoids_own_names ops.
Proof.
  intros num ops A o n Ho Hn Hown. rewrite forallb_forall in A. specialize (A o Ho). rewrite forallb_forall in A. specialize (A n Hn).
  apply andb_true_iff in A. destruct A as (A1 & A2). destruct Hown as [Hr|Hb].
  - replace (existsb (String.eqb n) reserved) with true in A1; [discriminate|]. symmetry. apply existsb_exists. exists n. split; auto. apply String.eqb_refl.
  - rewrite (below_b_ok _ _ Hb) in A2. discriminate.
Qed.
Lemma z_counts : counts 0%Z 1%Z Z.add Z.of_nat.
Proof. repeat split; intros; lia. Qed.
Definition pct0 (l : list Z) : Z * Z := match l with [] => (-1, -1)%Z | x :: _ => (x, x) end.
Definition zenv (t : Z) : env Z := mkEnv Z t (fun _ => 7%Z).

(** False of the code: an endpoint whose route key has no dot does not appear. *)
Definition ex_ping : list (op Z) := [Track _ "ping"; AddEndpoint _ "ping" 3%Z].
Theorem C141_every_endpoint_refuted : ~ C141_every_endpoint.
Proof.
  intros H.
  destruct (H Z 0%Z 1%Z Z.add Z.sub pct0 "svc" "0" 300%Z 0%Z ex_ping (zenv 300) [] (zenv 310) (Z.leb 0) (fun _ => None) (fun _ => "") Z.of_nat "svc" "0" "ping" 1%nat
    (match answer 0%Z 1%Z Z.add Z.sub pct0 "svc" "0" 300%Z 0%Z (ex_ping ++ [Gather _ (zenv 300)]) (zenv 310) with inr r => r | inl _ => [] end)) as (g & ep & _ & X).
  - exact z_counts.
  - split; [apply compat_b_ok|apply avoids_b]; vm_compute; reflexivity.
  - apply tracked_b_ok. reflexivity.
  - apply short_names. vm_compute. reflexivity.
  - repeat constructor.
  - intros e [].
  - cbn. auto.
  - intros o [<-|[<-|[]]]; exact I.
  - apply (calls_first "ping" ex_ping). intros e [X|[X|[]]]; discriminate.
  - discriminate.
  - intros (c & X). discriminate X.
  - vm_compute. reflexivity.
  - vm_compute in X. destruct X as [X|[X|[]]]; discriminate X.
Qed.
Print Assumptions C141_every_endpoint_refuted.

(** True of route keys with one dot: the metric is there, and its value is the number of calls. *)
Theorem C141_calls_partial : forall (num : Type) (zero one : num) add sub pct nm inst p t ops e later e' nonneg float_of show tally s0 i0 exclude g ep n v,
  counts zero one add tally -> compatible ops -> tracked_first ops -> laid_out ops -> Forall keeps_reports ops -> no_gather later ->
  dotless g -> dotless ep -> ~ In g exclude ->
  In (Track _ (g ++ "." ++ ep)) ops -> only_calls (g ++ "." ++ ep) ops -> calls (g ++ "." ++ ep) ops n ->
  exists r, answer zero one add sub pct nm inst p t (ops ++ Gather _ e :: later) e' = inr r /\
    (In ("ekosis_endpoint_call_count", v, labels_of nm inst g ep) (fst (translate num nonneg float_of show r s0 i0 exclude)) <-> v = tally n).
Proof.
  intros num zero one add sub pct nm inst p t ops e later e' nonneg float_of show tally s0 i0 exclude g ep n v T HC HT HL F NG Dg De Hg Tr OC Cn.
  destruct (queried zero one add sub pct nm inst p t ops e HC HT) as (s' & HS & _). exists (current num s'). split.
  - unfold answer, after. apply newest; assumption.
  - eapply calls_metric; eauto.
Qed.
Print Assumptions C141_calls_partial.
(** No calls are shown of endpoints that do not exist. *)
Theorem C141_no_others : forall (num : Type) (zero one : num) add sub pct nm inst p t ops e later e' nonneg float_of show s0 i0 exclude r v l,
  compatible ops -> tracked_first ops -> laid_out ops -> Forall keeps_reports ops -> no_gather later ->
  answer zero one add sub pct nm inst p t (ops ++ Gather _ e :: later) e' = inr r ->
  In ("ekosis_endpoint_call_count", v, l) (fst (translate num nonneg float_of show r s0 i0 exclude)) ->
  exists g ep, l = labels_of nm inst g ep /\ ~ In g exclude /\ In (call_count (g ++ "." ++ ep)) (all_names ops).
Proof.
  intros num zero one add sub pct nm inst p t ops e later e' nonneg float_of show s0 i0 exclude r v l HC HT HL F NG A X.
  destruct (queried zero one add sub pct nm inst p t ops e HC HT) as (s' & HS & _).
  unfold answer, after in A. rewrite (newest zero one add sub pct nm inst p t ops e later s' F NG HS) in A. injection A as <-.
  eapply no_other_metric; eauto.
Qed.
Print Assumptions C141_no_others.
(** The translation never fails; uptime, period and the durations of the calls are those of the same moment. *)
Theorem C141_rest : forall (num : Type) (zero one : num) add sub pct nm inst p t ops e later e' nonneg float_of show s0 i0 exclude,
  compatible ops -> tracked_first ops -> laid_out ops -> Forall keeps_reports ops -> no_gather later ->
  exists r, answer zero one add sub pct nm inst p t (ops ++ Gather _ e :: later) e' = inr r /\
  let ms := fst (translate num nonneg float_of show r s0 i0 exclude) in
  snd (translate num nonneg float_of show r s0 i0 exclude) = None /\
  In ("ekosis_uptime_seconds", sub (now num e) (started t ops), [("service", nm); ("instance", inst)]) ms /\
  In ("ekosis_gather_period_seconds", period p ops, [("service", nm); ("instance", inst)]) ms /\
  forall g ep, dotless g -> dotless ep -> ~ In g exclude -> let k := g ++ "." ++ ep in In (Track _ k) ops ->
    ~ In (AddQueue _ (p95 k)) ops -> ~ In (AddQueue _ (p99 k)) ops ->
    (nonneg (fst (pct (recorded k ops))) = true -> In ("ekosis_endpoint_p95_seconds", fst (pct (recorded k ops)), labels_of nm inst g ep) ms) /\
    (nonneg (snd (pct (recorded k ops))) = true -> In ("ekosis_endpoint_p99_seconds", snd (pct (recorded k ops)), labels_of nm inst g ep) ms).
Proof.
  intros num zero one add sub pct nm inst p t ops e later e' nonneg float_of show s0 i0 exclude HC HT HL F NG.
  destruct (queried zero one add sub pct nm inst p t ops e HC HT) as (s' & HS & _). exists (current num s'). split.
  - unfold answer, after. apply newest; assumption.
  - apply (other_metrics zero one add sub pct nm inst nonneg float_of show p t ops e s' s0 i0 exclude HC HT HL HS).
Qed.
Print Assumptions C141_rest.
(** And so after a scrape of many services, this one among them: it is healthy and the sample is the number of calls. *)
Theorem C141_scraped_partial : forall (num : Type) (zero one : num) add sub pct nm inst p t ops e later e' nonneg float_of show tally name_ok exclude g ep n r s0 i0 ts1 ts2 ids1 ids2,
  counts zero one add tally -> compatible ops -> tracked_first ops -> laid_out ops -> Forall keeps_reports ops -> no_gather later ->
  dotless g -> dotless ep -> ~ In g exclude ->
  In (Track _ (g ++ "." ++ ep)) ops -> only_calls (g ++ "." ++ ep) ops -> calls (g ++ "." ++ ep) ops n ->
  answer zero one add sub pct nm inst p t (ops ++ Gather _ e :: later) e' = inr r ->
  (forall m, In m (fst (translate num nonneg float_of show r s0 i0 exclude)) -> name_ok (fst (fst m)) = true) ->
  Forall2 (scraped nonneg float_of name_ok exclude) ts1 ids1 -> Forall2 (scraped nonneg float_of name_ok exclude) ts2 ids2 ->
  NoDup (ids1 ++ (nm, inst) :: ids2) ->
  let samples := values num (scrape num zero one nonneg float_of show name_ok exclude (ts1 ++ mkT _ s0 i0 (Ok r) :: ts2)) in
  sample num ("ekosis_service_health", [("service", nm); ("instance", inst)]) samples = Some one /\
  sample num ("ekosis_endpoint_call_count", labels_of nm inst g ep) samples = Some (tally n).
Proof.
  intros num zero one add sub pct nm inst p t ops e later e' nonneg float_of show tally name_ok exclude g ep n r s0 i0 ts1 ts2 ids1 ids2 T HC HT HL F NG Dg De Hg Tr OC Cn A OK F1 F2 ND.
  destruct (queried zero one add sub pct nm inst p t ops e HC HT) as (s' & HS & _).
  unfold answer, after in A. rewrite (newest zero one add sub pct nm inst p t ops e later s' F NG HS) in A. injection A as <-.
  destruct (typed zero one add sub pct nm inst p t ops e s' HC HT HL HS) as (U & W).
  pose proof (reporter zero one add sub pct nm inst p t ops e s' s0 i0 HC HT HL HS) as FR.
  pose proof (fun m => translate_exact nonneg float_of show (current num s') s0 i0 nm inst exclude m U FR (translate_none nonneg float_of show _ s0 i0 exclude U W)) as TE.
  assert (FF : Forall2 (scraped nonneg float_of name_ok exclude) (ts1 ++ mkT _ s0 i0 (Ok (current num s')) :: ts2) (ids1 ++ (nm, inst) :: ids2)).
  { apply Forall2_app; [exact F1|]. constructor; [|exact F2]. eapply scraped_up; [reflexivity|exact U|exact W|exact FR|]. intros m Hm. apply OK, TE, Hm. }
  assert (IN : In (mkT _ s0 i0 (Ok (current num s')), (nm, inst)) (combine (ts1 ++ mkT _ s0 i0 (Ok (current num s')) :: ts2) (ids1 ++ (nm, inst) :: ids2))).
  { clear - F1. induction F1; [left; reflexivity|right; assumption]. }
  destruct (scrape_ok zero one nonneg float_of show name_ok exclude _ _ _ _ _ FF ND IN) as (_ & R). destruct (R _ eq_refl) as (R1 & R2).
  split; [exact R1|]. pose proof (fun v => calls_metric zero one add sub pct nm inst nonneg float_of show tally T p t ops e s' s0 i0 exclude g ep n v HC HT HL Dg De Hg Tr OC Cn HS) as M.
  apply R2; [apply TE, M; reflexivity|]. intros v' X. apply M, TE, X.
Qed.
Print Assumptions C141_scraped_partial.
(** No call is lost between two reports or counted in both: the numbers in all reports, and the calls since the last one,
    add up to all calls there were. *)
Theorem C141_every_call_once : forall (num : Type) (zero one : num) add sub pct nm inst p t ops tally k n,
  counts zero one add tally -> compatible ops -> tracked_first ops -> only_calls k ops -> calls k ops n ->
  exists ns, Forall2 (says_calls tally k) (reports zero one add sub pct nm inst (init num p t) ops) ns /\ (list_sum ns + n)%nat = total k ops.
Proof.
  intros num zero one add sub pct nm inst p t ops tally k n T HC HT OC Cn. apply calls_ncalls in Cn. subst n. exact (all_reports zero one add sub pct nm inst (fun _ => true) (fun _ => None) tally T k p t ops HC HT OC).
Qed.
Print Assumptions C141_every_call_once.

Definition ex_calls : list (op Z) :=
  [Start _ 100%Z; Track _ "shop.order"; Track _ "eco.ping"; AddQueue _ "buffered_sender_sizes.shop.mail.pending"; AddEndpoint _ "shop.order" 2%Z; AddEndpoint _ "eco.ping" 1%Z;
   Gather _ (zenv 400); Increment _ "sold" 5%Z; AddEndpoint _ "shop.order" 4%Z; AddEndpoint _ "shop.order" 6%Z].
Definition ex_later : list (op Z) := [AddEndpoint _ "shop.order" 9%Z; Query _ (zenv 800)].
Example C141_ex :
  compatible ex_calls /\ tracked_first ex_calls /\ laid_out ex_calls /\ Forall keeps_reports ex_calls /\ no_gather ex_later /\
  only_calls "shop.order" ex_calls /\ calls "shop.order" ex_calls 2 /\
  match answer 0%Z 1%Z Z.add Z.sub pct0 "svc" "0" 300%Z 0%Z (ex_calls ++ Gather _ (zenv 700) :: ex_later) (zenv 800) with
  | inr r => fst (translate Z (Z.leb 0) (fun _ => None) (fun _ => "") r "x" "y" ["eco"]) =
      [("ekosis_uptime_seconds", 600%Z, [("service", "svc"); ("instance", "0")]); ("ekosis_gather_period_seconds", 300%Z, [("service", "svc"); ("instance", "0")]);
       ("ekosis_endpoint_call_count", 2%Z, labels_of "svc" "0" "shop" "order"); ("ekosis_endpoint_p95_seconds", 4%Z, labels_of "svc" "0" "shop" "order");
       ("ekosis_endpoint_p99_seconds", 4%Z, labels_of "svc" "0" "shop" "order"); ("ekosis_buffered_sender_queue_pending", 7%Z, labels_of "svc" "0" "shop" "mail");
       ("ekosis_custom_sold", 5%Z, [("service", "svc"); ("instance", "0")])]
  | inl _ => False
  end.
Proof.
  split; [split; [apply compat_b_ok|apply avoids_b]; vm_compute; reflexivity|].
  split; [apply tracked_b_ok; reflexivity|]. split; [apply short_names; vm_compute; reflexivity|]. split; [repeat constructor|].
  split; [intros e [X|[X|[]]]; discriminate|]. split.
  - intros o X. cbn in X. repeat (destruct X as [<-|X]; [try exact I; vm_compute; discriminate|]). destruct X.
  - split; [|vm_compute; reflexivity].
    apply (calls_since "shop.order" [Start _ 100%Z; Track _ "shop.order"; Track _ "eco.ping"; AddQueue _ "buffered_sender_sizes.shop.mail.pending"; AddEndpoint _ "shop.order" 2%Z; AddEndpoint _ "eco.ping" 1%Z] (zenv 400)).
    intros e X. cbn in X. repeat (destruct X as [X|X]; [discriminate|]). exact X.
Qed.
