(** C44, C57-C59: metrics for Prometheus. *)
From Coq Require Import String Ascii ZArith Bool Lia List.
From Verif Require Import Base RouterModel StatsModel StatsSpec ConfigModel ConfigSpec ConfigProofs2 PromModel PromSpec PromProofs PromProofs2 PromProofs3.
Import ListNotations.
Local Open Scope string_scope.

Notation translate := translate_gathered_stats.

(** C44: every endpoint's calls appear in the metrics, under labels that give its route key back. *)
Definition C44_every_endpoint : Prop := forall (num : Type) (nonneg : num -> bool) (float_of : string -> option num) (show : tree num -> string)
    (r : dict num) s i route v,
  unique_keys (Node _ r) -> well_typed r -> shows r ("endpoint_data." ++ route ++ ".call_count") (Num _ v) -> ~ below "eco" route -> route <> "eco" ->
  exists g e l, In ("ekosis_endpoint_call_count", v, (l ++ [("group", g); ("endpoint", e)])%list) (fst (translate num nonneg float_of show r s i ["eco"])) /\
    (route = g ++ "." ++ e \/ route = g /\ e = "").

(** False of the code: an endpoint whose route key has no dot, or more than one, is left out. *)
Definition ex_ping : dict Z := [("endpoint_data", Node _ [("ping", Node _ [("call_count", Num _ 7%Z); ("p95", Num _ 1%Z)])])].
Ltac nd := let X := fresh "X" in cbn; intros X; repeat destruct X as [X|X]; try discriminate X; exact X.
Ltac uk := repeat first [apply uk_num | apply uk_str | apply uk_node; [repeat (constructor; [nd|]); constructor
   | let k := fresh "k" in let t := fresh "t" in let X := fresh "X" in intros k t X; cbn in X; repeat destruct X as [X|X]; try (injection X as <- <-); try contradiction]].
Lemma ex_ping_uk : unique_keys (Node _ ex_ping).
Proof. unfold ex_ping. uk. Qed.
Lemma ex_ping_wt : well_typed ex_ping.
Proof.
  unfold ex_ping. constructor.
  - intros k t K P. apply path1 in P. cbn in K, P. destruct P as [P|[]]. injection P as <- <-. eexists. reflexivity.
  - intros k t K P. apply path1 in P. cbn in K, P. destruct P as [P|[]]. injection P as <- <-. repeat destruct K as [K|K]; try discriminate K; destruct K.
  - intros g e k t K P. apply path4 in P. destruct P as (d & P1 & P2). cbn in P1. destruct P1 as [P1|[]]. injection P1 as <-. apply path3 in P2.
    destruct P2 as (d1 & d2 & H1 & H2 & H3). cbn in H1. destruct H1 as [H1|[]]. injection H1 as <- <-. cbn in H2. destruct H2 as [H2|[H2|[]]]; discriminate H2.
  - intros q g e k t Q K P. apply path4 in P. destruct P as (d & P1 & P2). cbn in P1. destruct P1 as [P1|[]]. injection P1 as <- <-.
    cbn in Q. repeat destruct Q as [Q|Q]; try discriminate Q; destruct Q.
Qed.
Lemma dotless_dec : forall s, (forall n, n < String.length s -> String.get n s <> Some "."%char)%nat -> dotless s.
Proof.
  intros s H a b ->. assert (L : String.get (String.length a) (a ++ "." ++ b) = Some "."%char).
  { clear. induction a as [|c a IH]; [reflexivity|]. exact IH. }
  apply (H (String.length a)); [|exact L]. clear. induction a as [|c a IH]; cbn [append String.length] in *; lia.
Qed.
Ltac dl := apply dotless_dec; intros n Hn; cbn in Hn; do 32 (destruct n as [|n]; [cbn; discriminate|]); lia.
Theorem C44_every_endpoint_refuted : ~ C44_every_endpoint.
Proof.
  intros H. destruct (H Z (Z.leb 0) (fun _ => None) (fun _ => "") ex_ping "svc" "0" "ping" 7%Z) as (g & e & l & I & _).
  - exact ex_ping_uk.
  - exact ex_ping_wt.
  - apply (shows_below ex_ping "endpoint_data" [("ping", Node _ [("call_count", Num _ 7%Z); ("p95", Num _ 1%Z)])] "ping.call_count"); [dl|reflexivity|].
    apply (shows_below _ "ping" [("call_count", Num _ 7%Z); ("p95", Num _ 1%Z)] "call_count"); [dl|reflexivity|].
    apply shows_here; [dl|reflexivity].
  - intros (c & E). discriminate E.
  - discriminate.
  - vm_compute in I. exact I.
Qed.
Print Assumptions C44_every_endpoint_refuted.
(** For every report the metrics are exactly the expected ones; in particular all endpoints with a two-part route key. *)
Theorem C44_exact_partial : forall (num : Type) (nonneg : num -> bool) (float_of : string -> option num) (show : tree num -> string)
    (r : dict num) s0 i0 s i exclude,
  unique_keys (Node _ r) -> well_typed r -> from r s0 i0 s i ->
  snd (translate num nonneg float_of show r s0 i0 exclude) = None /\
  forall m, In m (fst (translate num nonneg float_of show r s0 i0 exclude)) <-> expected nonneg float_of r s i exclude m.
Proof.
  intros num nonneg float_of show r s0 i0 s i exclude U W F. pose proof (translate_none nonneg float_of show r s0 i0 exclude U W) as N. split; [exact N|].
  intros m. apply translate_exact; auto.
Qed.
Print Assumptions C44_exact_partial.
(** Also for ill-typed reports, as long as no exception ends the translation. *)
Theorem C44_exact_untyped_partial : forall (num : Type) (nonneg : num -> bool) (float_of : string -> option num) (show : tree num -> string)
    (r : dict num) s0 i0 s i exclude m,
  unique_keys (Node _ r) -> from r s0 i0 s i -> snd (translate num nonneg float_of show r s0 i0 exclude) = None ->
  (In m (fst (translate num nonneg float_of show r s0 i0 exclude)) <-> expected nonneg float_of r s i exclude m).
Proof. exact (@translate_exact). Qed.
Print Assumptions C44_exact_untyped_partial.

Definition ex_report : dict Z :=
  [("timestamp", Num _ 9%Z); ("uptime", Num _ 100%Z); ("gather_period", Num _ 300%Z);
   ("application", Node _ [("name", Str _ "Router"); ("instance", Str _ "0")]);
   ("endpoint_data", Node _ [("eco", Node _ [("ping", Node _ [("call_count", Num _ 1%Z)])]);
                             ("app", Node _ [("hello", Node _ [("call_count", Num _ 7%Z); ("p95", Num _ 3%Z); ("p99", Num _ (-1)%Z)])])]);
   ("buffered_sender_sizes", Node _ [("app", Node _ [("out", Node _ [("pending", Num _ 5%Z); ("error", Num _ 0%Z)])])]);
   ("jobs", Node _ [("done-ok", Num _ 4%Z)]); ("free", Num _ 2%Z)].
Definition ex_translate : list (metric Z) := fst (translate Z (Z.leb 0) (fun _ => None) (fun _ => "") ex_report "router" "1" ["eco"]).
Definition ex_l : labels := [("service", "Router"); ("instance", "0")].
Example C44_ex : ex_translate =
  [("ekosis_uptime_seconds", 100%Z, ex_l); ("ekosis_gather_period_seconds", 300%Z, ex_l);
   ("ekosis_endpoint_call_count", 7%Z, (ex_l ++ [("group", "app"); ("endpoint", "hello")])%list);
   ("ekosis_endpoint_p95_seconds", 3%Z, (ex_l ++ [("group", "app"); ("endpoint", "hello")])%list);
   ("ekosis_buffered_sender_queue_pending", 5%Z, (ex_l ++ [("group", "app"); ("endpoint", "out")])%list);
   ("ekosis_buffered_sender_queue_error", 0%Z, (ex_l ++ [("group", "app"); ("endpoint", "out")])%list);
   ("ekosis_custom_jobs_done_ok", 4%Z, ex_l); ("ekosis_custom_free", 2%Z, ex_l)].
Proof. reflexivity. Qed.
Lemma ex_report_uk : unique_keys (Node _ ex_report).
Proof. unfold ex_report. uk. Qed.
(** The tree of the examples, as boolean checks over all its paths. *)
Lemma ex_report_wt : well_typed ex_report.
Proof.
  constructor.
  - intros k t K P. apply path1 in P. unfold ex_report in P. cbn in K, P.
    repeat destruct P as [P|P]; try (injection P as <- <-); try contradiction; try (eexists; reflexivity);
    repeat destruct K as [K|K]; try discriminate K; try contradiction.
  - intros k t K P. apply path1 in P. unfold ex_report in P. cbn in K, P.
    repeat destruct P as [P|P]; try (injection P as <- <-); try contradiction; try (eexists; reflexivity);
    repeat destruct K as [K|K]; try discriminate K; try contradiction.
  - intros g e k t K P. apply path4 in P. destruct P as (d & P1 & P2). apply path3 in P2. destruct P2 as (d1 & d2 & H1 & H2 & H3).
    unfold ex_report in P1. cbn in P1. repeat destruct P1 as [P1|P1]; try discriminate P1; try contradiction. injection P1 as <-.
    cbn in H1. repeat destruct H1 as [H1|H1]; try discriminate H1; try contradiction; injection H1 as <- <-;
    cbn in H2; repeat destruct H2 as [H2|H2]; try discriminate H2; try contradiction; injection H2 as <- <-;
    cbn in H3; repeat destruct H3 as [H3|H3]; try discriminate H3; try contradiction; injection H3 as <- <-; eexists; reflexivity.
  - intros q g e k t Q K P. apply path4 in P. destruct P as (d & P1 & P2). apply path3 in P2. destruct P2 as (d1 & d2 & H1 & H2 & H3).
    unfold ex_report in P1. cbn in P1. cbn in Q.
    repeat destruct P1 as [P1|P1]; try discriminate P1; try contradiction; injection P1 as <- <-;
      repeat destruct Q as [Q|Q]; try discriminate Q; try contradiction;
    cbn in H1; repeat destruct H1 as [H1|H1]; try discriminate H1; try contradiction; injection H1 as <- <-;
    cbn in H2; repeat destruct H2 as [H2|H2]; try discriminate H2; try contradiction; injection H2 as <- <-;
    cbn in H3; repeat destruct H3 as [H3|H3]; try discriminate H3; try contradiction; injection H3 as <- <-; eexists; reflexivity.
Qed.
Lemma ex_report_from : from ex_report "router" "1" "Router" "0".
Proof.
  split; apply says_so; (eapply path_below; [unfold ex_report; do 3 right; left; reflexivity|apply path_here; cbn; auto]).
Qed.

(** C57: different custom statistics are different metrics. *)
Definition C57_distinct : Prop := forall (num : Type) (r : dict num) k ks l ls v w,
  unique_keys (Node _ r) -> path r (k :: ks) (Num _ v) -> path r (l :: ls) (Num _ w) -> custom_name k ks = custom_name l ls -> k :: ks = l :: ls.
(** False of the code: a.b and a_b get the same name. *)
Definition ex_clash : dict Z := [("a", Node _ [("b", Num _ 1%Z)]); ("a_b", Num _ 2%Z)].
Theorem C57_distinct_refuted : ~ C57_distinct.
Proof.
  intros H. specialize (H Z ex_clash "a" ["b"] "a_b" [] 1%Z 2%Z). assert (E : ["a"; "b"] = ["a_b"]); [|discriminate]. apply H.
  - unfold ex_clash. uk.
  - eapply path_below; [left; reflexivity|apply path_here; cbn; auto].
  - apply path_here. cbn. auto.
  - reflexivity.
Qed.
Print Assumptions C57_distinct_refuted.
(** True when no key has an underscore, dot or dash in it. *)
Theorem C57_distinct_partial : forall k ks l ls, k <> "" -> l <> "" -> Forall plain (k :: ks) -> Forall plain (l :: ls) ->
  custom_name k ks = custom_name l ls -> k = l /\ ks = ls.
Proof. exact (@custom_name_inj). Qed.
Print Assumptions C57_distinct_partial.
Example C57_ex : Forall plain ["jobs"; "done"] /\ custom_name "jobs" ["done"] = "ekosis_custom_jobs_done" /\ custom_name "jobs" ["done-ok"] = "ekosis_custom_jobs_done_ok".
Proof. split; [|auto]. repeat constructor; discriminate. Qed.

(** C58: after a scrape the health metric says which services answered, and the metrics of those that did are there. *)
Definition C58_health : Prop := forall (num : Type) (zero one : num) nonneg float_of show exclude ts (r : dict num) s i,
  zero <> one -> unique_keys (Node _ r) -> well_typed r -> from r s i s i -> In (mkT _ s i (Ok r)) ts -> (forall t, In t ts -> t = mkT _ s i (Ok r)) ->
  sample num (health s i) (values num (scrape num zero one nonneg float_of show valid_name exclude ts)) = Some one.
(** False of the code (with the metric names Prometheus allows): a custom statistic with a dash in its first name makes the
    service look dead. *)
Definition ex_dash : dict Z := [("my-stat", Num _ 2%Z)].
Theorem C58_health_refuted : ~ C58_health.
Proof.
  intros H. specialize (H Z 0%Z 1%Z (Z.leb 0) (fun _ => None) (fun _ => "") ["eco"] [mkT _ "svc" "0" (Ok ex_dash)] ex_dash "svc" "0").
  assert (E : Some 0%Z = Some 1%Z); [|discriminate]. rewrite <- H.
  - vm_compute. reflexivity.
  - discriminate.
  - unfold ex_dash. uk.
  - constructor.
    + intros k t K P. apply path1 in P. cbn in K, P. destruct P as [P|[]]. injection P as <- <-. repeat destruct K as [K|K]; try discriminate K; destruct K.
    + intros k t K P. apply path1 in P. cbn in K, P. destruct P as [P|[]]. injection P as <- <-. repeat destruct K as [K|K]; try discriminate K; destruct K.
    + intros g e k t K P. apply path4 in P. destruct P as (d & P1 & P2). cbn in P1. destruct P1 as [P1|[]]. discriminate P1.
    + intros q g e k t Q K P. apply path4 in P. destruct P as (d & P1 & P2). cbn in P1. destruct P1 as [P1|[]]. discriminate P1.
  - split; apply says_nothing; intros t P; inversion P as [|? ? d ? ? H1 H2]; subst; cbn in H1; destruct H1 as [H1|[]]; discriminate H1.
  - cbn. auto.
  - intros t [<-|[]]. reflexivity.
Qed.
Print Assumptions C58_health_refuted.
(** For services with different identities whose reports have metric names that are allowed: health and every metric. The
    failure of one service does not touch the metrics of another. *)
Theorem C58_health_partial : forall (num : Type) (zero one : num) nonneg float_of show name_ok exclude ts ids t s i,
  Forall2 (scraped nonneg float_of name_ok exclude) ts ids -> NoDup ids -> In (t, (s, i)) (combine ts ids) ->
  let after := values num (scrape num zero one nonneg float_of show name_ok exclude ts) in
  (forall e, t_answer num t = Raise e -> sample num ("ekosis_service_health", [("service", s); ("instance", i)]) after = Some zero) /\
  (forall r, t_answer num t = Ok r -> sample num ("ekosis_service_health", [("service", s); ("instance", i)]) after = Some one /\
     forall n v l, expected nonneg float_of r s i exclude (n, v, l) -> (forall v', expected nonneg float_of r s i exclude (n, v', l) -> v' = v) ->
       sample num (n, l) after = Some v).
Proof. intros. exact (scrape_ok zero one nonneg float_of show name_ok exclude ts ids t s i H H0 H1). Qed.
Print Assumptions C58_health_partial.
(** Allowed names: letters, digits, underscores and colons; dots and dashes too, except in the first key. *)
Theorem C58_names : forall k ks, all_chars k = true -> Forall (fun x => all_chars (safe x) = true) ks -> valid_name (custom_name k ks) = true.
Proof. exact (@custom_name_valid). Qed.
Print Assumptions C58_names.

Definition ex_targets : list (target Z) := [mkT _ "router" "1" (Ok ex_report); mkT _ "auth" "0" (Raise "CommunicationsMaxRetriesReached"); mkT _ "users" "0" (Ok [])].
Definition ex_after : samples Z := values Z (scrape Z 0%Z 1%Z (Z.leb 0) (fun _ => None) (fun _ => "") valid_name ["eco"] ex_targets).
Example C58_ex : sample Z (health "Router" "0") ex_after = Some 1%Z /\ sample Z ("ekosis_service_health", [("service", "auth"); ("instance", "0")]) ex_after = Some 0%Z /\
  sample Z (health "users" "0") ex_after = Some 1%Z /\ sample Z ("ekosis_custom_free", ex_l) ex_after = Some 2%Z.
Proof. vm_compute. auto. Qed.
Example C58_ex_hyp : Forall2 (scraped (Z.leb 0) (fun _ => None) valid_name ["eco"]) ex_targets [("Router", "0"); ("auth", "0"); ("users", "0")] /\
  NoDup [("Router", "0"); ("auth", "0"); ("users", "0")].
Proof.
  split.
  - constructor; [|constructor; [|constructor; [|constructor]]].
    + apply (scraped_up _ _ _ _ _ ex_report); [reflexivity|exact ex_report_uk|exact ex_report_wt|exact ex_report_from|].
      intros m Hm. rewrite <- (translate_exact _ _ (fun _ => "") ex_report "router" "1" "Router" "0" ["eco"] m ex_report_uk ex_report_from) in Hm by reflexivity.
      change (In m ex_translate) in Hm. rewrite C44_ex in Hm. cbn in Hm. repeat destruct Hm as [Hm|Hm]; try (subst m; reflexivity). destruct Hm.
    + apply (scraped_down _ _ _ _ (mkT Z "auth" "0" (Raise "CommunicationsMaxRetriesReached")) "CommunicationsMaxRetriesReached"). reflexivity.
    + assert (F : forall k : list string, forall t, ~ @path Z [] k t) by (intros k t P; inversion P as [? ? ? X|? ? ? ? ? X]; destruct X).
      apply (scraped_up _ _ _ _ _ []); [reflexivity|uk| | |].
      * constructor; intros; exfalso; eapply F; eauto.
      * split; apply says_nothing; intros t P; eapply F; eauto.
      * intros m Hm. exfalso. inversion Hm; eapply F; eauto.
  - repeat (constructor; [cbn; intros H; repeat destruct H as [H|H]; try discriminate H; exact H|]). constructor.
Qed.

(** C59: discovery finds every instance on this machine, at the address its own configuration gives it. *)
Definition C59_discovery : Prop := forall lower local env app inst, NoDup (map fst env) ->
  (forall proto h n, (proto = "TCP" \/ proto = "UDP") -> In h local -> get_app_instance_address app inst proto env = Ok (Some (h, n)) ->
     exists sv, In sv (discover_local_services lower local env) /\ sv_host sv = Some h /\ sv_port sv = Some n) /\
  (forall name isdir dir file, get_app_instance_uds app inst name inst isdir env = Some (dir, file) ->
     exists sv, In sv (discover_local_services lower local env) /\ sv_path sv = Some (dir ++ "/" ++ file)).
(** False of the code: the socket path .../DEFAULT is taken literally. *)
Theorem C59_discovery_refuted : ~ C59_discovery.
Proof.
  intros H. destruct (H (fun s => s) ["127.0.0.1"] [("ECOENV_UDS_ROUTER_0", "/tmp/DEFAULT")] "ROUTER" "0") as (_ & H2).
  - constructor; [intros []|constructor].
  - destruct (H2 "router" (fun _ => true) "/tmp" "router_0.uds.sock" eq_refl) as (sv & I & E). vm_compute in I. destruct I as [<-|[]]. vm_compute in E. discriminate.
Qed.
Print Assumptions C59_discovery_refuted.
(** TCP and UDP addresses are found exactly, *)
Theorem C59_addresses_partial : forall lower local env app inst proto h n, NoDup (map fst env) ->
  (proto = "TCP" \/ proto = "UDP") -> In h local -> get_app_instance_address app inst proto env = Ok (Some (h, n)) ->
  exists nm im, In (mkSv nm im (if String.eqb proto "TCP" then "tcp" else "udp") (Some h) (Some n) None) (discover_local_services lower local env) /\
    (without "_"%char inst -> nm = lower app /\ im = inst).
Proof. exact (@discover_address). Qed.
Print Assumptions C59_addresses_partial.
(** and socket paths other than DEFAULT. *)
Theorem C59_sockets_partial : forall lower local env app inst name isdir dir file, NoDup (map fst env) ->
  is_set env (instance_var "UDS" app inst) (dir ++ "/" ++ file) -> dir <> "" -> (forall a, dir <> a ++ "/") -> without "/"%char file -> file <> "" ->
  isdir dir = true -> file <> "DEFAULT" ->
  get_app_instance_uds app inst name inst isdir env = Some (dir, file) /\
  exists nm im, In (mkSv nm im "uds" None None (Some (dir ++ "/" ++ file))) (discover_local_services lower local env) /\
    (without "_"%char inst -> nm = lower app /\ im = inst).
Proof.
  intros lower local env app inst name isdir dir file N S Hd Hc Hw Hf Hi ne. split.
  - rewrite (uds_honoured app inst name inst isdir env dir file N S Hd Hc Hw Hf Hi). destruct (String.eqb_spec file "DEFAULT"); [congruence|reflexivity].
  - apply discover_uds. exact S.
Qed.
Print Assumptions C59_sockets_partial.
(** Nothing else is found. *)
Theorem C59_sound : forall lower local env sv, In sv (discover_local_services lower local env) ->
  (exists proto raw h port n, (proto = "TCP" /\ sv_protocol sv = "tcp" \/ proto = "UDP" /\ sv_protocol sv = "udp") /\
     In ("ECOENV_" ++ proto ++ "_" ++ raw, h ++ ":" ++ port) env /\ In h local /\ integer port n /\
     sv_host sv = Some h /\ sv_port sv = Some n /\ sv_path sv = None) \/
  (exists raw v, sv_protocol sv = "uds" /\ In ("ECOENV_UDS_" ++ raw, v) env /\ sv_path sv = Some v /\ sv_host sv = None /\ sv_port sv = None).
Proof. exact (@discover_sound). Qed.
Print Assumptions C59_sound.
Definition ex_env2 : list (string * string) :=
  [("ECOENV_TCP_MAGIC_BALL_0", "127.0.0.1:8080"); ("ECOENV_UDP_MAGIC_BALL_0", "10.0.0.9:1"); ("ECOENV_UDS_ROUTER_1", "/tmp/r.sock"); ("HOME", "/")].
Example C59_ex : discover_local_services (fun s => s) ["127.0.0.1"] ex_env2 =
  [mkSv "MAGIC_BALL" "0" "tcp" (Some "127.0.0.1") (Some 8080%Z) None; mkSv "ROUTER" "1" "uds" None None (Some "/tmp/r.sock")] /\
  get_app_instance_address "MAGIC_BALL" "0" "TCP" ex_env2 = Ok (Some ("127.0.0.1", 8080%Z)).
Proof. vm_compute. auto. Qed.
