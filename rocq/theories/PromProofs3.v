(** Proofs about service discovery. *)
From Coq Require Import String Ascii ZArith Bool Lia List.
From Verif Require Import Base RouterModel StatsModel ConfigModel ConfigSpec ConfigProofs ConfigProofs2 PromModel.
Import ListNotations.
Local Open Scope string_scope.

Lemma rsplit_none : forall c s, without c s -> rsplit c s = None.
Proof.
  intros c. induction s as [|d s IH]; intros H; [reflexivity|]. apply without_cons in H. destruct H as (H1 & H2). cbn [rsplit]. rewrite (IH H2).
  destruct (Ascii.eqb_spec d c); [congruence|reflexivity].
Qed.
Lemma rsplit_app : forall c a b, without c b -> rsplit c (a ++ String c b) = Some (a, b).
Proof.
  intros c. induction a as [|d a IH]; intros b H; cbn [append rsplit].
  - rewrite (rsplit_none c b H), Ascii.eqb_refl. reflexivity.
  - rewrite (IH b H). reflexivity.
Qed.
Lemma rsplit_some : forall c s a b, rsplit c s = Some (a, b) -> s = a ++ String c b.
Proof.
  intros c. induction s as [|d s IH]; intros a b H; cbn [rsplit] in H; [discriminate|].
  destruct (rsplit c s) as [(h, t)|] eqn:E.
  - injection H as <- <-. cbn. f_equal. auto.
  - destruct (Ascii.eqb_spec d c) as [->|]; [|discriminate]. injection H as <- <-. reflexivity.
Qed.
Lemma strip_app : forall p s, strip p (p ++ s) = Some s.
Proof. intros p s. apply strip_spec. reflexivity. Qed.

Lemma parse_name : forall lower app inst, exists nm im, parse_name_instance lower (app ++ "_" ++ inst) = (nm, im) /\
  (without "_"%char inst -> nm = lower app /\ im = inst).
Proof.
  intros lower app inst. unfold parse_name_instance. destruct (rsplit "_" (app ++ "_" ++ inst)) as [(a, b)|] eqn:E.
  - exists (lower a), b. split; [reflexivity|]. intros W. change ("_" ++ inst) with (String "_"%char inst) in E. rewrite (rsplit_app _ _ _ W) in E. injection E as <- <-. auto.
  - exists (lower (app ++ "_" ++ inst)), "0". split; [reflexivity|]. intros W. change ("_" ++ inst) with (String "_"%char inst) in E. rewrite (rsplit_app _ _ _ W) in E. discriminate.
Qed.

Lemma discover_in : forall lower local env kv sv, In kv env -> In sv (discover_one lower local kv) -> In sv (discover_local_services lower local env).
Proof. intros lower local env kv sv H1 H2. apply in_flat_map. eauto. Qed.

Lemma discover_address : forall lower local env app inst proto h n, NoDup (map fst env) ->
  (proto = "TCP" \/ proto = "UDP") -> In h local -> get_app_instance_address app inst proto env = Ok (Some (h, n)) ->
  exists nm im, In (mkSv nm im (if String.eqb proto "TCP" then "tcp" else "udp") (Some h) (Some n) None) (discover_local_services lower local env) /\
    (without "_"%char inst -> nm = lower app /\ im = inst).
Proof.
  intros lower local env app inst proto h n N P L H. apply address_only in H; auto.
  destruct H as (port & (I & _) & Hh & W1 & V). pose proof (integer_without _ _ V) as W2. apply int_integer in V. destruct (parse_name lower app inst) as (nm & im & E & W).
  exists nm, im. split; [|exact W]. eapply discover_in; [exact I|].
  assert (X : forall raw, raw = app ++ "_" ++ inst -> existsb (String.eqb h) local = true) .
  { intros _ _. apply existsb_exists. exists h. split; auto. apply String.eqb_refl. }
  specialize (X _ eq_refl). unfold discover_one, instance_var. rewrite strip_app.
  change (":" ++ port) with (String ":"%char port). 
  destruct P as [->| ->].
  - change ("TCP" ++ "_" ++ app ++ "_" ++ inst) with ("TCP_" ++ app ++ "_" ++ inst). rewrite strip_app, E, (rsplit_app _ _ _ W2), X, V.
    cbn. auto.
  - change ("UDP" ++ "_" ++ app ++ "_" ++ inst) with ("UDP_" ++ app ++ "_" ++ inst).
    replace (strip "TCP_" ("UDP_" ++ app ++ "_" ++ inst)) with (@None string) by reflexivity.
    rewrite strip_app, E, (rsplit_app _ _ _ W2), X, V. cbn. auto.
Qed.
Lemma discover_uds : forall lower local env app inst v, is_set env (instance_var "UDS" app inst) v ->
  exists nm im, In (mkSv nm im "uds" None None (Some v)) (discover_local_services lower local env) /\ (without "_"%char inst -> nm = lower app /\ im = inst).
Proof.
  intros lower local env app inst v (I & _). destruct (parse_name lower app inst) as (nm & im & E & W). exists nm, im. split; [|exact W].
  eapply discover_in; [exact I|]. unfold discover_one, instance_var. rewrite strip_app.
  change ("UDS" ++ "_" ++ app ++ "_" ++ inst) with ("UDS_" ++ app ++ "_" ++ inst).
  replace (strip "TCP_" ("UDS_" ++ app ++ "_" ++ inst)) with (@None string) by reflexivity.
  replace (strip "UDP_" ("UDS_" ++ app ++ "_" ++ inst)) with (@None string) by reflexivity.
  rewrite strip_app, E. cbn. auto.
Qed.
(** Everything discovered comes from a variable. *)
Lemma discover_sound : forall lower local env sv, In sv (discover_local_services lower local env) ->
  (exists proto raw h port n, (proto = "TCP" /\ sv_protocol sv = "tcp" \/ proto = "UDP" /\ sv_protocol sv = "udp") /\
     In ("ECOENV_" ++ proto ++ "_" ++ raw, h ++ ":" ++ port) env /\ In h local /\ integer port n /\
     sv_host sv = Some h /\ sv_port sv = Some n /\ sv_path sv = None) \/
  (exists raw v, sv_protocol sv = "uds" /\ In ("ECOENV_UDS_" ++ raw, v) env /\ sv_path sv = Some v /\ sv_host sv = None /\ sv_port sv = None).
Proof.
  intros lower local env sv H. apply in_flat_map in H. destruct H as ((k, v) & I & H). unfold discover_one in H.
  destruct (strip "ECOENV_" k) as [rem|] eqn:S1; [|destruct H]. apply strip_spec in S1.
  destruct (strip "TCP_" rem) as [raw|] eqn:S2; [|destruct (strip "UDP_" rem) as [raw|] eqn:S3; [|destruct (strip "UDS_" rem) as [raw|] eqn:S4; [|destruct H]]].
  - apply strip_spec in S2. subst rem k. left. destruct (parse_name_instance lower raw) as (nm, im). destruct (rsplit ":" v) as [(h, p)|] eqn:R; [|destruct H].
    apply rsplit_some in R. subst v. destruct (existsb (String.eqb h) local) eqn:L; cbn [negb] in H; [|destruct H]. destruct (int p) as [n|e] eqn:V; [|destruct H]. apply int_integer in V.
    destruct H as [<-|[]]. apply existsb_exists in L. destruct L as (x & L & E). apply String.eqb_eq in E. subst x.
    exists "TCP", raw, h, p, n. cbn [sv_protocol sv_host sv_port sv_path]. repeat split; auto.
  - apply strip_spec in S3. subst rem k. left. destruct (parse_name_instance lower raw) as (nm, im). destruct (rsplit ":" v) as [(h, p)|] eqn:R; [|destruct H].
    apply rsplit_some in R. subst v. destruct (existsb (String.eqb h) local) eqn:L; cbn [negb] in H; [|destruct H]. destruct (int p) as [n|e] eqn:V; [|destruct H]. apply int_integer in V.
    destruct H as [<-|[]]. apply existsb_exists in L. destruct L as (x & L & E). apply String.eqb_eq in E. subst x.
    exists "UDP", raw, h, p, n. cbn [sv_protocol sv_host sv_port sv_path]. repeat split; auto.
  - apply strip_spec in S4. subst rem k. right. destruct (parse_name_instance lower raw) as (nm, im). destruct H as [<-|[]].
    exists raw, v. cbn [sv_protocol sv_host sv_port sv_path]. repeat split; auto.
Qed.
