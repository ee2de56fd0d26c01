(** Runs of the statistics keeper. *)
From Coq Require Import String Ascii ZArith QArith Bool Lia List.
From Verif Require Import Base RouterModel RouterSpec RouterProofs RouterProofs2 StatsModel StatsSpec StatsProofs.
Import ListNotations.
Local Open Scope list_scope.

Lemma path_p95 : forall k, path (p95 k) = "endpoint_data"%string :: path k ++ ["p95"%string].
Proof.
  intros k. change (p95 k) with ("endpoint_data" ++ "." ++ (k ++ "." ++ "p95"))%string. rewrite !path_dot. reflexivity.
Qed.
Lemma path_p99 : forall k, path (p99 k) = "endpoint_data"%string :: path k ++ ["p99"%string].
Proof.
  intros k. change (p99 k) with ("endpoint_data" ++ "." ++ (k ++ "." ++ "p99"))%string. rewrite !path_dot. reflexivity.
Qed.
Lemma p95_inj : forall j k, p95 j = p95 k -> j = k.
Proof.
  intros j k H. apply (f_equal path) in H. rewrite !path_p95 in H. injection H as H.
  apply app_inj_tail in H. apply path_inj. tauto.
Qed.
Lemma p99_inj : forall j k, p99 j = p99 k -> j = k.
Proof.
  intros j k H. apply (f_equal path) in H. rewrite !path_p99 in H. injection H as H.
  apply app_inj_tail in H. apply path_inj. tauto.
Qed.
Lemma p95_p99 : forall j k, p95 j <> p99 k.
Proof.
  intros j k H. apply (f_equal path) in H. rewrite path_p95, path_p99 in H. injection H as H.
  apply app_inj_tail in H. destruct H. discriminate.
Qed.

Section Runs.
Context {num : Type} (zero one : num) (add sub : num -> num -> num).
Context (pct : list num -> num * num) (app_name app_instance : string).
Context (allops : list (op num)) (HC : compatible allops) (HT : tracked_first allops).
Notation tree := (tree num). Notation dict := (dict num). Notation state := (state num).
Notation get d p := (deep_get num (Node num d) p).
Notation step := (step num zero one add sub pct app_name app_instance).
Notation update_current := (update_current num sub pct app_name app_instance).
Notation value := (value zero one add sub).
Notation change1 := (change1 zero one add sub).

Definition NS : list string := all_names allops.
Definition N : list (list string) := map path NS.

Lemma N_free : prefix_free N.
Proof.
  intros a r Ha Hb. unfold N in *. apply in_map_iff in Ha, Hb. destruct Ha as (x & <- & Hx). destruct Hb as (y & E & Hy).
  destruct r as [|c r]; auto. exfalso. apply (proj1 HC x y Hx Hy). apply below_path. exists (c :: r). split; [discriminate|auto].
Qed.
Lemma N_in : forall n, In n NS <-> In (path n) N.
Proof.
  intros n. unfold N. rewrite in_map_iff. split; [intros H; exists n; auto|]. intros (x & E & H). apply path_inj in E. subst. auto.
Qed.
Lemma N_apart : forall m n, In m NS -> In n NS -> m <> n -> ~ prefix (path n) (path m).
Proof.
  intros m n Hm Hn D (r & E). apply D. apply path_inj. rewrite E.
  rewrite (N_free (path n) r); [rewrite app_nil_r; auto|apply N_in; auto|].
  rewrite <- E. apply N_in; auto.
Qed.

Definition agree_but (names : list string) (d d' : dict) : Prop :=
  forall m, In m NS -> ~ In m names -> get d' (path m) = get d (path m).

Lemma set_leaf : forall n d (v : tree), In n NS -> is_leaf v -> good N d ->
  exists d', (let (k, ks) := split_dot n in deep_set num d k ks v) = Ok d' /\ good N d' /\ get d' (path n) = Some v /\ agree_but [n] d d'.
Proof.
  intros n d v Hn Hv G. assert (P : In (path n) N) by (apply N_in; auto).
  assert (AP : forall m, In m NS -> m <> n -> ~ prefix (path n) (path m) /\ ~ prefix (path m) (path n)).
  { intros m Hm D. split; apply N_apart; auto. }
  pose proof (good_open N d (path n) N_free G P) as O.
  unfold path in P, O, AP |- *. destruct (split_dot n) as (k, ks) eqn:Es.
  destruct (good_set N k ks d v G O) as (d' & E & G' & G1 & G2).
  { intros r t Ht. destruct r as [|x r]; [cbn in Ht; injection Ht as <-; rewrite app_nil_r; destruct v; cbn in *; auto; contradiction|].
    destruct v; cbn in Ht, Hv; try discriminate; contradiction. }
  exists d'. split; [auto|]. split; [auto|]. split.
  - specialize (G1 []). rewrite app_nil_r in G1. rewrite G1. reflexivity.
  - intros m Hm Hne. unfold path. destruct (AP m Hm) as (A1 & A2); [intros ->; apply Hne; left; reflexivity|].
    apply G2; auto.
Qed.
Lemma set_value_ok : forall n d v, In n NS -> good N d ->
  exists d', set_statistic_value num d n v = Ok d' /\ good N d' /\ get d' (path n) = Some (Num num v) /\ agree_but [n] d d'.
Proof. intros n d v Hn G. exact (set_leaf n d (Num num v) Hn I G). Qed.

Lemma change_ok : forall f n d v c, In n NS -> good N d -> get d (path n) = option_map (Num num) c ->
  exists d', change num zero f d n v = Ok d' /\ good N d' /\ get d' (path n) = Some (Num num (f (or_zero zero c) v)) /\ agree_but [n] d d'.
Proof.
  intros f n d v c Hn G Hc. pose proof (set_leaf n d (Num num (f (or_zero zero c) v)) Hn I G) as S.
  unfold change. unfold path in *. destruct (split_dot n) as (k, ks). rewrite Hc. destruct c; exact S.
Qed.

Lemma agree_trans : forall a b d1 d2 d3, agree_but a d1 d2 -> agree_but b d2 d3 -> agree_but (a ++ b) d1 d3.
Proof.
  intros a b d1 d2 d3 H1 H2 m Hm Hn. rewrite H2; [apply H1|..]; auto; intros X; apply Hn; apply in_or_app; auto.
Qed.

Lemma set_all_ok : forall l d, (forall n, In n (map fst l) -> In n NS) -> good N d ->
  exists d', set_all num d l = (d', None) /\ good N d' /\ agree_but (map fst l) d d' /\
    forall m v, In m (map fst l) -> (forall v', In (m, v') l -> v' = v) -> get d' (path m) = Some (Num num v).
Proof.
  induction l as [|(k, v) l IH]; intros d HN G.
  - exists d. cbn. split; [auto|]. split; [auto|]. split; [intros m _ _; reflexivity|tauto].
  - destruct (set_value_ok k d v) as (d1 & E1 & G1 & V1 & A1); [apply HN; left; reflexivity|auto|].
    destruct (IH d1) as (d2 & E2 & G2 & A2 & V2); [intros n Hn; apply HN; right; auto|auto|].
    exists d2. cbn [set_all]. rewrite E1. split; [auto|]. split; [auto|]. split.
    + apply (agree_trans [k] (map fst l) d d1 d2); auto.
    + intros m w Hm Hu. destruct (in_dec string_dec m (map fst l)) as [Hi|Hi].
      * apply V2; auto. intros v' H'. apply Hu. right. auto.
      * destruct Hm as [<-|Hm]; [|contradiction]. cbn [fst] in *. rewrite A2; auto; [|apply HN; left; auto].
        rewrite V1. f_equal. f_equal. apply Hu. left. reflexivity.
Qed.

(** What holds after the calls [ops]. *)
Record Inv (s : state) (ops : list (op num)) : Prop := {
  I_good : good N (current num s);
  I_num : forall n t, In n NS -> ~ In n reserved -> get (current num s) (path n) = Some t -> exists v, t = Num num v;
  I_val : forall n, In n NS -> counter allops n -> get (current num s) (path n) = option_map (Num num) (value n ops);
  I_dur : forall k, sget k (durations num s) = if existsb (fun o => match o with Track _ j => String.eqb j k | _ => false end) ops
                                               then Some (recorded k ops) else None;
  I_nd : NoDup (map fst (durations num s));
  I_q : forall k, In k (queues num s) <-> In (AddQueue _ k) ops
}.

Lemma value_snoc : forall n ops o, value n (ops ++ [o]) = change1 n (value n ops) o.
Proof. intros. unfold StatsSpec.value. rewrite fold_left_app. reflexivity. Qed.
Lemma recorded_snoc : forall k ops (o : op num), recorded k (ops ++ [o]) = dur1 k (recorded k ops) o.
Proof. intros. unfold recorded. rewrite fold_left_app. reflexivity. Qed.

Lemma res_in : forall n, In n reserved -> In n NS.
Proof. intros. apply in_or_app. auto. Qed.
Lemma touched_in : forall o n, In o allops -> In n (touched o) -> In n NS /\ ~ own n.
Proof.
  intros o n Ho Hn. split; [|apply (proj2 HC o n); auto]. apply in_or_app. right. apply in_flat_map. eauto.
Qed.

(** Top-level values of the keeper itself. *)
Lemma update_ok : forall s ops e, Inv s ops -> incl ops allops ->
  exists s', update_current s e = (s', None) /\ Inv s' ops /\
    hist num s' = hist num s /\ history_length num s' = history_length num s /\
    durations num s' = durations num s /\ queues num s' = queues num s /\
    (forall k, In (AddQueue _ k) ops -> get (current num s') (path k) = Some (Num num (sizes num e k))) /\
    (forall k, In (Track _ k) ops -> ~ In (AddQueue _ (p95 k)) ops -> get (current num s') (path (p95 k)) = Some (Num num (fst (pct (recorded k ops))))) /\
    (forall k, In (Track _ k) ops -> ~ In (AddQueue _ (p99 k)) ops -> get (current num s') (path (p99 k)) = Some (Num num (snd (pct (recorded k ops))))) /\
    (forall n t, In (n, t) [("timestamp", Num num (now num e)); ("uptime", Num num (sub (now num e) (start_time num s)));
       ("gather_period", Num num (gather_period num s)); ("application.name", Str num app_name); ("application.instance", Str num app_instance)]%string ->
       get (current num s') (path n) = Some t).
Proof.
  intros s ops e I Hincl. destruct I as [Ig In_ Iv Id Ind Iq]. unfold StatsModel.update_current.
  destruct (set_leaf "timestamp" (current num s) (Num num (now num e))) as (d1 & E1 & G1 & V1 & A1);
    [apply res_in; cbn; auto|exact I|auto|].
  cbn [split_dot deep_set Ascii.eqb Bool.eqb] in E1. injection E1 as E1. rewrite E1.
  destruct (set_leaf "uptime" d1 (Num num (sub (now num e) (start_time num s)))) as (d2 & E2 & G2 & V2 & A2);
    [apply res_in; cbn; auto|exact I|auto|].
  cbn [split_dot deep_set Ascii.eqb Bool.eqb] in E2. injection E2 as E2. rewrite E2.
  destruct (set_leaf "gather_period" d2 (Num num (gather_period num s))) as (d3 & E3 & G3 & V3 & A3);
    [apply res_in; cbn; auto|exact I|auto|].
  cbn [split_dot deep_set Ascii.eqb Bool.eqb] in E3. injection E3 as E3. rewrite E3.
  destruct (good_set N "application" [] d3 (Node num [("name", Str num app_name); ("instance", Str num app_instance)])%string)
    as (d4 & E4 & G4 & V4 & A4); [auto| | |].
  { intros q r t Eq Hq Hr. destruct q as [|x [|y q]]; [congruence| |]; destruct r; cbn in Eq; congruence. }
  { intros r t Hr. destruct r as [|x r]; cbn [app deep_get] in *.
    - injection Hr as <-. cbn. exists ["name"%string]. split; [discriminate|]. apply (N_in "application.name"). apply res_in. cbn; auto.
    - cbn [sget] in Hr. destruct (String.eqb_spec x "name"%string) as [->|].
      { destruct r; cbn in Hr; [|discriminate]. injection Hr as <-. apply (N_in "application.name"). apply res_in. cbn; auto. }
      destruct (String.eqb_spec x "instance"%string) as [->|]; [|discriminate].
      destruct r; cbn in Hr; [|discriminate]. injection Hr as <-. apply (N_in "application.instance"). apply res_in. cbn; auto 7. }
  cbn [deep_set] in E4. injection E4 as E4. rewrite E4.
  assert (A4' : agree_but ["application.name"; "application.instance"]%string d3 d4).
  { intros m Hm Hne. pose proof Hm as Hm2. unfold NS, all_names in Hm2. apply in_app_or in Hm2.
    assert (Ho : ~ below "application" m).
    { destruct Hm2 as [Hr|Ht].
      - intros (c & ->). cbn in Hr. cbn in Hne. destruct Hr as [Hr|[Hr|[Hr|[Hr|[Hr|[]]]]]]; try discriminate; apply Hne; tauto.
      - apply in_flat_map in Ht. destruct Ht as (o & Ho & Hn). intros B. apply (proj2 HC o m Ho Hn). right. auto. }
    apply A4.
    - intros (r & Er). destruct r as [|x r].
      + assert (Hm3 : In (path m) N) by (apply N_in; auto). rewrite Er in Hm3.
        apply (N_free ["application"%string] ["name"%string]) in Hm3; [discriminate|]. apply (N_in "application.name"). apply res_in; cbn; auto.
      + apply Ho. apply below_path. exists (x :: r). split; [discriminate|auto].
    - intros (r & Er). pose proof (path_ne m) as Pn. destruct (path m) as [|x l] eqn:Em; [congruence|].
      cbn in Er. injection Er as <- Er. symmetry in Er. apply app_eq_nil in Er. destruct Er as (-> & ->).
      assert (Hm3 : In (path m) N) by (apply N_in; auto). rewrite Em in Hm3.
      apply (N_free ["application"%string] ["name"%string]) in Hm3; [discriminate|]. apply (N_in "application.name"). apply res_in; cbn; auto. }
  assert (A0 : agree_but reserved (current num s) d4).
  { pose proof (agree_trans _ _ _ _ _ (agree_trans _ _ _ _ _ (agree_trans _ _ _ _ _ A1 A2) A3) A4') as A. exact A. }
  assert (R4 : forall n t, In (n, t) [("timestamp", Num num (now num e)); ("uptime", Num num (sub (now num e) (start_time num s)));
       ("gather_period", Num num (gather_period num s)); ("application.name", Str num app_name); ("application.instance", Str num app_instance)]%string ->
       In n reserved /\ get d4 (path n) = Some t).
  { clear A1 A2 A3 A4 A4' A0 V1 V2 V3 V4 G1 G2 G3 G4. intros n t H. subst d1 d2 d3 d4.
    repeat (destruct H as [H|H]; [injection H as <- <-; split; [cbn; tauto|]; unfold path, get; cbn [split_dot Ascii.eqb Bool.eqb deep_get]; rewrite ?sget_sset; reflexivity|]). destruct H. }
  clear A1 A2 A3 A4 A4' V1 V2 V3 V4 E1 E2 E3 E4 G1 G2 G3 d1 d2 d3.
  set (l1 := flat_map _ _). 
  assert (L1 : forall n v, In (n, v) l1 -> exists k, In (Track _ k) ops /\ (n = p95 k /\ v = fst (pct (recorded k ops)) \/ n = p99 k /\ v = snd (pct (recorded k ops)))).
  { intros n v H. unfold l1 in H. apply in_flat_map in H. destruct H as ((k, l) & Hk & H).
    assert (Hs : sget k (durations num s) = Some l) by (apply sget_in; auto).
    rewrite Id in Hs. destruct (existsb _ ops) eqn:Ex; [|discriminate]. injection Hs as <-.
    exists k. split.
    - apply existsb_exists in Ex. destruct Ex as (o & Ho & Hb). destruct o; try discriminate. apply String.eqb_eq in Hb. subst. auto.
    - cbn [fst snd] in H. destruct H as [H|[H|[]]]; injection H as <- <-; [left|right]; split; reflexivity. }
  assert (T1 : forall k, In (Track num k) ops -> In (p95 k, fst (pct (recorded k ops))) l1 /\ In (p99 k, snd (pct (recorded k ops))) l1).
  { intros k H. assert (Hs : sget k (durations num s) = Some (recorded k ops)).
    { rewrite Id. replace (existsb _ ops) with true; auto. symmetry. apply existsb_exists. exists (Track num k).
      split; auto. apply String.eqb_refl. }
    apply sget_in in Hs; auto. unfold l1. split; apply in_flat_map; exists (k, recorded k ops); split; auto; cbn; auto. }
  destruct (set_all_ok l1 d4) as (d5 & E5 & G5 & A5 & V5); [|auto|].
  { intros n Hn. apply in_map_iff in Hn. destruct Hn as ((n', v) & <- & Hn). destruct (L1 _ _ Hn) as (k & Hk & H).
    cbn [fst]. apply (touched_in (Track num k)); [apply Hincl; auto|]. cbn. destruct H as [(-> & _)|(-> & _)]; auto. }
  rewrite E5. set (l2 := map _ _).
  assert (K2 : map fst l2 = queues num s) by (unfold l2; rewrite map_map; apply map_id).
  destruct (set_all_ok l2 d5) as (d6 & E6 & G6 & A6 & V6); [|auto|].
  { intros n Hn. rewrite K2 in Hn. apply Iq in Hn. apply (touched_in (AddQueue num n)); [apply Hincl; auto|]. cbn; auto. }
  rewrite E6. eexists. split; [reflexivity|]. cbn [set_current current hist history_length durations queues].
  assert (A : agree_but (reserved ++ map fst l1 ++ map fst l2) (current num s) d6).
  { apply agree_trans with (d2 := d4); auto. apply agree_trans with (d2 := d5); auto. }
  split; [|split; [reflexivity|split; [reflexivity|split; [reflexivity|split; [reflexivity|]]]]].
  - constructor; cbn [set_current current hist history_length durations queues]; auto.
    + intros n t Hn Hr Hg. destruct (in_dec string_dec n (map fst l2)) as [H2|H2].
      { rewrite (V6 n (sizes num e n)) in Hg; auto; [injection Hg as <-; eauto|].
        intros v' Hv. unfold l2 in Hv. apply in_map_iff in Hv. destruct Hv as (x & Hx & _). congruence. }
      rewrite A6 in Hg by auto. destruct (in_dec string_dec n (map fst l1)) as [H1|H1].
      { pose proof H1 as H1'. apply in_map_iff in H1'. destruct H1' as ((n', v) & En & Hv). cbn in En. subst n'.
        rewrite (V5 n v) in Hg; auto; [injection Hg as <-; eauto|].
        intros v' Hv'. destruct (L1 _ _ Hv) as (k & _ & Hk). destruct (L1 _ _ Hv') as (j & _ & Hj).
        destruct Hk as [(-> & ->)|(-> & ->)]; destruct Hj as [(Ej & ->)|(Ej & ->)].
        - apply p95_inj in Ej. subst. auto.
        - exfalso. eapply p95_p99; eauto.
        - exfalso. eapply p95_p99; eauto.
        - apply p99_inj in Ej. subst. auto. }
      rewrite A5, A0 in Hg by auto. eapply In_; eauto.
    + intros n Hn Hc. rewrite A; auto. destruct Hc as (C1 & C2 & C3). intros X. apply in_app_or in X. destruct X as [X|X]; [contradiction|].
      apply in_app_or in X. destruct X as [X|X].
      * apply in_map_iff in X. destruct X as ((n', v) & En & Hv). cbn in En. subst n'. destruct (L1 _ _ Hv) as (k & Hk & H).
        destruct (C3 k) as (C4 & C5); [apply Hincl; auto|]. destruct H as [(-> & _)|(-> & _)]; congruence.
      * rewrite K2 in X. apply Iq in X. apply C2. apply Hincl. auto.
  - split; [|split; [|split]].
    + intros k Hk. apply V6; [rewrite K2; apply Iq; auto|].
      intros v' Hv. unfold l2 in Hv. apply in_map_iff in Hv. destruct Hv as (x & Hx & _). congruence.
    + intros k Hk Hq. destruct (T1 k Hk) as (T & _). rewrite A6.
      * apply V5; [apply in_map_iff; exists (p95 k, fst (pct (recorded k ops))); auto|].
        intros v' Hv. destruct (L1 _ _ Hv) as (j & _ & [(Ej & ->)|(Ej & ->)]).
        -- apply p95_inj in Ej. subst. auto.
        -- exfalso. eapply p95_p99; eauto.
      * apply (touched_in (Track num k)); [apply Hincl; auto|cbn; auto].
      * rewrite K2, Iq. auto.
    + intros k Hk Hq. destruct (T1 k Hk) as (_ & T). rewrite A6.
      * apply V5; [apply in_map_iff; exists (p99 k, snd (pct (recorded k ops))); auto|].
        intros v' Hv. destruct (L1 _ _ Hv) as (j & _ & [(Ej & ->)|(Ej & ->)]).
        -- exfalso. eapply p95_p99; eauto.
        -- apply p99_inj in Ej. subst. auto.
      * apply (touched_in (Track num k)); [apply Hincl; auto|cbn; auto].
      * rewrite K2, Iq. auto.
    + intros n t H. destruct (R4 n t H) as (Hr & <-).
      assert (H1 : ~ In n (map fst l1)).
      { intros X. apply in_map_iff in X. destruct X as ((n', v) & En & Hv). cbn in En. subst n'. destruct (L1 _ _ Hv) as (k & Hk & Hn).
        apply (touched_in (Track num k) n); [apply Hincl; auto|cbn; destruct Hn as [(-> & _)|(-> & _)]; auto|left; auto]. }
      assert (H2 : ~ In n (map fst l2)).
      { rewrite K2, Iq. intros X. apply (touched_in (AddQueue num n) n); [apply Hincl; auto|cbn; auto|left; auto]. }
      rewrite A6 by (auto using res_in). apply A5; auto using res_in.
Qed.

Lemma track_snoc : forall k ops (o : op num),
  existsb (fun o => match o with Track _ j => String.eqb j k | _ => false end) (ops ++ [o]) =
  existsb (fun o => match o with Track _ j => String.eqb j k | _ => false end) ops ||
  match o with Track _ j => String.eqb j k | _ => false end.
Proof. intros. rewrite existsb_app. cbn. rewrite orb_false_r. reflexivity. Qed.

(** A change of one name. *)
Lemma one_name : forall s ops o n d' (v : num), Inv s ops -> In n NS -> ~ own n ->
  good N d' -> get d' (path n) = Some (Num num v) -> agree_but [n] (current num s) d' ->
  (forall m c, m <> n -> change1 m c o = c) ->
  (counter allops n -> change1 n (value n ops) o = Some v) ->
  good N d' /\
  (forall m t, In m NS -> ~ In m reserved -> get d' (path m) = Some t -> exists v, t = Num num v) /\
  (forall m, In m NS -> counter allops m -> get d' (path m) = option_map (Num num) (value m (ops ++ [o]))).
Proof.
  intros s ops o n d' v I Hn Hown G V A HO HV. split; [auto|]. split.
  - intros m t Hm Hr Hg. destruct (string_dec m n) as [->|D].
    + rewrite V in Hg. injection Hg as <-. eauto.
    + rewrite A in Hg; auto; [eapply (I_num _ _ I); eauto|]. intros [->|[]]. congruence.
  - intros m Hm Hc. rewrite value_snoc. destruct (string_dec m n) as [->|D].
    + rewrite V, (HV Hc). reflexivity.
    + rewrite A; auto; [|intros [->|[]]; congruence]. rewrite (I_val _ _ I m Hm Hc). rewrite (HO m (value m ops)) by auto.
      reflexivity.
Qed.

Lemma changed : forall f s ops o n v, Inv s ops -> In n NS -> ~ own n ->
  (forall m c, m <> n -> change1 m c o = c) ->
  (forall c, change1 n c o = Some (f (or_zero zero c) v)) ->
  exists d', change num zero f (current num s) n v = Ok d' /\ good N d' /\
  (forall m t, In m NS -> ~ In m reserved -> get d' (path m) = Some t -> exists v, t = Num num v) /\
  (forall m, In m NS -> counter allops m -> get d' (path m) = option_map (Num num) (value m (ops ++ [o]))).
Proof.
  intros f s ops o n v I Hn Ho H1 H2.
  assert (C : exists c, get (current num s) (path n) = option_map (Num num) c /\ (counter allops n -> c = value n ops)).
  { destruct (get (current num s) (path n)) as [t|] eqn:E.
    - destruct (I_num _ _ I n t) as (x & ->); auto; [intros X; apply Ho; left; auto|]. exists (Some x). split; auto.
      intros Hc. pose proof (I_val _ _ I n Hn Hc) as V. rewrite E in V. destruct (value n ops); cbn in V; congruence.
    - exists None. split; auto. intros Hc. pose proof (I_val _ _ I n Hn Hc) as V. rewrite E in V. destruct (value n ops); cbn in V; congruence. }
  destruct C as (c & Hg & Hc). destruct (change_ok f n (current num s) v c Hn (I_good _ _ I) Hg) as (d' & E & G & V & A).
  exists d'. split; [auto|]. apply (one_name s ops o n d' (f (or_zero zero c) v)); auto.
  intros Hcn. rewrite H2, (Hc Hcn). reflexivity.
Qed.

Lemma tracked_dec : forall k (ops : list (op num)), In (Track _ k) ops -> existsb (fun o => match o with Track _ j => String.eqb j k | _ => false end) ops = true.
Proof. intros k ops H. apply existsb_exists. exists (Track num k). split; auto. apply String.eqb_refl. Qed.

Lemma call_count_name : forall k, endpoint_name k "call_count" = call_count k.
Proof. reflexivity. Qed.

Lemma same_rest : forall s s' ops (o : op num), Inv s ops ->
  durations num s' = durations num s -> queues num s' = queues num s ->
  (forall k, o <> AddQueue _ k) -> (forall k, o <> Track _ k) -> (forall k v, o <> AddEndpoint _ k v) -> (forall e, o <> Gather _ e) ->
  good N (current num s') ->
  (forall m t, In m NS -> ~ In m reserved -> get (current num s') (path m) = Some t -> exists v, t = Num num v) ->
  (forall m, In m NS -> counter allops m -> get (current num s') (path m) = option_map (Num num) (value m (ops ++ [o]))) ->
  Inv s' (ops ++ [o]).
Proof.
  intros s s' ops o I Ed Eq H1 H2 H3 H4 G Nm V. constructor; auto.
  - intros k. rewrite Ed, track_snoc, recorded_snoc, (I_dur _ _ I). destruct o; try reflexivity; cbn; rewrite ?orb_false_r; try reflexivity.
    + exfalso. eapply H2; eauto.
    + exfalso. eapply H3; eauto.
    + exfalso. eapply H4; eauto.
  - rewrite Ed. apply (I_nd _ _ I).
  - intros k. rewrite Eq, (I_q _ _ I k). rewrite in_app_iff. split; auto. intros [?|[X|[]]]; auto. exfalso. eapply H1; eauto.
Qed.

Lemma gather_inv : forall s s1 ops e h, Inv s1 ops -> step s (Query _ e) = (s1, None) ->
  Inv (reset_current num zero (set_hist num s1 h)) (ops ++ [Gather _ e]).
Proof.
  intros s s1 ops e h I E. constructor; cbn [reset_current set_current set_durations set_hist current durations queues hist].
  - apply good_reset. apply (I_good _ _ I).
  - intros n t Hn Hr Hg. rewrite get_reset in Hg. destruct (get (current num s1) (path n)) as [u|] eqn:Eu; [|discriminate].
    destruct (I_num _ _ I n u Hn Hr Eu) as (v & ->). injection Hg as <-. cbn. eauto.
  - intros n Hn Hc. rewrite get_reset, (I_val _ _ I n Hn Hc), value_snoc. cbn. destruct (value n ops); reflexivity.
  - intros k. rewrite track_snoc, recorded_snoc. cbn [dur1]. rewrite orb_false_r.
    assert (S : sget k (map (fun p : string * list num => (fst p, @nil num)) (durations num s1)) = option_map (fun _ => []) (sget k (durations num s1))).
    { induction (durations num s1) as [|(j, l) r IH]; [reflexivity|]. cbn. destruct (String.eqb k j); auto. }
    rewrite S, (I_dur _ _ I). destruct (existsb _ ops); reflexivity.
  - rewrite map_map. cbn. apply (I_nd _ _ I).
  - intros k. rewrite (I_q _ _ I k), in_app_iff. split; auto. intros [?|[X|[]]]; auto. discriminate.
Qed.

Lemma step_ok : forall s ops o, Inv s ops -> incl (ops ++ [o]) allops ->
  (forall k v, o = AddEndpoint _ k v -> In (Track _ k) ops) ->
  exists s', step s o = (s', None) /\ Inv s' (ops ++ [o]).
Proof.
  intros s ops o I Hi Ht. assert (Ho : In o allops) by (apply Hi; apply in_or_app; right; left; reflexivity).
  assert (Hops : incl ops allops) by (intros x Hx; apply Hi; apply in_or_app; auto).
  destruct o; cbn [StatsModel.step].
  - destruct (touched_in _ key Ho (or_introl eq_refl)) as (T1 & T2).
    destruct (changed add s ops (Increment _ key v) key v I T1 T2) as (d & E & G & Nm & V).
    { intros m c D. cbn [StatsSpec.change1]. destruct (String.eqb_spec key m); congruence. }
    { intros c. cbn [StatsSpec.change1]. rewrite String.eqb_refl. reflexivity. }
    rewrite E. eexists. split; [reflexivity|]. apply same_rest with (s := s); auto; try discriminate.
  - destruct (touched_in _ key Ho (or_introl eq_refl)) as (T1 & T2).
    destruct (changed sub s ops (Decrement _ key v) key v I T1 T2) as (d & E & G & Nm & V).
    { intros m c D. cbn [StatsSpec.change1]. destruct (String.eqb_spec key m); congruence. }
    { intros c. cbn [StatsSpec.change1]. rewrite String.eqb_refl. reflexivity. }
    rewrite E. eexists. split; [reflexivity|]. apply same_rest with (s := s); auto; try discriminate.
  - destruct (touched_in _ key Ho (or_introl eq_refl)) as (T1 & T2).
    destruct (set_value_ok key (current num s) v T1 (I_good _ _ I)) as (d & E & G & Vk & A).
    destruct (one_name s ops (SetValue _ key v) key d v I T1 T2 G Vk A) as (_ & Nm & V).
    { intros m c D. cbn [StatsSpec.change1]. destruct (String.eqb_spec key m); congruence. }
    { intros _. cbn. rewrite String.eqb_refl. reflexivity. }
    rewrite E. eexists. split; [reflexivity|]. apply same_rest with (s := s); auto; try discriminate.
  - eexists. split; [reflexivity|]. constructor; cbn [set_queues current durations queues].
    + apply (I_good _ _ I).
    + apply (I_num _ _ I).
    + intros n Hn Hc. rewrite value_snoc. cbn. apply (I_val _ _ I); auto.
    + intros k. rewrite track_snoc, recorded_snoc. cbn. rewrite orb_false_r. apply (I_dur _ _ I).
    + apply (I_nd _ _ I).
    + intros k. rewrite in_app_iff. destruct (existsb (String.eqb key) (queues num s)) eqn:E.
      * rewrite (I_q _ _ I k). split; auto. intros [?|[X|[]]]; auto. injection X as <-.
        apply existsb_exists in E. destruct E as (x & Hx & Ex). apply String.eqb_eq in Ex. subst. apply (I_q _ _ I). auto.
      * rewrite in_app_iff, (I_q _ _ I k). cbn. split; intros [?|[X|[]]]; auto; [subst; auto|injection X as <-; auto].
  - destruct (touched_in _ (call_count key) Ho (or_introl eq_refl)) as (T1 & T2). rewrite call_count_name.
    destruct (changed add s ops (Track _ key) (call_count key) zero I T1 T2) as (d & E & G & Nm & V).
    { intros m c D. cbn [StatsSpec.change1]. destruct (String.eqb_spec (call_count key) m); congruence. }
    { intros c. cbn [StatsSpec.change1]. rewrite String.eqb_refl. reflexivity. }
    rewrite E. eexists. split; [reflexivity|]. constructor; cbn [set_durations set_current current durations queues]; auto.
    + intros k. rewrite sget_sset, track_snoc, recorded_snoc. cbn [dur1]. rewrite (String.eqb_sym key k).
      destruct (String.eqb k key); [rewrite orb_true_r; reflexivity|]. rewrite orb_false_r. apply (I_dur _ _ I).
    + apply sset_nodup. apply (I_nd _ _ I).
    + intros k. rewrite (I_q _ _ I k), in_app_iff. split; auto. intros [?|[X|[]]]; auto. discriminate.
  - destruct (touched_in _ (call_count key) Ho (or_introl eq_refl)) as (T1 & T2). rewrite call_count_name.
    destruct (changed add s ops (AddEndpoint _ key duration) (call_count key) one I T1 T2) as (d & E & G & Nm & V).
    { intros m c D. cbn [StatsSpec.change1]. destruct (String.eqb_spec (call_count key) m); congruence. }
    { intros c. cbn [StatsSpec.change1]. rewrite String.eqb_refl. reflexivity. }
    pose proof (tracked_dec key ops (Ht key duration eq_refl)) as Tk.
    rewrite E, (I_dur _ _ I), Tk. eexists. split; [reflexivity|]. constructor; cbn [set_durations set_current current durations queues]; auto.
    + intros k. rewrite sget_sset, track_snoc, recorded_snoc. cbn [dur1]. rewrite (String.eqb_sym key k), orb_false_r.
      destruct (String.eqb_spec k key) as [->|]; [rewrite Tk; reflexivity|]. apply (I_dur _ _ I).
    + apply sset_nodup. apply (I_nd _ _ I).
    + intros k. rewrite (I_q _ _ I k), in_app_iff. split; auto. intros [?|[X|[]]]; auto. discriminate.
  - destruct (update_ok s ops e I Hops) as (s' & E & I' & _). exists s'. split; [exact E|].
    apply same_rest with (s := s'); auto; try discriminate; try apply I'.
    intros m Hm Hc. rewrite value_snoc. cbn. apply (I_val _ _ I'); auto.
  - destruct (update_ok s ops e I Hops) as (s' & E & I' & _). unfold gather. rewrite E. eexists. split; [reflexivity|].
    apply (gather_inv s); auto.
  - eexists. split; [reflexivity|]. apply same_rest with (s := s); auto; try discriminate; try apply I.
    intros m Hm Hc. rewrite value_snoc. cbn. apply (I_val _ _ I); auto.
  - eexists. split; [reflexivity|]. apply same_rest with (s := s); auto; try discriminate; try apply I.
    intros m Hm Hc. rewrite value_snoc. cbn. apply (I_val _ _ I); auto.
  - eexists. split; [reflexivity|]. apply same_rest with (s := s); auto; try discriminate; try apply I.
    intros m Hm Hc. rewrite value_snoc. cbn. apply (I_val _ _ I); auto.
Qed.

Notation run := (run num zero one add sub pct app_name app_instance).
Lemma run_snoc : forall s ops o, run s (ops ++ [o]) = (let '(s', x) := step (fst (run s ops)) o in (s', snd (run s ops) ++ [x])).
Proof. intros. unfold StatsModel.run. rewrite fold_left_app. reflexivity. Qed.

Lemma init_inv : forall p t, Inv (init num p t) [].
Proof.
  intros p t. constructor; cbn; auto.
  - intros q u Hq Hg. destruct q; [congruence|discriminate].
  - intros n u _ _. pose proof (path_ne n). destruct (path n); [congruence|discriminate].
  - intros n _ _. pose proof (path_ne n). destruct (path n); [congruence|reflexivity].
  - constructor.
  - tauto.
Qed.

Lemma run_ok : forall p t ops rest, allops = ops ++ rest ->
  Inv (fst (run (init num p t) ops)) ops /\ Forall (fun x => x = None) (snd (run (init num p t) ops)).
Proof.
  intros p t. induction ops as [|o ops IH] using rev_ind; intros rest E.
  - split; [apply init_inv|constructor].
  - rewrite <- app_assoc in E. destruct (IH _ E) as (I & F). rewrite run_snoc.
    destruct (step_ok _ ops o I) as (s' & Es & I').
    + rewrite E. intros x Hx. cbn in *. apply in_app_or in Hx. apply in_or_app. destruct Hx as [Hx|[Hx|[]]]; auto. right; left; auto.
    + intros k v ->. exact (HT ops k v rest E).
    + rewrite Es. split; auto. apply Forall_app. split; auto.
Qed.
End Runs.
