(** Proofs about settings from environment variables. *)
From Coq Require Import String Ascii ZArith Bool Lia List.
From Verif Require Import Base RouterModel RouterSpec RouterProofs RouterProofs2 ConfigModel ConfigSpec.
Import ListNotations.
Local Open Scope string_scope.

Lemma sapp_assoc : forall a b c : string, (a ++ b) ++ c = a ++ b ++ c.
Proof. induction a as [|x a IH]; intros b c; [reflexivity|]. exact (f_equal (String x) (IH b c)). Qed.
Lemma sapp_nil : forall a : string, a ++ "" = a.
Proof. induction a as [|x a IH]; [reflexivity|]. exact (f_equal (String x) IH). Qed.
Lemma sapp_inj : forall a b c : string, a ++ b = a ++ c -> b = c.
Proof. induction a as [|x a IH]; intros b c H; [exact H|]. injection H as H. auto. Qed.

Lemma env_get : forall env n v, NoDup (map fst env) -> (is_set env n v <-> sget n env = Some v /\ v <> "").
Proof. intros env n v N. unfold is_set. rewrite (sget_in n v env N). tauto. Qed.
Lemma falsy_spec : forall env n, NoDup (map fst env) ->
  (falsy (sget n env) = true /\ unset env n) \/ (exists v, falsy (sget n env) = false /\ sget n env = Some v /\ is_set env n v).
Proof.
  intros env n N. destruct (sget n env) as [v|] eqn:E.
  - cbn. destruct (String.eqb_spec v "") as [->|ne].
    + left. split; auto. intros w Hw. apply env_get in Hw; auto. destruct Hw as (A & B). congruence.
    + right. exists v. repeat split; auto. apply (sget_in n v env N). auto.
  - left. split; [reflexivity|]. intros w Hw. apply env_get in Hw; auto. destruct Hw. congruence.
Qed.

Lemma names_eq : forall p a i,
  "ECOENV" ++ "_" ++ p = machine_var p /\ ("ECOENV" ++ "_" ++ p) ++ "_" ++ a = app_var p a /\
  (("ECOENV" ++ "_" ++ p) ++ "_" ++ a) ++ "_" ++ i = instance_var p a i.
Proof.
  intros p a i. unfold machine_var, app_var, instance_var. rewrite !sapp_assoc. auto.
Qed.

Lemma is_set_fun : forall env n v w, NoDup (map fst env) -> is_set env n v -> is_set env n w -> v = w.
Proof. intros env n v w N A B. apply env_get in A, B; auto. destruct A, B. congruence. Qed.

Lemma precedence : forall app inst env p only (A : Type) (f : string -> A) d r,
  NoDup (map fst env) -> effective env app inst p only r ->
  get_eco_env app inst f env p d only = match r with Some v => f v | None => d end.
Proof.
  intros app inst env p only A f d r N E. unfold get_eco_env. cbv zeta. destruct (names_eq p app inst) as (E1 & E2 & E3).
  rewrite E3, E2, E1.
  assert (U : forall n, unset env n -> falsy (sget n env) = true).
  { intros n Hn. destruct (falsy_spec env n N) as [(F & _)|(v & _ & _ & S)]; auto. exfalso. eapply Hn; eauto. }
  assert (T : forall n v, is_set env n v -> falsy (sget n env) = false /\ sget n env = Some v).
  { intros n v Hn. apply env_get in Hn; auto. destruct Hn as (-> & Hv). split; auto. cbn. destruct (String.eqb_spec v ""); congruence. }
  destruct E as [only v S|v U1 S|v U1 U2 S|U1 U2 U3|U1].
  - destruct (T _ _ S) as (-> & ->). reflexivity.
  - rewrite (U _ U1). destruct (T _ _ S) as (-> & ->). reflexivity.
  - rewrite (U _ U1), (U _ U2). destruct (T _ _ S) as (-> & ->). reflexivity.
  - rewrite (U _ U1), (U _ U2), (U _ U3). reflexivity.
  - rewrite (U _ U1). reflexivity.
Qed.
Lemma effective_total : forall app inst env p only, NoDup (map fst env) -> exists r, effective env app inst p only r.
Proof.
  intros app inst env p only N.
  destruct (falsy_spec env (instance_var p app inst) N) as [(_ & U1)|(v & _ & _ & S)]; [|exists (Some v); apply eff_instance; auto].
  destruct only; [exists None; apply eff_only_default; auto|].
  destruct (falsy_spec env (app_var p app) N) as [(_ & U2)|(v & _ & _ & S)]; [|exists (Some v); apply eff_app; auto].
  destruct (falsy_spec env (machine_var p) N) as [(_ & U3)|(v & _ & _ & S)]; [exists None; apply eff_default; auto|exists (Some v); apply eff_machine; auto].
Qed.

(** Extra settings *)
Lemma strip_spec : forall p s r, strip p s = Some r <-> s = p ++ r.
Proof.
  induction p as [|a p IH]; intros s r; cbn [strip append].
  - split; congruence.
  - destruct s as [|b s]; [split; discriminate|]. destruct (Ascii.eqb_spec a b) as [->|ne].
    + rewrite IH. split; [congruence|]. intros H. injection H as H. auto.
    + split; [discriminate|]. intros H. injection H as H1 H2. congruence.
Qed.
Lemma starts_spec : forall p s, starts p s = true <-> begins p s.
Proof.
  intros p s. unfold starts, begins. destruct (strip p s) as [r|] eqn:E.
  - split; auto. intros _. exists r. apply strip_spec. auto.
  - split; [discriminate|]. intros (r & H). apply strip_spec in H. congruence.
Qed.

(** One pass over the environment. *)
Definition pass (env : environ) (keep : string -> bool) (prefix : string) (d : list (string * string)) :=
  fold_left (fun d kv => if starts prefix (fst kv) && keep (fst kv)
                         then match strip prefix (fst kv) with Some r => sset r (snd kv) d | None => d end else d) env d.
Lemma pass_get : forall env keep prefix d k, NoDup (map fst env) ->
  sget k (pass env keep prefix d) = if keep (prefix ++ k) then match sget (prefix ++ k) env with Some v => Some v | None => sget k d end else sget k d.
Proof.
  induction env as [|(n, v) env IH]; intros keep prefix d k N; unfold pass in *; cbn [fold_left fst snd].
  - cbn. destruct (keep _); reflexivity.
  - inversion N as [|? ? N1 N2]; subst. cbn [sget].
    change (starts prefix n) with (match strip prefix n with Some _ => true | None => false end).
    destruct (strip prefix n) as [r|] eqn:E; cbn [andb].
    + apply strip_spec in E. subst n. destruct (keep (prefix ++ r)) eqn:K.
      * rewrite IH by auto. rewrite sget_sset.
        destruct (String.eqb_spec k r) as [->|ne].
        -- rewrite K, String.eqb_refl. replace (sget (prefix ++ r) env) with (@None string); auto.
           symmetry. apply sget_missing. exact N1.
        -- destruct (String.eqb_spec (prefix ++ k) (prefix ++ r)) as [e|_]; auto. apply sapp_inj in e. congruence.
      * rewrite IH by auto. destruct (keep (prefix ++ k)) eqn:K2; auto.
        destruct (String.eqb_spec (prefix ++ k) (prefix ++ r)) as [e|_]; auto. congruence.
    + rewrite IH by auto. destruct (keep (prefix ++ k)); auto.
      destruct (String.eqb_spec (prefix ++ k) n) as [e|_]; auto. exfalso. symmetry in e. apply strip_spec in e. congruence.
Qed.
Lemma pass_nodup : forall env keep prefix d, NoDup (map fst d) -> NoDup (map fst (pass env keep prefix d)).
Proof.
  induction env as [|(n, v) env IH]; intros keep prefix d N; unfold pass in *; cbn [fold_left]; auto.
  apply IH. destruct (starts _ _ && keep _); auto. destruct (strip _ _); auto. apply sset_nodup. auto.
Qed.

Lemma begins_app : forall p q s, begins (p ++ q) (p ++ s) <-> begins q s.
Proof.
  intros p q s. split; intros (r & H).
  - rewrite sapp_assoc in H. apply sapp_inj in H. exists r. auto.
  - exists r. rewrite sapp_assoc, H. reflexivity.
Qed.

Lemma starts_false : forall p s, starts p s = false <-> ~ begins p s.
Proof. intros p s. rewrite <- starts_spec. destruct (starts p s); split; intros H; congruence. Qed.
Lemma starts_app : forall p q s, starts (p ++ q) (p ++ s) = starts q s.
Proof.
  intros p q s. destruct (starts q s) eqn:E.
  - apply starts_spec, begins_app, starts_spec. auto.
  - apply starts_false. rewrite begins_app. apply starts_false. auto.
Qed.

Lemma extra_ok : forall app inst env k v, NoDup (map fst env) ->
  NoDup (map fst (get_app_instance_extra app inst env)) /\
  (In (k, v) (get_app_instance_extra app inst env) <->
   extra_instance env app inst k v \/
   (forall w, ~ extra_instance env app inst k w) /\ extra_app env app inst k v \/
   (forall w, ~ extra_instance env app inst k w) /\ (forall w, ~ extra_app env app inst k w) /\ extra_machine env app k v).
Proof.
  intros app inst env k v N. unfold get_app_instance_extra. cbv zeta.
  match goal with |- NoDup (map fst ?x) /\ _ => change x with
    (pass env (fun _ => true) ((("ECOENV" ++ "_EXTRA_") ++ app ++ "_") ++ inst ++ "_")
      (pass env (fun k => negb (starts ((("ECOENV" ++ "_EXTRA_") ++ app ++ "_") ++ inst ++ "_") k)) (("ECOENV" ++ "_EXTRA_") ++ app ++ "_")
        (pass env (fun k => negb (starts (("ECOENV" ++ "_EXTRA_") ++ app ++ "_") k)) ("ECOENV" ++ "_EXTRA_") []))) end.
  set (D := pass env (fun _ => true) _ _).
  assert (ND : NoDup (map fst D)) by (unfold D; repeat apply pass_nodup; constructor).
  split; [exact ND|]. rewrite <- (sget_in k v D ND). unfold D. rewrite !pass_get by auto. cbv beta.
  rewrite !starts_app.
  replace (((("ECOENV" ++ "_EXTRA_") ++ app ++ "_") ++ inst ++ "_") ++ k) with ("ECOENV_EXTRA_" ++ app ++ "_" ++ inst ++ "_" ++ k)
    by (rewrite !sapp_assoc; reflexivity).
  replace ((("ECOENV" ++ "_EXTRA_") ++ app ++ "_") ++ k) with ("ECOENV_EXTRA_" ++ app ++ "_" ++ k) by (rewrite !sapp_assoc; reflexivity).
  change (("ECOENV" ++ "_EXTRA_") ++ k) with ("ECOENV_EXTRA_" ++ k).
  unfold extra_instance, extra_app, extra_machine.
  assert (G : forall n x, In (n, x) env <-> sget n env = Some x) by (intros; symmetry; apply sget_in; auto).
  destruct (sget ("ECOENV_EXTRA_" ++ app ++ "_" ++ inst ++ "_" ++ k) env) as [x|] eqn:E1.
  { split.
    - intros H. left. apply G. congruence.
    - intros [H|[(H & _)|(H & _)]]; [apply G in H; congruence| |]; exfalso; apply (H x); apply G; auto. }
  assert (NI : forall w, ~ In ("ECOENV_EXTRA_" ++ app ++ "_" ++ inst ++ "_" ++ k, w) env) by (intros w Hw; apply G in Hw; congruence).
  destruct (starts (inst ++ "_") k) eqn:S1; cbn [negb].
  - assert (B1 : begins (inst ++ "_") k) by (apply starts_spec; auto).
    destruct (starts (app ++ "_") k) eqn:S2; cbn [negb].
    + assert (B2 : begins (app ++ "_") k) by (apply starts_spec; auto). cbn [sget]. split; [discriminate|].
      intros [H|[(_ & _ & H)|(_ & _ & _ & H)]]; [exfalso; eapply NI; eauto|tauto|tauto].
    + assert (B2 : ~ begins (app ++ "_") k) by (apply starts_false; auto).
      destruct (sget ("ECOENV_EXTRA_" ++ k) env) as [x|] eqn:E3; cbn [sget].
      * split.
        -- intros H. right. right. split; [auto|]. split; [tauto|]. split; auto. apply G. congruence.
        -- intros [H|[(_ & _ & H)|(_ & _ & H & _)]]; [exfalso; eapply NI; eauto|tauto|apply G in H; congruence].
      * split; [discriminate|]. intros [H|[(_ & _ & H)|(_ & _ & H & _)]]; [exfalso; eapply NI; eauto|tauto|apply G in H; congruence].
  - assert (B1 : ~ begins (inst ++ "_") k) by (apply starts_false; auto).
    destruct (sget ("ECOENV_EXTRA_" ++ app ++ "_" ++ k) env) as [x|] eqn:E2.
    + split.
      * intros H. right. left. split; auto. split; auto. apply G. congruence.
      * intros [H|[(_ & H & _)|(_ & H & _)]]; [exfalso; eapply NI; eauto|apply G in H; congruence|].
        exfalso. apply (H x). split; auto. apply G. auto.
    + assert (NA : forall w, ~ (In ("ECOENV_EXTRA_" ++ app ++ "_" ++ k, w) env /\ ~ begins (inst ++ "_") k)).
      { intros w (Hw & _). apply G in Hw. congruence. }
      destruct (starts (app ++ "_") k) eqn:S2; cbn [negb].
      * assert (B2 : begins (app ++ "_") k) by (apply starts_spec; auto). cbn [sget]. split; [discriminate|].
        intros [H|[(_ & H)|(_ & _ & _ & H)]]; [exfalso; eapply NI; eauto|exfalso; eapply NA; eauto|tauto].
      * assert (B2 : ~ begins (app ++ "_") k) by (apply starts_false; auto).
        destruct (sget ("ECOENV_EXTRA_" ++ k) env) as [x|] eqn:E3; cbn [sget].
        -- split.
           ++ intros H. right. right. split; [auto|]. split; [auto|]. split; auto. apply G. congruence.
           ++ intros [H|[(_ & H)|(_ & _ & H & _)]]; [exfalso; eapply NI; eauto|exfalso; eapply NA; eauto|apply G in H; congruence].
        -- split; [discriminate|]. intros [H|[(_ & H)|(_ & _ & H & _)]]; [exfalso; eapply NI; eauto|exfalso; eapply NA; eauto|apply G in H; congruence].
Qed.
