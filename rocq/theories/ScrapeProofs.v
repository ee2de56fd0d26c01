(** Proofs about the reports a keeper gathers and what a scrape makes of them. *)
From Coq Require Import String Ascii ZArith Bool Lia List.
From Verif Require Import Base RouterModel RouterSpec RouterProofs RouterProofs2 ConfigModel PromModel PromSpec PromProofs PromProofs2
  StatsModel StatsSpec StatsProofs StatsProofs2 StatsProofs3 ScrapeSpec.
Import ListNotations.
Local Open Scope list_scope.

(** Elements of names. *)
Lemma path_elems : forall n x, In x (path n) -> dotless x.
Proof.
  induction n as [|c n IH]; intros x H.
  - cbn in H. destruct H as [<-|[]]. intros a b E. destruct a; discriminate.
  - pose proof (path_head_dotless (String c n)) as PH. rewrite path_cons in *. destruct (Ascii.eqb c "."%char).
    + destruct H as [<-|H]; [eapply PH; reflexivity|]. apply IH, H.
    + destruct (path n) as [|k r]; [destruct H|]. destruct H as [<-|H]; [eapply PH; reflexivity|]. apply IH. right. exact H.
Qed.
Lemma path_four : forall q g e x, dotless q -> dotless g -> dotless e -> dotless x -> path (q ++ "." ++ g ++ "." ++ e ++ "." ++ x)%string = [q; g; e; x].
Proof. intros q g e x Hq Hg He Hx. rewrite !path_dot, !dotless_path by assumption. reflexivity. Qed.
Lemma dotless_word : forall s, path s = [s] -> dotless s.
Proof. intros s H. eapply path_single. exact H. Qed.
Lemma call_count_two : forall g e, dotless g -> dotless e -> path (call_count (g ++ "." ++ e)) = ["endpoint_data"; g; e; "call_count"]%string.
Proof.
  intros g e Hg He. unfold call_count. change ("endpoint_data." ++ (g ++ "." ++ e) ++ ".call_count")%string with ("endpoint_data" ++ "." ++ (g ++ "." ++ e) ++ "." ++ "call_count")%string.
  rewrite !path_dot, (dotless_path g), (dotless_path e) by assumption. reflexivity.
Qed.
Lemma p95_two : forall g e, dotless g -> dotless e -> path (p95 (g ++ "." ++ e)) = ["endpoint_data"; g; e; "p95"]%string.
Proof. intros g e Hg He. rewrite path_p95, path_dot, !dotless_path by assumption. reflexivity. Qed.
Lemma p99_two : forall g e, dotless g -> dotless e -> path (p99 (g ++ "." ++ e)) = ["endpoint_data"; g; e; "p99"]%string.
Proof. intros g e Hg He. rewrite path_p99, path_dot, !dotless_path by assumption. reflexivity. Qed.
Lemma path_cc : forall k, path (call_count k) = "endpoint_data"%string :: path k ++ ["call_count"%string].
Proof.
  intros k. unfold call_count. change ("endpoint_data." ++ k ++ ".call_count")%string with ("endpoint_data" ++ "." ++ k ++ "." ++ "call_count")%string.
  rewrite !path_dot. reflexivity.
Qed.
Lemma cc_inj : forall j k, call_count j = call_count k -> j = k.
Proof.
  intros j k H. assert (E : path (call_count j) = path (call_count k)) by congruence. rewrite !path_cc in E. injection E as E.
  apply app_inj_tail in E. apply path_inj, E.
Qed.
Lemma cc_p95 : forall j k, call_count j <> p95 k.
Proof.
  intros j k H. assert (E : path (call_count j) = path (p95 k)) by congruence. rewrite path_cc, path_p95 in E. injection E as E.
  apply app_inj_tail in E. destruct E. discriminate.
Qed.
Lemma cc_p99 : forall j k, call_count j <> p99 k.
Proof.
  intros j k H. assert (E : path (call_count j) = path (p99 k)) by congruence. rewrite path_cc, path_p99 in E. injection E as E.
  apply app_inj_tail in E. destruct E. discriminate.
Qed.

(** Keys stay unique. *)
Section Unique.
Context {num : Type} (zero one : num) (add sub : num -> num -> num).
Context (pct : list num -> num * num) (nm inst : string).
Notation uk d := (unique_keys (Node num d)).
Lemma in_sset : forall (d : dict num) k v j t, In (j, t) (sset k v d) -> (j, t) = (k, v) \/ In (j, t) d.
Proof.
  induction d as [|(i, u) d IH]; intros k v j t H; cbn in H.
  - destruct H as [H|[]]. left. congruence.
  - destruct (String.eqb_spec k i) as [->|ne].
    + destruct H as [H|H]; [left; congruence|right; right; exact H].
    + destruct H as [H|H]; [right; left; exact H|]. destruct (IH k v j t H); auto. right. right. assumption.
Qed.
Lemma uk_sset : forall (d : dict num) k v, uk d -> unique_keys v -> uk (sset k v d).
Proof.
  intros d k v U V. apply unique_node in U. destruct U as (N & A). constructor; [apply sset_nodup, N|].
  intros j t H. apply in_sset in H. destruct H as [H|H]; [injection H as -> ->; exact V|eapply A; eauto].
Qed.
Lemma uk_nil : uk [].
Proof. constructor; [constructor|intros ? ? []]. Qed.
Lemma uk_sget : forall (d : dict num) k t, uk d -> sget k d = Some t -> unique_keys t.
Proof. intros d k t U H. apply unique_node in U. destruct U as (N & A). apply (A k). apply sget_path; assumption. Qed.
Lemma uk_deep_set : forall ks k (d d' : dict num) v, uk d -> unique_keys v -> deep_set num d k ks v = Ok d' -> uk d'.
Proof.
  induction ks as [|k2 ks IH]; intros k d d' v U V H; cbn [deep_set] in H.
  - injection H as <-. apply uk_sset; assumption.
  - destruct (sget k d) as [[n|s|d1]|] eqn:S; try discriminate H.
    + destruct (deep_set num d1 k2 ks v) as [d2|x] eqn:E; [|discriminate H]. cbn in H. injection H as <-. apply uk_sset; [assumption|].
      eapply IH; [|exact V|exact E]. eapply uk_sget; eauto.
    + destruct (deep_set num [] k2 ks v) as [d2|x] eqn:E; [|discriminate H]. cbn in H. injection H as <-. apply uk_sset; [assumption|].
      eapply IH; [|exact V|exact E]. apply uk_nil.
Qed.
Lemma uk_set_value : forall (d d' : dict num) n v, uk d -> set_statistic_value num d n v = Ok d' -> uk d'.
Proof. intros d d' n v U H. unfold set_statistic_value in H. destruct (split_dot n). eapply uk_deep_set; [exact U| |exact H]. constructor. Qed.
Lemma uk_change : forall f (d d' : dict num) n v, uk d -> change num zero f d n v = Ok d' -> uk d'.
Proof.
  intros f d d' n v U H. unfold change in H. destruct (split_dot n) as (k, ks).
  destruct (deep_get num (Node num d) (k :: ks)) as [[x|x|x]|]; try discriminate H; (eapply uk_deep_set; [exact U| |exact H]; constructor).
Qed.
Lemma uk_set_all : forall l (d : dict num), uk d -> uk (fst (set_all num d l)).
Proof.
  induction l as [|(k, v) l IH]; intros d U; [exact U|]. cbn [set_all]. destruct (set_statistic_value num d k v) eqn:E; [|exact U].
  apply IH. eapply uk_set_value; eauto.
Qed.
Lemma uk_reset : forall t : tree num, unique_keys t -> unique_keys (reset num zero t).
Proof.
  intros t U. induction U as [n|s|d N A IH]; cbn [reset]; try constructor.
  - rewrite map_map. cbn [fst]. exact N.
  - intros k t H. apply in_map_iff in H. destruct H as ((j, u) & E & H). cbn [fst snd] in E. injection E as <- <-. eapply IH. exact H.
Qed.
Lemma uk_update : forall s e, uk (current num s) -> uk (current num (fst (update_current num sub pct nm inst s e))).
Proof.
  intros s e U. unfold update_current.
  assert (A : uk [("name", Str num nm); ("instance", Str num inst)]%string).
  { constructor; [repeat constructor; cbn; [intros [X|[]]; discriminate|intros []]|]. intros k t [X|[X|[]]]; injection X as <- <-; constructor. }
  match goal with |- context [set_all num ?d ?l] => pose proof (uk_set_all l d) as P; destruct (set_all num d l) as (d1, x) end. cbn [fst] in P.
  assert (U1 : uk d1) by (apply P; repeat (apply uk_sset; [|exact A || constructor]); exact U).
  destruct x; [exact U1|].
  match goal with |- context [set_all num ?d ?l] => pose proof (uk_set_all l d U1) as Q; destruct (set_all num d l) as (d2, x) end. exact Q.
Qed.
Lemma uk_step : forall s o, uk (current num s) -> uk (current num (fst (step num zero one add sub pct nm inst s o))).
Proof.
  intros s o U. destruct o; cbn [step]; try exact U.
  - destruct (change num zero add (current num s) key v) eqn:E; cbn; [eapply uk_change; eauto|exact U].
  - destruct (change num zero sub (current num s) key v) eqn:E; cbn; [eapply uk_change; eauto|exact U].
  - destruct (set_statistic_value num (current num s) key v) eqn:E; cbn; [eapply uk_set_value; eauto|exact U].
  - destruct (change num zero add (current num s) (endpoint_name key "call_count") zero) eqn:E; cbn; [eapply uk_change; eauto|exact U].
  - destruct (change num zero add (current num s) (endpoint_name key "call_count") one) eqn:E; cbn; [|exact U].
    destruct (sget key (durations num s)); cbn; eapply uk_change; eauto.
  - apply uk_update, U.
  - unfold gather. pose proof (uk_update s e U) as Q. destruct (update_current num sub pct nm inst s e) as (s1, [x|]); [exact Q|].
    cbn [fst] in *. cbn [reset_current set_current set_hist current]. exact (uk_reset _ Q).
Qed.
Lemma uk_run : forall ops s, uk (current num s) -> uk (current num (fst (run num zero one add sub pct nm inst s ops))).
Proof.
  induction ops as [|o ops IH]; intros s U; [exact U|]. rewrite run_cons. apply IH, uk_step, U.
Qed.
(** Following keys, and looking up. *)
Lemma path_get : forall ks (d : dict num) t, uk d -> (PromSpec.path d ks t <-> ks <> [] /\ deep_get num (Node num d) ks = Some t).
Proof.
  induction ks as [|k ks IH]; intros d t U.
  - split; [intros P; inversion P|intros (X & _); congruence].
  - pose proof (unique_node d U) as (N & A). rewrite get_cons. split.
    + intros P. split; [discriminate|]. inversion P as [? ? ? H|? ? d' ? ? H H']; subst.
      * apply (sget_path _ _ _ N) in H. rewrite H. reflexivity.
      * pose proof (A _ _ H) as U'. apply (sget_path _ _ _ N) in H. rewrite H. apply IH in H'; [apply H'|exact U'].
    + intros (_ & G). destruct (sget k d) as [u|] eqn:S; [|discriminate G]. apply (sget_path _ _ _ N) in S.
      destruct ks as [|k2 ks].
      * cbn in G. injection G as <-. apply path_here, S.
      * destruct u as [n|s|d']; try discriminate G. apply path_below with d'; [exact S|]. apply IH; [exact (A _ _ S)|]. split; [discriminate|exact G].
Qed.
End Unique.

(** Counting calls. *)
Section Calls.
Context {num : Type} (zero one : num) (add sub : num -> num -> num).
Definition call1 (k : string) (n : nat) (o : op num) : nat :=
  match o with AddEndpoint _ j _ => if String.eqb j k then S n else n | Gather _ _ => 0 | _ => n end.
Definition ncalls (k : string) (ops : list (op num)) : nat := fold_left (call1 k) ops 0.
Lemma no_gather_tail : forall (o : op num) ops, no_gather (o :: ops) -> no_gather ops /\ forall e, o <> Gather _ e.
Proof. intros o ops H. split; [intros e X; apply (H e); right; exact X|intros e ->; apply (H e); left; reflexivity]. Qed.
Lemma fold_total : forall k ops n, no_gather ops -> fold_left (call1 k) ops n = (n + total k ops)%nat.
Proof.
  induction ops as [|o ops IH]; intros n H; [cbn; lia|]. apply no_gather_tail in H. destruct H as (H & Ho). cbn [fold_left]. rewrite IH by exact H.
  destruct o; cbn [call1 total]; try reflexivity; [destruct (String.eqb key k); lia|]. exfalso. eapply Ho. reflexivity.
Qed.
Lemma calls_ncalls : forall k ops n, calls k ops n -> n = ncalls k ops.
Proof.
  intros k ops n H. unfold ncalls. destruct H as [ops H|before e ops H].
  - rewrite fold_total by exact H. reflexivity.
  - rewrite fold_left_app. cbn [fold_left call1]. rewrite fold_total by exact H. reflexivity.
Qed.
Lemma ncalls_snoc : forall k ops o, ncalls k (ops ++ [o]) = call1 k (ncalls k ops) o.
Proof. intros. unfold ncalls. rewrite fold_left_app. reflexivity. Qed.
Lemma total_app : forall k (a b : list (op num)), total k (a ++ b) = (total k a + total k b)%nat.
Proof. induction a as [|o a IH]; intros b; [reflexivity|]. destruct o; cbn [app total]; rewrite ?IH; try reflexivity. destruct (String.eqb key k); lia. Qed.
Lemma ncalls_calls : forall k ops, calls k ops (ncalls k ops).
Proof.
  intros k ops. assert (D : no_gather ops \/ exists before e later, ops = before ++ Gather _ e :: later /\ no_gather later).
  { induction ops as [|o ops [H|(b & e & l & -> & H)]].
    - left. intros e [].
    - destruct o; try (left; intros e' [X|X]; [discriminate X|exact (H _ X)]). right. exists [], e, ops. split; [reflexivity|exact H].
    - right. exists (o :: b), e, l. split; [reflexivity|exact H]. }
  destruct D as [H|(b & e & l & -> & H)].
  - unfold ncalls. rewrite fold_total by exact H. apply calls_first, H.
  - unfold ncalls. rewrite fold_left_app. cbn [fold_left call1]. rewrite fold_total by exact H. apply calls_since, H.
Qed.

Context (tally : nat -> num) (T : counts zero one add tally).
Lemma value_calls : forall k ops, only_calls k ops ->
  value zero one add sub (call_count k) ops = Some (tally (ncalls k ops)) \/
  value zero one add sub (call_count k) ops = None /\ ncalls k ops = 0%nat /\ ~ In (Track _ k) ops.
Proof.
  destruct T as (T0 & T1 & T2). intros k. induction ops as [|o ops IH] using rev_ind; intros O.
  - right. repeat split; auto.
  - specialize (IH (fun o' H => O o' (in_or_app _ _ _ (or_introl H)))). specialize (O o (in_elt o ops [])).
    rewrite value_snoc, ncalls_snoc.
    assert (KEEP : forall x, change1 zero one add sub (call_count k) x o = x -> call1 k (ncalls k ops) o = ncalls k ops -> o <> Track _ k ->
      x = value zero one add sub (call_count k) ops ->
      change1 zero one add sub (call_count k) x o = Some (tally (call1 k (ncalls k ops) o)) \/
      change1 zero one add sub (call_count k) x o = None /\ call1 k (ncalls k ops) o = 0%nat /\ ~ In (Track _ k) (ops ++ [o])).
    { intros x E1 E2 E3 ->. rewrite E1, E2. destruct IH as [IH|(I1 & I2 & I3)]; [left; exact IH|right]. repeat split; auto.
      intros X. apply in_app_or in X. destruct X as [X|[X|[]]]; [exact (I3 X)|congruence]. }
    destruct o; cbn [touched] in O; try (apply KEEP; [reflexivity|reflexivity|discriminate|reflexivity]).
    + apply KEEP; [cbn [change1]; destruct (String.eqb_spec key (call_count k)); congruence|reflexivity|discriminate|reflexivity].
    + apply KEEP; [cbn [change1]; destruct (String.eqb_spec key (call_count k)); congruence|reflexivity|discriminate|reflexivity].
    + apply KEEP; [cbn [change1]; destruct (String.eqb_spec key (call_count k)); congruence|reflexivity|discriminate|reflexivity].
    + destruct (string_dec key k) as [->|ne].
      * left. cbn [change1 call1]. rewrite String.eqb_refl. destruct IH as [->|(-> & -> & _)]; cbn [or_zero]; [rewrite T2; reflexivity|].
        pose proof (T2 0%nat) as X. rewrite T0 in X. rewrite T0, X. reflexivity.
      * apply KEEP; [|reflexivity|congruence|reflexivity]. cbn [change1]. destruct (String.eqb_spec (call_count key) (call_count k)) as [E|]; [|reflexivity].
        apply cc_inj in E. congruence.
    + destruct (string_dec key k) as [->|ne].
      * left. cbn [change1 call1]. rewrite !String.eqb_refl. destruct IH as [->|(-> & -> & _)]; cbn [or_zero]; [rewrite T1; reflexivity|].
        pose proof (T1 0%nat) as X. rewrite T0 in X. rewrite X. reflexivity.
      * apply KEEP; [| |discriminate|reflexivity].
        -- cbn [change1]. destruct (String.eqb_spec (call_count key) (call_count k)) as [E|]; [|reflexivity]. apply cc_inj in E. congruence.
        -- cbn [call1]. destruct (String.eqb_spec key k); congruence.
    + cbn [change1 call1]. destruct IH as [->|(-> & I2 & I3)]; [left; rewrite T0; reflexivity|right]. repeat split; auto.
      intros X. apply in_app_or in X. destruct X as [X|[X|[]]]; [exact (I3 X)|discriminate].
Qed.
Lemma only_counter : forall k (ops : list (op num)), only_calls k ops -> counter ops (call_count k).
Proof.
  intros k ops O. split; [|split].
  - intros X. assert (E : In (path (call_count k)) (map path reserved)) by (apply in_map, X). rewrite path_cc in E. cbn in E.
    repeat (destruct E as [E|E]; [discriminate E|]). exact E.
  - intros X. exact (O _ X eq_refl).
  - intros j _. split; [apply cc_p95|apply cc_p99].
Qed.
End Calls.
