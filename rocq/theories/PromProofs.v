(** Proofs about the metrics of a report. *)
From Coq Require Import String Ascii ZArith Bool Lia List.
From Verif Require Import Base RouterModel RouterSpec RouterProofs RouterProofs2 StatsModel ConfigModel PromModel PromSpec.
Import ListNotations.
Local Open Scope string_scope.

Section Proofs.
Set Default Proof Using "Type".
Context {num : Type} (nonneg : num -> bool) (float_of : string -> option num) .
Notation tree := (tree num). Notation dict := (dict num).
Notation gen := (gen num).
Notation to_float := (to_float num float_of). Notation emit := (emit num float_of). Notation emit_key := (emit_key num float_of).
Notation flatten := (flatten num). Notation yields g m := (In m (fst (g : gen))).

Lemma seq_yields : forall (a b : gen) m, snd (seq _ a b) = None -> (yields (seq _ a b) m <-> yields a m \/ yields b m).
Proof. intros a b m H. unfold seq in *. destruct (snd a) eqn:E; [congruence|]. cbn [fst]. apply in_app_iff. Qed.
Lemma seq_none : forall a b : gen, snd (seq _ a b) = None <-> snd a = None /\ snd b = None.
Proof. 
  clear. intros a b. unfold seq. destruct (snd a) eqn:E; cbn [snd]; rewrite ?E; split.
  - discriminate.
  - intros (H & _). discriminate.
  - auto.
  - intros (_ & H). exact H.
Qed.
Lemma each_none : forall (A : Type) (f : A -> gen) l, snd (each _ f l) = None <-> forall x, In x l -> snd (f x) = None.
Proof.
  intros A f. induction l as [|y l IH]; cbn [each fold_right].
  - split; auto. intros _ x [].
  - rewrite seq_none. fold (each _ f l). rewrite IH. split.
    + intros (H1 & H2) x [<-|Hx]; auto.
    + intros H. split; [|intros x Hx]; apply H; cbn; auto.
Qed.
Lemma each_yields : forall (A : Type) (f : A -> gen) l m, snd (each _ f l) = None ->
  (yields (each _ f l) m <-> exists x, In x l /\ yields (f x) m).
Proof.
  intros A f. induction l as [|y l IH]; intros m H; cbn [each fold_right] in *.
  - split; [intros []|intros (x & [] & _)].
  - fold (each _ f l) in *. rewrite seq_yields by exact H. apply seq_none in H. destruct H as (H1 & H2). rewrite (IH m H2). split.
    + intros [H|(x & Hx & H)]; [exists y|exists x]; cbn; auto.
    + intros (x & [->|Hx] & H); [left; auto|right; exists x; auto].
Qed.

Lemma number_float : forall t v, to_float t = Ok v <-> number float_of t v.
Proof.
  intros t v. destruct t as [n|s|d]; cbn.
  - split; [intros H; injection H as ->; constructor|intros H; inversion H; reflexivity].
  - destruct (float_of s) as [n|] eqn:E; split.
    + intros H; injection H as ->; constructor; auto.
    + intros H. inversion H as [|? ? E2]; subst. congruence.
    + discriminate.
    + intros H. inversion H as [|? ? E2]; subst. congruence.
  - split; [discriminate|intros H; inversion H].
Qed.
Lemma sget_path : forall (d : dict) k t, NoDup (map fst d) -> (sget k d = Some t <-> In (k, t) d).
Proof. intros d k t N. apply sget_in. auto. Qed.
Lemma emit_key_yields : forall (d : dict) k n l m, NoDup (map fst d) ->
  (yields (emit_key d k n l) m <-> exists t v, In (k, t) d /\ number float_of t v /\ m = (n, v, l)).
Proof.
  intros d k n l m N. unfold PromModel.emit_key. destruct (sget k d) as [t|] eqn:E.
  - apply sget_path in E; auto. unfold PromModel.emit. destruct (to_float t) as [v|e] eqn:F; cbn.
    + apply number_float in F. split.
      * intros [<-|[]]. exists t, v. auto.
      * intros (t' & v' & H1 & H2 & ->). left.
        assert (t' = t) by (apply sget_path in H1; auto; apply sget_path in E; auto; congruence). subst t'.
        apply number_float in H2. apply number_float in F. congruence.
    + split; [intros []|]. intros (t' & v' & H1 & H2 & ->).
      assert (t' = t) by (apply sget_path in H1; auto; apply sget_path in E; auto; congruence). subst t'. apply number_float in H2. congruence.
  - cbn. split; [intros []|]. intros (t' & v' & H1 & _). apply sget_path in H1; auto. congruence.
Qed.
Lemma emit_percentile_yields : forall (d : dict) k n l m, NoDup (map fst d) ->
  (yields (emit_percentile num nonneg d k n l) m <-> exists v, In (k, Num _ v) d /\ nonneg v = true /\ m = (n, v, l)).
Proof.
  intros d k n l m N. unfold emit_percentile. destruct (sget k d) as [t|] eqn:E.
  - apply sget_path in E; auto.
    assert (U : forall t', In (k, t') d -> t' = t).
    { intros t' H. apply sget_path in H; auto. apply sget_path in E; auto. congruence. }
    destruct t as [v|s|d']; [destruct (nonneg v) eqn:V|..]; cbn.
    + split; [intros [<-|[]]; exists v; auto|]. intros (w & H1 & H2 & ->). apply U in H1. injection H1 as ->. auto.
    + split; [intros []|]. intros (w & H1 & H2 & ->). apply U in H1. injection H1 as ->. congruence.
    + split; [intros []|]. intros (w & H1 & H2 & ->). apply U in H1. discriminate.
    + split; [intros []|]. intros (w & H1 & H2 & ->). apply U in H1. discriminate.
  - cbn. split; [intros []|]. intros (w & H1 & _). apply sget_path in H1; auto. congruence.
Qed.

Lemma excluded_spec : forall ex g, excluded ex g = false <-> ~ In g ex.
Proof.
  intros ex g. unfold excluded. split.
  - intros H I. assert (existsb (String.eqb g) ex = true); [|congruence]. apply existsb_exists. exists g. split; auto. apply String.eqb_refl.
  - intros H. destruct (existsb (String.eqb g) ex) eqn:E; auto. apply existsb_exists in E. destruct E as (x & X & E). apply String.eqb_eq in E. congruence.
Qed.

Lemma unique_node : forall d, unique_keys (Node _ d) -> NoDup (map fst d) /\ forall k t, In (k, t) d -> @unique_keys num t.
Proof. intros d H. inversion H; auto. Qed.

(** Two levels of dicts below a section. *)
Lemma path3 : forall (d : dict) g e k t, path d [g; e; k] t <-> exists d1 d2, In (g, Node _ d1) d /\ In (e, Node _ d2) d1 /\ In (k, t) d2.
Proof.
  intros d g e k t. split.
  - intros H. inversion H as [|? ? d1 ? ? H1 H2]; subst. inversion H2 as [|? ? d2 ? ? H3 H4]; subst.
    inversion H4 as [? ? ? H5|? ? d3 ? ? H5 H6]; subst; [|inversion H6]. exists d1, d2. auto.
  - intros (d1 & d2 & H1 & H2 & H3). eapply path_below; [exact H1|]. eapply path_below; [exact H2|]. apply path_here. auto.
Qed.
Lemma path4 : forall (d : dict) q g e k t, path d [q; g; e; k] t <-> exists d0, In (q, Node _ d0) d /\ path d0 [g; e; k] t.
Proof.
  intros d q g e k t. split.
  - intros H. inversion H as [|? ? d1 ? ? H1 H2]; subst. exists d1. auto.
  - intros (d0 & H1 & H2). eapply path_below; eauto.
Qed.
Lemma path1 : forall (d : dict) k t, path d [k] t <-> In (k, t) d.
Proof. intros d k t. split; [intros H; inversion H as [|? ? ? ? ? ? H2]; subst; auto; inversion H2|apply path_here]. Qed.

Lemma queue_yields : forall (d : dict) ex pre l m, unique_keys (Node _ d) -> snd (iter_queue_groups num float_of d ex pre l) = None ->
  (yields (iter_queue_groups num float_of d ex pre l) m <->
   exists g e t v, ~ In g ex /\ number float_of t v /\
     ((path d [g; e; "pending"] t /\ m = (pre ++ "_queue_pending", v, endpoint_labels l g e)) \/
      (path d [g; e; "error"] t /\ m = (pre ++ "_queue_error", v, endpoint_labels l g e)))).
Proof.
  intros d ex pre l m U H. unfold iter_queue_groups in *. rewrite each_yields by exact H. rewrite each_none in H.
  apply unique_node in U. destruct U as (N & U). split.
  - intros ((g, eps) & Hg & Hm). specialize (H _ Hg). cbn beta iota in H, Hm. destruct (excluded ex g) eqn:X; [destruct Hm|]. apply excluded_spec in X.
    destruct eps as [|s|eps]; try destruct Hm. pose proof (U _ _ Hg) as Ug. apply unique_node in Ug. destruct Ug as (Ng & Ug).
    rewrite each_yields in Hm by exact H. rewrite each_none in H. destruct Hm as ((e, sz) & He & Hm). specialize (H _ He). cbn beta iota in H, Hm.
    destruct sz as [|s|sz]; try destruct Hm. pose proof (Ug _ _ He) as Ue. apply unique_node in Ue. destruct Ue as (Ne & _).
    rewrite seq_yields in Hm by exact H. rewrite !emit_key_yields in Hm by exact Ne.
    destruct Hm as [(t & v & H1 & H2 & ->)|(t & v & H1 & H2 & ->)]; exists g, e, t, v; (split; [auto|split; [auto|]]); [left|right]; (split; [|reflexivity]);
      apply path3; exists eps, sz; auto.
  - intros (g & e & t & v & X & V & Hm). apply excluded_spec in X.
    assert (G : exists k n, path d [g; e; k] t /\ m = (n, v, endpoint_labels l g e) /\
              ((k = "pending" /\ n = pre ++ "_queue_pending") \/ (k = "error" /\ n = pre ++ "_queue_error"))).
    { destruct Hm as [(P & ->)|(P & ->)]; eauto 10. }
    clear Hm. destruct G as (k & n & P & -> & K). apply path3 in P. destruct P as (eps & sz & Hg & He & Hk).
    exists (g, Node _ eps). split; [auto|]. specialize (H _ Hg). cbn beta iota in *. rewrite X in *.
    pose proof (U _ _ Hg) as Ug. apply unique_node in Ug. destruct Ug as (Ng & Ug).
    rewrite each_yields by exact H. rewrite each_none in H. exists (e, Node _ sz). split; [auto|]. specialize (H _ He). cbn beta iota in *.
    pose proof (Ug _ _ He) as Ue. apply unique_node in Ue. destruct Ue as (Ne & _).
    rewrite seq_yields by exact H. rewrite !emit_key_yields by exact Ne.
    destruct K as [(-> & ->)|(-> & ->)]; [left|right]; exists t, v; auto.
Qed.
Lemma endpoint_yields : forall (d : dict) ex l m, unique_keys (Node _ d) -> snd (endpoint_metrics num nonneg float_of d ex l) = None ->
  (yields (endpoint_metrics num nonneg float_of d ex l) m <->
   exists g e v, ~ In g ex /\
     ((exists t, path d [g; e; "call_count"] t /\ number float_of t v /\ m = ("ekosis_endpoint_call_count", v, endpoint_labels l g e)) \/
      (path d [g; e; "p95"] (Num _ v) /\ nonneg v = true /\ m = ("ekosis_endpoint_p95_seconds", v, endpoint_labels l g e)) \/
      (path d [g; e; "p99"] (Num _ v) /\ nonneg v = true /\ m = ("ekosis_endpoint_p99_seconds", v, endpoint_labels l g e)))).
Proof.
  intros d ex l m U H. unfold endpoint_metrics in *. rewrite each_yields by exact H. rewrite each_none in H.
  apply unique_node in U. destruct U as (N & U). split.
  - intros ((g, eps) & Hg & Hm). specialize (H _ Hg). cbn beta iota in H, Hm. destruct (excluded ex g) eqn:X; [destruct Hm|]. apply excluded_spec in X.
    destruct eps as [|s|eps]; try destruct Hm. pose proof (U _ _ Hg) as Ug. apply unique_node in Ug. destruct Ug as (Ng & Ug).
    rewrite each_yields in Hm by exact H. rewrite each_none in H. destruct Hm as ((e, sz) & He & Hm). specialize (H _ He). cbn beta iota in H, Hm.
    destruct sz as [|s|sz]; try destruct Hm. pose proof (Ug _ _ He) as Ue. apply unique_node in Ue. destruct Ue as (Ne & _).
    rewrite seq_yields in Hm by exact H. apply seq_none in H. destruct H as (_ & H). rewrite seq_yields in Hm by exact H.
    rewrite emit_key_yields in Hm by exact Ne. rewrite !emit_percentile_yields in Hm by exact Ne.
    destruct Hm as [(t & v & H1 & H2 & ->)|[(v & H1 & H2 & ->)|(v & H1 & H2 & ->)]]; exists g, e, v; (split; [auto|]).
    + left. exists t. split; auto. apply path3. exists eps, sz. auto.
    + right. left. split; auto. apply path3. exists eps, sz. auto.
    + right. right. split; auto. apply path3. exists eps, sz. auto.
  - intros (g & e & v & X & Hm). apply excluded_spec in X.
    assert (G : exists k t n, path d [g; e; k] t /\ m = (n, v, endpoint_labels l g e) /\
              ((k = "call_count" /\ number float_of t v /\ n = "ekosis_endpoint_call_count") \/
               (k = "p95" /\ t = Num _ v /\ nonneg v = true /\ n = "ekosis_endpoint_p95_seconds") \/
               (k = "p99" /\ t = Num _ v /\ nonneg v = true /\ n = "ekosis_endpoint_p99_seconds"))).
    { destruct Hm as [(t & P & V & ->)|[(P & V & ->)|(P & V & ->)]]; eauto 15. }
    clear Hm. destruct G as (k & t & n & P & -> & K). apply path3 in P. destruct P as (eps & sz & Hg & He & Hk).
    exists (g, Node _ eps). split; [auto|]. specialize (H _ Hg). cbn beta iota in *. rewrite X in *.
    pose proof (U _ _ Hg) as Ug. apply unique_node in Ug. destruct Ug as (Ng & Ug).
    rewrite each_yields by exact H. rewrite each_none in H. exists (e, Node _ sz). split; [auto|]. specialize (H _ He). cbn beta iota in *.
    pose proof (Ug _ _ He) as Ue. apply unique_node in Ue. destruct Ue as (Ne & _).
    rewrite seq_yields by exact H. apply seq_none in H. destruct H as (_ & H). rewrite seq_yields by exact H.
    rewrite emit_key_yields by exact Ne. rewrite !emit_percentile_yields by exact Ne.
    destruct K as [(-> & V & ->)|[(-> & -> & V & ->)|(-> & -> & V & ->)]]; [left; exists t, v|right; left; exists v|right; right; exists v]; auto.
Qed.

(** Custom statistics *)
Fixpoint tsize (t : tree) : nat :=
  match t with Node _ d => S ((fix go (d : dict) := match d with [] => 0 | (_, v) :: r => tsize v + go r end)%nat d) | _ => 1%nat end.
Lemma tsize_in : forall d k t, In (k, t) d -> (tsize t < tsize (Node _ d))%nat.
Proof.
  induction d as [|(k', v) d IH]; intros k t H; [destruct H|]. cbn [tsize]. destruct H as [H|H].
  - injection H as <- <-. lia.
  - specialize (IH k t H). cbn [tsize] in IH. lia.
Qed.
Lemma safe_key_safe : forall k, safe_key k = safe k.
Proof.
  unfold safe_key. induction k as [|c k IH]; [reflexivity|]. cbn [replace_char safe]. f_equal; [|exact IH].
  destruct (Ascii.eqb_spec c ".") as [->|]; cbn [orb]; [reflexivity|]. reflexivity.
Qed.
Lemma flatten_node : forall p d, flatten p (Node _ d) = flat_map (fun kv => flatten (glue p (safe (fst kv))) (snd kv)) d.
Proof.
  intros p d. cbn [PromModel.flatten]. induction d as [|(k, v) d IH]; [reflexivity|]. cbn [flat_map fst snd]. rewrite <- IH.
  unfold glue. rewrite safe_key_safe. reflexivity.
Qed.
Lemma flatten_yields : forall n t p nm v, (tsize t < n)%nat ->
  (In (nm, v) (flatten p t) <-> (t = Num _ v /\ nm = p) \/ exists d ks, t = Node _ d /\ path d ks (Num _ v) /\ nm = fold_left glue (map safe ks) p).
Proof.
  induction n as [|n IH]; intros t p nm v L; [lia|]. destruct t as [w|s|d].
  - cbn. split.
    + intros [H|[]]. injection H as -> ->. auto.
    + intros [(H & ->)|(d & ks & H & _)]; [injection H as ->; auto|discriminate].
  - cbn. split; [intros []|]. intros [(H & _)|(d & ks & H & _)]; discriminate.
  - rewrite flatten_node, in_flat_map. split.
    + intros ((k, t) & Ht & H). cbn [fst snd] in H. pose proof (tsize_in _ _ _ Ht) as L2. apply IH in H; [|lia]. right. exists d.
      destruct H as [(-> & ->)|(d' & ks & -> & P & ->)].
      * exists [k]. repeat split. apply path_here. auto.
      * exists (k :: ks). repeat split. eapply path_below; eauto.
    + intros [(H & _)|(d0 & ks & H & P & ->)]; [discriminate|]. injection H as <-. inversion P as [? k t Ht|? k d' ks' t Ht P']; subst.
      * exists (k, Num _ v). split; auto. cbn [fst snd]. apply IH; [pose proof (tsize_in _ _ _ Ht); lia|]. left. auto.
      * exists (k, Node _ d'). split; auto. cbn [fst snd]. apply IH; [pose proof (tsize_in _ _ _ Ht); lia|]. right. exists d', ks'. auto.
Qed.
Lemma known_spec : forall k, existsb (String.eqb k) known_keys = false <-> ~ In k own_keys.
Proof. intros k. exact (excluded_spec own_keys k). Qed.
Lemma custom_yields : forall (r : dict) l m, yields (custom_metrics num r l) m <->
  exists k ks v, path r (k :: ks) (Num _ v) /\ ~ In k own_keys /\ m = (custom_name k ks, v, l).
Proof.
  intros r l m. unfold custom_metrics. cbn [fst]. rewrite in_flat_map. split.
  - intros ((k, t) & Ht & H). cbn [fst snd] in H. destruct (existsb (String.eqb k) known_keys) eqn:K; [destruct H|]. apply known_spec in K.
    apply in_map_iff in H. destruct H as ((nm, v) & <- & H). cbn [fst snd]. apply (flatten_yields (S (tsize t))) in H; [|lia].
    destruct H as [(-> & ->)|(d & ks & -> & P & ->)].
    + exists k, [], v. split; [apply path_here; auto|]. auto.
    + exists k, ks, v. split; [eapply path_below; eauto|]. auto.
  - intros (k & ks & v & P & K & ->). apply known_spec in K. inversion P as [? ? t Ht|? ? d' ks' t Ht P']; subst.
    + exists (k, Num _ v). split; auto. cbn [fst snd]. rewrite K. apply in_map_iff. exists (k, v). split; auto. cbn. auto.
    + exists (k, Node _ d'). split; auto. cbn [fst snd]. rewrite K. apply in_map_iff. exists (fold_left glue (map safe ks) k, v). split; auto.
      apply (flatten_yields (S (tsize (Node _ d')))); [lia|]. right. exists d', ks. auto.
Qed.
End Proofs.
