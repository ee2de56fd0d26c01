(** Names and the tree of statistics. *)
From Coq Require Import String Ascii ZArith QArith Bool Lia List.
From Verif Require Import Base RouterModel RouterSpec RouterProofs StatsModel StatsSpec.
Import ListNotations.
Local Open Scope list_scope.

Definition path (n : string) : list string := let (k, ks) := split_dot n in k :: ks.
Fixpoint join (l : list string) : string :=
  match l with [] => EmptyString | [k] => k | k :: r => (k ++ "." ++ join r)%string end.

Lemma path_cons : forall c r, path (String c r) =
  if Ascii.eqb c "."%char then EmptyString :: path r else match path r with k :: ks => String c k :: ks | [] => [] end.
Proof. intros. unfold path. cbn [split_dot]. destruct (split_dot r). destruct (Ascii.eqb _ _); reflexivity. Qed.
Lemma path_ne : forall n, path n <> [].
Proof. intros. unfold path. destruct (split_dot n). discriminate. Qed.

Lemma join_path : forall n, join (path n) = n.
Proof.
  induction n as [|c n IH]; [reflexivity|]. rewrite path_cons. destruct (Ascii.eqb_spec c "."%char) as [->|_].
  - destruct (path n) as [|k ks] eqn:E; [exfalso; eapply path_ne; eauto|]. rewrite <- IH. reflexivity.
  - destruct (path n) as [|k ks] eqn:E; [exfalso; eapply path_ne; eauto|]. rewrite <- IH. destruct ks; reflexivity.
Qed.
Lemma path_inj : forall a b, path a = path b -> a = b.
Proof. intros a b H. rewrite <- (join_path a), <- (join_path b), H. reflexivity. Qed.
Lemma path_dot : forall a b, path (a ++ "." ++ b)%string = path a ++ path b.
Proof.
  induction a as [|c a IH]; intros b.
  { change ("" ++ "." ++ b)%string with (String "."%char b). rewrite path_cons. reflexivity. }
  change (String c a ++ "." ++ b)%string with (String c (a ++ "." ++ b)%string). rewrite !path_cons, IH.
  destruct (Ascii.eqb _ _); auto. destruct (path a) eqn:E; [exfalso; eapply path_ne; eauto|]. reflexivity.
Qed.
Lemma join_app : forall a b, a <> [] -> b <> [] -> join (a ++ b) = (join a ++ "." ++ join b)%string.
Proof.
  induction a as [|x a IH]; intros b Ha Hb; [congruence|]. destruct a as [|y a].
  - cbn [app]. destruct b; [congruence|]. reflexivity.
  - change (join ((x :: y :: a) ++ b)) with (x ++ "." ++ join ((y :: a) ++ b))%string.
    rewrite IH by (discriminate || auto). change (join (x :: y :: a)) with (x ++ "." ++ join (y :: a))%string.
    generalize (join (y :: a)) as s, (join b) as u. clear. intros s u.
    assert (A : forall a b c : string, ((a ++ b) ++ c = a ++ (b ++ c))%string)
      by (intros a b c; induction a as [|z a IHa]; [reflexivity|exact (f_equal (String z) IHa)]).
    rewrite !A. reflexivity.
Qed.
Lemma below_path : forall a b, below a b <-> exists r, r <> [] /\ path b = path a ++ r.
Proof.
  intros a b. split.
  - intros (c & ->). exists (path c). split; [apply path_ne|apply path_dot].
  - intros (r & Hr & E). exists (join r). rewrite <- (join_path b), E, join_app, join_path; auto. apply path_ne.
Qed.
Lemma dotless_path : forall n, dotless n -> path n = [n].
Proof.
  intros n H. pose proof (join_path n) as E. destruct (path n) as [|k [|k2 ks]] eqn:P; [exfalso; eapply path_ne; eauto| |].
  - cbn in E. congruence.
  - exfalso. apply (H k (join (k2 :: ks))). rewrite <- E. reflexivity.
Qed.
Lemma path_single : forall n k, path n = [k] -> n = k /\ dotless n.
Proof.
  intros n k H. split.
  - rewrite <- (join_path n), H. reflexivity.
  - intros a b E. subst n. rewrite path_dot in H. pose proof (path_ne a). pose proof (path_ne b).
    destruct (path a) as [|x [|y l]]; destruct (path b); cbn in H; congruence.
Qed.
Lemma path_head_dotless : forall n k r, path n = k :: r -> dotless k.
Proof.
  induction n as [|c n IH]; intros k r H.
  - cbn in H. injection H as <- <-. intros a b E. destruct a; discriminate.
  - rewrite path_cons in H. destruct (Ascii.eqb_spec c "."%char) as [->|ne].
    + injection H as <- <-. intros a b E. destruct a; discriminate.
    + destruct (path n) as [|k' r'] eqn:P; [discriminate|]. injection H as <- <-.
      intros a b E. destruct a as [|c' a]; cbn in E; injection E as Ec Es; [congruence|].
      exact (IH k' r' eq_refl a b Es).
Qed.

Section Tree.
Context {num : Type} (zero : num).
Notation tree := (tree num). Notation dict := (dict num).
Notation get d p := (deep_get num (Node num d) p).

Lemma get_cons : forall (d : dict) k r, get d (k :: r) = match sget k d with Some t => deep_get num t r | None => None end.
Proof. reflexivity. Qed.
Lemma get_app : forall p (t : tree) r, deep_get num t (p ++ r) = match deep_get num t p with Some u => deep_get num u r | None => None end.
Proof.
  induction p as [|k p IH]; intros t r; [reflexivity|]. cbn [app deep_get].
  destruct t as [n|s|d]; auto. destruct (sget k d); auto.
Qed.

Lemma shows_get : forall (d : dict) n t, shows d n t <-> get d (path n) = Some t.
Proof.
  intros d n t. split.
  - induction 1 as [d n t Hn H|d k d' n t Hk H Hs IH].
    + rewrite (dotless_path n Hn). rewrite get_cons, H. reflexivity.
    + rewrite path_dot, (dotless_path k Hk). cbn [app]. rewrite get_cons, H. exact IH.
  - remember (path n) as p eqn:E. revert d n E. induction p as [|k p IH]; intros d n E H.
    + exfalso. eapply path_ne. eauto.
    + rewrite get_cons in H. destruct (sget k d) as [u|] eqn:S; [|discriminate].
      pose proof (path_head_dotless n k p (eq_sym E)) as Hk.
      destruct p as [|k2 p].
      * cbn in H. injection H as <-. destruct (path_single n k (eq_sym E)) as (-> & Hd). apply shows_here; auto.
      * cbn [deep_get] in H. destruct u as [x|s|d']; try discriminate.
        assert (Ep : path (join (k2 :: p)) = k2 :: p).
        { assert (Hn : n = (k ++ "." ++ join (k2 :: p))%string) by (rewrite <- (join_path n), <- E; reflexivity).
          pose proof (path_dot k (join (k2 :: p))) as Q. rewrite <- Hn, (dotless_path k Hk), <- E in Q.
          cbn [app] in Q. congruence. }
        rewrite <- (join_path n), <- E. change (join (k :: k2 :: p)) with (k ++ "." ++ join (k2 :: p))%string.
        apply shows_below with d'; auto.
Qed.

Definition prefix (a b : list string) : Prop := exists r, b = a ++ r.
Definition is_leaf (t : tree) : Prop := match t with Node _ _ => False | _ => True end.

(** deep_set succeeds when there is no leaf on the way. *)
Lemma deep_set_ok : forall ks k (d : dict) v,
  (forall q r t, k :: ks = q ++ r -> q <> [] -> r <> [] -> get d q = Some t -> ~ is_leaf t) ->
  exists d', deep_set num d k ks v = Ok d' /\
    (forall r, get d' ((k :: ks) ++ r) = deep_get num v r) /\
    (forall q, ~ prefix (k :: ks) q -> ~ prefix q (k :: ks) -> get d' q = get d q) /\
    (forall q r, k :: ks = q ++ r -> r <> [] -> exists e, get d' q = Some (Node num e)).
Proof.
  induction ks as [|k2 ks IH]; intros k d v H.
  - exists (sset k v d). cbn [deep_set]. split; [reflexivity|]. repeat split.
    + intros r. cbn [app]. rewrite get_cons, sget_sset, String.eqb_refl. reflexivity.
    + intros [|k' q] H1 H2; [exfalso; apply H2; exists [k]; reflexivity|]. rewrite !get_cons, sget_sset.
      destruct (String.eqb_spec k' k) as [->|]; auto. exfalso. apply H1. exists q. reflexivity.
    + intros [|k' q] r E Hr; [exists (sset k v d); reflexivity|]. injection E as <- E. destruct q; destruct r; cbn in E; congruence.
  - cbn [deep_set].
    assert (A : exists d1, (sget k d = Some (Node num d1) \/ sget k d = None /\ d1 = [])).
    { destruct (sget k d) as [[n|s|d1]|] eqn:S; [exfalso|exfalso|exists d1; auto|exists []; auto];
      (eapply (H [k] (k2 :: ks)); [reflexivity|discriminate|discriminate|rewrite get_cons, S; reflexivity|exact I]). }
    destruct A as (d1 & A).
    destruct (IH k2 d1 v) as (d' & E & G1 & G2 & G3).
    { intros q r t Eq Hq Hr Hg. eapply (H (k :: q) r t).
      - rewrite Eq. reflexivity.
      - discriminate.
      - auto.
      - rewrite get_cons. destruct A as [->|(_ & ->)]; auto. destruct q; [congruence|]. discriminate. }
    exists (sset k (Node num d') d). split; [|repeat split].
    + destruct A as [->|(-> & ->)]; rewrite E; reflexivity.
    + intros r. cbn [app]. rewrite get_cons, sget_sset, String.eqb_refl. apply (G1 r).
    + intros [|k' q] H1 H2; [exfalso; apply H2; eexists; reflexivity|]. rewrite !get_cons, sget_sset.
      destruct (String.eqb_spec k' k) as [->|]; auto. rewrite G2.
      * destruct A as [->|(-> & ->)]; auto. destruct q; [|reflexivity]. exfalso. apply H2. eexists; reflexivity.
      * intros (r & ->). apply H1. exists r. reflexivity.
      * intros (r & Er). apply H2. exists r. cbn. rewrite <- Er. reflexivity.
    + intros [|k' q] r Eq Hr; [eexists; reflexivity|]. injection Eq as <- Eq. rewrite get_cons, sget_sset, String.eqb_refl.
      eapply G3; eauto.
Qed.

(** All leaves are at the names [N], all dictionaries above some of them. *)
Definition fits (N : list (list string)) (p : list string) (t : tree) : Prop :=
  match t with Node _ _ => exists r, r <> [] /\ In (p ++ r) N | _ => In p N end.
Definition good (N : list (list string)) (d : dict) : Prop := forall q t, q <> [] -> get d q = Some t -> fits N q t.
Definition prefix_free (N : list (list string)) : Prop := forall a r, In a N -> In (a ++ r) N -> r = [].

Lemma good_open : forall N d p, prefix_free N -> good N d -> In p N ->
  forall q r t, p = q ++ r -> q <> [] -> r <> [] -> get d q = Some t -> ~ is_leaf t.
Proof.
  intros N d p PF G Hp q r t -> Hq Hr Hg L. specialize (G q t Hq Hg). destruct t; cbn in L, G; auto;
  apply Hr; exact (PF q r G Hp).
Qed.
Lemma good_leaf : forall N d p t, prefix_free N -> good N d -> p <> [] -> In p N -> get d p = Some t -> is_leaf t.
Proof.
  intros N d p t PF G Hp Hin Hg. specialize (G p t Hp Hg). destruct t; cbn; auto. destruct G as (r & Hr & Hi).
  apply Hr. exact (PF p r Hin Hi).
Qed.

Lemma prefix_dec : forall a b, {prefix a b} + {~ prefix a b}.
Proof.
  induction a as [|x a IH]; intros b; [left; exists b; reflexivity|].
  destruct b as [|y b]; [right; intros (r & E); discriminate|].
  destruct (string_dec x y) as [->|n]; [|right; intros (r & E); cbn in E; congruence].
  destruct (IH b) as [P|P]; [left|right].
  - destruct P as (r & ->). exists r. reflexivity.
  - intros (r & E). apply P. exists r. cbn in E. congruence.
Qed.

(** Setting keeps the tree good and changes nothing else. *)
Lemma good_set : forall N k ks (d : dict) v,
  good N d ->
  (forall q r t, k :: ks = q ++ r -> q <> [] -> r <> [] -> get d q = Some t -> ~ is_leaf t) ->
  (forall r t, deep_get num v r = Some t -> fits N ((k :: ks) ++ r) t) ->
  exists d', deep_set num d k ks v = Ok d' /\ good N d' /\
    (forall r, get d' ((k :: ks) ++ r) = deep_get num v r) /\
    (forall q, ~ prefix (k :: ks) q -> ~ prefix q (k :: ks) -> get d' q = get d q).
Proof.
  intros N k ks d v G O F. destruct (deep_set_ok ks k d v O) as (d' & E & G1 & G2 & G3).
  exists d'. split; auto. split; [|auto]. intros q t Hq Hg.
  destruct (prefix_dec (k :: ks) q) as [(r & ->)|P1].
  { rewrite G1 in Hg. apply F. auto. }
  destruct (prefix_dec q (k :: ks)) as [(r & Er)|P2].
  { assert (r <> []). { intros ->. apply P1. exists []. rewrite Er, !app_nil_r. reflexivity. }
    destruct (G3 q r Er H) as (e & Ge). rewrite Hg in Ge. injection Ge as ->. cbn.
    specialize (F [] v eq_refl). rewrite app_nil_r in F. rewrite Er in F.
    destruct v; cbn in F; [exists r; auto|exists r; auto|]. destruct F as (r' & Hr' & Hin). exists (r ++ r').
    split; [intros X; apply app_eq_nil in X; tauto|]. rewrite app_assoc. auto. }
  rewrite G2 in Hg by auto. apply G; auto.
Qed.

Lemma get_reset : forall p (d : dict),
  get (reset_dict num zero d) p = option_map (reset num zero) (get d p).
Proof.
  assert (S : forall k (d : dict), sget k (reset_dict num zero d) = option_map (reset num zero) (sget k d)).
  { intros k d. induction d as [|(j, t) d IH]; [reflexivity|]. cbn. destruct (String.eqb k j); auto. }
  induction p as [|k p IH]; intros d; [reflexivity|]. rewrite !get_cons, S. destruct (sget k d) as [t|]; [|reflexivity].
  cbn [option_map]. destruct p as [|k2 p]; [reflexivity|]. destruct t as [n|s|e]; try reflexivity. apply (IH e).
Qed.
Lemma good_reset : forall N d, good N d -> good N (reset_dict num zero d).
Proof.
  intros N d G q t Hq Hg. rewrite get_reset in Hg. destruct (get d q) as [u|] eqn:E; [|discriminate].
  injection Hg as <-. specialize (G q u Hq E). destruct u; exact G.
Qed.
End Tree.
