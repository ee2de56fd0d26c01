(** White space around a message. *)
From Coq Require Import String Ascii ZArith NArith Bool Lia List Arith.
From Verif Require Import Base SpanKeyModel RouterModel JsonModel JsonSpec JsonProofs WireModel WireSpec.
Import ListNotations.

Lemma blank_iff c : is_blank c = true <-> In c white_chars.
Proof.
  destruct c as [b0 b1 b2 b3 b4 b5 b6 b7]. destruct b0, b1, b2, b3, b4, b5, b6, b7; cbv; split; intros H; try discriminate H; try reflexivity; repeat (first [left; reflexivity|right]);
    repeat (destruct H as [H|H]; [discriminate H|]); destruct H.
Qed.
Lemma white_cons c s : white (String c s) <-> In c white_chars /\ white s.
Proof. unfold white. cbn [list_ascii_of_string]. apply Forall_cons_iff. Qed.
Lemma lstrip_white a s : white a -> lstrip (a ++ s) = lstrip s.
Proof. induction a as [|c a IH]; intros W; [reflexivity|]. apply white_cons in W as [W1 W2]. cbn [append lstrip]. apply blank_iff in W1. rewrite W1. auto. Qed.
Lemma lstrip_split s : exists a, white a /\ s = (a ++ lstrip s)%string.
Proof.
  induction s as [|c s [a [W E]]]; [exists EmptyString; split; [constructor|reflexivity]|]. cbn [lstrip]. destruct (is_blank c) eqn:B.
  - exists (String c a). split; [apply white_cons; split; [now apply blank_iff|exact W]|]. cbn [append]. now rewrite <- E.
  - exists EmptyString. split; [constructor|reflexivity].
Qed.
Lemma rstrip_split s : exists b, s = (rstrip s ++ b)%string.
Proof.
  induction s as [|c s [b E]]; [now exists EmptyString|]. cbn [rstrip]. destruct (rstrip s) as [|d u] eqn:R.
  - destruct (is_blank c); [exists (String c s); reflexivity|exists s; reflexivity].
  - exists b. cbn [append] in *. now rewrite <- E.
Qed.
Lemma rstrip_blank b : white b -> rstrip b = EmptyString.
Proof.
  induction b as [|c b IH]; intros W; [reflexivity|]. apply white_cons in W as [W1 W2]. cbn [rstrip]. rewrite IH by exact W2. apply blank_iff in W1. now rewrite W1.
Qed.
Lemma rstrip_white s b : white b -> rstrip (s ++ b) = rstrip s.
Proof.
  intros W. induction s as [|c s IH]; [now apply rstrip_blank|]. cbn [append rstrip]. now rewrite IH.
Qed.
Lemma lstrip_app s b : lstrip s <> EmptyString -> lstrip (s ++ b) = (lstrip s ++ b)%string.
Proof.
  induction s as [|c s IH]; intros H; [now destruct H|]. cbn [append lstrip] in *. destruct (is_blank c); [now apply IH|reflexivity].
Qed.
Lemma lstrip_nil s : lstrip s = EmptyString -> white s.
Proof.
  induction s as [|c s IH]; intros H; [constructor|]. cbn [lstrip] in H. destruct (is_blank c) eqn:B; [|discriminate]. apply white_cons. split; [now apply blank_iff|auto].
Qed.
Lemma white_app a b : white a -> white b -> white (a ++ b).
Proof. induction a as [|c a IH]; intros A B; [exact B|]. apply white_cons in A as [A1 A2]. cbn [append]. apply white_cons. auto. Qed.
Lemma strip_around a t b : white a -> white b -> rstrip (lstrip (a ++ t ++ b)) = rstrip (lstrip t).
Proof.
  intros A B. rewrite lstrip_white by exact A. destruct (lstrip t) as [|c u] eqn:E.
  - apply lstrip_nil in E. pose proof (white_app _ _ E B) as W.
    assert (X : lstrip (t ++ b) = EmptyString).
    { clear - W. induction (t ++ b)%string as [|c s IH]; [reflexivity|]. apply white_cons in W as [W1 W2]. cbn [lstrip]. apply blank_iff in W1. rewrite W1. auto. }
    now rewrite X.
  - rewrite lstrip_app by congruence. rewrite E. now apply rstrip_white.
Qed.
Theorem read_around a t b : white a -> white b -> server_read (a ++ t ++ b) = server_read t.
Proof. intros A B. unfold server_read, server_loads. now rewrite strip_around. Qed.

Lemma ws_white c : is_ws c = true -> In c white_chars.
Proof. intros H. apply blank_iff. unfold is_ws in H. cbn [existsb] in H.
  repeat (apply orb_true_iff in H as [H|H]; [apply Ascii.eqb_eq in H as ->; reflexivity|]). discriminate.
Qed.
Lemma skip_ws_split s : exists a, white a /\ s = (a ++ skip_ws s)%string.
Proof.
  induction s as [|c s [a [W E]]]; [exists EmptyString; split; [constructor|reflexivity]|]. cbn [skip_ws]. destruct (is_ws c) eqn:B.
  - exists (String c a). split; [apply white_cons; split; [now apply ws_white|exact W]|]. cbn [append]. now rewrite <- E.
  - exists EmptyString. split; [constructor|reflexivity].
Qed.
Lemma parse_value_obj k s d r : parse_value k s = Some (JObj d, r) -> exists u, skip_ws s = String "{" u.
Proof.
  destruct k as [|k]; [discriminate|]. cbn [parse_value]. destruct (skip_ws s) as [|c u]; [discriminate|].
  destruct (Ascii.eqb c quote); [destruct (parse_string u) as [[x r']|]; discriminate|].
  destruct (Ascii.eqb c "[").
  { destruct (skip_ws u) as [|c' r']; [discriminate|]. destruct (Ascii.eqb c' "]"); [discriminate|]. destruct (parse_elements k u) as [[l r'']|]; discriminate. }
  destruct (Ascii.eqb_spec c "{") as [->|]; [eauto|].
  destruct (Ascii.eqb c "n"); [destruct (strip_prefix "ull" u); discriminate|].
  destruct (Ascii.eqb c "t"); [destruct (strip_prefix "rue" u); discriminate|].
  destruct (Ascii.eqb c "f"); [destruct (strip_prefix "alse" u); discriminate|].
  destruct (parse_number (String c u)) as [[z r']|]; discriminate.
Qed.
Theorem read_begins t q : server_read t = Some q -> exists a rest, white a /\ t = (a ++ String "{" rest)%string.
Proof.
  unfold server_read, server_loads. destruct (parse (rstrip (lstrip t))) as [j|] eqn:P; [|discriminate]. intros H.
  destruct j; try discriminate. clear H. unfold parse in P. destruct (parse_value _ _) as [[j r]|] eqn:V; [|discriminate].
  destruct (skip_ws r); [|discriminate]. injection P as ->. apply parse_value_obj in V as [u U].
  destruct (lstrip_split t) as (a & A & E1). destruct (rstrip_split (lstrip t)) as (b & E2). destruct (skip_ws_split (rstrip (lstrip t))) as (w & W & E3).
  rewrite U in E3. exists (a ++ w)%string, (u ++ b)%string. split; [now apply white_app|]. rewrite E1 at 1. rewrite E2, E3.
  clear. induction a as [|c a IH]; cbn [append]; [|now rewrite IH]. induction w as [|c w IH]; cbn [append]; [reflexivity|now rewrite IH].
Qed.
