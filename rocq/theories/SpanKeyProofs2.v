(** Which texts are read as span ids, exactly. *)
From Coq Require Import List ZArith Bool Ascii String Lia.
From Verif Require Import Base SpanKeyModel SpanKeySpec SpanKeyProofs.
Import ListNotations.
Local Open Scope Z_scope.

Definition sstep (st : option (Z * bool)) (c : ascii) : option (Z * bool) :=
  match st with
  | None => None
  | Some (a, us) =>
      if Ascii.eqb c "_"%char then (if us then None else Some (a, true))
      else match hex_digit c with Some d => Some (16 * a + d, false) | None => None end
  end.
Definition sscan (s : text) (st : option (Z * bool)) := fold_left sstep s st.
Lemma sscan_none s : sscan s None = None.
Proof. induction s; [reflexivity|exact IHs]. Qed.
Lemma int_digits_sscan s : forall a us,
  int_digits s a us = match sscan s (Some (a, us)) with Some (v, false) => Some v | _ => None end.
Proof.
  induction s as [|c s IH]; intros a us; cbn [int_digits]; unfold sscan; cbn [fold_left sstep].
  - destruct us; reflexivity.
  - change (ch "_") with "_"%char. destruct (Ascii.eqb c "_").
    + destruct us; [|apply IH]. now rewrite (sscan_none s : fold_left sstep s None = None).
    + destruct (hex_digit c); [apply IH|]. now rewrite (sscan_none s : fold_left sstep s None = None).
Qed.
Lemma digit_not_under c d : hex_digit c = Some d -> Ascii.eqb c "_" = false.
Proof. intros H. destruct (Ascii.eqb_spec c "_") as [->|]; [discriminate H|reflexivity]. Qed.

Lemma grouped_sscan s v : grouped16 s v -> sscan s (Some (0, true)) = Some (v, false).
Proof.
  induction 1 as [c d D|s v c d G IH D|s v c d G IH D]; apply digits_hex in D; pose proof (digit_not_under _ _ D) as U.
  - unfold sscan. cbn [fold_left sstep]. rewrite U, D. f_equal.
  - unfold sscan in *. rewrite fold_left_app, IH. cbn [fold_left sstep]. now rewrite U, D.
  - unfold sscan in *. rewrite fold_left_app, IH. cbn [fold_left]. change (sstep (Some (v, false)) "_"%char) with (Some (v, true)). cbn [sstep]. now rewrite U, D.
Qed.
Lemma sscan_grouped s : forall v us, sscan s (Some (0, true)) = Some (v, us) ->
  if us then (s = [] /\ v = 0) \/ exists t, s = t ++ ["_"%char] /\ grouped16 t v else grouped16 s v.
Proof.
  induction s as [|c s IH] using rev_ind; intros v us E.
  - injection E as <- <-. auto.
  - unfold sscan in E. rewrite fold_left_app in E. cbn [fold_left] in E.
    fold (sscan s (Some (0, true))) in E. destruct (sscan s (Some (0, true))) as [[w us']|]; [|discriminate].
    specialize (IH w us' eq_refl). cbn [sstep] in E. destruct (Ascii.eqb_spec c "_") as [->|].
    + destruct us'; [discriminate|]. injection E as <- <-. right. eauto.
    + destruct (hex_digit c) as [d|] eqn:D; [|discriminate]. injection E as <- <-. apply digits_hex in D.
      destruct us'; [|now constructor].
      destruct IH as [[-> ->]|(t & -> & G)].
      * replace (16 * 0 + d) with d by lia. now constructor.
      * rewrite <- app_assoc. now constructor.
Qed.
Lemma int_digits_grouped s v : int_digits s 0 true = Some v <-> grouped16 s v.
Proof.
  rewrite int_digits_sscan. split.
  - destruct (sscan s (Some (0, true))) as [[w []]|] eqn:E; try discriminate. intros H; injection H as <-.
    exact (sscan_grouped s w false E).
  - intros G. now rewrite (grouped_sscan _ _ G).
Qed.

(** *** White space *)
Lemma blanks_iff c : is_space c = true <-> In c blanks.
Proof.
  split; [apply blanks_space|]. intros H. cbn in H. repeat (destruct H as [<-|H]; [reflexivity|]). contradiction.
Qed.
Lemma drop_split s : exists w, s = w ++ drop_while is_space s /\ (forall c, In c w -> In c blanks).
Proof.
  induction s as [|c s (w & E & B)]; [exists []; split; [reflexivity|intros c []]|]. cbn [drop_while].
  destruct (is_space c) eqn:C.
  - exists (c :: w). split; [cbn [app]; congruence|]. intros x [<-|X]; [now apply blanks_iff|auto].
  - exists []. split; [reflexivity|intros x []].
Qed.
Lemma strip_split s : exists w1 w2, s = w1 ++ strip is_space s ++ w2 /\ (forall c, In c w1 \/ In c w2 -> In c blanks).
Proof.
  unfold strip. destruct (drop_split s) as (w1 & E1 & B1). set (t := drop_while is_space s) in *. clearbody t.
  destruct (drop_split (rev t)) as (w2 & E2 & B2). exists w1, (rev w2). split.
  - rewrite <- rev_app_distr, <- E2, rev_involutive. exact E1.
  - intros c [C|C]; [auto|]. apply in_rev in C. auto.
Qed.
Lemma drop_around w t : (forall c, In c w -> In c blanks) -> drop_while is_space (w ++ t) = drop_while is_space t.
Proof.
  induction w as [|c w IH]; intros H; [reflexivity|]. cbn [app drop_while].
  rewrite (proj2 (blanks_iff c)) by (apply H; now left). apply IH. intros x X; apply H; now right.
Qed.
Lemma strip_around w1 w2 t a b x y : (forall c, In c w1 \/ In c w2 -> In c blanks) ->
  t = x :: a -> t = b ++ [y] -> is_space x = false -> is_space y = false -> strip is_space (w1 ++ t ++ w2) = t.
Proof.
  intros B Ea Eb X Y. unfold strip. rewrite drop_around by auto.
  assert (D : drop_while is_space (t ++ w2) = t ++ w2) by (rewrite Ea; cbn [app drop_while]; now rewrite X).
  rewrite D, rev_app_distr, drop_around by (intros c C; apply in_rev in C; auto).
  rewrite Eb, rev_app_distr. cbn [rev app drop_while]. rewrite Y. cbn [rev]. now rewrite rev_involutive.
Qed.

(** *** Ends of a group of digits *)
Lemma grouped_first s v : grouped16 s v -> exists c a d, s = c :: a /\ In (c, d) digits.
Proof.
  induction 1 as [c d D|s v c d G (x & a & e & -> & E) D|s v c d G (x & a & e & -> & E) D]; [exists c, [], d; auto| |];
    do 3 eexists; split; try reflexivity; eauto.
Qed.
Lemma grouped_last s v : grouped16 s v -> exists b c d, s = b ++ [c] /\ In (c, d) digits.
Proof.
  induction 1 as [c d D|s v c d G _ D|s v c d G _ D]; [exists [], c, d; auto|exists s, c, d; auto|].
  exists (s ++ ["_"%char]), c, d. rewrite <- app_assoc. auto.
Qed.
Lemma grouped_no_x s v : grouped16 s v -> forall c, In c s -> c <> "x"%char /\ c <> "X"%char.
Proof.
  assert (D : forall c d, In (c, d) digits -> c <> "x"%char /\ c <> "X"%char).
  { intros c d H. apply digits_hex in H. split; intros ->; discriminate H. }
  induction 1 as [c d H|s v c d G IH H|s v c d G IH H]; intros z Z.
  - destruct Z as [<-|[]]. eauto.
  - apply in_app_or in Z as [Z|[<-|[]]]; eauto.
  - apply in_app_or in Z as [Z|[<-|[<-|[]]]]; eauto. split; discriminate.
Qed.
Lemma digit_facts c d : In (c, d) digits -> is_space c = false /\ Ascii.eqb c "-" = false /\ Ascii.eqb c "+" = false /\ Ascii.eqb c "_" = false.
Proof.
  intros H. apply digits_hex in H. repeat split.
  - destruct (is_space c) eqn:E; [|reflexivity]. apply blanks_space in E. cbn in E.
    repeat (destruct E as [<-|E]; [discriminate H|]). contradiction.
  - destruct (Ascii.eqb_spec c "-") as [->|]; [discriminate H|reflexivity].
  - destruct (Ascii.eqb_spec c "+") as [->|]; [discriminate H|reflexivity].
  - destruct (Ascii.eqb_spec c "_") as [->|]; [discriminate H|reflexivity].
Qed.

(** *** Sign and prefix *)
Lemma split_sign_inv s : exists sign f, In (sign, f) signs /\ s = sign ++ snd (split_sign s) /\ fst (split_sign s) = f.
Proof.
  destruct s as [|c r]; [exists [], 1; cbn; auto|]. unfold split_sign. change (ch "-") with "-"%char. change (ch "+") with "+"%char.
  destruct (Ascii.eqb_spec c "-") as [->|]; [exists ["-"%char], (-1); cbn; auto|].
  destruct (Ascii.eqb_spec c "+") as [->|]; [exists ["+"%char], 1; cbn; auto|]. exists [], 1; cbn; auto.
Qed.
Lemma skip_0x_inv s : exists prefix, In prefix prefixes /\ s = prefix ++ skip_0x s.
Proof.
  assert (Z : exists prefix, In prefix prefixes /\ s = prefix ++ s) by (exists []; cbn; auto).
  destruct s as [|z [|x r]]; [exact Z|exact Z|]. unfold skip_0x.
  change (ch "0") with "0"%char. change (ch "x") with "x"%char. change (ch "X") with "X"%char. change (ch "_") with "_"%char.
  destruct (Ascii.eqb_spec z "0") as [->|]; [|exact Z]. cbn [andb].
  destruct (Ascii.eqb_spec x "x") as [->|]; [|destruct (Ascii.eqb_spec x "X") as [->|]; [|exact Z]]; cbn [orb];
    (destruct r as [|u r]; [|destruct (Ascii.eqb_spec u "_") as [->|]]).
  all: try (exists ["0"%char; "x"%char]; cbn; tauto).
  all: try (exists ["0"%char; "X"%char]; cbn; tauto).
  - exists ["0"%char; "x"%char; "_"%char]; cbn; tauto.
  - exists ["0"%char; "X"%char; "_"%char]; cbn; tauto.
Qed.
Lemma skip_0x_prefix prefix body n : In prefix prefixes -> grouped16 body n -> skip_0x (prefix ++ body) = body.
Proof.
  intros P G. destruct (grouped_first _ _ G) as (c & a & d & E & D). destruct (digit_facts _ _ D) as (_ & _ & _ & U).
  pose proof (grouped_no_x _ _ G) as X. cbn in P. destruct P as [<-|[<-|[<-|[<-|[<-|[]]]]]].
  - cbn [app]. destruct body as [|z [|x r]]; [reflexivity|reflexivity|]. unfold skip_0x.
    destruct (X x) as [X1 X2]; [cbn; auto|]. change (ch "x") with "x"%char. change (ch "X") with "X"%char.
    destruct (Ascii.eqb_spec x "x") as [->|]; [congruence|]. destruct (Ascii.eqb_spec x "X") as [->|]; [congruence|].
    now rewrite andb_false_r.
  - rewrite E. cbn [app]. unfold skip_0x. cbn. change (ch "_") with "_"%char. now rewrite U.
  - rewrite E. cbn [app]. unfold skip_0x. cbn. change (ch "_") with "_"%char. now rewrite U.
  - reflexivity.
  - reflexivity.
Qed.

Lemma py_int16_numeral s v : py_int16 s = Ok v <-> numeral16 s v.
Proof.
  unfold py_int16. split.
  - intros H. destruct (strip_split s) as (w1 & w2 & E & B). set (t := strip is_space s) in *. clearbody t.
    destruct (split_sign_inv t) as (sign & f & SG & Et & Ef). destruct (split_sign t) as [f' s2]. cbn [fst snd] in *. subst f'.
    destruct (skip_0x_inv s2) as (prefix & P & E2). destruct (int_digits (skip_0x s2) 0 true) as [n|] eqn:I; [|discriminate].
    assert (v = f * n) by congruence. apply int_digits_grouped in I.
    exists w1, sign, f, prefix, (skip_0x s2), n, w2. repeat split; auto.
    rewrite E, Et. rewrite E2 at 1. now rewrite <- !app_assoc.
  - intros (w1 & sign & f & prefix & body & n & w2 & -> & -> & B & SG & P & G).
    destruct (grouped_first _ _ G) as (c & a & d & Ec & Dc). destruct (grouped_last _ _ G) as (b & y & e & Ey & Dy).
    destruct (digit_facts _ _ Dc) as (C1 & C2 & C3 & C4). destruct (digit_facts _ _ Dy) as (Y1 & _).
    assert (F : exists x r, prefix ++ body = x :: r /\ is_space x = false /\ Ascii.eqb x "-" = false /\ Ascii.eqb x "+" = false).
    { cbn in P. destruct P as [<-|[<-|[<-|[<-|[<-|[]]]]]]; cbn [app]; [rewrite Ec|..]; do 2 eexists; (split; [reflexivity|auto]). }
    destruct F as (x & r & Ex & X1 & X2 & X3).
    assert (T : strip is_space (w1 ++ sign ++ prefix ++ body ++ w2) = sign ++ prefix ++ body).
    { replace (sign ++ prefix ++ body ++ w2) with ((sign ++ prefix ++ body) ++ w2) by now rewrite <- !app_assoc.
      assert (L : sign ++ prefix ++ body = (sign ++ prefix ++ b) ++ [y]) by (rewrite Ey, <- !app_assoc; reflexivity).
      cbn in SG. destruct SG as [K|[K|[K|[]]]]; injection K as <- <-; cbn [app] in *.
      - eapply strip_around; eauto.
      - exact (strip_around w1 w2 ("+"%char :: prefix ++ body) (prefix ++ body) ("+"%char :: prefix ++ b) "+"%char y B eq_refl L eq_refl Y1).
      - exact (strip_around w1 w2 ("-"%char :: prefix ++ body) (prefix ++ body) ("-"%char :: prefix ++ b) "-"%char y B eq_refl L eq_refl Y1). }
    rewrite T. assert (SS : split_sign (sign ++ prefix ++ body) = (f, prefix ++ body)).
    { cbn in SG. destruct SG as [K|[K|[K|[]]]]; injection K as <- <-; cbn [app]; [|reflexivity|reflexivity].
      rewrite Ex. unfold split_sign. change (ch "-") with "-"%char. change (ch "+") with "+"%char. now rewrite X2, X3. }
    rewrite SS, (skip_0x_prefix _ _ _ P G), (proj2 (int_digits_grouped _ _) G). reflexivity.
Qed.

Lemma span_exactly s v : span_id_of_hex s = Ok v <-> List.length s = 16%nat /\ numeral16 s v.
Proof.
  unfold span_id_of_hex. destruct (Nat.eqb_spec (Datatypes.length s) 16) as [L|L].
  - rewrite py_int16_numeral. tauto.
  - split; [discriminate|intros [H _]; contradiction].
Qed.
Lemma py_int16_raises s e : py_int16 s = Raise e -> e = "ValueError"%string.
Proof.
  unfold py_int16. destruct (split_sign _). destruct (int_digits _ _ _); congruence.
Qed.
Lemma span_raises s e : span_id_of_hex s = Raise e -> e = "ValueError"%string.
Proof. unfold span_id_of_hex. destruct (Nat.eqb _ _); [apply py_int16_raises|congruence]. Qed.
Lemma uuid_raises s e : uuid_of_hex s = Raise e -> e = "ValueError"%string.
Proof.
  unfold uuid_of_hex. destruct (Nat.eqb _ _); [|congruence].
  match goal with |- bind (py_int16 ?h) _ = _ -> _ => destruct (py_int16 h) as [v|x] eqn:E end; cbn [bind].
  - destruct (_ && _); congruence.
  - intros H. injection H as <-. exact (py_int16_raises _ _ E).
Qed.
Lemma key_raises s e : key_of_text s = Raise e -> e = "ValueError"%string.
Proof.
  unfold key_of_text. cbv zeta.
  match goal with |- bind (uuid_of_hex ?h) _ = _ -> _ => destruct (uuid_of_hex h) as [t|x] eqn:E end; cbn [bind].
  2:{ intros H. injection H as <-. exact (uuid_raises _ _ E). }
  match goal with |- bind (span_id_of_hex ?h) _ = _ -> _ => destruct (span_id_of_hex h) as [v|x] eqn:E2 end; cbn [bind].
  - discriminate.
  - intros H. injection H as <-. exact (span_raises _ _ E2).
Qed.
