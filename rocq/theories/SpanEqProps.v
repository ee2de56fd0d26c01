(** Property C142: comparing span keys with each other and with texts (json_protocol.py 40-48). *)
From Coq Require Import List ZArith Bool Ascii String Lia.
From Verif Require Import Base SpanKeyModel SpanKeySpec SpanKeyProofs SpanEqModel SpanEqSpec SpanEqProofs.
Import ListNotations.
Local Open Scope Z_scope.

Definition ex : span_key := mkKey 0x0123456789abcdef0011223344556677 0xfedcba9876543210.
Definition lower_text : text := lit "01234567-89ab-cdef-0011-223344556677:fedcba9876543210".
Definition upper_text : text := lit "01234567-89AB-CDEF-0011-223344556677:FEDCBA9876543210".

Lemma denotes_word : forall s, Forall (fun c => exists d, In (c, d) digits) s -> denotes s (hex_value s 0).
Proof.
  intros s. induction s as [|c s IH] using rev_ind; intros H; [constructor|]. apply Forall_app in H as (H1 & H2).
  inversion_clear H2 as [|? ? (d & Hd) _]. unfold hex_value. rewrite fold_left_app. cbn [fold_left].
  pose proof Hd as Hx. apply digits_hex in Hx. rewrite Hx. apply den_snoc; auto.
Qed.
Ltac denote := match goal with |- denotes ?s ?v => replace v with (hex_value s 0) by reflexivity; apply denotes_word;
  repeat (constructor; [eexists; apply digits_hex; reflexivity|]); constructor end.
Example ex_valid : valid_key ex.
Proof. split; split; reflexivity || discriminate. Qed.
Example lower_usual : usual lower_text ex.
Proof.
  exists (lit "01234567"), (lit "89ab"), (lit "cdef"), (lit "0011"), (lit "223344556677"), (lit "fedcba9876543210").
  repeat split; try reflexivity; cbn [ex trace_id span_id]; denote.
Qed.
Example upper_usual : usual upper_text ex.
Proof.
  exists (lit "01234567"), (lit "89AB"), (lit "CDEF"), (lit "0011"), (lit "223344556677"), (lit "FEDCBA9876543210").
  repeat split; try reflexivity; cbn [ex trace_id span_id]; denote.
Qed.

(** Comparing a key with anything answers, and the answer is whether the other value is that key. *)
Definition C142_answers : Prop := forall k v, valid_key k -> exists r, py_eq (Key k) v = Ok r /\ (r = true <-> is_key v k).
(** False: comparing with a text that is no key, such as the empty one, raises ValueError. *)
Theorem C142_answers_refuted : ~ C142_answers.
Proof. intros H. destruct (H ex (Text []) ex_valid) as (r & E & _). discriminate E. Qed.
Print Assumptions C142_answers_refuted.
(** True of keys, of texts in the usual form and of objects that are neither, on either side of the ==. *)
Theorem C142_answers_partial : forall k v, valid_key k -> proper_value v ->
  exists r, py_eq (Key k) v = Ok r /\ py_eq v (Key k) = Ok r /\ (r = true <-> is_key v k).
Proof. intros k v V P. destruct (eq_means k v V P) as (r & E & R). exists r. rewrite (eq_sym v). auto. Qed.
Print Assumptions C142_answers_partial.
(** The only other outcomes are ValueError, when a text is no key, and OverflowError, when a key is not valid. *)
Theorem C142_exceptions : forall k v e, py_eq (Key k) v = Raise e ->
  (e = "ValueError"%string /\ exists s, v = Text s /\ ~ exists k2, usual s k2) \/
  (e = "OverflowError"%string /\ (~ valid_key k \/ ~ proper_value v)).
Proof.
  intros k v e H. destruct v as [k2|s|i]; unfold py_eq in H; cbn [method_eq sk_eq object_eq bind] in H; [| |discriminate].
  - destruct (key_eq k k2) as [r|x] eqn:E; cbn [bind] in H; [discriminate|]. injection H as <-. right. split.
    + unfold key_eq in E. destruct (key_bytes k) eqn:A; cbn [bind] in E; [destruct (key_bytes k2) eqn:B; cbn [bind] in E; [discriminate|]|];
        injection E as <-; eapply key_bytes_raises; eassumption.
    + cbn [proper_value]. assert (D : forall q, valid_key q \/ ~ valid_key q) by (intros q; unfold valid_key; lia).
      destruct (D k) as [V|V]; [|auto]. destruct (D k2) as [V2|V2]; [|auto].
      destruct (key_eq_iff k k2 V V2) as (r & X & _). congruence.
  - unfold key_eq_text in H. destruct (key_of_text s) as [k2|x] eqn:T; cbn [bind] in H.
    + destruct (key_eq k k2) as [r|x] eqn:E; cbn [bind] in H; [discriminate|]. injection H as <-. right. split.
      * unfold key_eq in E. destruct (key_bytes k) eqn:A; cbn [bind] in E; [destruct (key_bytes k2) eqn:B; cbn [bind] in E; [discriminate|]|];
          injection E as <-; eapply key_bytes_raises; eassumption.
      * assert (D : valid_key k \/ ~ valid_key k) by (unfold valid_key; lia). destruct D as [V|V]; [right|auto].
        intros (k3 & U). pose proof (usual_read s k3 U) as X. assert (k3 = k2) as -> by congruence.
        destruct (key_eq_iff k k2 V (usual_valid s k2 U)) as (r & Y & _). congruence.
    + injection H as <-. left. split; [eapply SpanKeyProofs2.key_raises; eassumption|]. exists s. split; [reflexivity|].
      intros (k2 & U). pose proof (usual_read s k2 U). congruence.
Qed.
Print Assumptions C142_exceptions.

(** Whichever stands on the left, the outcome is the same. *)
Theorem C142_symmetric : forall a b, py_eq a b = py_eq b a.
Proof. exact eq_sym. Qed.
Print Assumptions C142_symmetric.

(** A key that was accepted equals itself. *)
Definition C142_reflexive : Prop := forall s k, key_of_text s = Ok k -> py_eq (Key k) (Key k) = Ok true.
(** False: a span id with a sign is accepted (C33), and comparing the key then raises OverflowError. *)
Theorem C142_reflexive_refuted : ~ C142_reflexive.
Proof.
  intros H. specialize (H (lit "01234567-89ab-cdef-0011-223344556677:-000000000000001") (mkKey 0x0123456789abcdef0011223344556677 (-1)) eq_refl).
  discriminate H.
Qed.
Print Assumptions C142_reflexive_refuted.
Theorem C142_reflexive_partial : forall k, valid_key k -> py_eq (Key k) (Key k) = Ok true.
Proof. exact eq_refl_key. Qed.
Print Assumptions C142_reflexive_partial.

(** Values that are equal to a third one are equal. *)
Definition C142_transitive : Prop := forall a b c, proper_value a -> proper_value b -> proper_value c ->
  py_eq a b = Ok true -> py_eq b c = Ok true -> py_eq a c = Ok true.
(** False: two spellings of a key are equal to the key, but not to each other. *)
Theorem C142_transitive_refuted : ~ C142_transitive.
Proof.
  intros H. specialize (H (Text lower_text) (Key ex) (Text upper_text)).
  assert (X : py_eq (Text lower_text) (Text upper_text) = Ok true).
  { apply H; [exists ex; apply lower_usual|apply ex_valid|exists ex; apply upper_usual|reflexivity|reflexivity]. }
  apply eq_text_text in X. discriminate X.
Qed.
Print Assumptions C142_transitive_refuted.
(** True of all other triples. *)
Theorem C142_transitive_partial : forall a b c, (a_text a -> a_text c -> a_text b) ->
  py_eq a b = Ok true -> py_eq b c = Ok true -> py_eq a c = Ok true.
Proof. exact eq_trans. Qed.
Print Assumptions C142_transitive_partial.

(** Equal values have equal hashes, as dictionaries and sets need. *)
Definition C142_hash hb hs ho : Prop := forall a b, py_eq a b = Ok true -> py_hash hb hs ho a = py_hash hb hs ho b.
(** False, whatever the hashes of bytes and objects, as long as the hash of texts tells the two spellings apart: a key
    cannot be looked up by its text. *)
Theorem C142_hash_refuted : forall hb hs ho, hs lower_text <> hs upper_text -> ~ C142_hash hb hs ho.
Proof.
  intros hb hs ho N H. pose proof (H (Key ex) (Text lower_text) eq_refl) as A. pose proof (H (Key ex) (Text upper_text) eq_refl) as B.
  rewrite A in B. cbn [py_hash] in B. injection B as B. contradiction.
Qed.
Print Assumptions C142_hash_refuted.
(** True when both are keys, or neither is; and every valid key has a hash. *)
Theorem C142_hash_partial : forall hb hs ho a b, (a_text a <-> a_text b) -> py_eq a b = Ok true ->
  py_hash hb hs ho a = py_hash hb hs ho b /\ (exists h, py_hash hb hs ho a = Ok h).
Proof.
  intros hb hs ho a b T E. destruct a as [k|s|i].
  - destruct b as [k2|s2|i2].
    + destruct (eq_key_key _ _ E) as (<- & V). split; [reflexivity|]. destruct (bytes_roundtrip k V) as (x & X & _).
      cbn [py_hash]. rewrite X. eexists. reflexivity.
    + destruct (proj2 T) as (x & X); [eexists; reflexivity|discriminate X].
    + apply eq_object in E. discriminate.
  - destruct (proj1 T) as (x & ->); [eexists; reflexivity|]. apply eq_text_text in E. subst. split; [reflexivity|eexists; reflexivity].
  - rewrite eq_sym in E. apply eq_object in E. subst. split; [reflexivity|eexists; reflexivity].
Qed.
Print Assumptions C142_hash_partial.

Example C142_ex : map (fun p => py_eq (fst p) (snd p))
  [(Key ex, Text lower_text); (Text upper_text, Key ex); (Text lower_text, Text upper_text); (Key ex, Object 3); (Object 3, Object 3);
   (Key ex, Key (mkKey 1 2)); (Key ex, Text (lit "no key")); (Key (mkKey 1 (-2)), Key ex)]
  = [Ok true; Ok true; Ok false; Ok false; Ok true; Ok false; Raise "ValueError"; Raise "OverflowError"].
Proof. vm_compute. reflexivity. Qed.
Example C142_ex_hypotheses : proper_value (Text upper_text) /\ is_key (Text upper_text) ex /\ ~ is_key (Text upper_text) (mkKey 1 2).
Proof.
  split; [exists ex; apply upper_usual|]. split; [apply upper_usual|]. intros U. pose proof (usual_fun _ _ _ U upper_usual). discriminate.
Qed.
