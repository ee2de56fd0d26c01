(** Properties C31-C33 of span keys (ekosis/data_transfer_objects/span_id.py, json_protocol.py). *)
From Coq Require Import List ZArith Bool Ascii String Lia.
From Verif Require Import Base SpanKeyModel SpanKeySpec SpanKeyProofs SpanKeyProofs2.
Import ListNotations.
Local Open Scope Z_scope.

Definition ex_key : span_key := mkKey 0x0123456789abcdef0011223344556677 0xfedcba9876543210.
Example ex_key_valid : valid_key ex_key.
Proof. split; split; reflexivity || discriminate. Qed.
Definition ex_key2 : span_key := mkKey 0x0123456789abcdef0011223344556677 0.
Example ex_key2_valid : valid_key ex_key2.
Proof. split; split; reflexivity || discriminate. Qed.

(** ** C31: the 24-byte form *)
Theorem C31_bytes_roundtrip : forall k, valid_key k ->
  exists b, key_bytes k = Ok b /\ List.length b = 24%nat /\ Forall is_byte b /\ key_of_bytes b = Ok k.
Proof. exact bytes_roundtrip. Qed.
Print Assumptions C31_bytes_roundtrip.

Theorem C31_bytes_injective : forall k1 k2 b, valid_key k1 -> valid_key k2 ->
  key_bytes k1 = Ok b -> key_bytes k2 = Ok b -> k1 = k2.
Proof. exact bytes_injective. Qed.
Print Assumptions C31_bytes_injective.

(** Every 24-byte string is the form of a valid key. *)
Theorem C31_bytes_surjective : forall b, Forall is_byte b -> List.length b = 24%nat ->
  exists k, key_of_bytes b = Ok k /\ valid_key k /\ key_bytes k = Ok b.
Proof. exact bytes_surjective. Qed.
Print Assumptions C31_bytes_surjective.

(** Python's == on two keys is equality of the keys. *)
Theorem C31_equality : forall k1 k2, valid_key k1 -> valid_key k2 ->
  exists r, key_eq k1 k2 = Ok r /\ (r = true <-> k1 = k2).
Proof. exact key_eq_iff. Qed.
Print Assumptions C31_equality.

Example C31_example : key_bytes ex_key = Ok
  [0x01;0x23;0x45;0x67;0x89;0xab;0xcd;0xef;0x00;0x11;0x22;0x33;0x44;0x55;0x66;0x77;
   0xfe;0xdc;0xba;0x98;0x76;0x54;0x32;0x10].
Proof. reflexivity. Qed.
Example C31_example_differ : key_eq ex_key ex_key2 = Ok false /\ key_eq ex_key ex_key = Ok true.
Proof. split; reflexivity. Qed.
Example C31_example_bytes : Forall is_byte (repeat 7 24) /\ List.length (repeat 7 24) = 24%nat.
Proof. split; [|reflexivity]. apply Forall_forall. intros x H. apply repeat_spec in H as ->. split; reflexivity || discriminate. Qed.

(** ** C32: the textual form *)
Theorem C32_text_roundtrip : forall k, valid_key k -> key_of_text (key_str k) = Ok k.
Proof. exact text_roundtrip. Qed.
Print Assumptions C32_text_roundtrip.

Theorem C32_text_injective : forall k1 k2, valid_key k1 -> valid_key k2 -> key_str k1 = key_str k2 -> k1 = k2.
Proof. exact text_injective. Qed.
Print Assumptions C32_text_injective.

(** A span id on its own (the form it has in JSON) round-trips too. *)
Theorem C32_span_id_roundtrip : forall v, 0 <= v < 2 ^ 64 -> span_id_of_hex (span_id_hex v) = Ok v.
Proof. exact span_hex_roundtrip. Qed.
Print Assumptions C32_span_id_roundtrip.

Example C32_example : key_str ex_key = lit "01234567-89ab-cdef-0011-223344556677:fedcba9876543210".
Proof. reflexivity. Qed.
Example C32_example_back :
  key_of_text (lit "01234567-89ab-cdef-0011-223344556677:fedcba9876543210") = Ok ex_key.
Proof. reflexivity. Qed.

(** ** C33: which span id texts are accepted *)

(** The full claim. *)
Definition C33_only_canonical : Prop :=
  forall s v, span_id_of_hex s = Ok v -> List.length s = 16%nat /\ denotes s v.

(** It is false: a sign, an 0x prefix, underscores and surrounding spaces are accepted as well. *)
Theorem C33_only_canonical_refuted : ~ C33_only_canonical.
Proof.
  intros H. destruct (H (lit "-000000000000001") (-1) eq_refl) as [_ D].
  apply denotes_plain in D as [P _]. inversion P; subst. destruct H2 as [d Hd]. discriminate Hd.
Qed.
Print Assumptions C33_only_canonical_refuted.

Example C33_accepted : map span_id_of_hex
  [lit "0x00000000000001"; lit "0000_0000_000001"; lit "  0000000000001 "; lit "+000000000000001"]
  = [Ok 1; Ok 1; Ok 1; Ok 1].
Proof. reflexivity. Qed.

(** A negative span id is accepted and then has no 24-byte form: every use of it as a key raises. *)
Theorem C33_accepted_without_bytes : exists s v,
  span_id_of_hex s = Ok v /\ forall t, 0 <= t < 2 ^ 128 -> key_bytes (mkKey t v) = Raise "OverflowError".
Proof.
  exists (lit "-000000000000001"), (-1). split; [reflexivity|].
  intros t Ht. unfold key_bytes. cbn [trace_id span_id].
  rewrite to_bytes_ok by (rewrite pow_256_16; exact Ht). reflexivity.
Qed.
Print Assumptions C33_accepted_without_bytes.

(** What holds: 16 hexadecimal digits are always accepted with their value ... *)
Theorem C33_hex_accepted_partial : forall s v,
  List.length s = 16%nat -> denotes s v -> span_id_of_hex s = Ok v.
Proof. exact accepts_hex. Qed.
Print Assumptions C33_hex_accepted_partial.

(** ... every accepted text without white space, sign, underscore or the letter x is 16 digits ... *)
Theorem C33_only_hex_partial : forall s v,
  span_id_of_hex s = Ok v ->
  Forall (fun c => ~ In c blanks /\ ~ In c (lit "+-_xX")) s ->
  List.length s = 16%nat /\ denotes s v.
Proof.
  intros s v E H. apply accepts_only_hex; auto. eapply Forall_impl; [|exact H].
  intros c [Hs0 Hn].
  assert (Hs : is_space c = false) by (destruct (is_space c) eqn:Hs; [apply blanks_space in Hs; contradiction|auto]).
  unfold special. rewrite Hs.
  assert (N : forall x, In x (lit "+-_xX") -> Ascii.eqb c x = false).
  { intros x Hx. destruct (Ascii.eqb_spec c x) as [->|]; [contradiction|auto]. }
  rewrite !N by (unfold lit, ch; cbn [list_ascii_of_string In]; tauto). reflexivity.
Qed.
Print Assumptions C33_only_hex_partial.

(** ... and whatever is accepted is smaller than 2^64 in magnitude. *)
Theorem C33_accepted_range_partial : forall s v, span_id_of_hex s = Ok v -> - 2 ^ 60 < v < 2 ^ 64.
Proof. exact span_text_range. Qed.
Print Assumptions C33_accepted_range_partial.

(** Exactly the texts of 16 characters that are numerals to the base 16 are accepted, with their value ... *)
Theorem C33_accepted_exactly_partial : forall s v,
  span_id_of_hex s = Ok v <-> List.length s = 16%nat /\ numeral16 s v.
Proof. exact span_exactly. Qed.
Print Assumptions C33_accepted_exactly_partial.

(** ... and whatever is not accepted raises ValueError, as a span id or as the text of a key. *)
Theorem C33_rejections_are_value_errors : forall s,
  ((exists v, span_id_of_hex s = Ok v) \/ span_id_of_hex s = Raise "ValueError") /\
  ((exists k, key_of_text s = Ok k) \/ key_of_text s = Raise "ValueError").
Proof.
  intros s. split.
  - destruct (span_id_of_hex s) eqn:E; [eauto|right; f_equal; eapply span_raises; eauto].
  - destruct (key_of_text s) eqn:E; [eauto|right; f_equal; eapply key_raises; eauto].
Qed.
Print Assumptions C33_rejections_are_value_errors.

Example C33_numeral : numeral16 (lit " -0x_00fF_1_2   ") (-0xff12) /\ span_id_of_hex (lit " -0x_00fF_1_2   ") = Ok (-0xff12).
Proof.
  split; [|reflexivity]. exists (lit " "), (lit "-"), (-1), (lit "0x_"), (lit "00fF_1_2"), 0xff12, (lit "   ").
  split; [reflexivity|]. split; [reflexivity|]. split; [cbn; intuition (subst; tauto)|]. split; [cbn; auto|]. split; [cbn; auto|].
  apply int_digits_grouped. reflexivity.
Qed.
Example C33_rejected : span_id_of_hex (lit "00000000_0000__1") = Raise "ValueError" /\ span_id_of_hex (lit "- 00000000000001") = Raise "ValueError"
  /\ key_of_text (lit "no key") = Raise "ValueError".
Proof. repeat split. Qed.

Example C33_example : span_id_of_hex (lit "fedcba9876543210") = Ok 0xfedcba9876543210 /\
  List.length (lit "fedcba9876543210") = 16%nat /\ denotes (lit "fedcba9876543210") 0xfedcba9876543210 /\
  Forall (fun c => is_space c = false /\ ~ In c (lit "+-_xX")) (lit "fedcba9876543210").
Proof.
  split; [reflexivity|]. split; [reflexivity|]. split.
  - apply (plain_denotes (lit "fedcba9876543210")).
    repeat constructor; eexists; reflexivity.
  - repeat constructor; cbn; intuition discriminate.
Qed.
