(** C139: Unicode text in messages. *)
From Coq Require Import List NArith ZArith Bool Lia ZifyBool ZifyN String.
From Verif Require Import JsonModel JsonSpec UniModel UniSpec UniProofs UniProofs2 UniProofs3 UniProofs4.
Import ListNotations.
Local Open Scope N_scope.
Ltac Zify.zify_post_hook ::= Z.to_euclidean_division_equations.

(** The full statement: a string that can be read from a message can be sent. *)
Definition C139_every_string : Prop := forall b s, received b = Some s -> exists b', sent s = Some b'.

(** It is false: half of a character, written as an escape, is read and cannot be sent: ["\ud800"]. *)
Theorem C139_every_string_refuted : ~ C139_every_string.
Proof. intros H. destruct (H [34; 92; 117; 100; 56; 48; 48; 34] [0xD800] eq_refl) as [b E]. discriminate E. Qed.
Print Assumptions C139_every_string_refuted.

(** What holds: exactly the strings of Unicode characters can be sent ... *)
Theorem C139_sendable_partial : forall s, (exists b, sent s = Some b) <-> Forall character s.
Proof.
  intros s. rewrite sent_iff, forallb_forall, Forall_forall. unfold scalar, high, low, character. split; intros H c I; apply H in I; lia.
Qed.
Print Assumptions C139_sendable_partial.

(** ... they arrive as they were sent, and nothing in them can be taken for the end of the message or for a heartbeat ... *)
Theorem C139_arrives : forall s b, sent s = Some b -> received b = Some s /\ printable_bytes b.
Proof. exact arrives. Qed.
Print Assumptions C139_arrives.

(** ... also when they are passed on. *)
Theorem C139_passed_on_partial : forall b s, received b = Some s -> Forall character s -> exists b', sent s = Some b' /\ received b' = Some s.
Proof. intros b s R C. apply C139_sendable_partial in C as [b' S]. exists b'. split; [exact S|]. apply C139_arrives. exact S. Qed.
Print Assumptions C139_passed_on_partial.

(** Different strings are different on the wire. *)
Theorem C139_injective : forall s1 s2 b, sent s1 = Some b -> sent s2 = Some b -> s1 = s2.
Proof. intros s1 s2 b A B. apply C139_arrives in A as [A _], B as [B _]. congruence. Qed.
Print Assumptions C139_injective.

(** Bytes are a text if and only if they are its encoding: nothing else is accepted, and nothing is accepted for two texts. *)
Theorem C139_decoding : forall b t, decode b = Some t <-> encode t = Some b.
Proof. intros b t. split; [apply (encode_decode (List.length b)); lia|apply decode_encode]. Qed.
Print Assumptions C139_decoding.

(** A character beyond 0xFFFF may also be written as the escapes of its two halves. *)
Theorem C139_halves : forall c, 0x10000 <= c -> character c -> uloads (34 :: escaped16 (first_half c) ++ escaped16 (second_half c) ++ [34]) = Some [c].
Proof.
  intros c A [B _].
  assert (H : forall d, d < 16 -> hex_value (hex_char d) = Some d).
  { intros d D. assert (X : match hex_value (hex_char d) with Some x => x =? d | None => false end || (16 <=? d) = true) by (apply (all256 (fun d => match hex_value (hex_char d) with Some x => x =? d | None => false end || (16 <=? d))); [vm_compute; reflexivity|lia]).
    replace (16 <=? d) with false in X by lia. destruct (hex_value (hex_char d)) as [x|]; [|discriminate X]. f_equal. lia. }
  assert (U : 0xD800 <= first_half c <= 0xDBFF) by (unfold first_half; lia). assert (V : 0xDC00 <= second_half c <= 0xDFFF) by (unfold second_half; lia).
  assert (J : join (first_half c) (second_half c) = c) by (unfold join, first_half, second_half; lia).
  set (u := first_half c) in *. set (v := second_half c) in *.
  unfold uloads, escaped16. rewrite N.eqb_refl. cbn [app]. rewrite scan_eq. change (92 =? 34) with false. change (92 =? 92) with true. change (117 =? 117) with true. cbv beta iota.
  assert (X : forall w, w < 65536 -> hex4 (hex_char (w / 4096)) (hex_char (w / 256 mod 16)) (hex_char (w / 16 mod 16)) (hex_char (w mod 16)) = Some w).
  { intros w W. unfold hex4. rewrite !H by lia. f_equal. lia. }
  rewrite !X by lia. unfold high, low. replace ((0xD800 <=? u) && (u <=? 0xDBFF)) with true by lia. replace ((0xDC00 <=? v) && (v <=? 0xDFFF)) with true by lia. cbn [andb].
  change (scan [34]) with (Some ([] : list N, [] : list N)). unfold add. rewrite J. reflexivity.
Qed.
Print Assumptions C139_halves.

(** JsonModel.v, whose characters are bytes, writes the bytes of what is written here ... *)
Theorem C139_bytes_written : forall s b, encode s = Some b -> exists t, sent s = Some t /\ print_string (of_bytes b) = of_bytes t.
Proof. exact prints. Qed.
Print Assumptions C139_bytes_written.
(** ... and reads the bytes of what is read here (it refuses the escapes of surrogates). *)
Theorem C139_bytes_read : forall t b y r, encode t = Some b -> parse_string (of_bytes b) = Some (y, r) ->
  exists x rest ys rs, scan t = Some (x, rest) /\ encode x = Some ys /\ encode rest = Some rs /\ y = of_bytes ys /\ r = of_bytes rs.
Proof. intros t b y r. apply (reads (List.length b)). lia. Qed.
Print Assumptions C139_bytes_read.

(** A string with an accent, a line feed, a quote, a euro sign and a smiley. *)
Example C139_example : let s := [233; 10; 34; 0x20AC; 0x1F600] in Forall character s /\
  sent s = Some [34; 195; 169; 92; 110; 92; 34; 226; 130; 172; 240; 159; 152; 128; 34] /\
  received [34; 195; 169; 92; 110; 92; 34; 226; 130; 172; 240; 159; 152; 128; 34] = Some s.
Proof. split; [repeat constructor; unfold character; lia|split; reflexivity]. Qed.
Example C139_example_halves : escaped16 (first_half 0x1F600) ++ escaped16 (second_half 0x1F600) = [92; 117; 100; 56; 51; 100; 92; 117; 100; 101; 48; 48].
Proof. reflexivity. Qed.
Example C139_example_not_text : map decode [[0xC0; 0x80]; [0xED; 0xA0; 0x80]; [0xF4; 0x90; 0x80; 0x80]; [0xE2; 0x82]; [0xFF]; [0x80]] = [None; None; None; None; None; None].
Proof. reflexivity. Qed.
