From Coq Require Import List ZArith Bool Ascii String Lia.
From Coq Require Import ZifyBool ZifyNat ZifyN.
From Verif Require Import Base SpanKeyModel SpanKeySpec.
Import ListNotations.
Local Open Scope Z_scope.

(** ** Big-endian bytes *)
Lemma from_be_acc b : forall a, fold_left (fun a x => 256 * a + x) b a = a * 256 ^ Z.of_nat (List.length b) + from_be b.
Proof.
  unfold from_be. induction b as [|x b IH]; intros a; cbn [fold_left List.length].
  - cbn. lia.
  - rewrite IH, (IH (256 * 0 + x)). rewrite Nat2Z.inj_succ, Z.pow_succ_r by lia. lia.
Qed.

Lemma from_be_cons x b : from_be (x :: b) = x * 256 ^ Z.of_nat (List.length b) + from_be b.
Proof. unfold from_be at 1. cbn [fold_left]. rewrite from_be_acc. lia. Qed.

Lemma be_length len n : List.length (be_bytes len n) = len.
Proof. induction len; cbn; auto. Qed.

Lemma pow_pos b n : 0 < b -> 0 < b ^ Z.of_nat n.
Proof. intros; apply Z.pow_pos_nonneg; lia. Qed.

Lemma from_be_be len : forall n, 0 <= n -> from_be (be_bytes len n) = n mod 256 ^ Z.of_nat len.
Proof.
  induction len as [|m IH]; intros n Hn; cbn [be_bytes].
  - cbn. rewrite Z.mod_1_r. reflexivity.
  - rewrite from_be_cons, be_length, IH by auto.
    rewrite Nat2Z.inj_succ, Z.pow_succ_r by lia.
    pose proof (pow_pos 256 m ltac:(lia)) as P. set (M := 256 ^ Z.of_nat m) in *.
    rewrite (Z.mul_comm 256 M), Z.rem_mul_r by lia. lia.
Qed.

Lemma be_is_byte len n : Forall is_byte (be_bytes len n).
Proof.
  induction len; cbn [be_bytes]; constructor; auto. unfold is_byte.
  apply Z.mod_pos_bound. lia.
Qed.

Lemma from_be_bound b : Forall is_byte b -> 0 <= from_be b < 256 ^ Z.of_nat (List.length b).
Proof.
  induction b as [|x b IH]; intros H; [cbn; lia|].
  inversion_clear H. rewrite from_be_cons. cbn [List.length]. specialize (IH H1). unfold is_byte in H0.
  rewrite Nat2Z.inj_succ, Z.pow_succ_r by lia. nia.
Qed.

Lemma be_from_be b : Forall is_byte b -> be_bytes (List.length b) (from_be b) = b.
Proof.
  assert (G : forall b h, Forall is_byte b -> be_bytes (List.length b) (from_be b + h * 256 ^ Z.of_nat (List.length b)) = b).
  { induction b0 as [|x b0 IH]; intros h H; [reflexivity|].
    inversion_clear H. cbn [List.length be_bytes]. rewrite from_be_cons.
    rewrite Nat2Z.inj_succ, Z.pow_succ_r by lia.
    pose proof (from_be_bound b0 H1) as B. set (M := 256 ^ Z.of_nat (Datatypes.length b0)) in *.
    pose proof (pow_pos 256 (Datatypes.length b0) ltac:(lia)) as P. fold M in P.
    f_equal.
    - replace (x * M + from_be b0 + h * (256 * M)) with (from_be b0 + (x + h * 256) * M) by lia.
      rewrite Z.div_add by lia. rewrite Z.div_small by lia. cbn.
      rewrite Z.mod_add by lia. apply Z.mod_small. unfold is_byte in H0. lia.
    - replace (x * M + from_be b0 + h * (256 * M)) with (from_be b0 + (x + h * 256) * M) by lia.
      apply IH; auto. }
  intros H. rewrite <- (G b 0 H) at 3. f_equal. lia.
Qed.

(** ** Keys and bytes *)
Lemma to_bytes_ok len n : 0 <= n < 256 ^ Z.of_nat len -> to_bytes len n = Ok (be_bytes len n).
Proof.
  intros H. unfold to_bytes.
  destruct ((0 <=? n) && (n <? 256 ^ Z.of_nat len)) eqn:E; [auto|lia].
Qed.

Lemma pow_256_16 : 256 ^ Z.of_nat 16 = 2 ^ 128. Proof. reflexivity. Qed.
Lemma pow_256_8 : 256 ^ Z.of_nat 8 = 2 ^ 64. Proof. reflexivity. Qed.

Lemma key_bytes_ok k : valid_key k ->
  key_bytes k = Ok (be_bytes 16 (trace_id k) ++ be_bytes 8 (span_id k)).
Proof.
  intros [H1 H2]. unfold key_bytes, span_id_bytes. rewrite !to_bytes_ok.
  - reflexivity.
  - rewrite pow_256_8. auto.
  - rewrite pow_256_16. auto.
Qed.

Lemma firstn_app_exact {A} (a b : list A) n : List.length a = n -> firstn n (a ++ b) = a.
Proof. intros <-. rewrite firstn_app, Nat.sub_diag, firstn_all. cbn. apply app_nil_r. Qed.
Lemma skipn_app_exact {A} (a b : list A) n : List.length a = n -> skipn n (a ++ b) = b.
Proof. intros <-. rewrite skipn_app, Nat.sub_diag, skipn_all. reflexivity. Qed.

Lemma bytes_roundtrip k : valid_key k ->
  exists b, key_bytes k = Ok b /\ List.length b = 24%nat /\ Forall is_byte b /\ key_of_bytes b = Ok k.
Proof.
  intros H. exists (be_bytes 16 (trace_id k) ++ be_bytes 8 (span_id k)).
  split; [now apply key_bytes_ok|]. split; [now rewrite app_length, !be_length|].
  split; [apply Forall_app; split; apply be_is_byte|].
  destruct H as [H1 H2]. unfold key_of_bytes.
  rewrite firstn_app_exact, skipn_app_exact by apply be_length.
  unfold uuid_of_bytes, span_id_of_bytes. rewrite !be_length. cbn [Nat.eqb bind].
  rewrite !from_be_be, pow_256_16, pow_256_8, !Z.mod_small by lia. destruct k; reflexivity.
Qed.

Lemma bytes_surjective b : Forall is_byte b -> List.length b = 24%nat ->
  exists k, key_of_bytes b = Ok k /\ valid_key k /\ key_bytes k = Ok b.
Proof.
  intros H L. set (a := firstn 16 b). set (c := skipn 16 b).
  assert (La : List.length a = 16%nat) by (unfold a; rewrite firstn_length; lia).
  assert (Lc : List.length c = 8%nat) by (unfold c; rewrite skipn_length; lia).
  rewrite <- (firstn_skipn 16 b) in H. apply Forall_app in H as [Ha Hc]. fold a in Ha. fold c in Hc.
  exists (mkKey (from_be a) (from_be c)). split; [|split].
  - unfold key_of_bytes. fold a c. unfold uuid_of_bytes, span_id_of_bytes. rewrite La, Lc. reflexivity.
  - split; cbn.
    + pose proof (from_be_bound a Ha) as B. rewrite La, pow_256_16 in B. exact B.
    + pose proof (from_be_bound c Hc) as B. rewrite Lc, pow_256_8 in B. exact B.
  - rewrite key_bytes_ok.
    + cbn [trace_id span_id]. rewrite <- La at 1. rewrite be_from_be by auto.
      rewrite <- Lc at 1. rewrite be_from_be by auto. unfold a, c. now rewrite firstn_skipn.
    + split; cbn [trace_id span_id].
      * pose proof (from_be_bound a Ha) as B. rewrite La, pow_256_16 in B. exact B.
      * pose proof (from_be_bound c Hc) as B. rewrite Lc, pow_256_8 in B. exact B.
Qed.

Lemma bytes_injective k1 k2 b : valid_key k1 -> valid_key k2 ->
  key_bytes k1 = Ok b -> key_bytes k2 = Ok b -> k1 = k2.
Proof.
  intros H1 H2 B1 B2. destruct (bytes_roundtrip k1 H1) as [b1 [C1 [_ [_ D1]]]].
  destruct (bytes_roundtrip k2 H2) as [b2 [C2 [_ [_ D2]]]].
  rewrite B1 in C1. rewrite B2 in C2. injection C1 as <-. injection C2 as <-. congruence.
Qed.

Lemma key_eq_iff k1 k2 : valid_key k1 -> valid_key k2 ->
  exists r, key_eq k1 k2 = Ok r /\ (r = true <-> k1 = k2).
Proof.
  intros H1 H2. unfold key_eq.
  destruct (bytes_roundtrip k1 H1) as [b1 [C1 _]]. destruct (bytes_roundtrip k2 H2) as [b2 [C2 _]].
  rewrite C1, C2. cbn [bind]. eexists. split; [reflexivity|].
  destruct (list_eq_dec Z.eq_dec b1 b2) as [->|N]; split; try discriminate; auto.
  - intros _. eapply bytes_injective; eauto.
  - intros ->. congruence.
Qed.

(** ** Hexadecimal text *)
Lemma hex_char_digit d : 0 <= d < 16 -> hex_digit (hex_char d) = Some d.
Proof.
  intros H.
  assert (C : d = 0 \/ d = 1 \/ d = 2 \/ d = 3 \/ d = 4 \/ d = 5 \/ d = 6 \/ d = 7 \/
              d = 8 \/ d = 9 \/ d = 10 \/ d = 11 \/ d = 12 \/ d = 13 \/ d = 14 \/ d = 15) by lia.
  repeat (destruct C as [->|C]; [reflexivity|]). subst; reflexivity.
Qed.

(** Characters that [int(s,16)] treats specially are not digits. *)
Definition plain (c : ascii) : Prop := exists d, hex_digit c = Some d.

Lemma plain_not c x : plain c -> hex_digit x = None -> Ascii.eqb c x = false.
Proof.
  intros [d H] Hx. destruct (Ascii.eqb_spec c x) as [->|]; [congruence|auto].
Qed.

Lemma hex_digit_range c d : hex_digit c = Some d -> 0 <= d < 16.
Proof.
  unfold hex_digit. set (n := Z.of_N (N_of_ascii c)). intros H.
  destruct ((48 <=? n) && (n <=? 57)) eqn:E1; [injection H as <-; lia|].
  destruct ((97 <=? n) && (n <=? 102)) eqn:E2; [injection H as <-; lia|].
  destruct ((65 <=? n) && (n <=? 70)) eqn:E3; [injection H as <-; lia|discriminate].
Qed.

Lemma plain_not_space c : plain c -> is_space c = false.
Proof.
  intros [d H]. unfold hex_digit, is_space in *. set (n := Z.of_N (N_of_ascii c)) in *.
  destruct ((48 <=? n) && (n <=? 57)) eqn:E1; [lia|].
  destruct ((97 <=? n) && (n <=? 102)) eqn:E2; [lia|].
  destruct ((65 <=? n) && (n <=? 70)) eqn:E3; [lia|discriminate].
Qed.

Lemma drop_while_none p s : Forall (fun c => p c = false) s -> drop_while p s = s.
Proof. destruct s as [|c s]; cbn; [auto|]. intros H. inversion_clear H. now rewrite H0. Qed.

Lemma strip_none p s : Forall (fun c => p c = false) s -> strip p s = s.
Proof.
  intros H. unfold strip. rewrite (drop_while_none p s H).
  rewrite drop_while_none; [apply rev_involutive|]. now apply Forall_rev.
Qed.

Definition hex_value (s : text) (a : Z) : Z :=
  fold_left (fun a c => match hex_digit c with Some d => 16 * a + d | None => a end) s a.

Lemma int_digits_plain s : forall a us, Forall plain s -> s <> [] \/ us = false ->
  int_digits s a us = Some (hex_value s a).
Proof.
  induction s as [|c s IH]; intros a us H Hn; cbn [int_digits].
  - destruct Hn as [Hn| ->]; [congruence|reflexivity].
  - inversion_clear H. rewrite (plain_not c (ch "_") H0 eq_refl).
    destruct H0 as [d Hd]. rewrite Hd. rewrite IH by auto. unfold hex_value. cbn [fold_left]. now rewrite Hd.
Qed.

Lemma split_sign_none c s : Ascii.eqb c (ch "-") = false -> Ascii.eqb c (ch "+") = false ->
  split_sign (c :: s) = (1, c :: s).
Proof. intros H1 H2. unfold split_sign. now rewrite H1, H2. Qed.

Lemma skip_0x_none c x s : Ascii.eqb x (ch "x") || Ascii.eqb x (ch "X") = false ->
  skip_0x (c :: x :: s) = c :: x :: s.
Proof. intros H. unfold skip_0x. now rewrite H, andb_false_r. Qed.

Lemma py_int16_plain s : Forall plain s -> s <> [] -> py_int16 s = Ok (hex_value s 0).
Proof.
  intros H Hn. unfold py_int16.
  rewrite strip_none by (eapply Forall_impl; [|exact H]; apply plain_not_space).
  destruct s as [|c s]; [congruence|]. inversion H; subst.
  rewrite split_sign_none by (apply plain_not; auto; reflexivity).
  replace (skip_0x (c :: s)) with (c :: s).
  - rewrite int_digits_plain by (auto; left; discriminate). now rewrite Z.mul_1_l.
  - destruct s as [|x s]; [reflexivity|]. inversion H3; subst.
    rewrite skip_0x_none; [reflexivity|].
    now rewrite (plain_not x (ch "x") H4 eq_refl), (plain_not x (ch "X") H4 eq_refl).
Qed.

Lemma hex_value_acc s : forall a, Forall plain s ->
  hex_value s a = a * 16 ^ Z.of_nat (List.length s) + hex_value s 0.
Proof.
  unfold hex_value. induction s as [|c s IH]; intros a H; cbn [fold_left List.length].
  - cbn. lia.
  - inversion_clear H. destruct H0 as [d Hd]. rewrite Hd.
    rewrite IH, (IH (16 * 0 + d)) by auto. rewrite Nat2Z.inj_succ, Z.pow_succ_r by lia. lia.
Qed.

Lemma hex_value_bound s : Forall plain s -> 0 <= hex_value s 0 < 16 ^ Z.of_nat (List.length s).
Proof.
  induction s as [|c s IH]; intros H; [cbn; lia|].
  inversion H; subst. specialize (IH H3). destruct H2 as [d Hd].
  replace (hex_value (c :: s) 0) with (hex_value s d).
  2:{ unfold hex_value. cbn [fold_left]. rewrite Hd. f_equal. }
  rewrite hex_value_acc by auto.
  pose proof (hex_digit_range c d Hd). cbn [List.length]. rewrite Nat2Z.inj_succ, Z.pow_succ_r by lia. nia.
Qed.

Lemma hex_fixed_plain w n : Forall plain (hex_fixed w n).
Proof.
  induction w; cbn [hex_fixed]; constructor; auto. eexists. apply hex_char_digit.
  apply Z.mod_pos_bound. lia.
Qed.

Lemma hex_fixed_length w n : List.length (hex_fixed w n) = w.
Proof. induction w; cbn; auto. Qed.

Lemma hex_fixed_value w : forall n, 0 <= n -> hex_value (hex_fixed w n) 0 = n mod 16 ^ Z.of_nat w.
Proof.
  induction w as [|m IH]; intros n Hn.
  - cbn. now rewrite Z.mod_1_r.
  - cbn [hex_fixed]. set (d := (n / 16 ^ Z.of_nat m) mod 16).
    replace (hex_value (hex_char d :: hex_fixed m n) 0) with (hex_value (hex_fixed m n) d).
    2:{ unfold hex_value. cbn [fold_left]. rewrite hex_char_digit; [f_equal|]. apply Z.mod_pos_bound. lia. }
    rewrite hex_value_acc by apply hex_fixed_plain. rewrite hex_fixed_length, IH by auto.
    rewrite Nat2Z.inj_succ, Z.pow_succ_r by lia.
    pose proof (pow_pos 16 m ltac:(lia)) as P. set (M := 16 ^ Z.of_nat m) in *.
    unfold d. rewrite (Z.mul_comm 16 M), Z.rem_mul_r by lia. lia.
Qed.

Lemma span_hex_roundtrip v : 0 <= v < 2 ^ 64 -> span_id_of_hex (span_id_hex v) = Ok v.
Proof.
  intros H. unfold span_id_hex, format_0x. destruct (v <? 0) eqn:E; [lia|].
  unfold span_id_of_hex. rewrite hex_fixed_length. cbn [Nat.eqb].
  rewrite py_int16_plain; [|apply hex_fixed_plain|].
  - rewrite hex_fixed_value by lia. f_equal. apply Z.mod_small. change (16 ^ Z.of_nat 16) with (2 ^ 64). auto.
  - intros X. apply (f_equal (@List.length _)) in X. rewrite hex_fixed_length in X. discriminate.
Qed.

Lemma remove_all_none a pat s : ~ In a s -> remove_all (a :: pat) 0 s = s.
Proof.
  induction s as [|c s IH]; intros H; cbn [remove_all]; [auto|].
  cbn [is_prefix]. destruct (Ascii.eqb_spec a c) as [->|].
  - exfalso. apply H. now left.
  - cbn [andb]. f_equal. apply IH. intros X. apply H. now right.
Qed.

Definition dashed (c : ascii) : Prop := plain c \/ c = ch "-".

Lemma filter_dash_plain s : Forall plain s -> filter (fun c => negb (is_dash c)) s = s.
Proof.
  induction s as [|c s IH]; cbn; [auto|]. intros H. inversion_clear H.
  unfold is_dash. rewrite (plain_not c (ch "-") H0 eq_refl). cbn. f_equal. auto.
Qed.

Lemma Forall_firstn {A} (P : A -> Prop) n l : Forall P l -> Forall P (firstn n l).
Proof. intros H. rewrite <- (firstn_skipn n l) in H. now apply Forall_app in H. Qed.
Lemma Forall_skipn {A} (P : A -> Prop) n l : Forall P l -> Forall P (skipn n l).
Proof. intros H. rewrite <- (firstn_skipn n l) in H. now apply Forall_app in H. Qed.

Lemma skipn_skipn' {A} a b (l : list A) : skipn a (skipn b l) = skipn (b + a) l.
Proof. revert l. induction b; intros l; [auto|]. destruct l; cbn; [now rewrite skipn_nil|auto]. Qed.

Lemma uuid_str_no_dash v : 0 <= v ->
  filter (fun c => negb (is_dash c)) (uuid_str v) = hex_fixed 32 v.
Proof.
  intros H. unfold uuid_str, format_0x. destruct (v <? 0) eqn:E; [lia|].
  set (h := hex_fixed 32 v). pose proof (hex_fixed_plain 32 v) as Hp. fold h in Hp.
  rewrite !filter_app. cbn [filter]. change (negb (is_dash (ch "-"))) with false. cbn [app].
  rewrite !filter_dash_plain by (repeat first [apply Forall_firstn | apply Forall_skipn]; auto).
  reflexivity.
Qed.

Lemma uuid_str_dashed v : 0 <= v -> Forall dashed (uuid_str v).
Proof.
  intros H. unfold uuid_str, format_0x. destruct (v <? 0) eqn:E; [lia|].
  pose proof (hex_fixed_plain 32 v) as Hp.
  assert (Hd : Forall dashed (hex_fixed 32 v)) by (eapply Forall_impl; [|exact Hp]; left; auto).
  assert (D : Forall dashed [ch "-"]) by (constructor; [right; reflexivity|constructor]).
  repeat first [apply Forall_app; split | apply Forall_firstn | apply Forall_skipn | exact D | exact Hd].
Qed.

Lemma dashed_not c x : dashed c -> hex_digit x = None -> x <> ch "-" -> c <> x.
Proof.
  intros [P| ->] Hx Hn; [|congruence]. destruct P as [d P]. congruence.
Qed.

Lemma dashed_not_in s x : Forall dashed s -> hex_digit x = None -> x <> ch "-" -> ~ In x s.
Proof.
  intros H Hx Hn Hin. rewrite Forall_forall in H. specialize (H x Hin). exact (dashed_not x x H Hx Hn eq_refl).
Qed.

Lemma uuid_roundtrip v : 0 <= v < 2 ^ 128 -> uuid_of_hex (uuid_str v) = Ok v.
Proof.
  intros H. pose proof (uuid_str_dashed v ltac:(lia)) as D.
  unfold uuid_of_hex.
  change (lit "urn:") with (ch "u" :: lit "rn:"). change (lit "uuid:") with (ch "u" :: lit "uid:").
  assert (U : ~ In (ch "u") (uuid_str v)) by (apply dashed_not_in; [auto|reflexivity|discriminate]).
  rewrite (remove_all_none (ch "u") (lit "rn:") _ U), (remove_all_none (ch "u") (lit "uid:") _ U).
  rewrite strip_none.
  2:{ eapply Forall_impl; [|exact D]. cbn beta. intros c Hc. unfold is_brace.
      destruct (Ascii.eqb_spec c (ch "{")) as [->|]; [exfalso; exact (dashed_not (ch "{") (ch "{") Hc eq_refl ltac:(discriminate) eq_refl)|].
      destruct (Ascii.eqb_spec c (ch "}")) as [->|]; [exfalso; exact (dashed_not (ch "}") (ch "}") Hc eq_refl ltac:(discriminate) eq_refl)|auto]. }
  rewrite uuid_str_no_dash, hex_fixed_length by lia. cbn [Nat.eqb].
  rewrite py_int16_plain; [|apply hex_fixed_plain|].
  - rewrite hex_fixed_value by lia. change (16 ^ Z.of_nat 32) with (2 ^ 128). rewrite Z.mod_small by lia.
    cbn [bind]. destruct ((0 <=? v) && (v <? 2 ^ 128)) eqn:E; [auto|lia].
  - intros X. apply (f_equal (@List.length _)) in X. rewrite hex_fixed_length in X. discriminate.
Qed.

Lemma find_colon_split a b : forall i, ~ In (ch ":") a ->
  find_colon (a ++ ch ":" :: b) i = i + Z.of_nat (List.length a).
Proof.
  induction a as [|c a IH]; intros i H; cbn [app find_colon].
  - rewrite Ascii.eqb_refl. cbn. lia.
  - destruct (Ascii.eqb_spec c (ch ":")) as [->|]; [exfalso; apply H; now left|].
    rewrite IH; [cbn [List.length]; lia|]. intros X; apply H; now right.
Qed.

Lemma text_roundtrip k : valid_key k -> key_of_text (key_str k) = Ok k.
Proof.
  intros [H1 H2]. unfold key_of_text, key_str. cbn [app].
  rewrite find_colon_split.
  2:{ apply dashed_not_in; [apply uuid_str_dashed; lia|reflexivity|discriminate]. }
  destruct (0 + Z.of_nat (Datatypes.length (uuid_str (trace_id k))) <? 0) eqn:E; [lia|].
  replace (Z.to_nat (0 + Z.of_nat (Datatypes.length (uuid_str (trace_id k)))))
    with (Datatypes.length (uuid_str (trace_id k))) by lia.
  rewrite firstn_app_exact by auto. rewrite uuid_roundtrip by auto. cbn [bind].
  replace (Z.to_nat (0 + Z.of_nat (Datatypes.length (uuid_str (trace_id k))) + 1))
    with (S (Datatypes.length (uuid_str (trace_id k)))) by lia.
  change (uuid_str (trace_id k) ++ ch ":" :: span_id_hex (span_id k))
    with (uuid_str (trace_id k) ++ [ch ":"] ++ span_id_hex (span_id k)).
  rewrite app_assoc, skipn_app_exact by (rewrite app_length; cbn; lia).
  rewrite span_hex_roundtrip by auto. destruct k; reflexivity.
Qed.

Lemma text_injective k1 k2 : valid_key k1 -> valid_key k2 -> key_str k1 = key_str k2 -> k1 = k2.
Proof.
  intros H1 H2 E. pose proof (text_roundtrip k1 H1) as A. rewrite E, text_roundtrip in A by auto. congruence.
Qed.

(** ** Acceptance of texts *)
Lemma digits_hex c d : In (c, d) digits <-> hex_digit c = Some d.
Proof.
  split.
  - intros H. cbn in H. repeat (destruct H as [H|H]; [injection H as <- <-; reflexivity|]). contradiction.
  - destruct c as [[] [] [] [] [] [] [] []]; intros H; try discriminate H; vm_compute in H; injection H as <-; cbn; tauto.
Qed.

Lemma blanks_space c : is_space c = true -> In c blanks.
Proof. destruct c as [[] [] [] [] [] [] [] []]; intros H; try discriminate H; cbn; tauto. Qed.

Lemma denotes_plain s v : denotes s v -> Forall plain s /\ hex_value s 0 = v.
Proof.
  induction 1 as [|s v c d H [IH1 IH2] Hd]; [split; [constructor|reflexivity]|]. apply digits_hex in Hd.
  split.
  - apply Forall_app; split; [auto|]. constructor; [exists d; auto|constructor].
  - unfold hex_value in *. rewrite fold_left_app, IH2. cbn [fold_left]. now rewrite Hd.
Qed.

Lemma plain_denotes s : Forall plain s -> denotes s (hex_value s 0).
Proof.
  induction s as [|c s IH] using rev_ind; intros H; [constructor|].
  apply Forall_app in H as [H1 H2]. inversion_clear H2. destruct H as [d Hd].
  unfold hex_value. rewrite fold_left_app. cbn [fold_left]. rewrite Hd. constructor; [apply IH; exact H1|now apply digits_hex].
Qed.

Lemma accepts_hex s v : List.length s = 16%nat -> denotes s v -> span_id_of_hex s = Ok v.
Proof.
  intros L D. apply denotes_plain in D as [P <-]. unfold span_id_of_hex. rewrite L. cbn [Nat.eqb].
  apply py_int16_plain; auto. intros ->. discriminate.
Qed.

Definition special (c : ascii) : bool :=
  is_space c || Ascii.eqb c (ch "-") || Ascii.eqb c (ch "+") || Ascii.eqb c (ch "_") ||
  Ascii.eqb c (ch "x") || Ascii.eqb c (ch "X").

Lemma int_digits_only s : forall a us v, Forall (fun c => special c = false) s ->
  int_digits s a us = Some v -> Forall plain s.
Proof.
  induction s as [|c s IH]; intros a us v H E; [constructor|].
  inversion_clear H. cbn [int_digits] in E. unfold special in H0.
  destruct (Ascii.eqb c (ch "_")); [rewrite !orb_true_r in H0; discriminate|].
  destruct (hex_digit c) as [d|] eqn:Hd; [|discriminate].
  constructor; [exists d; auto|eapply IH; eauto].
Qed.

Lemma accepts_only_hex s v : span_id_of_hex s = Ok v -> Forall (fun c => special c = false) s ->
  List.length s = 16%nat /\ denotes s v.
Proof.
  intros E H. unfold span_id_of_hex in E.
  destruct (Nat.eqb (Datatypes.length s) 16) eqn:L; [|discriminate].
  apply Nat.eqb_eq in L. split; [auto|]. unfold py_int16 in E.
  rewrite strip_none in E.
  2:{ eapply Forall_impl; [|exact H]. cbn beta. unfold special. intros c Hc.
      destruct (is_space c); [discriminate|auto]. }
  destruct s as [|c s]; [discriminate|]. inversion H; subst.
  assert (Hm : Ascii.eqb c (ch "-") = false).
  { unfold special in H2. destruct (Ascii.eqb c (ch "-")); [rewrite !orb_true_r in H2; discriminate|auto]. }
  assert (Hpl : Ascii.eqb c (ch "+") = false).
  { unfold special in H2. destruct (Ascii.eqb c (ch "+")); [rewrite !orb_true_r in H2; discriminate|auto]. }
  rewrite split_sign_none in E by auto.
  destruct s as [|x s]; [discriminate|]. inversion H3; subst.
  assert (Hx : Ascii.eqb x (ch "x") || Ascii.eqb x (ch "X") = false).
  { unfold special in H4. destruct (Ascii.eqb x (ch "x")); [rewrite !orb_true_r in H4; discriminate|].
    destruct (Ascii.eqb x (ch "X")); [rewrite !orb_true_r in H4; discriminate|auto]. }
  rewrite skip_0x_none in E by auto.
  destruct (int_digits (c :: x :: s) 0 true) as [w|] eqn:D; [|discriminate].
  assert (Ev : 1 * w = v) by congruence. subst v.
  pose proof (int_digits_only _ _ _ _ H D) as P.
  rewrite int_digits_plain in D by (auto; left; discriminate).
  assert (Ew : hex_value (c :: x :: s) 0 = w) by congruence. subst w.
  rewrite Z.mul_1_l. now apply plain_denotes.
Qed.

(** Bounds: an accepted text of 16 characters never exceeds 64 bits in magnitude. *)
Lemma int_digits_bound s : forall a us v, 0 <= a -> int_digits s a us = Some v ->
  0 <= v < (a + 1) * 16 ^ Z.of_nat (List.length s).
Proof.
  induction s as [|c s IH]; intros a us v Ha E; cbn [int_digits List.length] in *.
  - destruct us; [discriminate|]. injection E as <-. cbn. lia.
  - rewrite Nat2Z.inj_succ, Z.pow_succ_r by lia. pose proof (pow_pos 16 (List.length s) ltac:(lia)).
    destruct (Ascii.eqb c (ch "_")).
    + destruct us; [discriminate|]. specialize (IH a true v Ha E). nia.
    + destruct (hex_digit c) as [d|] eqn:Hd; [|discriminate].
      pose proof (hex_digit_range c d Hd). specialize (IH (16 * a + d) false v ltac:(lia) E). nia.
Qed.

Lemma drop_while_length p s : (List.length (drop_while p s) <= List.length s)%nat.
Proof. induction s as [|c s IH]; cbn; [lia|]. destruct (p c); cbn; lia. Qed.

Lemma strip_length p s : (List.length (strip p s) <= List.length s)%nat.
Proof.
  unfold strip. rewrite rev_length. pose proof (drop_while_length p (rev (drop_while p s))).
  rewrite rev_length in H. pose proof (drop_while_length p s). lia.
Qed.

Lemma split_sign_length s : (List.length s <= 16)%nat ->
  (fst (split_sign s) = -1 /\ (List.length (snd (split_sign s)) <= 15)%nat) \/
  (fst (split_sign s) = 1 /\ (List.length (snd (split_sign s)) <= 16)%nat).
Proof.
  intros SL. unfold split_sign. destruct s as [|c r]; cbn [List.length] in SL.
  - right. cbn [fst snd List.length]. lia.
  - destruct (Ascii.eqb c (ch "-")); [left; cbn [fst snd]; lia|].
    destruct (Ascii.eqb c (ch "+")); right; cbn [fst snd List.length]; lia.
Qed.

Lemma skip_0x_length s : (List.length (skip_0x s) <= List.length s)%nat.
Proof.
  destruct s as [|z [|x r]]; [cbn; lia|cbn; lia|]. unfold skip_0x.
  destruct (_ && _); [|lia]. destruct r as [|u r]; [cbn; lia|].
  destruct (Ascii.eqb u (ch "_")); cbn [List.length]; lia.
Qed.

Lemma span_text_range s v : span_id_of_hex s = Ok v -> - 16 ^ 15 < v < 2 ^ 64.
Proof.
  unfold span_id_of_hex. destruct (Nat.eqb (Datatypes.length s) 16) eqn:L; [|discriminate].
  apply Nat.eqb_eq in L. unfold py_int16. pose proof (strip_length is_space s) as SL. rewrite L in SL.
  pose proof (split_sign_length _ SL) as P.
  destruct (split_sign (strip is_space s)) as [sign s2]; cbn [fst snd] in P.
  pose proof (skip_0x_length s2) as L3. set (s3 := skip_0x s2) in *. clearbody s3.
  destruct (int_digits s3 0 true) as [w|] eqn:D; [|discriminate].
  intros E. assert (Ev : sign * w = v) by congruence. subst v. apply int_digits_bound in D; [|lia].
  assert (M : forall n, (List.length s3 <= n)%nat -> 16 ^ Z.of_nat (List.length s3) <= 16 ^ Z.of_nat n).
  { intros n Hn. apply Z.pow_le_mono_r; lia. }
  destruct P as [[-> P]|[-> P]].
  - specialize (M 15%nat ltac:(lia)). change (Z.of_nat 15) with 15 in M.
    assert (0 < 2 ^ 64) by reflexivity. lia.
  - specialize (M 16%nat ltac:(lia)). change (Z.of_nat 16) with 16 in M.
    change (2 ^ 64) with (16 ^ 16). assert (0 < 16 ^ 15) by reflexivity. lia.
Qed.
