(** Proofs about comparing span keys. *)
From Coq Require Import List ZArith Bool Ascii String Lia ZifyBool ZifyNat.
From Verif Require Import Base SpanKeyModel SpanKeySpec SpanKeyProofs SpanKeyProofs2 SpanEqModel SpanEqSpec.
Import ListNotations.
Local Open Scope Z_scope.

Lemma digit_range c d : In (c, d) digits -> 0 <= d < 16.
Proof. intros H. cbn in H. repeat (destruct H as [H|H]; [injection H as _ <-; lia|]). destruct H. Qed.
Lemma denotes_range s v : denotes s v -> 0 <= v < 16 ^ Z.of_nat (List.length s).
Proof.
  induction 1 as [|s v c d H IH Hd]; [cbn; lia|]. apply digit_range in Hd. rewrite app_length. cbn [List.length].
  replace (Z.of_nat (List.length s + 1)) with (Z.succ (Z.of_nat (List.length s))) by lia. rewrite Z.pow_succ_r by lia. lia.
Qed.
Lemma denotes_fun s v w : denotes s v -> denotes s w -> v = w.
Proof. intros A B. apply denotes_plain in A as [_ A]. apply denotes_plain in B as [_ B]. congruence. Qed.

Lemma usual_lengths : forall a b c d e f : text,
  map (@List.length ascii) [a; b; c; d; e; f] = [8; 4; 4; 4; 12; 16]%nat ->
  List.length (a ++ b ++ c ++ d ++ e) = 32%nat /\ List.length f = 16%nat.
Proof. intros a b c d e f H. cbn [map] in H. injection H as A B C D E F. rewrite !app_length. lia. Qed.

Lemma usual_valid s k : usual s k -> valid_key k.
Proof.
  intros (a & b & c & d & e & f & _ & L & T & S). apply usual_lengths in L as [L1 L2].
  apply denotes_range in T, S. rewrite L1 in T. rewrite L2 in S.
  change (16 ^ Z.of_nat 32) with (2 ^ 128) in T. change (16 ^ Z.of_nat 16) with (2 ^ 64) in S. split; assumption.
Qed.

Lemma uuid_of_dashed s h v : Forall dashed s -> filter (fun c => negb (is_dash c)) s = h -> List.length h = 32%nat ->
  denotes h v -> uuid_of_hex s = Ok v.
Proof.
  intros D F L Hv. pose proof (denotes_range h v Hv) as R. rewrite L in R. change (16 ^ Z.of_nat 32) with (2 ^ 128) in R.
  apply denotes_plain in Hv as [P V].
  unfold uuid_of_hex.
  change (lit "urn:") with (ch "u" :: lit "rn:"). change (lit "uuid:") with (ch "u" :: lit "uid:").
  assert (U : ~ In (ch "u") s) by (apply dashed_not_in; [auto|reflexivity|discriminate]).
  rewrite (remove_all_none (ch "u") (lit "rn:") _ U), (remove_all_none (ch "u") (lit "uid:") _ U).
  rewrite strip_none.
  2:{ eapply Forall_impl; [|exact D]. cbn beta. intros c Hc. unfold is_brace.
      destruct (Ascii.eqb_spec c (ch "{")) as [->|]; [exfalso; exact (dashed_not (ch "{") (ch "{") Hc eq_refl ltac:(discriminate) eq_refl)|].
      destruct (Ascii.eqb_spec c (ch "}")) as [->|]; [exfalso; exact (dashed_not (ch "}") (ch "}") Hc eq_refl ltac:(discriminate) eq_refl)|auto]. }
  rewrite F, L. cbn [Nat.eqb]. rewrite py_int16_plain; [|exact P|intros ->; discriminate L]. rewrite V. cbn [bind].
  destruct ((0 <=? v) && (v <? 2 ^ 128)) eqn:E; [auto|lia].
Qed.

Lemma usual_read s k : usual s k -> key_of_text s = Ok k.
Proof.
  intros (a & b & c & d & e & f & -> & L & T & S). pose proof (usual_lengths _ _ _ _ _ _ L) as [L1 L2].
  pose proof (denotes_plain _ _ T) as [P _]. rewrite !Forall_app in P. destruct P as (Pa & Pb & Pc & Pd & Pe).
  set (t := a ++ ["-"%char] ++ b ++ ["-"%char] ++ c ++ ["-"%char] ++ d ++ ["-"%char] ++ e).
  replace (a ++ ["-"%char] ++ b ++ ["-"%char] ++ c ++ ["-"%char] ++ d ++ ["-"%char] ++ e ++ [":"%char] ++ f) with (t ++ ch ":" :: f)
    by (unfold t; rewrite <- !app_assoc; reflexivity).
  assert (PD : forall x, Forall plain x -> Forall dashed x) by (intros x; apply Forall_impl; left; assumption).
  assert (DD : Forall dashed ["-"%char]) by (constructor; [right; reflexivity|constructor]).
  assert (D : Forall dashed t) by (unfold t; repeat (apply Forall_app; split); auto).
  assert (F : filter (fun c => negb (is_dash c)) t = a ++ b ++ c ++ d ++ e).
  { unfold t. rewrite !filter_app. rewrite (filter_dash_plain a Pa), (filter_dash_plain b Pb), (filter_dash_plain c Pc), (filter_dash_plain d Pd), (filter_dash_plain e Pe). reflexivity. }
  unfold key_of_text. rewrite find_colon_split by (apply dashed_not_in; [exact D|reflexivity|discriminate]).
  destruct (0 + Z.of_nat (Datatypes.length t) <? 0) eqn:E; [lia|].
  replace (Z.to_nat (0 + Z.of_nat (Datatypes.length t))) with (Datatypes.length t) by lia.
  rewrite firstn_app_exact by auto. rewrite (uuid_of_dashed _ _ _ D F L1 T). cbn [bind].
  replace (Z.to_nat (0 + Z.of_nat (Datatypes.length t) + 1)) with (Datatypes.S (Datatypes.length t)) by lia.
  change (t ++ ch ":" :: f) with (t ++ [ch ":"] ++ f). rewrite app_assoc, skipn_app_exact by (rewrite app_length; cbn; lia).
  rewrite (accepts_hex _ _ L2 S). destruct k; reflexivity.
Qed.
Lemma usual_fun s k1 k2 : usual s k1 -> usual s k2 -> k1 = k2.
Proof. intros A B. apply usual_read in A, B. congruence. Qed.

(** ** Answers *)
Lemma key_bytes_valid k b : key_bytes k = Ok b -> valid_key k.
Proof.
  unfold key_bytes, span_id_bytes, to_bytes. intros H.
  destruct ((0 <=? trace_id k) && (trace_id k <? 256 ^ Z.of_nat 16)) eqn:E1; cbn [bind] in H; [|discriminate].
  destruct ((0 <=? span_id k) && (span_id k <? 256 ^ Z.of_nat 8)) eqn:E2; cbn [bind] in H; [|discriminate].
  change (256 ^ Z.of_nat 16) with (2 ^ 128) in E1. change (256 ^ Z.of_nat 8) with (2 ^ 64) in E2. split; lia.
Qed.
Lemma key_eq_true a b : key_eq a b = Ok true -> a = b /\ valid_key a.
Proof.
  intros H. assert (V : valid_key a /\ valid_key b).
  { unfold key_eq in H. destruct (key_bytes a) eqn:A; cbn [bind] in H; [|discriminate]. destruct (key_bytes b) eqn:B; cbn [bind] in H; [|discriminate].
    split; eapply key_bytes_valid; eassumption. }
  destruct V as (Va & Vb). destruct (key_eq_iff a b Va Vb) as (r & E & R). split; [apply R; congruence|exact Va].
Qed.
Lemma key_eq_refl a : valid_key a -> key_eq a a = Ok true.
Proof. intros V. destruct (key_eq_iff a a V V) as (r & -> & R). f_equal. apply R. reflexivity. Qed.
Lemma key_bytes_raises a e : key_bytes a = Raise e -> e = "OverflowError"%string.
Proof.
  unfold key_bytes, span_id_bytes, to_bytes. intros H.
  destruct ((0 <=? trace_id a) && (trace_id a <? 256 ^ Z.of_nat 16)); cbn [bind] in H; [|congruence].
  destruct ((0 <=? span_id a) && (span_id a <? 256 ^ Z.of_nat 8)); cbn [bind] in H; [discriminate|congruence].
Qed.
Lemma key_eq_sym a b : key_eq a b = key_eq b a.
Proof.
  unfold key_eq. destruct (key_bytes a) as [x|e] eqn:A; destruct (key_bytes b) as [y|e'] eqn:B; cbn [bind]; try reflexivity.
  - do 2 f_equal. destruct (list_eq_dec Z.eq_dec x y), (list_eq_dec Z.eq_dec y x); congruence.
  - apply key_bytes_raises in A, B. congruence.
Qed.

Lemma eq_sym a b : py_eq a b = py_eq b a.
Proof.
  destruct a as [k|s|i], b as [k2|s2|i2]; unfold py_eq; cbn [method_eq sk_eq str_eq object_eq bind]; try reflexivity.
  - rewrite key_eq_sym. destruct (key_eq k2 k); reflexivity.
  - f_equal. destruct (list_eq_dec ascii_dec s s2), (list_eq_dec ascii_dec s2 s); congruence.
  - rewrite (Z.eqb_sym i2 i). destruct (i =? i2); reflexivity.
Qed.

Lemma eq_means k v : valid_key k -> proper_value v -> exists r, py_eq (Key k) v = Ok r /\ (r = true <-> is_key v k).
Proof.
  intros V P. destruct v as [k2|s|i]; unfold py_eq; cbn [method_eq sk_eq object_eq bind is_key].
  - destruct (key_eq_iff k k2 V P) as (r & -> & R). exists r. split; [reflexivity|]. rewrite R. split; auto.
  - destruct P as (k2 & U). unfold key_eq_text. rewrite (usual_read s k2 U). cbn [bind].
    destruct (key_eq_iff k k2 V (usual_valid s k2 U)) as (r & -> & R). exists r. split; [reflexivity|]. rewrite R. split.
    + intros ->. exact U.
    + intros U'. exact (usual_fun s k k2 U' U).
  - exists false. split; [reflexivity|]. split; [discriminate|tauto].
Qed.

Lemma eq_key_text k s : py_eq (Key k) (Text s) = Ok true -> key_of_text s = Ok k /\ valid_key k.
Proof.
  unfold py_eq. cbn [method_eq sk_eq bind]. unfold key_eq_text. intros H.
  destruct (key_of_text s) as [k2|e]; cbn [bind] in H; [|discriminate].
  destruct (key_eq k k2) as [r|e] eqn:E; cbn [bind] in H; [|discriminate]. injection H as ->.
  destruct (key_eq_true k k2 E) as (-> & V). auto.
Qed.
Lemma eq_key_key k k2 : py_eq (Key k) (Key k2) = Ok true -> k = k2 /\ valid_key k.
Proof.
  unfold py_eq. cbn [method_eq sk_eq bind]. intros H. destruct (key_eq k k2) as [r|e] eqn:E; cbn [bind] in H; [|discriminate].
  injection H as ->. apply key_eq_true, E.
Qed.
Lemma eq_text_text s t : py_eq (Text s) (Text t) = Ok true -> s = t.
Proof. unfold py_eq. cbn [method_eq str_eq bind]. destruct (list_eq_dec ascii_dec s t); [auto|discriminate]. Qed.
Lemma eq_refl_key k : valid_key k -> py_eq (Key k) (Key k) = Ok true.
Proof. intros V. unfold py_eq. cbn [method_eq sk_eq bind]. rewrite (key_eq_refl k V). reflexivity. Qed.
Lemma eq_object a i : py_eq a (Object i) = Ok true -> a = Object i.
Proof.
  destruct a as [k|s|j]; unfold py_eq; cbn [method_eq sk_eq str_eq object_eq bind]; try discriminate.
  destruct (Z.eqb_spec j i) as [->|]; [auto|]. rewrite Z.eqb_sym. destruct (Z.eqb_spec j i); [contradiction|discriminate].
Qed.

Lemma eq_trans a b c : (a_text a -> a_text c -> a_text b) ->
  py_eq a b = Ok true -> py_eq b c = Ok true -> py_eq a c = Ok true.
Proof.
  intros T AB BC. destruct b as [kb|sb|ib].
  - destruct c as [kc|sc|ic].
    + destruct (eq_key_key _ _ BC) as (<- & _). exact AB.
    + destruct a as [ka|sa|ia].
      * destruct (eq_key_key _ _ AB) as (-> & _). exact BC.
      * destruct T as (x & X); [eexists; reflexivity|eexists; reflexivity|discriminate X].
      * rewrite eq_sym in AB. apply eq_object in AB. discriminate.
    + apply eq_object in BC. discriminate.
  - destruct a as [ka|sa|ia].
    + destruct (eq_key_text _ _ AB) as (E & V). destruct c as [kc|sc|ic].
      * rewrite eq_sym in BC. destruct (eq_key_text _ _ BC) as (E2 & _). assert (ka = kc) as <- by congruence. apply eq_refl_key, V.
      * apply eq_text_text in BC. subst. exact AB.
      * apply eq_object in BC. discriminate.
    + apply eq_text_text in AB. subst. exact BC.
    + rewrite eq_sym in AB. apply eq_object in AB. discriminate.
  - apply eq_object in AB. subst. exact BC.
Qed.
