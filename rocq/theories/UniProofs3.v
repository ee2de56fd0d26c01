(** JsonModel.v, whose characters are bytes, does to the bytes of a text what Python does to the text. *)
From Coq Require Import List NArith ZArith Bool Lia ZifyBool ZifyN Arith String Ascii.
From Verif Require Import JsonModel JsonSpec UniModel UniProofs UniProofs2.
Import ListNotations.
Local Open Scope N_scope.

Lemma all256 (P : N -> bool) : forallb P (map N.of_nat (seq 0 256)) = true -> forall x, x < 256 -> P x = true.
Proof.
  intros H x L. rewrite forallb_forall in H. apply H. apply in_map_iff. exists (N.to_nat x). split; [lia|]. apply in_seq. lia.
Qed.
Lemma ob_cons x b : of_bytes (x :: b) = String (ascii_of_N x) (of_bytes b).
Proof. reflexivity. Qed.
Lemma ob_app a b : of_bytes (a ++ b) = (of_bytes a ++ of_bytes b)%string.
Proof. induction a as [|x a IH]; [reflexivity|]. cbn [List.app]. rewrite !ob_cons, IH. reflexivity. Qed.
Lemma escape_byte x : x < 256 -> escape (ascii_of_N x) = of_bytes (uescape x).
Proof. intros L. apply String.eqb_eq. revert x L. apply (all256 (fun x => String.eqb (escape (ascii_of_N x)) (of_bytes (uescape x)))). vm_compute. reflexivity. Qed.
Lemma escaped_bytes b : Forall (fun x => x < 256) b -> escaped (of_bytes b) = of_bytes (flat_map uescape b).
Proof. induction 1 as [|x b L F IH]; [reflexivity|]. rewrite ob_cons. cbn [escaped flat_map]. rewrite ob_app, (escape_byte x L), IH. reflexivity. Qed.
Lemma encode_app s s' b b' : encode s = Some b -> encode s' = Some b' -> encode (s ++ s') = Some (b ++ b').
Proof.
  revert b. induction s as [|c s IH]; intros b H H'; cbn [encode List.app] in *; [apply some_eq in H as <-; exact H'|].
  destruct (encode1 c) as [a|]; [|discriminate H]. destruct (encode s) as [x|]; [|discriminate H]. apply some_eq in H as <-. rewrite (IH x eq_refl H'), app_assoc. reflexivity.
Qed.
Lemma encode_ascii s : Forall (fun x => x < 128) s -> encode s = Some s.
Proof. induction 1 as [|x s L F IH]; [reflexivity|]. cbn [encode]. unfold encode1. replace (x <? 128) with true by lia. rewrite IH. reflexivity. Qed.
Lemma escape_ascii c : c < 128 -> Forall (fun x => x < 128) (uescape c).
Proof.
  intros L. assert (X : forallb (fun x => x <? 128) (uescape c) || (128 <=? c) = true).
  { apply (all256 (fun c => forallb (fun x => x <? 128) (uescape c) || (128 <=? c))); [vm_compute; reflexivity|lia]. }
  apply orb_true_iff in X as [X|X]; [|lia]. apply Forall_forall. intros x I. rewrite forallb_forall in X. apply X in I. lia.
Qed.
Lemma escape_128 c : 128 <= c -> uescape c = [c].
Proof. intros L. unfold uescape. replace (c =? 34) with false by lia. replace (c =? 92) with false by lia. replace (c =? 8) with false by lia. replace (c =? 9) with false by lia. replace (c =? 10) with false by lia. replace (c =? 12) with false by lia. replace (c =? 13) with false by lia. replace (c <? 32) with false by lia. reflexivity. Qed.
Lemma encode1_low c a : encode1 c = Some a -> c < 128 -> a = [c].
Proof. unfold encode1. intros H L. replace (c <? 128) with true in H by lia. apply some_eq in H as <-. reflexivity. Qed.
Lemma encode1_high c a : encode1 c = Some a -> 128 <= c -> Forall (fun x => 128 <= x < 256) a /\ a <> [].
Proof.
  intros H L. pose proof (encode1_bytes c a H) as F. split.
  - eapply Forall_impl; [|exact F]. cbn beta. intros x (A & _ & B). auto.
  - unfold encode1 in H. repeat (match type of H with (if ?b then _ else _) = _ => destruct b end); try discriminate H; apply some_eq in H as <-; discriminate.
Qed.
Lemma escape_bytes a : Forall (fun x => 128 <= x < 256) a -> flat_map uescape a = a.
Proof. induction 1 as [|x a L F IH]; [reflexivity|]. cbn [flat_map]. rewrite escape_128 by lia. rewrite IH. reflexivity. Qed.
Lemma encode_escapes s : forall b, encode s = Some b -> encode (flat_map uescape s) = Some (flat_map uescape b).
Proof.
  induction s as [|c s IH]; intros b H; cbn [encode] in H; [apply some_eq in H as <-; reflexivity|].
  destruct (encode1 c) as [a|] eqn:E; [|discriminate H]. destruct (encode s) as [x|]; [|discriminate H]. apply some_eq in H as <-. cbn [flat_map]. rewrite flat_map_app.
  apply encode_app; [|apply IH; reflexivity]. destruct (c <? 128) eqn:L.
  - rewrite (encode1_low c a E) by lia. cbn [flat_map]. rewrite app_nil_r. apply encode_ascii, escape_ascii. lia.
  - destruct (encode1_high c a E) as [F _]; [lia|]. rewrite (escape_bytes a F), escape_128 by lia. cbn [encode]. rewrite E, app_nil_r. reflexivity.
Qed.
Lemma encode_256 s : forall b, encode s = Some b -> Forall (fun x => x < 256) b.
Proof.
  induction s as [|c s IH]; intros b H; cbn [encode] in H; [apply some_eq in H as <-; constructor|].
  destruct (encode1 c) as [a|] eqn:E; [|discriminate H]. destruct (encode s) as [x|]; [|discriminate H]. apply some_eq in H as <-. apply Forall_app. split; [|apply IH; reflexivity].
  apply encode1_bytes in E. eapply Forall_impl; [|exact E]. cbn beta. tauto.
Qed.
Lemma prints s b : encode s = Some b -> exists t, sent s = Some t /\ print_string (of_bytes b) = of_bytes t.
Proof.
  intros E. assert (S : forallb scalar s = true) by (apply encode_scalar; eauto). unfold sent, udump. rewrite S. exists (34 :: flat_map uescape b ++ [34]). split.
  - unfold uprint. cbn [encode]. change (encode1 34) with (Some [34]). rewrite (encode_app _ [34] _ [34] (encode_escapes s b E) eq_refl). reflexivity.
  - unfold print_string. rewrite ob_cons, ob_app, escaped_bytes by (eapply encode_256; eauto). reflexivity.
Qed.

(** ** Reading *)
Lemma first_low t h b : encode t = Some (h :: b) -> h < 128 -> exists t', t = h :: t' /\ encode t' = Some b.
Proof.
  destruct t as [|c t]; [discriminate|]. cbn [encode]. destruct (encode1 c) as [a|] eqn:E; [|discriminate]. destruct (encode t) as [x|] eqn:X; [|discriminate]. intros H L. apply some_eq in H.
  destruct (c <? 128) eqn:C.
  - rewrite (encode1_low c a E) in H by lia. cbn [List.app] in H. injection H as -> <-. exists t. auto.
  - destruct (encode1_high c a E) as [F N]; [lia|]. destruct a as [|a0 a]; [contradiction|]. cbn [List.app] in H. injection H as -> _. inversion F; subst. lia.
Qed.
Lemma first_high t h b : encode t = Some (h :: b) -> 128 <= h -> exists c t' a x, t = c :: t' /\ 128 <= c /\ encode1 c = Some a /\ encode t' = Some x /\ h :: b = a ++ x /\ Forall (fun x => 128 <= x < 256) a.
Proof.
  destruct t as [|c t]; [discriminate|]. cbn [encode]. destruct (encode1 c) as [a|] eqn:E; [|discriminate]. destruct (encode t) as [x|] eqn:X; [|discriminate]. intros H L. apply some_eq in H.
  destruct (c <? 128) eqn:C.
  - rewrite (encode1_low c a E) in H by lia. cbn [List.app] in H. injection H as -> _. lia.
  - exists c, t, a, x. destruct (encode1_high c a E) as [F _]; [lia|]. repeat split; auto. lia.
Qed.
Definition hexs (h1 h2 h3 h4 : ascii) : option N :=
  match hex_val h1, hex_val h2, hex_val h3, hex_val h4 with Some a, Some b, Some c, Some d => Some (N.of_nat (((a * 16 + b) * 16 + c) * 16 + d)) | _, _, _, _ => None end.
Definition after_u (r : string) : option (string * string) :=
  match r with
  | String h1 (String h2 (String h3 (String h4 r'))) =>
      match hexs h1 h2 h3 h4 with
      | Some u => match utf8 u, parse_string r' with Some x, Some (y, rest) => Some (x ++ y, rest)%string | _, _ => None end
      | None => None
      end
  | _ => None
  end.
Lemma parse_u r : parse_string (String backslash (String "u" r)) = after_u r.
Proof.
  cbn [parse_string Ascii.eqb backslash quote Bool.eqb]. destruct r as [|h1 [|h2 [|h3 [|h4 r]]]]; cbn [after_u]; try reflexivity. unfold hexs.
  destruct (hex_val h1); [|reflexivity]. destruct (hex_val h2); [|reflexivity]. destruct (hex_val h3); [|reflexivity]. destruct (hex_val h4); reflexivity.
Qed.
Lemma parse_esc e r : Ascii.eqb e "u" = false -> parse_string (String backslash (String e r)) = match unescape e, parse_string r with Some x, Some (y, rest) => Some (String x y, rest) | _, _ => None end.
Proof.
  intros H. cbn [parse_string Ascii.eqb backslash quote Bool.eqb]. destruct e as [[] [] [] [] [] [] [] []]; try reflexivity. discriminate H.
Qed.
