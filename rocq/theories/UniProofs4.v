(** What JsonModel.v reads from the bytes of a text is what json.loads reads from the text. *)
From Coq Require Import List NArith ZArith Bool Lia ZifyBool ZifyN Arith String Ascii.
From Verif Require Import JsonModel JsonSpec UniModel UniProofs UniProofs2 UniProofs3.
Import ListNotations.
Local Open Scope N_scope.

Lemma plain_byte x : x < 256 -> 32 <= x -> x <> 34 -> x <> 92 ->
  Ascii.eqb (ascii_of_N x) quote = false /\ Ascii.eqb (ascii_of_N x) backslash = false /\ Nat.ltb (nat_of_ascii (ascii_of_N x)) 32 = false.
Proof.
  intros L A B C.
  assert (X : (negb (Ascii.eqb (ascii_of_N x) quote) || (x =? 34)) && (negb (Ascii.eqb (ascii_of_N x) backslash) || (x =? 92)) && (negb (Nat.ltb (nat_of_ascii (ascii_of_N x)) 32) || (x <? 32)) = true).
  { apply (all256 (fun x => (negb (Ascii.eqb (ascii_of_N x) quote) || (x =? 34)) && (negb (Ascii.eqb (ascii_of_N x) backslash) || (x =? 92)) && (negb (Nat.ltb (nat_of_ascii (ascii_of_N x)) 32) || (x <? 32)))); [vm_compute; reflexivity|exact L]. }
  replace (x =? 34) with false in X by lia. replace (x =? 92) with false in X by lia. replace (x <? 32) with false in X by lia. rewrite !orb_false_r in X.
  apply andb_prop in X as [X X3]. apply andb_prop in X as [X1 X2]. apply negb_true_iff in X1, X2, X3. auto.
Qed.
Lemma parse_plain x s : x < 256 -> 32 <= x -> x <> 34 -> x <> 92 ->
  parse_string (String (ascii_of_N x) s) = match parse_string s with Some (y, rest) => Some (String (ascii_of_N x) y, rest) | None => None end.
Proof. intros L A B C. destruct (plain_byte x L A B C) as (E1 & E2 & E3). cbn [parse_string]. rewrite E1, E2, E3. reflexivity. Qed.
Lemma parse_control x s : x < 32 -> parse_string (String (ascii_of_N x) s) = None.
Proof.
  intros L. assert (X : negb (Ascii.eqb (ascii_of_N x) quote) && negb (Ascii.eqb (ascii_of_N x) backslash) && Nat.ltb (nat_of_ascii (ascii_of_N x)) 32 || (32 <=? x) = true).
  { apply (all256 (fun x => negb (Ascii.eqb (ascii_of_N x) quote) && negb (Ascii.eqb (ascii_of_N x) backslash) && Nat.ltb (nat_of_ascii (ascii_of_N x)) 32 || (32 <=? x))); [vm_compute; reflexivity|lia]. }
  replace (32 <=? x) with false in X by lia. rewrite orb_false_r in X. apply andb_prop in X as [X X3]. apply andb_prop in X as [X1 X2]. apply negb_true_iff in X1, X2. cbn [parse_string]. rewrite X1, X2, X3. reflexivity.
Qed.
Lemma parse_high a s : Forall (fun x => 128 <= x < 256) a ->
  parse_string (of_bytes a ++ s) = match parse_string s with Some (y, rest) => Some (of_bytes a ++ y, rest)%string | None => None end.
Proof.
  induction 1 as [|x a L F IH]; [change (of_bytes []) with EmptyString; cbn [append]; destruct (parse_string s) as [[y r]|]; reflexivity|]. rewrite ob_cons. cbn [append]. rewrite parse_plain by lia. rewrite IH. destruct (parse_string s) as [[y r]|]; reflexivity.
Qed.
Lemma hex_byte h n : h < 256 -> hex_val (ascii_of_N h) = Some n -> h < 128 /\ hex_value h = Some (N.of_nat n).
Proof.
  intros L H. assert (X : match hex_val (ascii_of_N h) with Some n => (h <? 128) && match hex_value h with Some m => m =? N.of_nat n | None => false end | None => true end = true).
  { apply (all256 (fun h => match hex_val (ascii_of_N h) with Some n => (h <? 128) && match hex_value h with Some m => m =? N.of_nat n | None => false end | None => true end)); [vm_compute; reflexivity|exact L]. }
  rewrite H in X. apply andb_prop in X as [X1 X2]. split; [lia|]. destruct (hex_value h) as [m|]; [|discriminate X2]. apply N.eqb_eq in X2 as ->. reflexivity.
Qed.
Lemma unescape_byte e x : e < 256 -> unescape (ascii_of_N e) = Some x -> e < 128 /\ uunescape e = Some (N_of_ascii x) /\ N_of_ascii x < 128.
Proof.
  intros L H. assert (X : match unescape (ascii_of_N e) with Some x => (e <? 128) && match uunescape e with Some m => m =? N_of_ascii x | None => false end && (N_of_ascii x <? 128) | None => true end = true).
  { apply (all256 (fun e => match unescape (ascii_of_N e) with Some x => (e <? 128) && match uunescape e with Some m => m =? N_of_ascii x | None => false end && (N_of_ascii x <? 128) | None => true end)); [vm_compute; reflexivity|exact L]. }
  rewrite H in X. apply andb_prop in X as [X X3]. apply andb_prop in X as [X1 X2]. destruct (uunescape e) as [m|]; [|discriminate X2]. apply N.eqb_eq in X2 as ->. repeat split; lia.
Qed.
Lemma utf8_encode u x : u < 65536 -> utf8 u = Some x -> exists a, encode1 u = Some a /\ x = of_bytes a /\ high u = false.
Proof.
  unfold utf8, encode1. intros L. destruct (u <? 128) eqn:A; [intros H; apply some_eq in H as <-; exists [u]; unfold high; repeat split; lia|].
  destruct (u <? 2048) eqn:B; [intros H; apply some_eq in H as <-; eexists; split; [reflexivity|]; unfold high; split; [reflexivity|lia]|].
  unfold high, low. destruct (_ && _) eqn:C; [discriminate|]. intros H. apply some_eq in H as <-. replace (_ || _) with false by lia. replace (u <? 65536) with true by lia. eexists. split; [reflexivity|]. split; [reflexivity|lia].
Qed.
Lemma hexs_bound h1 h2 h3 h4 u : hexs h1 h2 h3 h4 = Some u -> u < 65536.
Proof.
  assert (B : forall h n, hex_val h = Some n -> (n < 16)%nat).
  { intros h n. unfold hex_val. repeat (match goal with |- context [if ?b then _ else _] => destruct b eqn:? end); try discriminate; intros H; apply some_eq in H as <-; lia. }
  unfold hexs. destruct (hex_val h1) eqn:E1; [|discriminate]. destruct (hex_val h2) eqn:E2; [|discriminate]. destruct (hex_val h3) eqn:E3; [|discriminate]. destruct (hex_val h4) eqn:E4; [|discriminate].
  apply B in E1, E2, E3, E4. intros H. apply some_eq in H as <-. lia.
Qed.

Definition reading (t : list N) (y r : string) : Prop :=
  exists x rest ys rs, scan t = Some (x, rest) /\ encode x = Some ys /\ encode rest = Some rs /\ y = of_bytes ys /\ r = of_bytes rs.
Lemma reading_add c t a y r t' : scan t = add c (scan t') -> encode1 c = Some a -> reading t' y r -> reading t (of_bytes a ++ y) r.
Proof.
  intros E A (x & rest & ys & rs & S & X & R & -> & ->). exists (c :: x), rest, (a ++ ys), rs. rewrite E, S. split; [reflexivity|]. cbn [encode]. rewrite A, X. split; [reflexivity|]. split; [exact R|]. split; [rewrite ob_app; reflexivity|reflexivity].
Qed.
Lemma reads n : forall b t y r, (List.length b <= n)%nat -> encode t = Some b -> parse_string (of_bytes b) = Some (y, r) -> reading t y r.
Proof.
  induction n as [|n IH]; intros b t y r L E P; (destruct b as [|h b]; [discriminate P|]); cbn [List.length] in L; [lia|].
  pose proof (encode_256 t _ E) as F. inversion F as [|? ? Fh Fb]; subst. destruct (h <? 128) eqn:Hl.
  - destruct (first_low t h b E) as (t' & -> & E'); [lia|]. rewrite ob_cons in P. destruct (h =? 34) eqn:H34.
    { apply N.eqb_eq in H34 as ->. change (parse_string (String quote (of_bytes b)) = Some (y, r)) in P. cbn [parse_string] in P. rewrite Ascii.eqb_refl in P. injection P as <- <-.
      exists [], t', [], b. repeat split; auto. }
    destruct (h =? 92) eqn:H92.
    { apply N.eqb_eq in H92 as ->. change (ascii_of_N 92) with backslash in P. destruct b as [|e b]; [discriminate P|]. rewrite ob_cons in P. inversion Fb as [|? ? Fe Fb']; subst. cbn [List.length] in L.
      destruct (Ascii.eqb (ascii_of_N e) "u") eqn:U.
      - apply Ascii.eqb_eq in U. assert (e = 117) by (apply (f_equal N_of_ascii) in U; rewrite N_ascii_embedding in U by lia; exact U). subst e. rewrite U in P. rewrite parse_u in P.
        destruct (first_low t' 117 b E') as (t1 & -> & E1); [lia|]. destruct b as [|h1 [|h2 [|h3 [|h4 b]]]]; try discriminate P. cbn [List.length] in L. rewrite !ob_cons in P. cbn [after_u] in P.
        inversion Fb' as [|? ? F1 Fb1]; subst. inversion Fb1 as [|? ? F2 Fb2]; subst. inversion Fb2 as [|? ? F3 Fb3]; subst. inversion Fb3 as [|? ? F4 Fb4]; subst.
        destruct (hexs _ _ _ _) as [u|] eqn:X; [|discriminate P]. pose proof (hexs_bound _ _ _ _ _ X) as Bu. unfold hexs in X.
        destruct (hex_val (ascii_of_N h1)) as [n1|] eqn:X1; [|discriminate X]. destruct (hex_val (ascii_of_N h2)) as [n2|] eqn:X2; [|discriminate X]. destruct (hex_val (ascii_of_N h3)) as [n3|] eqn:X3; [|discriminate X]. destruct (hex_val (ascii_of_N h4)) as [n4|] eqn:X4; [|discriminate X].
        apply some_eq in X. apply hex_byte in X1 as [K1 X1]; [|assumption]. apply hex_byte in X2 as [K2 X2]; [|assumption]. apply hex_byte in X3 as [K3 X3]; [|assumption]. apply hex_byte in X4 as [K4 X4]; [|assumption].
        destruct (first_low t1 h1 _ E1 K1) as (t2 & -> & E2). destruct (first_low t2 h2 _ E2 K2) as (t3 & -> & E3). destruct (first_low t3 h3 _ E3 K3) as (t4 & -> & E4). destruct (first_low t4 h4 _ E4 K4) as (t5 & -> & E5).
        destruct (utf8 u) as [x|] eqn:V; [|discriminate P]. destruct (parse_string (of_bytes b)) as [[y' r']|] eqn:Q; [|discriminate P]. injection P as <- <-.
        destruct (utf8_encode u x Bu V) as (a & A1 & -> & A3). eapply reading_add with (c := u) (t' := t5); [|exact A1|apply (IH b); auto; lia].
        rewrite scan_eq. change (92 =? 34) with false. change (92 =? 92) with true. change (117 =? 117) with true. cbv beta iota. unfold hex4. rewrite X1, X2, X3, X4. replace (((N.of_nat n1 * 16 + N.of_nat n2) * 16 + N.of_nat n3) * 16 + N.of_nat n4) with u by lia. rewrite A3. reflexivity.
      - rewrite parse_esc in P by exact U. destruct (unescape (ascii_of_N e)) as [x|] eqn:X; [|discriminate P]. destruct (parse_string (of_bytes b)) as [[y' r']|] eqn:Q; [|discriminate P]. injection P as <- <-.
        destruct (unescape_byte e x Fe X) as (K & X' & Kx). destruct (first_low t' e b E' K) as (t1 & -> & E1).
        replace (String x y') with (of_bytes [N_of_ascii x] ++ y')%string by (rewrite ob_cons, ascii_N_embedding; reflexivity).
        eapply reading_add with (c := N_of_ascii x) (t' := t1); [|unfold encode1; replace (N_of_ascii x <? 128) with true by lia; reflexivity|apply (IH b); auto; lia].
        rewrite scan_eq. change (92 =? 34) with false. change (92 =? 92) with true. cbv beta iota. assert (e <> 117) by (intros ->; discriminate U). replace (e =? 117) with false by lia. rewrite X'. reflexivity. }
    destruct (h <? 32) eqn:H32; [rewrite parse_control in P by lia; discriminate P|].
    rewrite parse_plain in P by lia. destruct (parse_string (of_bytes b)) as [[y' r']|] eqn:Q; [|discriminate P]. injection P as <- <-.
    change (String (ascii_of_N h) y') with (of_bytes [h] ++ y')%string. eapply reading_add with (c := h) (t' := t'); [|unfold encode1; rewrite Hl; reflexivity|apply (IH b); auto; lia].
    rewrite scan_eq, H34, H92, H32. reflexivity.
  - destruct (first_high t h b E) as (c & t' & a & x & -> & Hc & A & X & Eq & Fa); [lia|]. rewrite Eq, ob_app, (parse_high a _ Fa) in P.
    destruct (parse_string (of_bytes x)) as [[y' r']|] eqn:Q; [|discriminate P]. injection P as <- <-.
    assert (Lx : (List.length x <= n)%nat). { apply (f_equal (@List.length N)) in Eq. rewrite app_length in Eq. cbn [List.length] in Eq. destruct (encode1_high c a A Hc) as [_ Na]. destruct a; [contradiction|]. cbn [List.length] in Eq. lia. }
    eapply reading_add with (c := c) (t' := t'); [|exact A|apply (IH x); auto].
    rewrite scan_eq. replace (c =? 34) with false by lia. replace (c =? 92) with false by lia. replace (c <? 32) with false by lia. reflexivity.
Qed.
