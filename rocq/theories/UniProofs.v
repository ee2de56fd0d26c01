(** Unicode text arrives as it was sent. *)
From Coq Require Import List NArith ZArith Bool Lia ZifyBool ZifyN Arith.
From Verif Require Import UniModel.
Import ListNotations.
Local Open Scope N_scope.
Ltac Zify.zify_post_hook ::= Z.to_euclidean_division_equations.

Lemma some_eq {A} (a b : A) : Some a = Some b -> a = b.
Proof. intros H. injection H as <-. reflexivity. Qed.
Lemma encode1_scalar c : (exists b, encode1 c = Some b) <-> scalar c = true.
Proof.
  unfold encode1, scalar, high, low. destruct (c <? 0x80) eqn:A; [split; [lia|eauto]|]. destruct (c <? 0x800) eqn:B; [split; [lia|eauto]|].
  destruct (_ || _) eqn:C; [split; [intros [b H]; discriminate H|lia]|]. destruct (c <? 0x10000) eqn:D; [split; [lia|eauto]|].
  destruct (c <? 0x110000) eqn:E; split; try (intros [b H]; discriminate H); eauto; lia.
Qed.
Lemma encode_scalar s : (exists b, encode s = Some b) <-> forallb scalar s = true.
Proof.
  induction s as [|c s IH]; cbn [encode forallb]; [split; [reflexivity|eauto]|]. rewrite andb_true_iff, <- IH, <- encode1_scalar.
  destruct (encode1 c); destruct (encode s); split; intros H; try (destruct H as [b H]; discriminate H); try (destruct H as [[x H1] [y H2]]; try discriminate H1; try discriminate H2); eauto.
Qed.
Lemma decode_eq b0 r : decode (b0 :: r) =
  if b0 <? 0x80 then more b0 (decode r)
  else if b0 <? 0xC2 then None
  else if b0 <? 0xE0 then
    match r with
    | b1 :: r1 => if cont b1 then more ((b0 - 0xC0) * 64 + (b1 - 0x80)) (decode r1) else None
    | _ => None
    end
  else if b0 <? 0xF0 then
    match r with
    | b1 :: b2 :: r2 =>
        let c := (b0 - 0xE0) * 4096 + (b1 - 0x80) * 64 + (b2 - 0x80) in
        if cont b1 && cont b2 && (0x800 <=? c) && negb (high c || low c) then more c (decode r2) else None
    | _ => None
    end
  else if b0 <? 0xF5 then
    match r with
    | b1 :: b2 :: b3 :: r3 =>
        let c := (b0 - 0xF0) * 262144 + (b1 - 0x80) * 4096 + (b2 - 0x80) * 64 + (b3 - 0x80) in
        if cont b1 && cont b2 && cont b3 && (0x10000 <=? c) && (c <? 0x110000) then more c (decode r3) else None
    | _ => None
    end
  else None.
Proof. reflexivity. Qed.
Lemma decode_encode1 c a r : encode1 c = Some a -> decode (a ++ r) = more c (decode r).
Proof.
  unfold encode1, high, low. destruct (c <? 0x80) eqn:A.
  { intros H; apply some_eq in H as <-. cbn [app]. rewrite decode_eq. cbv beta iota. rewrite A. reflexivity. }
  destruct (c <? 0x800) eqn:B.
  { intros H; apply some_eq in H as <-. cbn [app]. rewrite decode_eq. cbv beta iota. replace (_ <? 128) with false by lia. replace (_ <? 194) with false by lia. replace (_ <? 224) with true by lia.
    unfold cont. replace (_ && _) with true by lia. f_equal. lia. }
  destruct (_ || _) eqn:C; [discriminate|]. destruct (c <? 0x10000) eqn:D.
  { intros H; apply some_eq in H as <-. cbn [app]. rewrite decode_eq. cbv beta iota. replace (_ <? 128) with false by lia. replace (_ <? 194) with false by lia. replace (_ <? 224) with false by lia. replace (_ <? 240) with true by lia.
    cbv zeta. match goal with |- context [more ?x _] => replace x with c by lia end. unfold cont, high, low. rewrite C. match goal with |- context [if ?x then _ else _] => replace x with true by lia end. reflexivity. }
  destruct (c <? 0x110000) eqn:E; [|discriminate].
  intros H; apply some_eq in H as <-. cbn [app]. rewrite decode_eq. cbv beta iota. replace (_ <? 128) with false by lia. replace (_ <? 194) with false by lia. replace (_ <? 224) with false by lia. replace (_ <? 240) with false by lia. replace (_ <? 245) with true by lia.
  cbv zeta. match goal with |- context [more ?x _] => replace x with c by lia end. unfold cont. match goal with |- context [if ?x then _ else _] => replace x with true by lia end. reflexivity.
Qed.
Lemma decode_encode s : forall b, encode s = Some b -> decode b = Some s.
Proof.
  induction s as [|c s IH]; intros b H; cbn [encode] in H; [injection H as <-; reflexivity|]. destruct (encode1 c) as [a|] eqn:E; [|discriminate H].
  destruct (encode s) as [b'|]; [|discriminate H]. apply some_eq in H as <-. rewrite (decode_encode1 c a b' E), (IH b' eq_refl). reflexivity.
Qed.
Lemma more_some c o s : more c o = Some s -> exists r, o = Some r /\ s = c :: r.
Proof. destruct o; [|discriminate]. intros H; injection H as <-. eauto. Qed.
Lemma encode_decode n : forall b s, (List.length b <= n)%nat -> decode b = Some s -> encode s = Some b.
Proof.
  induction n as [|n IH]; intros b s L H.
  { destruct b; [|cbn [List.length] in L; lia]. injection H as <-. reflexivity. }
  destruct b as [|b0 r]; [injection H as <-; reflexivity|]. rewrite decode_eq in H. cbn [List.length] in L.
  destruct (b0 <? 0x80) eqn:A.
  { apply more_some in H as (s' & H & ->). cbn [encode]. unfold encode1. rewrite A, (IH r s' ltac:(lia) H). reflexivity. }
  destruct (b0 <? 0xC2) eqn:B; [discriminate|]. destruct (b0 <? 0xE0) eqn:C.
  { destruct r as [|b1 r]; [discriminate|]. destruct (cont b1) eqn:K; [|discriminate]. unfold cont in K. apply more_some in H as (s' & H & ->). cbn [encode List.length] in *.
    rewrite (IH r s' ltac:(lia) H). unfold encode1. replace (_ <? 128) with false by lia. replace (_ <? 2048) with true by lia. cbn [app]. do 2 f_equal; [lia|f_equal; lia]. }
  destruct (b0 <? 0xF0) eqn:D.
  { destruct r as [|b1 [|b2 r]]; [discriminate..|]. cbv zeta in H. set (c := (b0 - 224) * 4096 + (b1 - 128) * 64 + (b2 - 128)) in *.
    destruct (_ && _ && _ && _) eqn:K; [|discriminate]. unfold cont in K. apply more_some in H as (s' & H & ->). cbn [encode List.length] in *.
    rewrite (IH r s' ltac:(lia) H). unfold encode1. unfold high, low in *. assert (c < 65536) by (unfold c; lia). replace (c <? 128) with false by lia. replace (c <? 2048) with false by lia.
    match goal with |- context [if ?x then None else _] => replace x with false by lia end. replace (c <? 65536) with true by lia. cbn [app]. unfold c in *. do 2 f_equal; [lia|f_equal; [lia|f_equal; lia]]. }
  destruct (b0 <? 0xF5) eqn:E; [|discriminate].
  destruct r as [|b1 [|b2 [|b3 r]]]; [discriminate..|]. cbv zeta in H. set (c := (b0 - 240) * 262144 + (b1 - 128) * 4096 + (b2 - 128) * 64 + (b3 - 128)) in *.
  destruct (_ && _ && _ && _ && _) eqn:K; [|discriminate]. unfold cont in K. apply more_some in H as (s' & H & ->). cbn [encode List.length] in *.
  rewrite (IH r s' ltac:(lia) H). unfold encode1. unfold high, low in *. replace (c <? 128) with false by lia. replace (c <? 2048) with false by lia.
  match goal with |- context [if ?x then None else _] => replace x with false by lia end. replace (c <? 65536) with false by lia. replace (c <? 1114112) with true by lia.
  cbn [app]. unfold c in *. do 2 f_equal; [lia|f_equal; [lia|f_equal; [lia|f_equal; lia]]].
Qed.
