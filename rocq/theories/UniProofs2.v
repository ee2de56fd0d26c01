(** Unicode text arrives as it was sent: escapes, and what bytes there are. *)
From Coq Require Import List NArith ZArith Bool Lia ZifyBool ZifyN Arith.
From Verif Require Import UniModel UniProofs.
Import ListNotations.
Local Open Scope N_scope.
Ltac Zify.zify_post_hook ::= Z.to_euclidean_division_equations.

Lemma scan_eq c r : scan (c :: r) =
  if c =? 34 then Some ([], r)
  else if c =? 92 then
    match r with
    | [] => None
    | e :: r1 =>
        if e =? 117 then
          match r1 with
          | h1 :: h2 :: h3 :: h4 :: r2 =>
              match hex4 h1 h2 h3 h4 with
              | None => None
              | Some u =>
                  if high u then
                    match r2 with
                    | k1 :: k2 :: g1 :: g2 :: g3 :: g4 :: r3 =>
                        if (k1 =? 92) && (k2 =? 117) then
                          match hex4 g1 g2 g3 g4 with
                          | None => None
                          | Some v => if low v then add (join u v) (scan r3) else add u (scan r2)
                          end
                        else add u (scan r2)
                    | _ => add u (scan r2)
                    end
                  else add u (scan r2)
              end
          | _ => None
          end
        else match uunescape e with Some x => add x (scan r1) | None => None end
    end
  else if c <? 32 then None
  else add c (scan r).
Proof. reflexivity. Qed.
Lemma below_32 c : c < 32 -> In c (map N.of_nat (seq 0 32)).
Proof. intros H. apply in_map_iff. exists (N.to_nat c). split; [lia|]. apply in_seq. lia. Qed.
Lemma scan_escape c t : scan (uescape c ++ t) = add c (scan t).
Proof.
  unfold uescape. destruct (c =? 34) eqn:E1; [apply N.eqb_eq in E1 as ->; reflexivity|]. destruct (c =? 92) eqn:E2; [apply N.eqb_eq in E2 as ->; reflexivity|].
  destruct (c <? 32) eqn:L.
  - assert (I : In c (map N.of_nat (seq 0 32))) by (apply below_32; lia). clear E1 E2 L. cbv [map seq N.of_nat Pos.of_succ_nat Pos.succ] in I. cbn [In] in I.
    repeat (destruct I as [<-|I]; [reflexivity|]). destruct I.
  - replace (c =? 8) with false by lia. replace (c =? 9) with false by lia. replace (c =? 10) with false by lia. replace (c =? 12) with false by lia. replace (c =? 13) with false by lia.
    cbn [app]. rewrite scan_eq, E1, E2, L. reflexivity.
Qed.
Lemma scan_escapes s : forall t, scan (flat_map uescape s ++ t) = match scan t with Some (x, r) => Some (s ++ x, r) | None => None end.
Proof.
  induction s as [|c s IH]; intros t; cbn [flat_map app]; [destruct (scan t) as [[x r]|]; reflexivity|]. rewrite <- app_assoc, scan_escape, IH. destruct (scan t) as [[x r]|]; reflexivity.
Qed.
Lemma loads_print s : uloads (uprint s) = Some s.
Proof. unfold uloads, uprint. rewrite N.eqb_refl, scan_escapes. change (scan [34]) with (Some ([] : list N, [] : list N)). cbv beta iota. rewrite app_nil_r. reflexivity. Qed.
Lemma escape_big c : Forall (fun x => 32 <= x) (uescape c).
Proof.
  unfold uescape. destruct (c =? 34) eqn:E1; [repeat constructor; lia|]. destruct (c =? 92) eqn:E2; [repeat constructor; lia|]. destruct (c <? 32) eqn:L.
  - unfold hex_digit. repeat (match goal with |- context [if ?x then _ else _] => destruct x end); repeat constructor; lia.
  - replace (c =? 8) with false by lia. replace (c =? 9) with false by lia. replace (c =? 10) with false by lia. replace (c =? 12) with false by lia. replace (c =? 13) with false by lia. repeat constructor. lia.
Qed.
Lemma escape_scalar c : scalar c = true -> forallb scalar (uescape c) = true.
Proof.
  intros H. destruct (c <? 128) eqn:L.
  - apply forallb_forall. intros x I. assert (x < 256) by (unfold uescape, hex_digit in I; repeat (match goal with I : In _ (if ?b then _ else _) |- _ => destruct b end); cbn [In] in I;
      repeat (match goal with I : context [if ?b then _ else _] |- _ => destruct b eqn:? end); lia). unfold scalar, high, low. lia.
  - unfold uescape. replace (c =? 34) with false by lia. replace (c =? 92) with false by lia. replace (c =? 8) with false by lia. replace (c =? 9) with false by lia. replace (c =? 10) with false by lia. replace (c =? 12) with false by lia. replace (c =? 13) with false by lia. replace (c <? 32) with false by lia.
    cbn [forallb]. rewrite H. reflexivity.
Qed.
Lemma print_scalar s : forallb scalar s = true -> forallb scalar (uprint s) = true.
Proof.
  intros H. unfold uprint. cbn [forallb]. rewrite forallb_app. change (scalar 34) with true. cbn [andb forallb]. rewrite andb_true_r.
  induction s as [|c s IH]; [reflexivity|]. cbn [forallb flat_map] in *. apply andb_prop in H as [H1 H2]. rewrite forallb_app, (escape_scalar c H1), (IH H2). reflexivity.
Qed.
Lemma encode1_bytes c a : encode1 c = Some a -> Forall (fun x => x < 256 /\ (32 <= c -> 32 <= x) /\ (128 <= c -> 128 <= x)) a.
Proof.
  unfold encode1. intros H. repeat (match type of H with (if ?b then _ else _) = _ => destruct b eqn:? end); try discriminate H; apply some_eq in H as <-; repeat constructor; intros; lia.
Qed.
Lemma encode_bytes s : forall b, encode s = Some b -> Forall (fun x => 32 <= x) s -> Forall (fun x => 32 <= x < 256) b.
Proof.
  induction s as [|c s IH]; intros b H F; cbn [encode] in H; [apply some_eq in H as <-; constructor|]. inversion F as [|? ? F1 F2]; subst.
  destruct (encode1 c) as [a|] eqn:E; [|discriminate H]. destruct (encode s) as [b'|]; [|discriminate H]. apply some_eq in H as <-. apply Forall_app. split; [|apply IH; auto].
  apply encode1_bytes in E. eapply Forall_impl; [|exact E]. cbn beta. intros x (X1 & X2 & _). split; auto.
Qed.
Lemma print_big s : Forall (fun x => 32 <= x) (uprint s).
Proof.
  unfold uprint. constructor; [lia|]. apply Forall_app. split; [|repeat constructor; lia]. induction s as [|c s IH]; [constructor|]. cbn [flat_map]. apply Forall_app. split; [apply escape_big|exact IH].
Qed.
Lemma sent_iff s : (exists b, sent s = Some b) <-> forallb scalar s = true.
Proof.
  unfold sent, udump. destruct (forallb scalar s) eqn:E; [|split; [intros [b H]; discriminate H|discriminate]]. split; [reflexivity|]. intros _. apply encode_scalar, print_scalar, E.
Qed.
Lemma arrives s b : sent s = Some b -> received b = Some s /\ Forall (fun x => 32 <= x < 256) b.
Proof.
  unfold sent, udump. destruct (forallb scalar s); [|discriminate]. intros H. split.
  - unfold received. rewrite (decode_encode _ _ H). apply loads_print.
  - eapply encode_bytes; [exact H|apply print_big].
Qed.
