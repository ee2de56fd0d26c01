From Coq Require Import String Ascii ZArith NArith Bool Lia List Arith ZifyBool ZifyNat ZifyN.
From Verif Require Import RouterModel RouterProofs RouterProofs2 JsonModel JsonSpec.
Import ListNotations.
Local Open Scope Z_scope.
Set Default Goal Selector "!".

Section JsonInd.
Context (P : json -> Prop) (Hn : P JNull) (Hb : forall b, P (JBool b)) (Hz : forall z, P (JNum z)) (Hs : forall s, P (JStr s))
  (Ha : forall l, Forall P l -> P (JArr l)) (Ho : forall d, Forall (fun x => P (snd x)) d -> P (JObj d)).
Fixpoint json_ind' (j : json) : P j :=
  match j with
  | JNull => Hn | JBool b => Hb b | JNum z => Hz z | JStr s => Hs s
  | JArr l => Ha l ((fix go l : Forall P l := match l with [] => Forall_nil _ | x :: r => Forall_cons x (json_ind' x) (go r) end) l)
  | JObj d => Ho d ((fix go d : Forall (fun x => P (snd x)) d := match d with [] => Forall_nil _ | x :: r => Forall_cons x (json_ind' (snd x)) (go r) end) d)
  end.
End JsonInd.

(** ** Text *)
Lemma sapp_assoc (a b c : string) : ((a ++ b) ++ c = a ++ (b ++ c))%string.
Proof. induction a as [|x a IH]; cbn; [reflexivity|now rewrite IH]. Qed.
Lemma sapp_nil (a : string) : (a ++ "")%string = a.
Proof. induction a as [|x a IH]; cbn; [reflexivity|now rewrite IH]. Qed.
Lemma slen (a b : string) : String.length (a ++ b) = (String.length a + String.length b)%nat.
Proof. induction a as [|x a IH]; cbn; [reflexivity|now rewrite IH]. Qed.
Lemma sapp_cons x (a b : string) : (String x a ++ b)%string = String x (a ++ b).
Proof. reflexivity. Qed.

(** ** Numbers *)
Lemma digit_cases d : 0 <= d <= 9 -> d = 0 \/ d = 1 \/ d = 2 \/ d = 3 \/ d = 4 \/ d = 5 \/ d = 6 \/ d = 7 \/ d = 8 \/ d = 9.
Proof. lia. Qed.
Lemma digit_of_digit d : 0 <= d <= 9 -> digit_of (digit d) = Some d.
Proof. intros H. apply digit_cases in H. repeat (destruct H as [->|H]; [reflexivity|]). now subst. Qed.
Lemma digits_dec fuel : forall n acc r, (fuel <> 0)%nat -> 0 <= n < 10 ^ Z.of_nat fuel ->
  digits acc (dec_fuel fuel n ++ r) = digits (acc * 10 ^ Z.of_nat (String.length (dec_fuel fuel n)) + n) r.
Proof.
  induction fuel as [|k IH]; intros n acc r Hf Hn; [congruence|]. cbn [dec_fuel].
  destruct (Z.ltb_spec n 10) as [Hlt|Hge].
  - cbn [chr append digits String.length]. rewrite digit_of_digit by lia. reflexivity.
  - assert (Hk : (k <> 0)%nat). { intros ->. change (10 ^ Z.of_nat 1) with 10 in Hn. lia. }
    rewrite sapp_assoc, IH; [|exact Hk|].
    + cbn [chr append digits]. rewrite digit_of_digit by (pose proof (Z.mod_pos_bound n 10); lia). f_equal.
      rewrite slen. cbn [chr String.length]. rewrite Nat2Z.inj_add, Z.pow_add_r by lia. change (10 ^ Z.of_nat 1) with 10.
      pose proof (Z.div_mod n 10 ltac:(lia)). lia.
    + rewrite Nat2Z.inj_succ, Z.pow_succ_r in Hn by lia. split; [apply Z.div_pos; lia|apply Z.div_lt_upper_bound; lia].
Qed.
Lemma dec_bound n : 0 <= n -> n < 10 ^ Z.of_nat (S (Z.to_nat (Z.log2 n))).
Proof.
  intros H. rewrite Nat2Z.inj_succ, Z2Nat.id by apply Z.log2_nonneg.
  assert (n < 2 ^ Z.succ (Z.log2 n)) by (destruct (Z.eq_dec n 0) as [->|]; [reflexivity|apply Z.log2_spec; lia]).
  assert (2 ^ Z.succ (Z.log2 n) <= 10 ^ Z.succ (Z.log2 n)) by (apply Z.pow_le_mono_l; lia). lia.
Qed.
Definition stops (r : string) : Prop :=
  match r with String c _ => digit_of c = None /\ existsb (Ascii.eqb c) ["."; "e"; "E"]%char = false | EmptyString => True end.
Lemma digits_stop n r : stops r -> digits n r = (n, r).
Proof. destruct r as [|c r]; [reflexivity|]. intros [H _]. cbn. now rewrite H. Qed.
Lemma stops_after r : stops r -> after_number r = true.
Proof. destruct r as [|c r]; [reflexivity|]. intros [_ H]. unfold after_number. now rewrite H. Qed.
Lemma dec_head_fuel fuel : forall n, (fuel <> 0)%nat -> 0 <= n < 10 ^ Z.of_nat fuel ->
  exists d s, dec_fuel fuel n = String (digit d) s /\ 0 <= d <= 9 /\ (d = 0 -> n = 0 /\ s = EmptyString).
Proof.
  induction fuel as [|k IH]; intros n Hf Hn; [congruence|]. cbn [dec_fuel].
  destruct (Z.ltb_spec n 10) as [Hlt|Hge].
  - exists n, EmptyString. repeat split; auto; lia.
  - assert (Hk : (k <> 0)%nat). { intros ->. change (10 ^ Z.of_nat 1) with 10 in Hn. lia. }
    destruct (IH (n / 10)) as (d & s & E & B & Z0); [exact Hk| |].
    + rewrite Nat2Z.inj_succ, Z.pow_succ_r in Hn by lia. split; [apply Z.div_pos; lia|apply Z.div_lt_upper_bound; lia].
    + rewrite E. exists d, (s ++ chr (digit (n mod 10)))%string. repeat split; try lia.
Qed.
Lemma parse_nat_dec n r : 0 <= n -> stops r -> parse_nat (dec n ++ r) = Some (n, r).
Proof.
  intros Hn Hr. unfold dec. set (f := S (Z.to_nat (Z.log2 n))).
  assert (Hb : 0 <= n < 10 ^ Z.of_nat f) by (split; [exact Hn|now apply dec_bound]).
  destruct (dec_head_fuel f n ltac:(discriminate) Hb) as (d & s & E & B & Z0).
  pose proof (digits_dec f n 0 r ltac:(discriminate) Hb) as D. rewrite E in *. rewrite sapp_cons in *. unfold parse_nat.
  rewrite digit_of_digit by exact B. destruct (Z.eqb_spec d 0) as [->|N0].
  - destruct (Z0 eq_refl) as [-> ->]. cbn [append]. rewrite (stops_after r Hr). reflexivity.
  - rewrite D. rewrite digits_stop by exact Hr. rewrite (stops_after r Hr). reflexivity.
Qed.
Lemma digit_not_minus d : 0 <= d <= 9 -> Ascii.eqb (digit d) "-" = false.
Proof. intros H. apply digit_cases in H. repeat (destruct H as [->|H]; [reflexivity|]). subst. reflexivity. Qed.
Lemma dec_head n : 0 <= n -> exists d s, dec n = String (digit d) s /\ 0 <= d <= 9.
Proof.
  intros Hn. destruct (dec_head_fuel (S (Z.to_nat (Z.log2 n))) n) as (d & s & E & B & _); [discriminate|split; [exact Hn|now apply dec_bound]|].
  exists d, s. split; [exact E|exact B].
Qed.
Lemma parse_number_dec z r : stops r -> parse_number (dec_int z ++ r) = Some (z, r).
Proof.
  intros Hr. unfold dec_int. destruct (Z.ltb_spec z 0).
  - rewrite sapp_cons. cbn [parse_number Ascii.eqb Bool.eqb]. rewrite parse_nat_dec by (auto; lia). now rewrite Z.opp_involutive.
  - destruct (dec_head z ltac:(assumption)) as (d & s & E & B). pose proof (parse_nat_dec z r ltac:(assumption) Hr) as Q.
    rewrite E in *. rewrite sapp_cons in *. cbn [parse_number]. rewrite digit_not_minus by exact B. exact Q.
Qed.

(** ** Strings *)
Lemma escape_ok c s : parse_string (escape c ++ s) = match parse_string s with Some (y, rest) => Some (String c y, rest) | None => None end.
Proof. destruct c as [[] [] [] [] [] [] [] []]; reflexivity. Qed.
Lemma parse_escaped s r : parse_string (escaped s ++ String quote r) = Some (s, r).
Proof. induction s as [|c s IH]; [reflexivity|]. cbn [escaped]. rewrite sapp_assoc, escape_ok, IH. reflexivity. Qed.
Lemma print_string_app s r : (print_string s ++ r)%string = String quote (escaped s ++ String quote r).
Proof. unfold print_string. rewrite sapp_cons, sapp_assoc. reflexivity. Qed.

(** ** Values *)
Fixpoint elems (first : bool) (l : list json) : string :=
  match l with [] => "]" | x :: r => (if first then "" else ",") ++ print x ++ elems false r end%string.
Fixpoint membs (first : bool) (d : list (string * json)) : string :=
  match d with
  | [] => "}"
  | (k, x) :: r => (if first then "" else ",") ++ print_string k ++ String ":" (print x) ++ membs false r
  end%string.
Lemma print_arr l : print (JArr l) = String "[" (elems true l).
Proof. reflexivity. Qed.
Lemma print_obj d : print (JObj d) = String "{" (membs true d).
Proof. reflexivity. Qed.

Lemma digit_plain d : 0 <= d <= 9 -> let c := digit d in
  is_ws c = false /\ Ascii.eqb c quote = false /\ Ascii.eqb c "[" = false /\ Ascii.eqb c "{" = false /\ Ascii.eqb c "n" = false /\ Ascii.eqb c "t" = false /\ Ascii.eqb c "f" = false.
Proof. intros H. apply digit_cases in H. cbv zeta. repeat (destruct H as [->|H]; [repeat split; reflexivity|]). subst. repeat split; reflexivity. Qed.
Definition no_close (c : ascii) : Prop := is_ws c = false /\ c <> "]"%char /\ c <> "}"%char.
Lemma print_head j : exists c s, print j = String c s /\ no_close c.
Proof.
  destruct j as [|[]|z|s|l|d]; cbn [print].
  - exists "n"%char, "ull"%string. split; [reflexivity|]. split; [reflexivity|split; discriminate].
  - exists "t"%char, "rue"%string. split; [reflexivity|]. split; [reflexivity|split; discriminate].
  - exists "f"%char, "alse"%string. split; [reflexivity|]. split; [reflexivity|split; discriminate].
  - unfold dec_int. destruct (Z.ltb_spec z 0).
    + exists "-"%char, (dec (- z)). split; [reflexivity|]. split; [reflexivity|split; discriminate].
    + destruct (dec_head z) as (d & s & E & B); [assumption|]. exists (digit d), s. split; [exact E|].
      apply digit_cases in B. repeat (destruct B as [->|B]; [split; [reflexivity|split; discriminate]|]). subst. split; [reflexivity|split; discriminate].
  - eexists _, _. split; [reflexivity|]. split; [reflexivity|split; discriminate].
  - eexists _, _. split; [reflexivity|]. split; [reflexivity|split; discriminate].
  - eexists _, _. split; [reflexivity|]. split; [reflexivity|split; discriminate].
Qed.
Lemma skip_ws_cons c r : is_ws c = false -> skip_ws (String c r) = String c r.
Proof. intros H. cbn [skip_ws]. now rewrite H. Qed.
Lemma stops_tail_e l r : stops (elems false l ++ r).
Proof. destruct l; cbn; auto. Qed.
Lemma stops_tail_m d r : stops (membs false d ++ r).
Proof. destruct d as [|[]]; cbn; auto. Qed.

Definition parses (j : json) : Prop := forall r fuel, stops r -> (String.length (print j) <= fuel)%nat -> parse_value fuel (print j ++ r) = Some (j, r).
Lemma elems_ok : forall l x r fuel, Forall parses (x :: l) -> (String.length (print x ++ elems false l) <= fuel)%nat ->
  parse_elements fuel (print x ++ elems false l ++ r) = Some (x :: l, r).
Proof.
  induction l as [|y l IH]; intros x r fuel H Hf; inversion H as [|? ? Hx Hl]; subst; rewrite slen in Hf.
  - destruct fuel as [|k]; [cbn in Hf; lia|]. cbn [parse_elements]. rewrite Hx; [|cbn; auto|cbn in Hf; lia]. reflexivity.
  - destruct fuel as [|k]; [cbn in Hf; lia|]. cbn [parse_elements].
    rewrite Hx; [|apply (stops_tail_e (y :: l))|cbn in Hf; lia].
    cbn [elems append skip_ws is_ws existsb Ascii.eqb Bool.eqb orb]. rewrite sapp_assoc. rewrite IH; [reflexivity|exact Hl|].
    cbn [elems append String.length] in Hf. lia.
Qed.
Lemma parse_key_ok k r : parse_key (print_string k ++ String ":" r) = Some (k, r).
Proof.
  rewrite print_string_app. unfold parse_key. rewrite skip_ws_cons by reflexivity. cbn [quote Ascii.eqb Bool.eqb].
  rewrite parse_escaped. reflexivity.
Qed.
Lemma membs_ok : forall d k x r fuel, Forall (fun p => parses (snd p)) ((k, x) :: d) -> (String.length (print_string k ++ String ":" (print x ++ membs false d)) <= fuel)%nat ->
  parse_members fuel (print_string k ++ String ":" (print x ++ membs false d ++ r)) = Some ((k, x) :: d, r).
Proof.
  induction d as [|[k' y] d IH]; intros k x r fuel H Hf; inversion H as [|? ? Hx Hl]; subst; cbn [snd] in Hx; rewrite slen in Hf; cbn [String.length] in Hf; rewrite slen in Hf.
  - destruct fuel as [|n]; [lia|]. cbn [parse_members]. rewrite parse_key_ok, Hx; [reflexivity|cbn; auto|lia].
  - destruct fuel as [|n]; [lia|]. cbn [parse_members]. rewrite parse_key_ok, Hx; [|apply (stops_tail_m ((k', y) :: d))|lia].
    cbn [membs append skip_ws is_ws existsb Ascii.eqb Bool.eqb orb]. rewrite !sapp_assoc. rewrite sapp_cons, sapp_assoc.
    rewrite IH; [reflexivity|exact Hl|]. cbn [membs append String.length] in Hf. rewrite !slen in *. cbn [String.length] in *. rewrite !slen in *. lia.
Qed.
Lemma supdate_id {V} (d : list (string * V)) : NoDup (map fst d) -> supdate [] d = d.
Proof.
  intros H. unfold supdate. enough (G : forall d e : list (string * V), NoDup (map fst (e ++ d)) -> fold_left (fun d x => sset (fst x) (snd x) d) d e = (e ++ d)%list) by exact (G d [] H).
  clear d H. induction d as [|[k v] d IH]; intros e H; [now rewrite app_nil_r|]. cbn [fold_left fst snd].
  assert (N : shas k e = false).
  { unfold shas. destruct (sget k e) as [v'|] eqn:E; [|reflexivity]. exfalso. rewrite map_app in H. cbn [map fst] in H.
    apply NoDup_remove_2 in H. apply H, in_or_app. left. apply sget_finds in E. clear -E.
    change k with (fst (k, v')). apply in_map.
    destruct E as (a & b & -> & _). apply in_or_app. right. now left. }
  rewrite sset_new by exact N. rewrite IH; rewrite <- app_assoc; [reflexivity|exact H].
Qed.
Theorem parse_print j : proper j -> parses j.
Proof.
  induction j as [|[]|z|s|l IH|d IH] using json_ind'; intros W r fuel Hr Hf.
  - destruct fuel as [|k]; [cbn in Hf; lia|]. reflexivity.
  - destruct fuel as [|k]; [cbn in Hf; lia|]. reflexivity.
  - destruct fuel as [|k]; [cbn in Hf; lia|]. reflexivity.
  - pose proof (parse_number_dec z r Hr) as Q. destruct (print_head (JNum z)) as (c & t & E & N & _).
    destruct fuel as [|k]; [rewrite E in Hf; cbn in Hf; lia|]. cbn [print] in *. clear Hf.
    assert (G : forall t', parse_value (S k) (String c t') = match parse_number (String c t') with Some (n, r) => Some (JNum n, r) | None => None end).
    { intros t'. cbn [parse_value]. rewrite skip_ws_cons by exact N. unfold dec_int in E. destruct (z <? 0) eqn:Hz.
      - injection E as <- _. reflexivity.
      - destruct (dec_head z ltac:(lia)) as (x & u & E' & B). rewrite E' in E. injection E as <- _.
        pose proof (digit_plain x B) as (_ & -> & -> & -> & -> & -> & ->). reflexivity. }
    rewrite E in *. rewrite sapp_cons in *. now rewrite G, Q.
  - destruct fuel as [|k]; [cbn in Hf; lia|]. cbn [print]. rewrite print_string_app. cbn [parse_value].
    rewrite skip_ws_cons by reflexivity. cbn [quote Ascii.eqb Bool.eqb]. now rewrite parse_escaped.
  - inversion W; subst. assert (F : Forall parses l) by (rewrite Forall_forall in *; auto).
    rewrite print_arr in *. destruct fuel as [|k]; [cbn in Hf; lia|]. rewrite sapp_cons. cbn [parse_value].
    rewrite skip_ws_cons by reflexivity. cbn [quote Ascii.eqb Bool.eqb].
    destruct l as [|x l]; [reflexivity|]. cbn [elems append] in *. rewrite sapp_assoc.
    destruct (print_head x) as (c & t & E & N & C1 & C2).
    pose proof (elems_ok l x r k F ltac:(cbn [String.length] in Hf; lia)) as Q. rewrite Q.
    rewrite E. rewrite sapp_cons. rewrite skip_ws_cons by exact N. apply Ascii.eqb_neq in C1. now rewrite C1.
  - inversion W; subst. assert (F : Forall (fun p => parses (snd p)) d) by (rewrite Forall_forall in *; auto).
    rewrite print_obj in *. destruct fuel as [|k]; [cbn in Hf; lia|]. rewrite sapp_cons. cbn [parse_value].
    rewrite skip_ws_cons by reflexivity. cbn [quote Ascii.eqb Bool.eqb].
    destruct d as [|[q x] d]; [reflexivity|]. cbn [membs append] in *. rewrite !sapp_assoc, sapp_cons, sapp_assoc.
    pose proof (membs_ok d q x r k F ltac:(cbn [String.length] in Hf; lia)) as Q. rewrite Q.
    rewrite print_string_app at 1. rewrite skip_ws_cons by reflexivity. cbn [quote Ascii.eqb Bool.eqb].
    rewrite supdate_id by assumption. reflexivity.
Qed.
