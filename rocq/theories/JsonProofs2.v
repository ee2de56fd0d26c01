(** A text that was cut short is never read as an object. *)
From Coq Require Import String Ascii ZArith Bool Lia List Arith.
From Verif Require Import RouterModel JsonModel JsonSpec JsonProofs.
Import ListNotations.
Local Open Scope Z_scope.
Local Open Scope string_scope.

Lemma skip_ws_app s c r x : skip_ws s = String c r -> skip_ws (s ++ x) = String c (r ++ x).
Proof.
  induction s as [|a s IH]; cbn [skip_ws append]; [discriminate|]. destruct (is_ws a); [exact IH|]. intros H. injection H as -> ->. reflexivity.
Qed.
Lemma strip_prefix_app p : forall s r x, strip_prefix p s = Some r -> strip_prefix p (s ++ x) = Some (r ++ x).
Proof.
  induction p as [|a p IH]; intros s r x; [cbn; now intros [= ->]|]. destruct s as [|b s]; [discriminate|]. cbn [strip_prefix append].
  destruct (Ascii.eqb a b); [apply IH|discriminate].
Qed.
Lemma parse_string_app : forall n s y r x, (String.length s <= n)%nat -> parse_string s = Some (y, r) -> parse_string (s ++ x) = Some (y, r ++ x).
Proof.
  induction n as [|n IH]; intros s y r x L H; [destruct s; [discriminate|cbn in L; lia]|].
  destruct s as [|c s]; [discriminate|]. cbn [String.length] in L. cbn [append]. cbn [parse_string] in *.
  destruct (Ascii.eqb c quote); [injection H as <- <-; reflexivity|].
  destruct (Ascii.eqb c backslash).
  - destruct s as [|e s]; [discriminate|]. cbn [append].
    assert (P : forall o, (o = match unescape e, parse_string s with Some a, Some (b, rest) => Some (String a b, rest) | _, _ => None end) ->
      o = Some (y, r) -> match unescape e, parse_string (s ++ x) with Some a, Some (b, rest) => Some (String a b, rest) | _, _ => None end = Some (y, r ++ x)).
    { intros o -> Q. destruct (unescape e); [|discriminate]. destruct (parse_string s) as [[b rest]|] eqn:E; [|discriminate].
      rewrite (IH s _ _ x ltac:(cbn in L; lia) E). injection Q as <- <-. reflexivity. }
    destruct (Ascii.eqb_spec e "u") as [->|Hne].
    + destruct s as [|h1 s]; [discriminate|]. destruct s as [|h2 s]; [discriminate|]. destruct s as [|h3 s]; [discriminate|]. destruct s as [|h4 s]; [discriminate|].
      cbn [append]. destruct (hex_val h1), (hex_val h2), (hex_val h3), (hex_val h4); try discriminate.
      destruct (utf8 _); [|discriminate]. destruct (parse_string s) as [[b rest]|] eqn:E; [|discriminate].
      rewrite (IH s _ _ x ltac:(cbn in L; lia) E). injection H as <- <-. reflexivity.
    + clear - P H Hne. destruct e as [[] [] [] [] [] [] [] []]; try (exfalso; apply Hne; reflexivity); exact (P _ eq_refl H).
  - destruct (Nat.ltb _ _); [discriminate|]. destruct (parse_string s) as [[b rest]|] eqn:E; [|discriminate].
    rewrite (IH s _ _ x ltac:(lia) E). injection H as <- <-. reflexivity.
Qed.
Lemma digits_app s : forall acc n c r x, digits acc s = (n, String c r) -> digits acc (s ++ x) = (n, String c r ++ x).
Proof.
  induction s as [|a s IH]; intros acc n c r x; cbn [digits append]; [discriminate|].
  destruct (digit_of a); [apply IH|]. intros H. injection H as <- <- <-. reflexivity.
Qed.
Lemma parse_nat_app s n c r x : parse_nat s = Some (n, String c r) -> parse_nat (s ++ x) = Some (n, String c r ++ x).
Proof.
  destruct s as [|a s]; [discriminate|]. cbn [append]. unfold parse_nat. destruct (digit_of a) as [d|]; [|discriminate].
  destruct (Z.eqb d 0).
  - destruct (after_number s) eqn:A; [|discriminate]. intros [= <- ->]. cbn [append]. cbn [after_number] in *. now rewrite A.
  - destruct (digits 0 (String a s)) as [m q] eqn:E. destruct (after_number q) eqn:A; [|discriminate]. intros [= -> ->].
    change (String a (s ++ x)) with (String a s ++ x). rewrite (digits_app _ _ _ _ _ x E). cbn [append after_number] in *. now rewrite A.
Qed.
Lemma parse_number_app s n c r x : parse_number s = Some (n, String c r) -> parse_number (s ++ x) = Some (n, String c r ++ x).
Proof.
  destruct s as [|a s]; [discriminate|]. cbn [append parse_number]. destruct (Ascii.eqb a "-").
  - destruct (parse_nat s) as [[m q]|] eqn:E; [|discriminate]. intros [= <- ->]. now rewrite (parse_nat_app _ _ _ _ x E).
  - exact (parse_nat_app (String a s) n c r x).
Qed.
Lemma parse_key_app s k r x : parse_key s = Some (k, r) -> parse_key (s ++ x) = Some (k, r ++ x).
Proof.
  unfold parse_key. destruct (skip_ws s) as [|c q] eqn:E; [discriminate|]. rewrite (skip_ws_app _ _ _ x E).
  destruct (Ascii.eqb c quote); [|discriminate]. destruct (parse_string q) as [[y q']|] eqn:P; [|discriminate].
  rewrite (parse_string_app _ _ _ _ x (le_n _) P). destruct (skip_ws q') as [|c' q''] eqn:E'; [discriminate|].
  rewrite (skip_ws_app _ _ _ x E'). destruct (Ascii.eqb c' ":"); [|discriminate]. now intros [= <- <-].
Qed.
Definition is_num (j : json) : Prop := match j with JNum _ => True | _ => False end.
(** Reading goes the same way when the text goes on, unless a number at its end might. *)
Lemma parse_more k :
  (forall s j r x k', parse_value k s = Some (j, r) -> (k <= k')%nat -> is_num j -> r <> "" -> parse_value k' (s ++ x) = Some (j, r ++ x)) /\
  (forall s j r x k', parse_value k s = Some (j, r) -> (k <= k')%nat -> ~ is_num j -> parse_value k' (s ++ x) = Some (j, r ++ x)) /\
  (forall s l r x k', parse_elements k s = Some (l, r) -> (k <= k')%nat -> parse_elements k' (s ++ x) = Some (l, r ++ x)) /\
  (forall s l r x k', parse_members k s = Some (l, r) -> (k <= k')%nat -> parse_members k' (s ++ x) = Some (l, r ++ x)).
Proof.
  induction k as [|k (IN & IV & IE & IM)]; [repeat split; discriminate|].
  assert (IA : forall s j c r x k', parse_value k s = Some (j, String c r) -> (k <= k')%nat -> parse_value k' (s ++ x) = Some (j, String c r ++ x)).
  { intros s j c r x k' H L. destruct j; try (apply IV; [assumption|lia|exact (fun f => f)]). apply IN; [assumption|lia|exact I|discriminate]. }
  split; [|split; [|split]].
  - intros s j r x k' H L N R. destruct k' as [|k']; [lia|]. cbn [parse_value] in *.
    destruct (skip_ws s) as [|c q] eqn:E; [discriminate|]. rewrite (skip_ws_app _ _ _ x E).
    destruct (Ascii.eqb c quote). { destruct (parse_string q) as [[]|]; [injection H as <- <-; destruct N|discriminate]. }
    destruct (Ascii.eqb c "[").
    { destruct (skip_ws q) as [|c' q']; [discriminate|]. destruct (Ascii.eqb c' "]"); [injection H as <- <-; destruct N|].
      destruct (parse_elements k q) as [[]|]; [injection H as <- <-; destruct N|discriminate]. }
    destruct (Ascii.eqb c "{").
    { destruct (skip_ws q) as [|c' q']; [discriminate|]. destruct (Ascii.eqb c' "}"); [injection H as <- <-; destruct N|].
      destruct (parse_members k q) as [[]|]; [injection H as <- <-; destruct N|discriminate]. }
    destruct (Ascii.eqb c "n"). { destruct (strip_prefix "ull" q); [injection H as <- <-; destruct N|discriminate]. }
    destruct (Ascii.eqb c "t"). { destruct (strip_prefix "rue" q); [injection H as <- <-; destruct N|discriminate]. }
    destruct (Ascii.eqb c "f"). { destruct (strip_prefix "alse" q); [injection H as <- <-; destruct N|discriminate]. }
    destruct (parse_number (String c q)) as [[z q']|] eqn:P; [|discriminate]. injection H as <- <-.
    destruct q' as [|c' q']; [congruence|]. change (String c (q ++ x)) with (String c q ++ x). now rewrite (parse_number_app _ _ _ _ x P).
  - intros s j r x k' H L N. destruct k' as [|k']; [lia|]. cbn [parse_value] in *.
    destruct (skip_ws s) as [|c q] eqn:E; [discriminate|]. rewrite (skip_ws_app _ _ _ x E).
    destruct (Ascii.eqb c quote).
    { destruct (parse_string q) as [[y q']|] eqn:P; [|discriminate]. rewrite (parse_string_app _ _ _ _ x (le_n _) P). now injection H as <- <-. }
    destruct (Ascii.eqb c "[").
    { destruct (skip_ws q) as [|c' q'] eqn:E'; [discriminate|]. rewrite (skip_ws_app _ _ _ x E'). destruct (Ascii.eqb c' "]"); [now injection H as <- <-|].
      destruct (parse_elements k q) as [[l q'']|] eqn:P; [|discriminate]. rewrite (IE _ _ _ x k' P ltac:(lia)). now injection H as <- <-. }
    destruct (Ascii.eqb c "{").
    { destruct (skip_ws q) as [|c' q'] eqn:E'; [discriminate|]. rewrite (skip_ws_app _ _ _ x E'). destruct (Ascii.eqb c' "}"); [now injection H as <- <-|].
      destruct (parse_members k q) as [[l q'']|] eqn:P; [|discriminate]. rewrite (IM _ _ _ x k' P ltac:(lia)). now injection H as <- <-. }
    destruct (Ascii.eqb c "n"). { destruct (strip_prefix "ull" q) eqn:P; [|discriminate]. rewrite (strip_prefix_app _ _ _ x P). now injection H as <- <-. }
    destruct (Ascii.eqb c "t"). { destruct (strip_prefix "rue" q) eqn:P; [|discriminate]. rewrite (strip_prefix_app _ _ _ x P). now injection H as <- <-. }
    destruct (Ascii.eqb c "f"). { destruct (strip_prefix "alse" q) eqn:P; [|discriminate]. rewrite (strip_prefix_app _ _ _ x P). now injection H as <- <-. }
    destruct (parse_number (String c q)) as [[z q']|]; [|discriminate]. injection H as <- <-. elim N. exact I.
  - intros s l r x k' H L. destruct k' as [|k']; [lia|]. cbn [parse_elements] in *.
    destruct (parse_value k s) as [[j q]|] eqn:P; [|discriminate]. destruct (skip_ws q) as [|c q'] eqn:E; [discriminate|].
    destruct q as [|c0 q0]; [discriminate|]. rewrite (IA _ _ _ _ x k' P ltac:(lia)). rewrite (skip_ws_app _ _ _ x E).
    destruct (Ascii.eqb c "]"); [now injection H as <- <-|]. destruct (Ascii.eqb c ","); [|discriminate].
    destruct (parse_elements k q') as [[l' q'']|] eqn:P'; [|discriminate]. rewrite (IE _ _ _ x k' P' ltac:(lia)). now injection H as <- <-.
  - intros s l r x k' H L. destruct k' as [|k']; [lia|]. cbn [parse_members] in *.
    destruct (parse_key s) as [[key q0]|] eqn:K; [|discriminate]. rewrite (parse_key_app _ _ _ x K).
    destruct (parse_value k q0) as [[j q]|] eqn:P; [|discriminate]. destruct (skip_ws q) as [|c q'] eqn:E; [discriminate|].
    destruct q as [|c1 q1]; [discriminate|]. rewrite (IA _ _ _ _ x k' P ltac:(lia)). rewrite (skip_ws_app _ _ _ x E).
    destruct (Ascii.eqb c "}"); [now injection H as <- <-|]. destruct (Ascii.eqb c ","); [|discriminate].
    destruct (parse_members k q') as [[l' q'']|] eqn:P'; [|discriminate]. rewrite (IM _ _ _ x k' P' ltac:(lia)). now injection H as <- <-.
Qed.
(** A beginning of the text of an object is not a JSON text, unless it is all of it. *)
Theorem cut_unreadable d p x : proper (JObj d) -> p ++ x = print (JObj d) -> x <> "" -> parse p = None.
Proof.
  intros W E X. unfold parse. destruct (parse_value (S (String.length p)) p) as [[j r]|] eqn:P; [|reflexivity].
  destruct (skip_ws r) eqn:S; [|reflexivity]. exfalso.
  assert (N : ~ is_num j).
  { destruct p as [|c p]; [discriminate|]. rewrite print_obj in E. injection E as -> _. cbn [parse_value skip_ws] in P. cbn [is_ws existsb Ascii.eqb Bool.eqb orb] in P.
    cbn [Ascii.eqb Bool.eqb quote] in P. destruct (skip_ws p) as [|c' q]; [discriminate|]. destruct (Ascii.eqb c' "}"); [injection P as <- _; exact (fun f => f)|].
    destruct (parse_members _ p) as [[]|]; [|discriminate]. injection P as <- _. exact (fun f => f). }
  destruct (parse_more (1 + String.length p)) as (_ & V & _).
  assert (L : (1 + String.length p <= 1 + String.length (print (JObj d)))%nat) by (rewrite <- E, slen; lia).
  pose proof (V _ _ _ x _ P L N) as Q. rewrite E in Q.
  pose proof (parse_print _ W "" (1 + String.length (print (JObj d)))%nat I ltac:(lia)) as T. rewrite sapp_nil in T. rewrite T in Q.
  injection Q as _ Q. destruct r; [|discriminate]. cbn in Q. congruence.
Qed.
