(** Proofs about addresses and about settings of different applications. *)
From Coq Require Import String Ascii ZArith Bool Lia List.
From Verif Require Import Base RouterModel RouterSpec RouterProofs RouterProofs2 ConfigModel ConfigSpec ConfigProofs.
Import ListNotations.
Local Open Scope string_scope.

Lemma without_cons : forall c d s, without c (String d s) <-> d <> c /\ without c s.
Proof.
  intros c d s. unfold without. split.
  - intros H. split.
    + intros ->. apply (H "" s). reflexivity.
    + intros a b E. apply (H (String d a) b). cbn. congruence.
  - intros (H1 & H2) a b E. destruct a as [|x a]; cbn in E; injection E as E1 E2; [congruence|]. eapply H2; eauto.
Qed.
Lemma without_nil : forall c, without c "".
Proof. intros c a b H. destruct a; discriminate. Qed.

(** Splitting at a colon *)
Lemma split_without : forall s, without ":"%char s -> split_colon s = (s, []).
Proof.
  induction s as [|c s IH]; intros H; [reflexivity|]. apply without_cons in H. destruct H as (H1 & H2).
  cbn [split_colon]. rewrite (IH H2). destruct (Ascii.eqb_spec c ":"); [congruence|reflexivity].
Qed.
Lemma split_app : forall a b, without ":"%char a -> split_colon (a ++ String ":"%char b) = (a, fst (split_colon b) :: snd (split_colon b)).
Proof.
  induction a as [|c a IH]; intros b H; cbn [append split_colon].
  - destruct (split_colon b). reflexivity.
  - apply without_cons in H. destruct H as (H1 & H2). rewrite (IH b H2). destruct (Ascii.eqb_spec c ":"); [congruence|reflexivity].
Qed.
Lemma split_one : forall s w, split_colon s = (w, []) -> s = w /\ without ":"%char s.
Proof.
  induction s as [|c s IH]; intros w H; cbn [split_colon] in H.
  - injection H as <-. split; auto. apply without_nil.
  - destruct (split_colon s) as [u us] eqn:E. destruct (Ascii.eqb_spec c ":") as [->|ne]; [discriminate|].
    injection H as <- ->. destruct (IH u eq_refl) as (-> & H). split; auto. apply without_cons. auto.
Qed.
Lemma split_two : forall s h p, split_colon s = (h, [p]) -> s = h ++ String ":"%char p /\ without ":"%char h /\ without ":"%char p.
Proof.
  induction s as [|c s IH]; intros h p H; cbn [split_colon] in H; [discriminate|].
  destruct (split_colon s) as [u us] eqn:E. destruct (Ascii.eqb_spec c ":") as [->|ne].
  - injection H as <- <- ->. apply split_one in E. destruct E as (-> & H). repeat split; auto. apply without_nil.
  - injection H as <- ->. destruct (IH u p eq_refl) as (-> & H1 & H2). repeat split; auto. apply without_cons. auto.
Qed.

(** Digits *)
Definition isdig (c : ascii) := (48 <= nat_of_ascii c <= 57)%nat.
Fixpoint alldig (s : string) : Prop := match s with EmptyString => True | String c r => isdig c /\ alldig r end.
Lemma alldig_snoc : forall s c, alldig s -> isdig c -> alldig (s ++ String c "").
Proof. induction s as [|d s IH]; intros c H D; cbn in *; [auto|]. destruct H. split; auto. Qed.
Lemma numeral_dig : forall s n, numeral s n -> alldig s /\ s <> "".
Proof.
  induction 1 as [c D|s n c H (IH1 & IH2) D].
  - cbn. split; [split; auto; exact D|discriminate].
  - split; [apply alldig_snoc; auto|]. destruct s; discriminate.
Qed.
Lemma digits_snoc : forall s c acc b, alldig s -> isdig c ->
  digits (s ++ String c "") acc b = option_map (fun m => (10 * m + (Z.of_nat (nat_of_ascii c) - 48))%Z)
    (match s with EmptyString => Some acc | _ => digits s acc b end).
Proof.
  assert (T : forall c, isdig c -> ((48 <=? Z.of_nat (nat_of_ascii c)) && (Z.of_nat (nat_of_ascii c) <=? 57))%Z = true).
  { intros c H. unfold isdig in H. apply andb_true_iff. split; apply Z.leb_le; lia. }
  induction s as [|d s IH]; intros c acc b H D.
  - cbn [append digits]. rewrite (T c D). cbn [option_map]. f_equal. lia.
  - cbn [append digits alldig] in *. destruct H as (H1 & H2). rewrite (T d H1).
    rewrite (IH c _ _ H2 D). destruct s; reflexivity.
Qed.
Lemma numeral_digits : forall s n, numeral s n -> digits s 0 false = Some n.
Proof.
  induction 1 as [c D|s n c H IH D].
  - cbn [digits]. replace _ with true; [f_equal; lia|]. symmetry. apply andb_true_iff. split; apply Z.leb_le; lia.
  - destruct (numeral_dig s n H) as (A & B). rewrite (digits_snoc s c 0 false A D). destruct s as [|d s]; [congruence|].
    rewrite IH. reflexivity.
Qed.
Lemma dig_not_space : forall c, isdig c -> space c = false.
Proof.
  intros c H. unfold isdig in H. unfold space. cbv zeta. apply orb_false_iff. split; [apply andb_false_iff; right; apply Nat.leb_gt; lia|apply Nat.eqb_neq; lia].
Qed.
Lemma lstrip_dig : forall s, alldig s -> lstrip s = s.
Proof. destruct s as [|c s]; intros H; [reflexivity|]. cbn [lstrip alldig] in *. destruct H as (H & _). rewrite (dig_not_space c H). reflexivity. Qed.
Lemma rstrip_dig : forall s, alldig s -> rstrip s = s.
Proof.
  induction s as [|c s IH]; intros H; [reflexivity|]. cbn [rstrip alldig] in *. destruct H as (H1 & H2).
  rewrite (IH H2). destruct s; [rewrite (dig_not_space c H1)|]; reflexivity.
Qed.
Lemma numeral_int : forall s n, numeral s n -> int s = Ok n.
Proof.
  intros s n H. destruct (numeral_dig s n H) as (A & B). unfold int. rewrite (lstrip_dig s A), (rstrip_dig s A). cbv zeta.
  destruct s as [|c s]; [congruence|]. rewrite (numeral_digits _ _ H).
  cbn [alldig] in A. destruct A as (A & _). unfold isdig in A.
  destruct (Ascii.eqb_spec c "-") as [->|_]; [vm_compute in A; lia|].
  destruct (Ascii.eqb_spec c "+") as [->|_]; [vm_compute in A; lia|]. reflexivity.
Qed.
(** int(): exactly the texts of integers. *)
Lemma append_assoc : forall a b c : string, (a ++ b) ++ c = a ++ b ++ c.
Proof. induction a as [|x a IH]; intros b c; cbn [append]; [reflexivity|]. rewrite IH. reflexivity. Qed.
Fixpoint scan (s : string) (acc : Z) (b : bool) : option (Z * bool) :=
  match s with
  | EmptyString => Some (acc, b)
  | String c r => let n := Z.of_nat (nat_of_ascii c) in
                  if (Z.leb 48 n && Z.leb n 57)%bool then scan r (acc * 10 + (n - 48))%Z true
                  else if Ascii.eqb c "_"%char && b then scan r acc false
                  else None
  end.
Lemma digits_scan : forall s acc b, digits s acc b = match scan s acc b with Some (m, true) => Some m | _ => None end.
Proof.
  induction s as [|c s IH]; intros acc b; cbn [digits scan]; [destruct b; reflexivity|].
  destruct (_ && _)%bool; [apply IH|]. destruct (Ascii.eqb c "_" && b); [apply IH|reflexivity].
Qed.
Lemma scan_app : forall s t acc b, scan (s ++ t) acc b = match scan s acc b with Some (m, b') => scan t m b' | None => None end.
Proof.
  induction s as [|c s IH]; intros t acc b; cbn [append scan]; [reflexivity|].
  destruct (_ && _)%bool; [apply IH|]. destruct (Ascii.eqb c "_" && b); [apply IH|reflexivity].
Qed.
Lemma isdig_test : forall c, ((48 <=? Z.of_nat (nat_of_ascii c)) && (Z.of_nat (nat_of_ascii c) <=? 57))%Z = true <-> isdig c.
Proof. intros c. unfold isdig. rewrite andb_true_iff, !Z.leb_le. lia. Qed.
Lemma grouped_scan : forall s n, grouped s n -> scan s 0 false = Some (n, true).
Proof.
  induction 1 as [c D|s n c H IH D|s n c H IH D].
  - cbn [scan]. rewrite (proj2 (isdig_test c) D). f_equal; f_equal; lia.
  - rewrite scan_app, IH. cbn [scan]. rewrite (proj2 (isdig_test c) D). f_equal; f_equal; lia.
  - rewrite scan_app, IH. cbn [scan]. change (Ascii.eqb "_" "_" && true)%bool with true. rewrite (proj2 (isdig_test c) D). cbn [andb Z.leb Z.compare].
    change ((48 <=? Z.of_nat (nat_of_ascii "_")) && (Z.of_nat (nat_of_ascii "_") <=? 57))%Z with false. cbv iota. f_equal; f_equal; lia.
Qed.
Lemma snoc_cases : forall s : string, s = "" \/ exists t c, s = t ++ String c "".
Proof.
  induction s as [|c s [->|(t & d & ->)]]; [auto|right; exists "", c; reflexivity|right; exists (String c t), d; reflexivity].
Qed.
Lemma length_snoc : forall t c, String.length (t ++ String c "") = S (String.length t).
Proof. induction t as [|d t IH]; intros c; [reflexivity|]. cbn [append String.length]. rewrite IH. reflexivity. Qed.
Lemma scan_grouped : forall k s n b, (String.length s <= k)%nat -> scan s 0 false = Some (n, b) ->
  if b then grouped s n else (s = "" /\ n = 0%Z) \/ exists t, s = t ++ "_" /\ grouped t n.
Proof.
  induction k as [|k IH]; intros s n b L E; destruct (snoc_cases s) as [->|(t & c & ->)].
  - cbn in E. injection E as <- <-. auto.
  - rewrite length_snoc in L. lia.
  - cbn in E. injection E as <- <-. auto.
  - rewrite length_snoc in L. rewrite scan_app in E. destruct (scan t 0 false) as [[m b']|] eqn:S; [|discriminate].
    assert (L' : (String.length t <= k)%nat) by lia. specialize (IH t m b' L' S). cbn [scan] in E.
    destruct ((48 <=? Z.of_nat (nat_of_ascii c)) && (Z.of_nat (nat_of_ascii c) <=? 57))%Z eqn:D.
    + apply isdig_test in D. injection E as <- <-. replace (m * 10 + (Z.of_nat (nat_of_ascii c) - 48))%Z with (10 * m + (Z.of_nat (nat_of_ascii c) - 48))%Z by lia.
      destruct b'; [apply grp_more; assumption|]. destruct IH as [(-> & ->)|(t' & -> & G)].
      * replace (10 * 0 + (Z.of_nat (nat_of_ascii c) - 48))%Z with (Z.of_nat (nat_of_ascii c) - 48)%Z by lia. apply grp_one. exact D.
      * rewrite append_assoc. apply grp_under; assumption.
    + destruct (Ascii.eqb_spec c "_") as [->|]; [|discriminate]. destruct b'; [|discriminate]. injection E as <- <-. right. exists t. auto.
Qed.
Lemma digits_grouped : forall s n, digits s 0 false = Some n <-> grouped s n.
Proof.
  intros s n. rewrite digits_scan. split.
  - destruct (scan s 0 false) as [[m []]|] eqn:S; try discriminate. intros E. injection E as <-. apply (scan_grouped _ s m true (le_n _) S).
  - intros G. rewrite (grouped_scan s n G). reflexivity.
Qed.
Definition whitec (c : ascii) : Prop := (9 <= nat_of_ascii c <= 13 \/ nat_of_ascii c = 32)%nat.
Lemma space_white : forall c, space c = true <-> whitec c.
Proof. intros c. unfold space, whitec. cbv zeta. rewrite orb_true_iff, !andb_true_iff, !Nat.leb_le, Nat.eqb_eq. lia. Qed.
Lemma white_cons : forall c w, white (String c w) <-> whitec c /\ white w.
Proof. intros c w. unfold white. cbn [list_ascii_of_string]. split; [intros H; inversion H; auto|intros (A & B); constructor; auto]. Qed.
Lemma white_nil : white "".
Proof. constructor. Qed.
Lemma lstrip_split : forall s, exists w, white w /\ s = w ++ lstrip s.
Proof.
  induction s as [|c s (w & W & E)]; [exists ""; split; [apply white_nil|reflexivity]|]. cbn [lstrip]. destruct (space c) eqn:C.
  - exists (String c w). split; [apply white_cons; split; [apply space_white; exact C|exact W]|]. cbn [append]. rewrite <- E. reflexivity.
  - exists "". split; [apply white_nil|reflexivity].
Qed.
Lemma rstrip_split : forall s, exists w, white w /\ s = rstrip s ++ w.
Proof.
  induction s as [|c s (w & W & E)]; [exists ""; split; [apply white_nil|reflexivity]|]. cbn [rstrip]. destruct (rstrip s) as [|d r] eqn:R.
  - destruct (space c) eqn:C.
    + exists (String c w). split; [apply white_cons; split; [apply space_white; exact C|exact W]|]. cbn [append] in *. rewrite <- E. reflexivity.
    + exists w. split; [exact W|]. cbn [append] in *. rewrite <- E. reflexivity.
  - exists w. split; [exact W|]. cbn [append] in *. rewrite <- E. reflexivity.
Qed.
Lemma lstrip_white : forall w s, white w -> lstrip (w ++ s) = lstrip s.
Proof.
  induction w as [|c w IH]; intros s W; [reflexivity|]. apply white_cons in W. destruct W as (C & W). cbn [append lstrip].
  apply space_white in C. rewrite C. apply IH. exact W.
Qed.
Lemma rstrip_all : forall w, white w -> rstrip w = "".
Proof.
  induction w as [|c w IH]; intros W; [reflexivity|]. apply white_cons in W. destruct W as (C & W). cbn [rstrip]. rewrite (IH W).
  apply space_white in C. rewrite C. reflexivity.
Qed.
Lemma rstrip_white : forall s w, white w -> rstrip (s ++ w) = rstrip s.
Proof. induction s as [|c s IH]; intros w W; cbn [append]; [apply rstrip_all; exact W|]. cbn [rstrip]. rewrite (IH w W). reflexivity. Qed.
Lemma rstrip_end : forall s c, space c = false -> rstrip (s ++ String c "") = s ++ String c "".
Proof.
  induction s as [|d s IH]; intros c C; cbn [append rstrip]; [rewrite C; reflexivity|]. rewrite (IH c C). destruct s; reflexivity.
Qed.
Lemma grouped_ends : forall s n, grouped s n -> (exists c r, s = String c r /\ isdig c) /\ (exists t d, s = t ++ String d "" /\ isdig d).
Proof.
  induction 1 as [c D|s n c H ((d & r & -> & E) & _) D|s n c H ((d & r & -> & E) & _) D].
  - split; [exists c, ""; auto|exists "", c; auto].
  - split; [exists d, (r ++ String c ""); auto|exists (String d r), c; auto].
  - split; [exists d, (r ++ String "_" (String c "")); auto|]. exists (String d r ++ "_"), c. split; [|exact D]. rewrite append_assoc. reflexivity.
Qed.
Lemma strip_around : forall w1 w2 p s n, white w1 -> white w2 -> grouped s n -> (p = "" \/ exists c, p = String c "" /\ space c = false) ->
  rstrip (lstrip (w1 ++ p ++ s ++ w2)) = p ++ s.
Proof.
  intros w1 w2 p s n A B G P. rewrite (lstrip_white w1 _ A). destruct (grouped_ends s n G) as ((c & r & E & C) & (t & d & E' & D)).
  assert (L : lstrip (p ++ s ++ w2) = p ++ s ++ w2).
  { destruct P as [->|(e & -> & P)].
    - rewrite E. cbn [append lstrip]. rewrite (dig_not_space c C). reflexivity.
    - cbn [append lstrip]. rewrite P. reflexivity. }
  rewrite L, <- append_assoc, (rstrip_white _ _ B), E', <- append_assoc. apply rstrip_end. apply dig_not_space. exact D.
Qed.
Theorem int_integer : forall s n, int s = Ok n <-> integer s n.
Proof.
  intros s n. split.
  - destruct (lstrip_split s) as (w1 & W1 & E1). destruct (rstrip_split (lstrip s)) as (w2 & W2 & E2). assert (E : s = w1 ++ rstrip (lstrip s) ++ w2) by (rewrite <- E2; exact E1).
    unfold int. cbv zeta. clear E1 E2. revert E. destruct (rstrip (lstrip s)) as [|c r]; intros E; [discriminate|]. subst s.
    destruct (Ascii.eqb_spec c "-") as [->|].
    { destruct (digits r 0 false) as [m|] eqn:D; cbn [option_map]; [|discriminate]. intros H. injection H as <-. apply digits_grouped in D.
      apply (int_minus w1 w2 r m W1 W2 D). }
    destruct (Ascii.eqb_spec c "+") as [->|].
    { destruct (digits r 0 false) as [m|] eqn:D; [|discriminate]. intros H. injection H as <-. apply digits_grouped in D.
      apply (int_plus w1 w2 r m W1 W2 D). }
    destruct (digits (String c r) 0 false) as [m|] eqn:D; [|discriminate]. intros H. injection H as <-. apply digits_grouped in D.
    apply (int_plain w1 w2 (String c r) m W1 W2 D).
  - intros H. destruct H as [w1 w2 s n W1 W2 G|w1 w2 s n W1 W2 G|w1 w2 s n W1 W2 G]; unfold int; cbv zeta; pose proof (proj2 (digits_grouped s n) G) as D.
    + pose proof (strip_around w1 w2 "" s n W1 W2 G (or_introl eq_refl)) as Q. cbn [append] in Q. rewrite Q.
      destruct (grouped_ends s n G) as ((c & r & E & C) & _). rewrite D, E. unfold isdig in C.
      destruct (Ascii.eqb_spec c "-") as [->|_]; [vm_compute in C; lia|]. destruct (Ascii.eqb_spec c "+") as [->|_]; [vm_compute in C; lia|]. reflexivity.
    + pose proof (strip_around w1 w2 "+" s n W1 W2 G) as Q. cbn [append] in Q. rewrite Q by (right; exists "+"%char; auto). cbn [Ascii.eqb Bool.eqb].
      rewrite D. reflexivity.
    + pose proof (strip_around w1 w2 "-" s n W1 W2 G) as Q. cbn [append] in Q. rewrite Q by (right; exists "-"%char; auto). cbn [Ascii.eqb Bool.eqb].
      rewrite D. reflexivity.
Qed.
Lemma numeral_without : forall s n c, numeral s n -> ~ isdig c -> without c s.
Proof.
  intros s n c H D. apply numeral_dig in H. destruct H as (A & _).
  induction s as [|d s IH]; [apply without_nil|]. apply without_cons. cbn [alldig] in A. destruct A as (A1 & A2). split; auto. congruence.
Qed.

Lemma instance_value : forall app inst env p v, NoDup (map fst env) -> is_set env (instance_var p app inst) v ->
  get_instance_env app inst env p = Some v.
Proof. intros app inst env p v N H. unfold get_instance_env. erewrite precedence; [|exact N|apply eff_instance; exact H]. reflexivity. Qed.
Lemma instance_none : forall app inst env p, NoDup (map fst env) -> unset env (instance_var p app inst) ->
  get_instance_env app inst env p = None.
Proof. intros app inst env p N H. unfold get_instance_env. erewrite precedence; [|exact N|apply eff_only_default; exact H]. reflexivity. Qed.

Lemma address_value : forall app inst env p v, NoDup (map fst env) -> is_set env (instance_var p app inst) v ->
  get_app_instance_address app inst p env = parse_host_port_string v.
Proof.
  intros app inst env p v N H. unfold get_app_instance_address. rewrite (instance_value _ _ _ _ _ N H).
  destruct H as (_ & H). destruct (String.eqb_spec v ""); [congruence|reflexivity].
Qed.
Lemma without_append : forall c a b, without c (a ++ b) <-> without c a /\ without c b.
Proof.
  intros c a b. induction a as [|d a IH]; cbn [append].
  - split; [intros H; split; [apply without_nil|exact H]|intros (_ & H); exact H].
  - rewrite !without_cons, IH. tauto.
Qed.
Lemma integer_without : forall s n, integer s n -> without ":"%char s.
Proof.
  assert (W : forall w, white w -> without ":"%char w).
  { induction w as [|c w IH]; intros H; [apply without_nil|]. apply white_cons in H. destruct H as (C & H). apply without_cons. split; [|apply IH; exact H].
    intros ->. unfold whitec in C. vm_compute in C. lia. }
  assert (D : forall c, isdig c -> c <> ":"%char) by (intros c C ->; unfold isdig in C; vm_compute in C; lia).
  assert (G : forall s n, grouped s n -> without ":"%char s).
  { induction 1 as [c C|s n c H IH C|s n c H IH C].
    - apply without_cons. split; [apply D; exact C|apply without_nil].
    - apply without_append. split; [exact IH|]. apply without_cons. split; [apply D; exact C|apply without_nil].
    - apply without_append. split; [exact IH|]. apply without_cons. split; [discriminate|]. apply without_cons. split; [apply D; exact C|apply without_nil]. }
  intros s n H. destruct H; repeat first [apply without_append; split|apply without_cons; split; [discriminate|]]; eauto.
Qed.
Lemma integer_not_empty : forall s n, integer s n -> s <> "".
Proof. intros s n H E. apply int_integer in H. rewrite E in H. discriminate. Qed.
Lemma numeral_integer : forall s n, numeral s n -> integer s n.
Proof. intros s n H. apply int_integer. apply numeral_int. exact H. Qed.
Lemma address_honoured : forall app inst env p host port n, NoDup (map fst env) ->
  is_set env (instance_var p app inst) (host ++ ":" ++ port) -> without ":"%char host -> host <> "" -> integer port n ->
  get_app_instance_address app inst p env = Ok (Some (host, n)).
Proof.
  intros app inst env p host port n N H Hh Hn Hp. rewrite (address_value _ _ _ _ _ N H).
  unfold parse_host_port_string. change (":" ++ port) with (String ":"%char port). rewrite (split_app host port Hh).
  rewrite (split_without port) by (apply (integer_without port n); exact Hp).
  cbn [fst snd]. destruct (String.eqb_spec host ""); [congruence|].
  pose proof (integer_not_empty _ _ Hp) as Hq. destruct (String.eqb_spec port ""); [congruence|].
  rewrite (proj2 (int_integer _ _) Hp). reflexivity.
Qed.
Lemma address_only : forall app inst env p h n, NoDup (map fst env) ->
  get_app_instance_address app inst p env = Ok (Some (h, n)) ->
  exists port, is_set env (instance_var p app inst) (h ++ ":" ++ port) /\ h <> "" /\ without ":"%char h /\ integer port n.
Proof.
  intros app inst env p h n N H.
  destruct (falsy_spec env (instance_var p app inst) N) as [(_ & U)|(v & _ & _ & S)].
  - unfold get_app_instance_address in H. rewrite (instance_none _ _ _ _ N U) in H. discriminate.
  - rewrite (address_value _ _ _ _ _ N S) in H. unfold parse_host_port_string in H.
    destruct (split_colon v) as [x [|y [|? ?]]] eqn:E; try discriminate.
    apply split_two in E. destruct E as (-> & A & B).
    destruct (String.eqb_spec x ""); [discriminate|]. destruct (String.eqb_spec y ""); [discriminate|].
    destruct (int y) as [m|] eqn:I; cbn in H; [|discriminate]. injection H as <- <-. apply int_integer in I. exists y. auto 8.
Qed.
Lemma address_unset : forall app inst env p, NoDup (map fst env) -> unset env (instance_var p app inst) ->
  get_app_instance_address app inst p env = Ok None.
Proof. intros app inst env p N U. unfold get_app_instance_address. rewrite (instance_none _ _ _ _ N U). reflexivity. Qed.
(** A value that gives no server and no error is one with an empty host or an empty port. *)
Lemma address_silent : forall app inst env p v, NoDup (map fst env) -> is_set env (instance_var p app inst) v ->
  get_app_instance_address app inst p env = Ok None -> exists x, without ":"%char x /\ (v = ":" ++ x \/ v = x ++ ":").
Proof.
  intros app inst env p v N S H. rewrite (address_value _ _ _ _ _ N S) in H. unfold parse_host_port_string in H.
  destruct (split_colon v) as [x [|y [|? ?]]] eqn:E; try discriminate.
  apply split_two in E. destruct E as (-> & A & B).
  destruct (String.eqb_spec x "") as [->|]; [exists y; auto|]. destruct (String.eqb_spec y "") as [->|]; [exists x; auto|].
  destruct (int y); discriminate.
Qed.

(** Paths *)
Lemma rsplit_without : forall s, without "/"%char s -> rsplit_slash s = None.
Proof.
  induction s as [|c s IH]; intros H; [reflexivity|]. apply without_cons in H. destruct H as (H1 & H2). cbn [rsplit_slash].
  rewrite (IH H2). destruct (Ascii.eqb_spec c "/"); [congruence|reflexivity].
Qed.
Lemma rsplit_app : forall d f, without "/"%char f -> rsplit_slash (d ++ String "/"%char f) = Some (d ++ "/", f).
Proof.
  induction d as [|c d IH]; intros f H; cbn [append rsplit_slash].
  - rewrite (rsplit_without f H). reflexivity.
  - rewrite (IH f H). reflexivity.
Qed.
Lemma all_slashes_app : forall d x, all_slashes (d ++ x) = all_slashes d && all_slashes x.
Proof. induction d as [|c d IH]; intros x; [reflexivity|]. cbn [append all_slashes]. rewrite IH, andb_assoc. reflexivity. Qed.
(** [d] does not end in a slash. *)
Definition clean (d : string) : Prop := forall a, d <> a ++ "/".
Lemma clean_cons : forall c d, clean (String c d) -> d <> "" -> clean d.
Proof. intros c d H _ a ->. apply (H (String c a)). reflexivity. Qed.
Lemma clean_not_all : forall d, clean d -> d <> "" -> all_slashes d = false.
Proof.
  induction d as [|c d IH]; intros H ne; [congruence|]. cbn [all_slashes]. destruct d as [|c2 d].
  - destruct (Ascii.eqb_spec c "/") as [->|]; [exfalso; apply (H ""); reflexivity|reflexivity].
  - rewrite IH; [apply andb_false_r| |discriminate]. eapply clean_cons; [exact H|discriminate].
Qed.
Lemma rstrip_clean : forall d, clean d -> rstrip_slashes (d ++ "/") = d.
Proof.
  induction d as [|c d IH]; intros H; [reflexivity|].
  change (String c d ++ "/") with (String c (d ++ "/")). cbn [rstrip_slashes].
  change (String c (d ++ "/")) with (String c d ++ "/"). rewrite all_slashes_app, (clean_not_all (String c d) H) by discriminate.
  cbn [andb]. f_equal. destruct d as [|c2 d]; [reflexivity|]. apply IH. eapply clean_cons; [exact H|discriminate].
Qed.
Lemma dirname_path : forall d f, clean d -> d <> "" -> without "/"%char f -> dirname (d ++ "/" ++ f) = d /\ basename (d ++ "/" ++ f) = f.
Proof.
  intros d f H ne W. change ("/" ++ f) with (String "/"%char f). unfold dirname, basename. rewrite (rsplit_app d f W). split; auto.
  rewrite all_slashes_app, (clean_not_all d H ne). cbn [andb]. apply rstrip_clean. auto.
Qed.
Lemma uds_honoured : forall uapp uinst app inst isdir env dir file, NoDup (map fst env) ->
  is_set env (instance_var "UDS" uapp uinst) (dir ++ "/" ++ file) -> dir <> "" -> (forall a, dir <> a ++ "/") -> without "/"%char file -> file <> "" ->
  isdir dir = true ->
  get_app_instance_uds uapp uinst app inst isdir env =
  Some (dir, if String.eqb file "DEFAULT" then app ++ "_" ++ inst ++ ".uds.sock" else file).
Proof.
  intros uapp uinst app inst isdir env dir file N S Hd Hc Hw Hf Hi. unfold get_app_instance_uds. rewrite (instance_value _ _ _ _ _ N S).
  destruct S as (_ & S). destruct (String.eqb_spec (dir ++ "/" ++ file) ""); [congruence|].
  destruct (dirname_path dir file Hc Hd Hw) as (-> & ->). cbv zeta.
  destruct (String.eqb_spec dir ""); [congruence|]. destruct (String.eqb_spec file "") as [|_]; [congruence|]. cbn [orb]. rewrite Hi. reflexivity.
Qed.

(** Different applications *)
Lemma under_inj : forall a b x y, without "_"%char a -> without "_"%char b -> a ++ "_" ++ x = b ++ "_" ++ y -> a = b /\ x = y.
Proof.
  induction a as [|c a IH]; intros b x y A B H.
  - destruct b as [|d b]; cbn in H; injection H; [auto|]. intros _ E. apply without_cons in B. destruct B as (B & _). congruence.
  - apply without_cons in A. destruct A as (A1 & A2). destruct b as [|d b]; cbn in H.
    + injection H as E _. congruence.
    + apply without_cons in B. destruct B as (B1 & B2). injection H as -> H. destruct (IH b x y A2 B2 H) as (-> & ->). auto.
Qed.
Lemma under_not : forall a b x, without "_"%char a -> a <> b ++ "_" ++ x.
Proof. intros a b x A H. apply (A b x). exact H. Qed.

Lemma postfix_inj : forall p q x y, In p postfixes -> In q postfixes -> p ++ "_" ++ x = q ++ "_" ++ y -> p = q /\ x = y.
Proof.
  intros p q x y Hp Hq H. unfold postfixes in *. cbn [In] in *.
  repeat (destruct Hp as [<-|Hp]; [repeat (destruct Hq as [<-|Hq]; [cbn in H; first [discriminate H|injection H as H; auto]|]); destruct Hq|]).
  destruct Hp.
Qed.
Lemma postfix_not : forall p q x, In p postfixes -> In q postfixes -> p <> q ++ "_" ++ x.
Proof.
  intros p q x Hp Hq H. unfold postfixes in *. cbn [In] in *.
  repeat (destruct Hp as [<-|Hp]; [repeat (destruct Hq as [<-|Hq]; [cbn in H; discriminate H|]); destruct Hq|]).
  destruct Hp.
Qed.

Lemma get_other : forall (A : Type) (f : string -> A) a i env n v p d only,
  n <> instance_var p a i -> n <> app_var p a -> n <> machine_var p ->
  get_eco_env a i f (sset n v env) p d only = get_eco_env a i f env p d only.
Proof.
  intros A f a i env n v p d only H1 H2 H3. unfold get_eco_env. cbv zeta. destruct (names_eq p a i) as (E1 & E2 & E3). rewrite E3, E2, E1.
  rewrite !sget_sset. destruct (String.eqb_spec (instance_var p a i) n); [congruence|]. destruct (String.eqb_spec (app_var p a) n); [congruence|].
  destruct (String.eqb_spec (machine_var p) n); [congruence|]. reflexivity.
Qed.
Lemma isolation_instance : forall (A : Type) (f : string -> A) a i b j env v p q d only,
  without "_"%char a -> without "_"%char b -> In p postfixes -> In q postfixes -> (a, i) <> (b, j) ->
  get_eco_env a i f (sset (instance_var q b j) v env) p d only = get_eco_env a i f env p d only.
Proof.
  intros A f a i b j env v p q d only Ha Hb Hp Hq ne. unfold instance_var. apply get_other; unfold instance_var, app_var, machine_var; intros H; apply sapp_inj in H.
  - apply postfix_inj in H; auto. destruct H as (_ & H). apply under_inj in H; auto. destruct H as (-> & ->). congruence.
  - apply postfix_inj in H; auto. destruct H as (_ & H). symmetry in H. revert H. apply under_not. auto.
  - symmetry in H. revert H. apply postfix_not; auto.
Qed.
Lemma isolation_app : forall (A : Type) (f : string -> A) a i b env v p q d only,
  without "_"%char a -> without "_"%char b -> In p postfixes -> In q postfixes -> a <> b ->
  get_eco_env a i f (sset (app_var q b) v env) p d only = get_eco_env a i f env p d only.
Proof.
  intros A f a i b env v p q d only Ha Hb Hp Hq ne. apply get_other; unfold instance_var, app_var, machine_var; intros H; apply sapp_inj in H.
  - apply postfix_inj in H; auto. destruct H as (_ & H). revert H. apply under_not. auto.
  - apply postfix_inj in H; auto. destruct H as (_ & H). congruence.
  - symmetry in H. revert H. apply postfix_not; auto.
Qed.
Lemma slen_app : forall a b, String.length (a ++ b) = (String.length a + String.length b)%nat.
Proof. induction a as [|c a IH]; intros b; [reflexivity|]. cbn. rewrite IH. reflexivity. Qed.
