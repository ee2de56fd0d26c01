(** Proofs about the utility functions: texts and checks. *)
From Coq Require Import List NArith Bool String Lia Arith ZifyBool ZifyNat ZifyN.
From Verif Require Import Base UtilModel UtilSpec.
Import ListNotations.
Local Open Scope N_scope.

Lemma split_nonempty c s : split_on c s <> [].
Proof. destruct s as [|x r]; cbn [split_on]; [easy|]. destruct (x =? c); [easy|]. destruct (split_on c r); easy. Qed.

Lemma dotted_split s : dotted (split_on 46 s) = s.
Proof.
  induction s as [|x r IH]; [easy|]. cbn [split_on]. destruct (x =? 46) eqn:E.
  - apply N.eqb_eq in E. subst. pose proof (split_nonempty 46 r). cbn [dotted]. destruct (split_on 46 r) eqn:E2; [easy|]. now rewrite IH.
  - destruct (split_on 46 r) as [|w ws] eqn:E2; [now apply split_nonempty in E2|].
    destruct ws; cbn [dotted] in *; cbn [app]; now rewrite IH.
Qed.

Lemma split_pieces c s x : In x (split_on c s) -> ~ In c x.
Proof.
  revert x. induction s as [|a r IH]; intros x; cbn [split_on].
  - intros [<-|[]] [].
  - destruct (a =? c) eqn:E.
    + intros [<-|Hi]; [intros []|auto].
    + destruct (split_on c r) as [|w ws] eqn:E2.
      * intros [<-|[]] [->|[]]. lia.
      * intros [<-|Hi].
        { intros [->|Hi]; [lia|]. apply (IH w); [now left|easy]. }
        { apply IH. now right. }
Qed.
Lemma split_chars c s x a : In x (split_on c s) -> In a x -> In a s.
Proof.
  revert x. induction s as [|b r IH]; intros x; cbn [split_on].
  - intros [<-|[]] [].
  - destruct (b =? c) eqn:E.
    + intros [<-|Hi]; [intros []|]. intros Ha. right. eauto.
    + destruct (split_on c r) as [|w ws] eqn:E2.
      * intros [<-|[]] [->|[]]. now left.
      * intros [<-|Hi].
        { intros [->|Hi]; [now left|]. right. apply (IH w); [now left|easy]. }
        { intros Ha. right. apply (IH x); [now right|easy]. }
Qed.

Lemma split_plain c w : ~ In c w -> split_on c w = [w].
Proof.
  induction w as [|a r IH]; [easy|]. intros Hn. cbn [split_on].
  destruct (a =? c) eqn:E; [apply N.eqb_eq in E; subst; exfalso; apply Hn; now left|].
  rewrite IH; [easy|]. intros H; apply Hn; now right.
Qed.
Lemma split_app c w s : ~ In c w -> split_on c (w ++ c :: s) = w :: split_on c s.
Proof.
  induction w as [|a r IH]; intros Hn; cbn [app split_on].
  - now rewrite N.eqb_refl.
  - destruct (a =? c) eqn:E; [apply N.eqb_eq in E; subst; exfalso; apply Hn; now left|].
    rewrite IH; [easy|]. intros H; apply Hn; now right.
Qed.
Lemma split_dotted ls : ls <> [] -> (forall x, In x ls -> ~ In 46 x) -> split_on 46 (dotted ls) = ls.
Proof.
  induction ls as [|x r IH]; [easy|]. intros _ Hn. destruct r as [|y r].
  - cbn [dotted]. apply split_plain. apply Hn. now left.
  - change (dotted (x :: y :: r)) with (x ++ 46 :: dotted (y :: r)). rewrite split_app by (apply Hn; now left).
    rewrite IH; [easy|easy|]. intros z Hz. apply Hn. now right.
Qed.

(** ** Labels *)
Section Chars.
Variable re_digit : N -> bool.
Hypothesis re_digit_ascii : forall c, c < 128 -> (re_digit c = true <-> digit c).

Lemma class_ascii c : c < 128 -> (re_class re_digit c = true <-> letter c \/ digit c \/ c = 45).
Proof.
  intros Hc. unfold re_class, re_letter, dash. rewrite !orb_true_iff, re_digit_ascii by easy. unfold letter, digit. lia.
Qed.

Lemma label_chars (x : text) : ascii_text x -> (forallb (re_class re_digit) x = true <-> forall c, In c x -> letter c \/ digit c \/ c = 45).
Proof.
  intros Ha. rewrite forallb_forall. split; intros H c Hi; specialize (H c Hi); apply (class_ascii c); auto.
Qed.

Lemma not_newline c : letter c \/ digit c \/ c = 45 -> c <> 10.
Proof. unfold letter, digit. lia. Qed.

Lemma hd_app (x y : text) : x <> [] -> hd 0 (x ++ y) = hd 0 x.
Proof. now destruct x. Qed.

Lemma label_matches_iff x : ascii_text x -> (label_matches re_digit x = true <-> label_nl x).
Proof.
  intros Ha. unfold label_matches. rewrite andb_true_iff, existsb_exists. split.
  - intros [Hh (n & Hn & H)]. apply in_seq in Hn. rewrite !andb_true_iff in H. destruct H as [[[Hl Hc] Hd] He].
    apply Nat.leb_le in Hl.
    assert (Hlab : label (firstn n x)).
    { assert (Hlen : List.length (firstn n x) = n) by (rewrite firstn_length; lia).
      split; [rewrite Hlen; lia|]. split.
      - apply label_chars; [|easy]. intros c Hc'. apply Ha. rewrite <- (firstn_skipn n x). apply in_or_app. now left.
      - split.
        + destruct x as [|c r]; [destruct n; cbn in *; lia|]. destruct n; [lia|]. cbn [firstn hd]. unfold dash in Hh. lia.
        + unfold dash in Hd. lia. }
    destruct (skipn n x) as [|c [|c2 r]] eqn:Es; [| |easy].
    + left. rewrite <- (firstn_skipn n x), Es, app_nil_r. easy.
    + right. exists (firstn n x). split; [easy|]. rewrite <- (firstn_skipn n x) at 1. rewrite Es. cbn [at_end] in He. unfold newline in He.
      repeat f_equal. lia.
  - assert (K : forall y z, label y -> at_end z = true -> x = y ++ z ->
       match x with [] => true | c :: _ => negb (c =? dash) end = true /\
       exists n, In n (seq 1 63) /\ (Nat.leb n (List.length x) && forallb (re_class re_digit) (firstn n x) && negb (last (firstn n x) 0 =? dash) && at_end (skipn n x)) = true).
    { intros y z (Hl & Hc & Hh & Ht) Hz ->. split.
      - destruct y as [|c r]; [cbn in Hl; lia|]. cbn [app hd] in *. unfold dash. lia.
      - exists (List.length y). split; [apply in_seq; lia|].
        rewrite firstn_app, Nat.sub_diag, firstn_O, app_nil_r, firstn_all, skipn_app, skipn_all, Nat.sub_diag. cbn [skipn app].
        rewrite Hz, app_length. rewrite !andb_true_iff. repeat split; [apply Nat.leb_le; lia| |unfold dash; lia].
        apply label_chars; [|easy]. intros c Hi. apply Ha. apply in_or_app. now left. }
    intros [H|(y & H & E)].
    + apply (K x []); [easy|easy|now rewrite app_nil_r].
    + apply (K y [10]); easy.
Qed.

(** ** Host names *)
Lemma last_app_one {A} (l : list A) a d : last (l ++ [a]) d = a.
Proof. apply last_last. Qed.
Lemma label_nl_last x : label_nl x -> x <> [] /\ last x 0 <> 46.
Proof.
  intros [(Hl & Hc & _)|(y & _ & ->)].
  - destruct (exists_last (l := x)) as (r & c & ->); [intros ->; cbn in Hl; lia|]. split; [now destruct r|].
    rewrite last_app_one. specialize (Hc c). unfold letter, digit in Hc. assert (In c (r ++ [c])) by (apply in_or_app; right; now left).
    specialize (Hc H). lia.
  - rewrite last_app_one. split; [now destruct y|lia].
Qed.
Lemma label_nl_nodot x : label_nl x -> ~ In 46 x.
Proof.
  intros [(_ & Hc & _)|(y & (_ & Hc & _) & ->)] Hi.
  - apply Hc in Hi. unfold letter, digit in Hi. lia.
  - apply in_app_or in Hi. destruct Hi as [Hi|[Hi|[]]]; [|lia]. apply Hc in Hi. unfold letter, digit in Hi. lia.
Qed.
Lemma last_app_r (a b : text) : b <> [] -> last (a ++ b) 0 = last b 0.
Proof.
  intros Hb. destruct (exists_last Hb) as (r & c & ->). now rewrite app_assoc, !last_app_one.
Qed.
Lemma dotted_last ls : ls <> [] -> Forall label_nl ls -> dotted ls <> [] /\ last (dotted ls) 0 <> 46.
Proof.
  induction ls as [|x r IH]; [easy|]. intros _ H. inversion H; subst. destruct (label_nl_last _ H2). destruct r as [|y r]; [easy|].
  change (dotted (x :: y :: r)) with (x ++ 46 :: dotted (y :: r)). destruct IH as [I1 I2]; [easy|easy|].
  split; [now destruct x|]. change (46 :: dotted (y :: r)) with ([46] ++ dotted (y :: r)). rewrite app_assoc, last_app_r; easy.
Qed.

Lemma hostname_nl_iff s : ascii_text s -> (is_possible_valid_ietf_hostname re_digit s = Ok true <-> hostname_nl s).
Proof.
  intros Ha. unfold is_possible_valid_ietf_hostname, hostname_nl.
  destruct (Nat.ltb 255 (List.length s)) eqn:El; [apply Nat.ltb_lt in El; split; [easy|lia]|].
  apply Nat.ltb_ge in El.
  assert (K : forall h, ascii_text h -> (forallb (label_matches re_digit) (split_on 46 h) = true <-> exists ls, ls <> [] /\ Forall label_nl ls /\ h = dotted ls)).
  { intros h Hh. rewrite forallb_forall. split.
    - intros H. exists (split_on 46 h). split; [apply split_nonempty|]. split; [|now rewrite dotted_split].
      apply Forall_forall. intros x Hx. apply label_matches_iff; [|now apply H]. intros c Hc. apply Hh. eapply split_chars; eauto.
    - intros (ls & Hn & Hf & ->). rewrite split_dotted; [|easy|].
      + intros x Hx. apply label_matches_iff.
        * intros c Hc. apply Hh. rewrite <- (split_dotted ls) in Hx; [eapply split_chars; eauto|easy|].
          intros z Hz. apply label_nl_nodot. eapply Forall_forall; eauto.
        * eapply Forall_forall; eauto.
      + intros z Hz. apply label_nl_nodot. eapply Forall_forall; eauto. }
  destruct s as [|c0 r0].
  - split; [easy|]. intros (_ & ls & Hn & Hf & E). destruct (dotted_last ls Hn Hf) as [Hd _].
    destruct E as [E|E]; [now rewrite <- E in Hd|]. now destruct (dotted ls).
  - remember (c0 :: r0) as s eqn:Es. assert (Hs : s <> []) by (rewrite Es; easy). clear Es.
    assert (E0 : forall b c : bool, Ok b = Ok c <-> b = c) by (intros b c; split; [now intros [= ->]|now intros ->]). rewrite E0.
    destruct (exists_last Hs) as (h & c & ->). rewrite last_app_one, removelast_last. unfold dot in *.
    destruct (c =? 46) eqn:E.
    + apply N.eqb_eq in E. subst c. rewrite K by (intros d Hd; apply Ha, in_or_app; now left). split.
      * intros (ls & A & B & ->). split; [easy|]. exists ls. auto.
      * intros (_ & ls & A & B & [D|D]); exists ls; repeat split; auto.
        { destruct (dotted_last ls A B) as [_ Hl]. rewrite <- D, last_app_one in Hl. easy. }
        { now apply app_inj_tail in D. }
    + rewrite (K (h ++ [c])) by easy. split.
      * intros (ls & A & B & D). split; [easy|]. exists ls. auto.
      * intros (_ & ls & A & B & [D|D]); exists ls; repeat split; auto.
        apply app_inj_tail in D. lia.
Qed.

Lemma no_newline_hostname s : ~ In 10 s -> (hostname_nl s <-> hostname s).
Proof.
  intros Hn. unfold hostname_nl, hostname. split; intros (Hl & ls & A & B & C); (split; [easy|]); exists ls; repeat split; auto.
  - assert (Hin : forall x c, In x ls -> In c x -> In c s).
    { intros x c Hx Hc. assert (In c (dotted ls)).
      { apply (split_chars 46 _ x); [rewrite split_dotted; auto|auto]. intros z Hz. apply label_nl_nodot. eapply Forall_forall; eauto. }
      destruct C as [->| ->]; [easy|]. apply in_or_app. now left. }
    apply Forall_forall. intros x Hx. pose proof (proj1 (Forall_forall _ _) B x Hx) as [H|(y & _ & ->)]; [easy|].
    exfalso. apply Hn. apply (Hin _ 10 Hx), in_or_app. right. now left.
  - eapply Forall_impl; [|exact B]. intros x H. now left.
Qed.

Lemma hostname_total s : s <> [] -> exists b, is_possible_valid_ietf_hostname re_digit s = Ok b.
Proof. intros H. unfold is_possible_valid_ietf_hostname. destruct (Nat.ltb _ _); [eauto|]. destruct s; [easy|eauto]. Qed.
End Chars.

(** ** IPv4 *)
Lemma octet_iff s : octet_ok s = true <-> exists n, n <= 255 /\ s = dec n.
Proof.
  unfold octet_ok, ascii_digit. split.
  - rewrite !andb_true_iff. intros [[[[Hn Hd] Hl] Hz] Hv].
    destruct s as [|a [|b [|c [|d r]]]]; cbn [List.length Nat.leb Nat.eqb negb] in Hn, Hl; try discriminate;
      cbn [forallb] in Hd; unfold value in Hv; cbn [fold_left] in Hv.
    + exists (a - 48). split; [lia|]. unfold dec. replace (a - 48 <? 10) with true by lia. f_equal. lia.
    + exists ((a - 48) * 10 + (b - 48)). split; [lia|]. unfold dec.
      replace (_ <? 10) with false by lia. replace (_ <? 100) with true by lia.
      rewrite (N.add_comm ((a - 48) * 10)), N.div_add, N.mod_add, N.div_small, N.mod_small by lia. repeat f_equal; lia.
    + exists (((a - 48) * 10 + (b - 48)) * 10 + (c - 48)). split; [lia|]. unfold dec.
      replace (_ <? 10) with false by lia. replace (_ <? 100) with false by lia.
      assert (E1 : (((a - 48) * 10 + (b - 48)) * 10 + (c - 48)) / 10 = (a - 48) * 10 + (b - 48)).
      { rewrite (N.add_comm (_ * 10)), N.div_add, N.div_small by lia. lia. }
      assert (E2 : (((a - 48) * 10 + (b - 48)) * 10 + (c - 48)) / 100 = (a - 48)).
      { change 100 with (10 * 10). rewrite <- N.div_div, E1 by lia. rewrite (N.add_comm (_ * 10)), N.div_add, N.div_small by lia. lia. }
      rewrite E1, E2. rewrite (N.add_comm ((a - 48) * 10)), N.mod_add, N.mod_small by lia.
      rewrite (N.add_comm _ (c - 48)), N.mod_add, N.mod_small by lia. repeat f_equal; lia.
  - intros (n & Hn & ->). unfold dec.
    assert (Hm : n mod 10 < 10) by (apply N.mod_lt; lia).
    assert (Hm2 : n / 10 mod 10 < 10) by (apply N.mod_lt; lia).
    assert (Ed : n = 10 * (n / 10) + n mod 10) by (apply N.div_mod; lia).
    assert (Ed2 : n / 10 = 10 * (n / 10 / 10) + n / 10 mod 10) by (apply N.div_mod; lia).
    assert (E100 : n / 100 = n / 10 / 10) by (rewrite N.div_div by lia; easy).
    destruct (n <? 10) eqn:E1; [|destruct (n <? 100) eqn:E2];
      rewrite !andb_true_iff; repeat split; try easy; cbn [forallb]; try (unfold value; cbn [fold_left]); try lia.
Qed.

Lemma dec_nodot n : n <= 255 -> ~ In 46 (dec n) /\ ~ In 47 (dec n).
Proof.
  intros Hn. assert (octet_ok (dec n) = true) by (apply octet_iff; eauto).
  unfold octet_ok in H. rewrite !andb_true_iff in H. destruct H as [[[[_ H] _] _] _]. rewrite forallb_forall in H.
  unfold ascii_digit in H. split; intros Hi; apply H in Hi; lia.
Qed.

Lemma ipv4_iff s : is_valid_ipv4_address s = true <-> ipv4 s.
Proof.
  unfold is_valid_ipv4_address, ipv4. rewrite !andb_true_iff. unfold dot, slash. split.
  - intros [[Hs Hl] Ho]. apply Nat.eqb_eq in Hl.
    pose proof (dotted_split s) as E. destruct (split_on 46 s) as [|w [|x [|y [|z [|]]]]]; cbn in Hl; try lia.
    cbn [forallb] in Ho. rewrite !andb_true_iff, !octet_iff in Ho.
    destruct Ho as ((a & ? & ->) & (b & ? & ->) & (c & ? & ->) & (d & ? & ->) & _).
    exists a, b, c, d. repeat split; auto.
  - intros (a & b & c & d & Ha & Hb & Hc & Hd & ->).
    destruct (dec_nodot a Ha), (dec_nodot b Hb), (dec_nodot c Hc), (dec_nodot d Hd).
    rewrite split_dotted; [|easy|].
    2:{ intros x Hx. cbn [In] in Hx. destruct Hx as [<-|[<-|[<-|[<-|[]]]]]; easy. }
    repeat split.
    + apply negb_true_iff. apply not_true_iff_false. rewrite existsb_exists. intros (z & Hz & E). apply N.eqb_eq in E. subst z.
      cbn [dotted] in Hz. repeat (apply in_app_or in Hz; destruct Hz as [Hz|Hz]; [easy|cbn [In] in Hz; destruct Hz as [Hz|Hz]; [lia|]]). easy.
    + cbn [forallb]. rewrite !andb_true_iff, !octet_iff. repeat split; eauto.
Qed.

(** ** Ports *)
Lemma reads_digits s n : reads s n -> s <> [] /\ forall c, In c s -> digit c.
Proof.
  induction 1 as [c Hc|s n c H [I1 I2] Hc].
  - split; [easy|]. intros d [<-|[]]. easy.
  - split; [now destruct s|]. intros d Hd. apply in_app_or in Hd. destruct Hd as [Hd|[<-|[]]]; auto.
Qed.
Lemma digits_read s : s <> [] -> (forall c, In c s -> digit c) -> exists n, reads s n.
Proof.
  induction s as [|c s IH] using rev_ind; [easy|]. intros _ Hd. destruct s as [|c0 r].
  - exists (c - 48). apply reads_one. apply Hd. now left.
  - destruct IH as [n Hn]; [easy| |].
    + intros d Hi. apply Hd, in_or_app. now left.
    + exists (10 * n + (c - 48)). apply reads_more; [easy|]. apply Hd, in_or_app. right. now left.
Qed.
Lemma port_iff is_digit s : (forall c, c < 128 -> (is_digit c = true <-> digit c)) -> ascii_text s ->
  (is_valid_port_number is_digit s = true <-> exists n, reads s n).
Proof.
  intros Hd Ha. unfold is_valid_port_number. rewrite andb_true_iff, forallb_forall. split.
  - intros [Hn H]. apply digits_read; [now destruct s|]. intros c Hc. apply Hd; auto.
  - intros [n Hn]. apply reads_digits in Hn. destruct Hn as [Hn H]. split; [now destruct s|]. intros c Hc. apply Hd; auto.
Qed.
