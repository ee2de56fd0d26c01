(** Properties C81-C83: host and port checks, flattened dictionaries, names of applications. *)
From Coq Require Import List NArith Bool String Lia.
From Verif Require Import Base UtilModel UtilSpec UtilProofs UtilProofs2.
Import ListNotations.
Local Open Scope N_scope.

(** * C81: what the checks of host names, addresses and ports accept *)
(** Of ASCII characters, the digits are 0 to 9. *)
Definition digits_of_ascii (is_digit : N -> bool) : Prop := forall c, c < 128 -> (is_digit c = true <-> digit c).
Example C81_digits_ex : digits_of_ascii ascii_digit.
Proof. intros c _. unfold ascii_digit, digit. rewrite andb_true_iff, !N.leb_le. easy. Qed.

(** IPv4 addresses: exactly four decimal numbers up to 255. *)
Theorem C81_ipv4_addresses : forall s, is_valid_ipv4_address s = true <-> ipv4 s.
Proof. exact ipv4_iff. Qed.
Example C81_ipv4_ex : is_valid_ipv4_address (u "192.168.0.12") = true /\ ipv4 (u "192.168.0.12") /\ is_valid_ipv4_address (u "192.168.0.256") = false
  /\ is_valid_ipv4_address (u "192.168.00.1") = false.
Proof. split; [easy|]. split; [exists 192, 168, 0, 12; repeat split; try lia; easy|easy]. Qed.

(** The full claim: an answer for every text, and "yes" exactly for addresses and host names. *)
Definition C81_hostname_full : Prop := forall re_digit, digits_of_ascii re_digit -> forall s, ascii_text s ->
  (exists b, is_valid_hostname re_digit s = Ok b) /\ (is_valid_hostname re_digit s = Ok true <-> ipv4 s \/ hostname s).
Theorem C81_hostname_refuted : ~ C81_hostname_full.
Proof.
  intros H. destruct (H ascii_digit C81_digits_ex [] ltac:(intros c [])) as [[b Hb] _]. discriminate Hb.
Qed.
(** The empty text is not the only exception: a newline at the end of a label is not noticed. *)
Definition C81_hostname_nonempty : Prop := forall re_digit, digits_of_ascii re_digit -> forall s, ascii_text s -> s <> [] ->
  (is_valid_hostname re_digit s = Ok true <-> ipv4 s \/ hostname s).
Theorem C81_newline_refuted : ~ C81_hostname_nonempty.
Proof.
  intros H. pose proof (H ascii_digit C81_digits_ex (u "www" ++ [10])) as K. destruct K as [K _].
  - intros c Hc. cbn in Hc. intuition subst; lia.
  - easy.
  - destruct (K ltac:(vm_compute; reflexivity)) as [K2|K2].
    + apply C81_ipv4_addresses in K2. vm_compute in K2. discriminate.
    + destruct K2 as (_ & ls & Hn & Hf & E).
      assert (Hin : In 10 (dotted ls)).
      { assert (Hi : In 10 (u "www" ++ [10])) by (apply in_or_app; right; now left).
        destruct E as [E|E]; [now rewrite <- E|]. rewrite E in Hi. apply in_app_or in Hi. destruct Hi as [Hi|[Hi|[]]]; [easy|lia]. }
      clear E. revert Hin. induction Hf as [|x r Hx Hf IH]; [easy|]. intros Hin. destruct Hx as (_ & Hc & _).
      assert (Hnx : ~ In 10 x) by (intros Hi; apply Hc in Hi; unfold letter, digit in Hi; lia).
      destruct r as [|y r]; [easy|]. change (dotted (x :: y :: r)) with (x ++ 46 :: dotted (y :: r)) in Hin.
      apply in_app_or in Hin. destruct Hin as [Hin|[Hin|Hin]]; [easy|lia|]. apply IH; [easy|easy].
Qed.

(** Without a newline, a text that is not empty is accepted exactly if it is an address or a host name, and always gets an answer. *)
Theorem C81_hostname_partial : forall re_digit, digits_of_ascii re_digit -> forall s, ascii_text s -> s <> [] -> ~ In 10 s ->
  (exists b, is_valid_hostname re_digit s = Ok b) /\ (is_valid_hostname re_digit s = Ok true <-> ipv4 s \/ hostname s).
Proof.
  intros rd Hd s Ha Hs Hn. unfold is_valid_hostname. split.
  - destruct (is_valid_ipv4_address s); [eauto|]. now apply hostname_total.
  - rewrite <- ipv4_iff, <- no_newline_hostname, <- (hostname_nl_iff rd Hd) by easy.
    destruct (is_valid_ipv4_address s) eqn:E; [intuition|]. split; [auto|]. now intros [?|?].
Qed.
(** With newlines: exactly what is accepted. *)
Theorem C81_hostname_exact : forall re_digit, digits_of_ascii re_digit -> forall s, ascii_text s ->
  (is_valid_hostname re_digit s = Ok true <-> ipv4 s \/ hostname_nl s).
Proof.
  intros rd Hd s Ha. unfold is_valid_hostname. rewrite <- ipv4_iff, <- (hostname_nl_iff rd Hd) by easy.
  destruct (is_valid_ipv4_address s) eqn:E; [intuition|]. split; [auto|]. now intros [?|?].
Qed.
(** Not only ASCII: the code points beyond it that can stand in a host name are digits and the four whose case variants are
    ASCII letters. *)
Definition folds_to_letter (c : N) : Prop := c = 304 \/ c = 305 \/ c = 383 \/ c = 8490.
Theorem C81_hostname_unicode : forall re_digit s,
  (is_valid_hostname re_digit s = Ok true -> forall c, In c s -> letter c \/ digit c \/ c = 45 \/ c = 46 \/ c = 10 \/ re_digit c = true \/ folds_to_letter c) /\
  (forall c, folds_to_letter c \/ re_digit c = true -> c <> 45 -> c <> 46 -> is_valid_hostname re_digit [c; c] = Ok true).
Proof.
  intros rd s. split.
  - intros H c Hc. unfold is_valid_hostname in H. destruct (is_valid_ipv4_address s) eqn:E.
    + apply ipv4_iff in E. destruct E as (n1 & n2 & n3 & n4 & L1 & L2 & L3 & L4 & ->).
      assert (DG : forall n d, n <= 255 -> In d (dec n) -> digit d).
      { intros n d L Hd. unfold dec in Hd. unfold digit. pose proof (N.mod_upper_bound n 10 ltac:(lia)). pose proof (N.mod_upper_bound (n / 10) 10 ltac:(lia)).
        assert (n / 100 <= 2) by (apply N.lt_succ_r; apply N.div_lt_upper_bound; lia).
        destruct (N.ltb_spec n 10); [destruct Hd as [<-|[]]; lia|]. destruct (N.ltb_spec n 100).
        - assert (n / 10 < 10) by (apply N.div_lt_upper_bound; lia). destruct Hd as [<-|[<-|[]]]; lia.
        - destruct Hd as [<-|[<-|[<-|[]]]]; lia. }
      cbn [dotted] in Hc. repeat (apply in_app_or in Hc as [Hc|Hc] || (destruct Hc as [<-|Hc]; [auto|])); eauto.
    + unfold is_possible_valid_ietf_hostname in H. destruct (Nat.ltb _ _); [discriminate|]. destruct s as [|c0 r0]; [destruct Hc|]. remember (c0 :: r0) as s eqn:Es.
      assert (Hs : s <> []) by (rewrite Es; easy). clear Es E. injection H as H.
      assert (K : forall h, forallb (label_matches rd) (split_on 46 h) = true -> In c h -> letter c \/ digit c \/ c = 45 \/ c = 46 \/ c = 10 \/ rd c = true \/ folds_to_letter c).
      { intros h F I. rewrite forallb_forall in F. rewrite <- (dotted_split h) in I.
        assert (Q : forall ls, In c (dotted ls) -> c = 46 \/ exists x, In x ls /\ In c x).
        { induction ls as [|x [|y ls] IH]; [intros []|intros Hi; right; exists x; split; [now left|exact Hi]|]. change (dotted (x :: y :: ls)) with (x ++ 46 :: dotted (y :: ls)).
          intros Hi. apply in_app_or in Hi as [Hi|[Hi|Hi]]; [right; exists x; split; [now left|exact Hi]|auto|]. destruct (IH Hi) as [X|(z & Z1 & Z2)]; [auto|]. right. exists z. split; [now right|exact Z2]. }
        destruct (Q _ I) as [->|(x & X1 & X2)]; [auto|]. specialize (F x X1). unfold label_matches in F. apply andb_true_iff in F as [_ F]. apply existsb_exists in F as (n & _ & F).
        rewrite !andb_true_iff in F. destruct F as [[[_ F] _] G]. rewrite forallb_forall in F. rewrite <- (firstn_skipn n x) in X2. apply in_app_or in X2 as [X2|X2].
        - specialize (F c X2). unfold re_class, re_letter, dash in F. unfold letter, folds_to_letter. lia.
        - destruct (skipn n x) as [|d [|d' z]]; [destruct X2| |discriminate]. destruct X2 as [<-|[]]. cbn [at_end] in G. unfold newline in G. lia. }
      destruct (exists_last Hs) as (h & d & ->). rewrite last_app_one, removelast_last in H. unfold dot in H. destruct (d =? 46) eqn:E; [|now apply (K (h ++ [d]))].
      apply in_app_or in Hc as [Hc|[<-|[]]]; [now apply (K h)|]. right. right. right. left. lia.
  - intros c Hc N1 N2. unfold is_valid_hostname, is_valid_ipv4_address.
    assert (SP : split_on 46 [c; c] = [[c; c]]) by (cbn [split_on]; rewrite (proj2 (N.eqb_neq c 46) N2); reflexivity).
    unfold dot. rewrite SP. cbn [List.length Nat.eqb]. rewrite andb_false_r. cbn [andb]. unfold is_possible_valid_ietf_hostname. cbn [List.length Nat.ltb Nat.leb last removelast].
    unfold dot. rewrite (proj2 (N.eqb_neq c 46) N2), SP. cbn [forallb]. f_equal. rewrite andb_true_r. unfold label_matches. unfold dash. rewrite (proj2 (N.eqb_neq c 45) N1). cbn [negb andb].
    apply existsb_exists. exists 2%nat. split; [apply in_seq; lia|]. cbn [firstn skipn List.length Nat.leb forallb last at_end]. rewrite (proj2 (N.eqb_neq c 45) N1).
    assert (R : re_class rd c = true) by (unfold re_class, re_letter; unfold folds_to_letter in Hc; lia). rewrite R. reflexivity.
Qed.
Example C81_hostname_unicode_ex : is_valid_hostname ascii_digit [304; 8490; 383; 305] = Ok true /\ is_valid_hostname ascii_digit [233] = Ok false.
Proof. split; vm_compute; reflexivity. Qed.
Print Assumptions C81_hostname_unicode.
(** Only the empty text gets no answer, whatever the characters: it raises IndexError. *)
Theorem C81_hostname_answers : forall re_digit s, ((exists b, is_valid_hostname re_digit s = Ok b) <-> s <> []) /\
  is_valid_hostname re_digit [] = Raise "IndexError".
Proof.
  intros rd s. split; [|reflexivity]. split.
  - intros [b Hb] ->. discriminate Hb.
  - intros Hs. unfold is_valid_hostname. destruct (is_valid_ipv4_address s); [eauto|]. now apply hostname_total.
Qed.
Example C81_hostname_ex : is_valid_hostname ascii_digit (u "mail-1.Example.com.") = Ok true /\ hostname (u "mail-1.Example.com.")
  /\ is_valid_hostname ascii_digit (u "-mail.example") = Ok false /\ is_valid_hostname ascii_digit (u "mail..example") = Ok false
  /\ ascii_text (u "mail-1.Example.com.") /\ ~ In 10 (u "mail-1.Example.com.").
Proof.
  assert (Ha : ascii_text (u "mail-1.Example.com.")) by (intros c Hc; cbn in Hc; intuition subst; lia).
  assert (Hn : ~ In 10 (u "mail-1.Example.com.")) by (intros Hc; cbn in Hc; intuition discriminate).
  assert (E : is_valid_hostname ascii_digit (u "mail-1.Example.com.") = Ok true) by (vm_compute; reflexivity).
  split; [exact E|]. split; [|repeat split; try (vm_compute; reflexivity); assumption].
  apply (C81_hostname_partial _ C81_digits_ex _ Ha ltac:(easy) Hn) in E. destruct E as [E|E]; [|exact E].
  apply C81_ipv4_addresses in E. vm_compute in E. discriminate.
Qed.

(** Ports: the full claim, numbers up to 65535. *)
Definition C81_port_full : Prop := forall is_digit, digits_of_ascii is_digit -> forall s, ascii_text s ->
  (is_valid_port_number is_digit s = true <-> port s).
Theorem C81_port_refuted : ~ C81_port_full.
Proof.
  intros H. pose proof (H ascii_digit C81_digits_ex (u "99999")) as K. destruct K as [K _].
  - intros c Hc. cbn in Hc. intuition subst; lia.
  - destruct (K ltac:(vm_compute; reflexivity)) as (n & Hr & Hn).
    assert (V : forall s n, reads s n -> value s = n).
    { clear. induction 1 as [c Hc|s n c H IH Hc]; [easy|]. unfold value in *. rewrite fold_left_app, IH. cbn [fold_left]. lia. }
    apply V in Hr. vm_compute in Hr. subst n. lia.
Qed.
(** A text of ASCII characters is accepted exactly if it is the decimal text of a number; so every port is. *)
Theorem C81_port_partial : forall is_digit, digits_of_ascii is_digit -> forall s, ascii_text s ->
  (is_valid_port_number is_digit s = true <-> exists n, reads s n).
Proof. intros is_digit Hd s Ha. now apply port_iff. Qed.
Example C81_port_ex : is_valid_port_number ascii_digit (u "8080") = true /\ reads (u "8080") 8080 /\ is_valid_port_number ascii_digit (u "80a") = false.
Proof.
  split; [easy|]. split; [|easy].
  change (u "8080") with ((([56] ++ [48]) ++ [56]) ++ [48]). change 8080 with (10 * (10 * (10 * (56 - 48) + (48 - 48)) + (56 - 48)) + (48 - 48)).
  repeat constructor; unfold digit; lia.
Qed.

(** * C82: flattened dictionaries *)
(** The full claim: exactly the entries of the nested dictionaries, under the text of their path, in order. *)
Definition C82_flatten_full : Prop := forall (A : Type) (d : list (text * dval A)), proper (Dict d) ->
  flatten_dictionary d = map (fun px => (dotted (fst px), snd px)) (entries (Dict d)).
Theorem C82_flatten_refuted : ~ C82_flatten_full.
Proof.
  intros H. specialize (H N [(u "a.b", Leaf 1); (u "a", Dict [(u "b", Leaf 2)])]).
  assert (Hp : proper (A := N) (Dict [(u "a.b", Leaf 1); (u "a", Dict [(u "b", Leaf 2)])])).
  { cbn. repeat split; repeat constructor; cbn; intuition discriminate. }
  apply H in Hp. vm_compute in Hp. discriminate.
Qed.
(** With keys that are not empty and have no dots it holds, and no two entries share a text. *)
Theorem C82_flatten_partial : forall (A : Type) (d : list (text * dval A)), proper (Dict d) -> all_keys plain_key (Dict d) ->
  flatten_dictionary d = map (fun px => (dotted (fst px), snd px)) (entries (Dict d)) /\
  NoDup (map fst (flatten_dictionary d)) /\
  (forall p x q y, In (p, x) (entries (Dict d)) -> In (q, y) (entries (Dict d)) -> dotted p = dotted q -> p = q).
Proof.
  intros A d Hp Ha. split; [now apply flatten_plain|]. split; [apply flatten_nodup|].
  intros p x q y Hi Hj. apply dotted_inj.
  - eapply entries_nonempty; eauto.
  - eapply entries_nonempty; eauto.
  - intros k Hk. eapply (entries_keys plain_key) in Hk; eauto. apply Hk.
  - intros k Hk. eapply (entries_keys plain_key) in Hk; eauto. apply Hk.
Qed.
(** Whatever the keys: every text once, with the last entry that has this text, and nothing else. *)
Theorem C82_flatten_exact : forall (A : Type) (d : list (text * dval A)),
  NoDup (map fst (flatten_dictionary d)) /\ forall k x, In (k, x) (flatten_dictionary d) <-> last_entry d k x.
Proof. intros A d. split; [apply flatten_nodup|]. intros k x. apply flatten_in. Qed.
Definition C82_d : list (text * dval N) :=
  [(u "eps", Dict [(u "hash", Dict [(u "calls", Leaf 3); (u "time", Leaf 7)]); (u "none", Dict [])]); (u "up", Leaf 1)].
Example C82_flatten_ex : proper (Dict C82_d) /\ all_keys plain_key (Dict C82_d) /\
  flatten_dictionary C82_d = [(u "eps.hash.calls", 3); (u "eps.hash.time", 7); (u "up", 1)].
Proof.
  split; [cbn; repeat split; repeat constructor; cbn; intuition discriminate|].
  split; [|vm_compute; reflexivity]. cbn; unfold plain_key; repeat split; try easy; cbn; intuition discriminate.
Qed.

(** * C83: names of applications *)
(** The full claim: scripts with different names are different applications. *)
Definition C83_names_full : Prop := forall d1 d2 s t, file_name s -> file_name t -> s <> t ->
  application_name (d1 ++ 47 :: script s) <> application_name (d2 ++ 47 :: script t).
Theorem C83_names_refuted : ~ C83_names_full.
Proof.
  intros H. apply (H [] [] (u "ShopApp") (u "shop_app")); try (vm_compute; reflexivity); try easy;
    split; cbn; intuition discriminate.
Qed.
(** Scripts in camel case have different names, and scripts in snake case have the name of the file; the directory does not matter. *)
Theorem C83_names_partial :
  (forall dir s, snake s -> application_name (dir ++ 47 :: script s) = s) /\
  (forall d1 d2 s t, camel s -> camel t -> s <> t -> application_name (d1 ++ 47 :: script s) <> application_name (d2 ++ 47 :: script t)) /\
  (forall d1 d2 s t, snake s -> snake t -> s <> t -> application_name (d1 ++ 47 :: script s) <> application_name (d2 ++ 47 :: script t)).
Proof.
  split; [|split].
  - intros dir s [Hf Hs]. rewrite name_of_path by easy. now apply snake_name.
  - intros d1 d2 s t Hs Ht Hn E. apply Hn. rewrite !name_of_path in E by (apply Hs || apply Ht). now apply camel_inj.
  - intros d1 d2 s t [Hf Hs] [Hg Ht] Hn E. rewrite !name_of_path, !snake_name in E by easy. easy.
Qed.
(** The name has no capital letters and does not depend on the directory; a script called by that name has that name. *)
Theorem C83_name_is_stable : forall s, file_name s ->
  (forall dir, application_name (dir ++ 47 :: script s) = application_name (script s)) /\
  (forall c, In c (application_name (script s)) -> ~ capital c) /\
  application_name (script (application_name (script s))) = application_name (script s).
Proof.
  intros s Hf. rewrite name_of_script by easy. split; [|split].
  - intros dir. now apply name_of_path.
  - intros c. apply name_no_capital.
  - assert (Hg : file_name (camel_to_snake s)).
    { assert (K : forall a r, a = 46 \/ a = 47 -> In a (camel_rest r) -> In a r).
      { clear. intros a r Ha. induction r as [|c r IH]; [easy|]. cbn [camel_rest]. intros Hi. apply in_app_or in Hi. destruct Hi as [Hi|Hi]; [|right; auto].
        unfold lower, underscore in Hi. destruct (is_upper c) eqn:E; cbn [In] in Hi.
        - unfold is_upper in E. rewrite andb_true_iff, !N.leb_le in E. lia.
        - destruct Hi as [->|[]]. now left. }
      assert (K2 : forall a, a = 46 \/ a = 47 -> In a (camel_to_snake s) -> In a s).
      { intros a Ha. destruct s as [|c r]; [easy|]. cbn [camel_to_snake]. intros [Hi|Hi]; [|right; now apply K].
        unfold lower in Hi. destruct (is_upper c) eqn:E; [|now left]. unfold is_upper in E. rewrite andb_true_iff, !N.leb_le in E. lia. }
      destruct Hf as [H1 H2]. split; intros Hi; apply K2 in Hi; auto. }
    rewrite name_of_script by easy. apply snake_name. intros c. apply name_no_capital.
Qed.
(** Every ".py" in the file's name is dropped, not only the last: with pieces free of dots, the script "a.pyb.pyc" is the
    same application as the script "abc.py", and a command without ".py" is the same application as the script. *)
Theorem C83_every_py_is_dropped : forall d1 d2 w ws, file_name w -> Forall file_name ws ->
  application_name (d1 ++ 47 :: w ++ flat_map (fun x => u ".py" ++ x) ws) = application_name (d2 ++ 47 :: script (w ++ List.concat ws)).
Proof.
  intros d1 d2 w ws Hw F. rewrite name_of_pieces by easy. symmetry. apply name_of_path.
  assert (G : forall c, (c = 46 \/ c = 47) -> ~ In c (w ++ List.concat ws)).
  { intros c Hc Hi. apply in_app_or in Hi as [Hi|Hi].
    - destruct Hw as [A B], Hc as [->| ->]; easy.
    - apply in_concat in Hi as [x [Hx Hi]]. rewrite Forall_forall in F. destruct (F x Hx) as [A B], Hc as [->| ->]; easy. }
  split; apply G; auto.
Qed.
Example C83_py_ex : file_name (u "my") /\ Forall file_name [u "thon_tool"; []] /\
  application_name (u "bin/my.python_tool.py") = u "mython_tool" /\ application_name (u "/x/mython_tool.py") = u "mython_tool".
Proof. repeat constructor; try (vm_compute; intuition discriminate). Qed.
Example C83_names_ex : camel (u "FunFactoryService") /\ snake (u "fun_factory") /\
  application_name (u "/opt/apps/FunFactoryService.py") = u "fun_factory_service" /\ application_name (u "apps/fun_factory.py") = u "fun_factory".
Proof.
  repeat split; try (vm_compute; reflexivity); try (cbn; intuition discriminate).
  - exists 70, (u "unFactoryService"). split; [easy|]. unfold capital. lia.
  - intros c Hc Hk. cbn in Hc. unfold capital in Hk. intuition subst; lia.
Qed.

Print Assumptions C81_ipv4_addresses. Print Assumptions C81_hostname_refuted. Print Assumptions C81_newline_refuted.
Print Assumptions C81_hostname_partial. Print Assumptions C81_hostname_exact. Print Assumptions C81_hostname_answers.
Print Assumptions C81_port_refuted. Print Assumptions C81_port_partial.
Print Assumptions C82_flatten_refuted. Print Assumptions C82_flatten_partial. Print Assumptions C82_flatten_exact.
Print Assumptions C83_names_refuted. Print Assumptions C83_names_partial. Print Assumptions C83_name_is_stable. Print Assumptions C83_every_py_is_dropped.
