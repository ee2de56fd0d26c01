(** Proofs about text wrapping. *)
From Coq Require Import String Ascii ZArith Bool Lia List.
From Verif Require Import WrapModel WrapSpec.
Import ListNotations.
Local Open Scope string_scope.

Lemma blank_spec : forall c, blank c = true <-> white c.
Proof.
  intros c. unfold blank, white. cbv zeta. rewrite orb_true_iff, !andb_true_iff, !Nat.leb_le. tauto.
Qed.
Lemma blank_false : forall c, blank c = false <-> ~ white c.
Proof. intros c. rewrite <- blank_spec. destruct (blank c); split; congruence. Qed.
Lemma sapp_assoc : forall a b c : string, (a ++ b) ++ c = a ++ b ++ c.
Proof. induction a as [|x a IH]; intros b c; [reflexivity|]. exact (f_equal (String x) (IH b c)). Qed.
Lemma sapp_nil : forall a : string, a ++ "" = a.
Proof. induction a as [|x a IH]; [reflexivity|]. exact (f_equal (String x) IH). Qed.
Lemma slen : forall a b, len (a ++ b) = (len a + len b)%Z.
Proof. unfold len. induction a as [|c a IH]; intros b; [reflexivity|]. cbn [append String.length]. specialize (IH b). lia. Qed.

(** words *)
Lemma split_words_ok : forall s w ws, split_words s = (w, ws) ->
  (w = "" -> words s ws) /\ (w <> "" -> word w /\ words s (w :: ws)).
Proof.
  induction s as [|c s IH]; intros w ws H; cbn [split_words] in H.
  - injection H as <- <-. split; [constructor|congruence].
  - destruct (split_words s) as [v vs] eqn:E. specialize (IH v vs eq_refl). destruct IH as (I1 & I2).
    destruct (blank c) eqn:B.
    + apply blank_spec in B. injection H as <- <-. split; [|congruence]. intros _.
      destruct (String.eqb_spec v "") as [->|ne]; apply ws_white; auto. apply I2; auto.
    + apply blank_false in B. injection H as <- <-. split; [discriminate|]. intros _.
      destruct (String.eqb_spec v "") as [->|ne].
      * assert (I3 : words s vs) by auto. split; [apply word_one; auto|].
        destruct s as [|d s].
        -- cbn in E. injection E as <-. apply ws_last. apply word_one; auto.
        -- cbn [split_words] in E. destruct (split_words s) as [u us] eqn:E2. destruct (blank d) eqn:D; [|discriminate].
           apply blank_spec in D. change (String c (String d s)) with (String c "" ++ String d s). apply ws_word; [apply word_one; auto|auto|].
           inversion I3; subst; auto; exfalso.
           ++ match goal with H : word _ |- _ => inversion H; subst; tauto end.
           ++ match goal with H : word _ |- _ => inversion H; subst; cbn in *; match goal with H : String _ _ = String _ _ |- _ => injection H as -> _; tauto end end.
      * destruct (I2 ne) as (J1 & J2). split; [apply word_more; auto|].
        inversion J2 as [| |w0 W0|w0 d t ws0 W0 D W]; subst.
        -- exfalso. cbn [split_words] in E. destruct (split_words s0). replace (blank c0) with true in E by (symmetry; apply blank_spec; auto).
           injection E as <- _. congruence.
        -- apply ws_last. apply word_more; auto.
        -- change (String c (v ++ String d t)) with (String c v ++ String d t). apply ws_word; auto. apply word_more; auto.
Qed.
Lemma words_of_ok : forall s, words s (words_of s).
Proof.
  intros s. unfold words_of. destruct (split_words s) as [w ws] eqn:E. destruct (split_words_ok s w ws E) as (A & B).
  destruct (String.eqb_spec w ""); [auto|apply B; auto].
Qed.
Lemma words_word : forall s ws, words s ws -> Forall word ws.
Proof. induction 1; auto. Qed.
Lemma word_not_nil : forall w, word w -> w <> "".
Proof. destruct 1; discriminate. Qed.
Lemma word_chars : forall w c s, word w -> w = String c s -> ~ white c.
Proof. intros w c s H E. destruct H; congruence. Qed.
Lemma split_word_app : forall w, word w -> forall c s, white c -> split_words (w ++ String c s) = (w, words_of s).
Proof.
  intros w H c s C. induction H as [d D|d w D W IH].
  - cbn [append split_words]. destruct (split_words s) as [v vs] eqn:E. replace (blank c) with true by (symmetry; apply blank_spec; auto).
    replace (blank d) with false by (symmetry; apply blank_false; auto). unfold words_of. rewrite E. reflexivity.
  - cbn [append split_words]. cbn [append split_words] in IH. rewrite IH. replace (blank d) with false by (symmetry; apply blank_false; auto). reflexivity.
Qed.
Lemma split_word_alone : forall w, word w -> split_words w = (w, []).
Proof.
  intros w H. induction H as [d D|d w D W IH]; cbn [split_words].
  - replace (blank d) with false by (symmetry; apply blank_false; auto). reflexivity.
  - rewrite IH. replace (blank d) with false by (symmetry; apply blank_false; auto). reflexivity.
Qed.
(** The words of a text are unique: [words_of] computes them. *)
Lemma words_of_unique : forall s ws, words s ws -> words_of s = ws.
Proof.
  induction 1 as [|c s ws C W IH|w W|w c s ws W C Ws IH].
  - reflexivity.
  - unfold words_of in *. cbn [split_words]. destruct (split_words s) as [v vs]. replace (blank c) with true by (symmetry; apply blank_spec; auto).
    cbn. exact IH.
  - unfold words_of. rewrite (split_word_alone w W). destruct (String.eqb_spec w ""); [|reflexivity]. apply word_not_nil in W. congruence.
  - unfold words_of at 1. rewrite (split_word_app w W c s C). destruct (String.eqb_spec w ""); [apply word_not_nil in W; congruence|]. congruence.
Qed.

Lemma white_space : white " "%char.
Proof. right. vm_compute. lia. Qed.
Lemma join_words : forall l, Forall word l -> words (join " " l) l.
Proof.
  induction l as [|x l IH]; intros H; [constructor|]. inversion H as [|? ? X L]; subst. cbn [join]. destruct l as [|y l].
  - apply ws_last. auto.
  - change (" " ++ join " " (y :: l)) with (String " "%char (join " " (y :: l))). apply ws_word; auto. apply white_space.
Qed.
Lemma join_snoc : forall l w, l <> [] -> join " " (l ++ [w])%list = join " " l ++ " " ++ w.
Proof.
  induction l as [|x l IH]; intros w H; [congruence|]. destruct l as [|y l].
  - reflexivity.
  - change (join " " ((x :: y :: l) ++ [w])%list) with (x ++ " " ++ join " " ((y :: l) ++ [w])%list).
    rewrite IH by discriminate. cbn [join]. rewrite !sapp_assoc. reflexivity.
Qed.
Lemma join_nil : forall l, Forall word l -> join " " l = "" -> l = [].
Proof.
  intros [|x l] H E; auto. exfalso. inversion H as [|? ? X L]; subst. cbn in E. apply word_not_nil in X. destruct l, x; cbn in E; congruence.
Qed.

(** A line fits, or is one word. *)
Definition fits (width : Z) (s : string) : Prop := (len s <= width)%Z \/ word s.
(** [l] could not be continued with [w]. *)
Definition full (width : Z) (l w : string) : Prop := (width < len l + 1 + len w)%Z.

(** One line of text: the lines made so far end in complete ones [done]; with the words not yet seen. *)
Record ok (width : Z) (seen : list string) (done : list (list string)) (line : list string) (n : Z) : Prop := {
  ok_words : (concat done ++ line)%list = seen;
  ok_word : Forall word seen;
  ok_len : n = len (join " " line);
  ok_fit : line = [] \/ fits width (join " " line);
  ok_start : line = [] -> done = [];
  ok_done : Forall (fun l => l = [] \/ fits width (join " " l)) done;
  ok_blank : forall l, In l done -> l = [] -> exists w, In w seen /\ (width < len w)%Z;
  ok_greedy : forall a l1 l2 b, (done ++ [line])%list = (a ++ l1 :: l2 :: b)%list -> l1 <> [] -> exists w r, l2 = w :: r /\ full width (join " " l1) w }.
Lemma ok_nil : forall width, ok width [] [] [] 0.
Proof.
  intros width. constructor; auto.
  - intros l [].
  - intros a l1 l2 b H. exfalso. destruct a as [|? [|? ?]]; discriminate.
Qed.
Lemma len_pos : forall s, (0 <= len s)%Z.
Proof. intros s. unfold len. lia. Qed.
Lemma last_two : forall (A : Type) (d a b : list A) x y l1 l2, (d ++ [x; y] = a ++ l1 :: l2 :: b)%list ->
  (b = [] /\ a = d /\ l1 = x /\ l2 = y) \/ (exists b', b = (b' ++ [y])%list /\ (d ++ [x] = a ++ l1 :: l2 :: b')%list).
Proof.
  intros A d a b x y l1 l2 H. destruct b as [|z b] using rev_ind.
  - left. change (d ++ [x; y])%list with (d ++ [x] ++ [y])%list in H. change (a ++ [l1; l2])%list with (a ++ [l1] ++ [l2])%list in H.
    rewrite !app_assoc in H. apply app_inj_tail in H. destruct H as (H & ->). apply app_inj_tail in H. destruct H as (-> & ->). auto.
  - right. clear IHb. exists b. change (d ++ [x; y])%list with (d ++ [x] ++ [y])%list in H.
    replace (a ++ l1 :: l2 :: b ++ [z])%list with ((a ++ l1 :: l2 :: b) ++ [z])%list in H by (rewrite <- app_assoc; reflexivity).
    rewrite app_assoc in H. apply app_inj_tail in H. destruct H as (H & ->). auto.
Qed.
Lemma word_step_ok : forall width lines seen done line n w, ok width seen done line n -> word w ->
  exists done' line' n', word_step width ((lines ++ map (join " ") done)%list, line, n) w = ((lines ++ map (join " ") done')%list, line', n') /\
    ok width (seen ++ [w]) done' line' n'.
Proof.
  intros width lines seen done line n w O W. destruct O as [O1 O2 O3 O4 O5 O6 O7 O8]. subst seen n.
  assert (WS : Forall word ((concat done ++ line) ++ [w])%list) by (apply Forall_app; auto).
  unfold word_step.
  destruct line as [|x line0].
  - specialize (O5 eq_refl). subst done. cbn [join]. change (len "") with 0%Z. rewrite Z.add_0_l. cbn [map app concat].
    destruct (Z.ltb_spec width (len w)) as [L|L].
    + exists [[]], [w], (len w). split; [cbn [map join]; rewrite app_nil_r; reflexivity|]. constructor; auto.
      * right. right. cbn [join]. auto.
      * discriminate.
      * intros l _ _. exists w. split; [cbn; auto|auto].
      * intros a l1 l2 b H ne. destruct a as [|? [|? [|? ?]]]; try discriminate. cbn in H. congruence.
    + exists [], [w], (len w). split; [reflexivity|]. constructor; auto.
      * right. left. exact L.
      * intros l [].
      * intros a l1 l2 b H ne. destruct a as [|? [|? ?]]; discriminate.
  - set (ln := x :: line0) in *. assert (NE : ln <> []) by (unfold ln; discriminate).
    destruct (Z.ltb_spec width (len (join " " ln) + len w + 1)) as [L|L].
    + exists (done ++ [ln])%list, [w], (len w). split; [rewrite map_app; cbn [map]; rewrite app_assoc; reflexivity|]. constructor; auto.
      * rewrite concat_app. cbn [concat]. rewrite app_nil_r. reflexivity.
      * right. right. cbn [join]. auto.
      * discriminate.
      * apply Forall_app. split; auto.
      * intros l Hl El. apply in_app_or in Hl. destruct Hl as [Hl|[<-|[]]]; [|congruence].
        destruct (O7 l Hl El) as (v & V1 & V2). exists v. split; auto. apply in_or_app. auto.
      * intros a l1 l2 b H ne. rewrite <- app_assoc in H. cbn [app] in H. apply last_two in H. destruct H as [(-> & -> & -> & ->)|(b' & -> & H)].
        -- exists w, []. split; auto. unfold full. lia.
        -- eapply O8; eauto.
    + exists done, (ln ++ [w])%list, (len (join " " ln) + 1 + len w)%Z. split; [reflexivity|].
      assert (LN : len (join " " (ln ++ [w])%list) = (len (join " " ln) + 1 + len w)%Z).
      { rewrite (join_snoc ln w NE), !slen. change (len " ") with 1%Z. lia. }
      constructor; auto.
      * apply app_assoc.
      * right. left. lia.
      * intros H. destruct ln; discriminate.
      * intros l Hl El. destruct (O7 l Hl El) as (v & V1 & V2). exists v. split; auto. apply in_or_app. auto.
      * intros a l1 l2 b H ne. destruct b as [|z b _] using rev_ind.
        -- replace (a ++ [l1; l2])%list with ((a ++ [l1]) ++ [l2])%list in H by (rewrite <- app_assoc; reflexivity).
           apply app_inj_tail in H. destruct H as (-> & <-). destruct (O8 a l1 ln []) as (v & r & E & F); auto.
           { rewrite <- app_assoc. reflexivity. }
           exists v, (r ++ [w])%list. rewrite E. auto.
        -- replace (a ++ l1 :: l2 :: b ++ [z])%list with ((a ++ l1 :: l2 :: b) ++ [z])%list in H by (rewrite <- app_assoc; reflexivity).
           apply app_inj_tail in H. destruct H as (-> & <-). apply (O8 a l1 l2 (b ++ [ln])%list); auto. rewrite <- app_assoc. reflexivity.
Qed.
Lemma word_steps_ok : forall width lines ws seen done line n, ok width seen done line n -> Forall word ws ->
  exists done' line' n', fold_left (word_step width) ws ((lines ++ map (join " ") done)%list, line, n) = ((lines ++ map (join " ") done')%list, line', n') /\
    ok width (seen ++ ws) done' line' n'.
Proof.
  intros width lines. induction ws as [|w ws IH]; intros seen done line n O W.
  - exists done, line, n. rewrite app_nil_r. auto.
  - inversion W as [|? ? W1 W2]; subst. cbn [fold_left]. destruct (word_step_ok width lines seen done line n w O W1) as (d & l & m & E & O2).
    rewrite E. destruct (IH (seen ++ [w])%list d l m O2 W2) as (d' & l' & m' & E2 & O3). exists d', l', m'. rewrite <- app_assoc in O3. auto.
Qed.
(** The lines made of one line of text, as lists of words. *)
Lemma line_step_ok : forall width lines s, exists done line n,
  line_step width lines s = (lines ++ map (join " ") (done ++ [line]))%list /\ ok width (words_of s) done line n.
Proof.
  intros width lines s. unfold line_step.
  destruct (word_steps_ok width lines (words_of s) [] [] [] 0 (ok_nil width) (words_word _ _ (words_of_ok s))) as (d & l & n & E & O).
  cbn [map] in E. rewrite app_nil_r in E. rewrite E. exists d, l, n. split; auto. rewrite map_app, <- app_assoc. reflexivity.
Qed.
Lemma line_step_app : forall width lines s, line_step width lines s = (lines ++ line_step width [] s)%list.
Proof.
  intros width lines s. unfold line_step. assert (G : forall ws base d l n,
    let '(a, b, c) := fold_left (word_step width) ws (d, l, n) in fold_left (word_step width) ws ((base ++ d)%list, l, n) = ((base ++ a)%list, b, c)).
  { induction ws as [|w ws IH]; intros base d l n; cbn [fold_left]; [reflexivity|].
    assert (E : word_step width ((base ++ d)%list, l, n) w = let '(a, b, c) := word_step width (d, l, n) w in ((base ++ a)%list, b, c)).
    { unfold word_step. destruct l; destruct (Z.ltb width _); cbn; rewrite <- ?app_assoc; reflexivity. }
    rewrite E. destruct (word_step width (d, l, n) w) as ((a, b), c). apply IH. }
  specialize (G (words_of s) lines [] [] 0%Z). destruct (fold_left (word_step width) (words_of s) ([], [], 0%Z)) as ((a, b), c).
  rewrite app_nil_r in G. rewrite G, <- app_assoc. reflexivity.
Qed.
Lemma fold_lines : forall width ls acc, fold_left (line_step width) ls acc = (acc ++ flat_map (line_step width []) ls)%list.
Proof.
  intros width. induction ls as [|l ls IH]; intros acc; cbn [fold_left flat_map]; [rewrite app_nil_r; reflexivity|].
  rewrite IH, (line_step_app width acc l), <- app_assoc. reflexivity.
Qed.

(** Newlines *)
Definition one_line (s : string) : Prop := forall a b, s <> a ++ String newline b.
Lemma one_line_cons : forall d s, one_line (String d s) <-> d <> newline /\ one_line s.
Proof.
  intros d s. unfold one_line. split.
  - intros H. split.
    + intros ->. apply (H "" s). reflexivity.
    + intros a b E. apply (H (String d a) b). rewrite E. reflexivity.
  - intros (H1 & H2) a b E. destruct a as [|x a]; cbn [append] in E; injection E as E1 E2; [congruence|]. eapply H2; eauto.
Qed.
Lemma split_one : forall s, one_line s -> split_newlines s = (s, []).
Proof.
  induction s as [|c s IH]; intros H; [reflexivity|]. apply one_line_cons in H. destruct H as (H1 & H2). cbn [split_newlines].
  rewrite (IH H2). destruct (Ascii.eqb_spec c newline); [congruence|reflexivity].
Qed.
Lemma split_app : forall s t, one_line s -> split_newlines (s ++ String newline t) = (s, fst (split_newlines t) :: snd (split_newlines t)).
Proof.
  induction s as [|c s IH]; intros t H; cbn [append split_newlines].
  - destruct (split_newlines t). reflexivity.
  - apply one_line_cons in H. destruct H as (H1 & H2). rewrite (IH t H2). destruct (Ascii.eqb_spec c newline); [congruence|reflexivity].
Qed.
Lemma split_lines_flat : forall s t width, one_line s -> split_lines (s ++ String newline t) width = (split_lines s width ++ split_lines t width)%list.
Proof.
  intros s t width H. unfold split_lines. rewrite (split_app s t H), (split_one s H). destruct (split_newlines t) as [l ls]. cbn [fst snd].
  rewrite !fold_lines. cbn [flat_map app]. rewrite app_nil_r. reflexivity.
Qed.
Lemma split_lines_one : forall s width, one_line s -> split_lines s width = line_step width [] s.
Proof. intros s width H. unfold split_lines. rewrite (split_one s H). reflexivity. Qed.
Lemma one_line_nil : one_line "".
Proof. intros a b H. destruct a; discriminate. Qed.
(** Every text is a line, or a line, a newline and a text. *)
Lemma text_cases : forall s, one_line s \/ exists a b, one_line a /\ s = a ++ String newline b.
Proof.
  induction s as [|c s IH]; [left; exact one_line_nil|]. destruct (Ascii.eqb_spec c newline) as [->|ne].
  - right. exists "", s. split; [exact one_line_nil|reflexivity].
  - destruct IH as [H|(a & b & H & ->)]; [left; apply one_line_cons; auto|]. right. exists (String c a), b. split; [apply one_line_cons; auto|reflexivity].
Qed.
Lemma text_ind : forall P : string -> Prop, (forall s, one_line s -> P s) -> (forall a b, one_line a -> P b -> P (a ++ String newline b)) -> forall s, P s.
Proof.
  intros P P1 P2. assert (G : forall n s, (String.length s < n)%nat -> P s).
  { induction n as [|n IH]; intros s L; [lia|]. destruct (text_cases s) as [H|(a & b & H & ->)]; auto. apply P2; auto. apply IH.
    assert (E : len (a ++ String newline b) = (len a + len (String newline b))%Z) by apply slen. unfold len in E. cbn [String.length] in E. lia. }
  intros s. apply (G (S (String.length s))). lia.
Qed.
Lemma words_app_white : forall a c b us vs, words a us -> white c -> words b vs -> words (a ++ String c b) (us ++ vs)%list.
Proof.
  intros a c b us vs H C B. induction H as [|d s ws D W IH|w W|w d s ws W D Ws IH]; cbn [append].
  - apply ws_white; auto.
  - apply ws_white; auto.
  - apply ws_word; auto.
  - rewrite sapp_assoc. cbn [append]. apply ws_word; auto.
Qed.
Lemma white_newline : white newline.
Proof. left. vm_compute. lia. Qed.

Lemma split_lines_words : forall text width, exists wss, Forall2 words (split_lines text width) wss /\ words text (concat wss).
Proof.
  intros text width. induction text as [s H|a b H (wss & I1 & I2)] using text_ind.
  - rewrite (split_lines_one s width H). destruct (line_step_ok width [] s) as (d & l & n & -> & O). exists (d ++ [l])%list. cbn [app].
    destruct O as [O1 O2 _ _ _ _ _ _]. split.
    + rewrite <- O1 in O2. replace (concat d ++ l)%list with (concat (d ++ [l])%list) in O2 by (rewrite concat_app; cbn; rewrite app_nil_r; reflexivity).
      revert O2. generalize (d ++ [l])%list as x. induction x as [|y x IH]; intros F; cbn [map concat] in *; constructor.
      * apply Forall_app in F. apply join_words. tauto.
      * apply IH. apply Forall_app in F. tauto.
    + rewrite concat_app. cbn [concat]. rewrite app_nil_r, O1. apply words_of_ok.
  - rewrite (split_lines_flat a b width H). rewrite (split_lines_one a width H). destruct (line_step_ok width [] a) as (d & l & n & -> & O). cbn [app].
    exists ((d ++ [l]) ++ wss)%list. destruct O as [O1 O2 _ _ _ _ _ _]. split.
    + apply Forall2_app; auto. rewrite <- O1 in O2. replace (concat d ++ l)%list with (concat (d ++ [l])%list) in O2 by (rewrite concat_app; cbn; rewrite app_nil_r; reflexivity).
      revert O2. generalize (d ++ [l])%list as x. induction x as [|y x IH]; intros F; cbn [map concat] in *; constructor.
      * apply Forall_app in F. apply join_words. tauto.
      * apply IH. apply Forall_app in F. tauto.
    + rewrite !concat_app. cbn [concat]. rewrite app_nil_r, O1. apply words_app_white; auto; [apply words_of_ok|apply white_newline].
Qed.
Lemma split_lines_fit : forall text width l, In l (split_lines text width) -> l = "" \/ (len l <= width)%Z \/ word l.
Proof.
  intros text width l. induction text as [s H|a b H IH] using text_ind; intros Hl.
  2: { rewrite (split_lines_flat a b width H) in Hl. apply in_app_or in Hl. destruct Hl as [Hl|Hl]; [clear IH|auto].
       rewrite (split_lines_one a width H) in Hl. revert Hl. generalize a. clear. intros s Hl. 
       destruct (line_step_ok width [] s) as (d & l' & n & E & O). rewrite E in Hl. cbn [app] in Hl. apply in_map_iff in Hl. destruct Hl as (x & <- & Hx).
       destruct O as [_ _ _ O4 _ O6 _ _]. apply in_app_or in Hx. destruct Hx as [Hx|[<-|[]]].
       - rewrite Forall_forall in O6. destruct (O6 x Hx) as [->|F]; auto.
       - destruct O4 as [->|F]; auto. }
  rewrite (split_lines_one s width H) in Hl. destruct (line_step_ok width [] s) as (d & l' & n & E & O). rewrite E in Hl. cbn [app] in Hl. apply in_map_iff in Hl. destruct Hl as (x & <- & Hx).
  destruct O as [_ _ _ O4 _ O6 _ _]. apply in_app_or in Hx. destruct Hx as [Hx|[<-|[]]].
  - rewrite Forall_forall in O6. destruct (O6 x Hx) as [->|F]; auto.
  - destruct O4 as [->|F]; auto.
Qed.
(** Lines are broken only where the next word does not fit. *)
Lemma split_lines_greedy : forall s width a l1 l2 b, one_line s -> split_lines s width = (a ++ l1 :: l2 :: b)%list -> l1 <> "" ->
  exists w ws, words l2 (w :: ws) /\ (width < len l1 + 1 + len w)%Z.
Proof.
  intros s width a l1 l2 b H E ne. rewrite (split_lines_one s width H) in E. destruct (line_step_ok width [] s) as (d & l & n & E2 & O).
  rewrite E2 in E. cbn [app] in E. apply map_eq_app in E. destruct E as (a' & r & Ea & <- & E). symmetry in E. apply eq_sym in E.
  destruct r as [|m1 r]; [discriminate|]. destruct r as [|m2 r]; [discriminate|]. cbn [map] in E. injection E as E1 E3 E4.
  subst l1 l2. destruct O as [O1 O2 _ _ _ _ _ O8]. destruct (O8 a' m1 m2 r Ea) as (w & ws & -> & F); [intros ->; apply ne; reflexivity|].
  exists w, ws. split; auto. apply join_words. rewrite <- O1 in O2.
  replace (concat d ++ l)%list with (concat (d ++ [l])%list) in O2 by (rewrite concat_app; cbn; rewrite app_nil_r; reflexivity).
  rewrite Ea, concat_app in O2. apply Forall_app in O2. destruct O2 as (_ & O2). cbn [concat] in O2. apply Forall_app in O2. destruct O2 as (_ & O2).
  apply Forall_app in O2. tauto.
Qed.
Lemma split_lines_blank : forall s width ws, one_line s -> words s ws -> ws <> [] -> (forall w, In w ws -> (len w <= width)%Z) -> ~ In "" (split_lines s width).
Proof.
  intros s width ws H W ne F I. rewrite (split_lines_one s width H) in I. destruct (line_step_ok width [] s) as (d & l & n & E2 & O).
  apply words_of_unique in W. rewrite W in O. rewrite E2 in I. cbn [app] in I. apply in_map_iff in I. destruct I as (x & Ex & Hx).
  destruct O as [O1 O2 _ _ O5 _ O7 _].
  assert (Fx : Forall word x).
  { rewrite <- O1 in O2. apply Forall_app in O2. destruct O2 as (P1 & P2). apply in_app_or in Hx. destruct Hx as [Hx|[<-|[]]]; auto.
    rewrite Forall_forall in *. intros y Hy. apply P1. apply in_concat. eauto. }
  apply join_nil in Ex; auto. subst x. apply in_app_or in Hx. destruct Hx as [Hx|[->|[]]].
  - destruct (O7 [] Hx eq_refl) as (w & W1 & W2). specialize (F w W1). lia.
  - rewrite (O5 eq_refl) in O1. cbn in O1. congruence.
Qed.
Lemma split_lines_nothing : forall s width, one_line s -> words s [] -> split_lines s width = [""].
Proof. intros s width H W. rewrite (split_lines_one s width H). unfold line_step. rewrite (words_of_unique s [] W). reflexivity. Qed.
