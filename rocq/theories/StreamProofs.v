(** Proofs about connections. *)
From Coq Require Import NArith Bool Arith Lia String List.
From Verif Require Import StreamModel StreamSpec.
Import ListNotations.

(** ** Lines *)
Lemma lines_from_nolf : forall x cur, ~ In 10%N x -> lines_from cur x = [].
Proof.
  induction x as [|b x IH]; intros cur H; [reflexivity|]. cbn [lines_from]. destruct (N.eqb_spec b 10) as [->|].
  - elim H. now left.
  - apply IH. intros A. apply H. now right.
Qed.
Lemma lines_from_line : forall x cur y, ~ In 10%N x -> lines_from cur (x ++ 10%N :: y) = (cur ++ x ++ [10%N]) :: lines_from [] y.
Proof.
  induction x as [|b x IH]; intros cur y H; [reflexivity|]. cbn [app lines_from]. destruct (N.eqb_spec b 10) as [->|].
  - elim H. now left.
  - rewrite IH. { now rewrite <- app_assoc. } intros A. apply H. now right.
Qed.
Lemma lines_line l y : is_line l -> lines (l ++ y) = l :: lines y.
Proof. intros [x [-> H]]. unfold lines. rewrite <- app_assoc. cbn [app]. now rewrite lines_from_line. Qed.
Lemma lines_concat : forall done y, Forall is_line done -> lines (concat done ++ y) = done ++ lines y.
Proof.
  induction done as [|l done IH]; intros y H; [reflexivity|]. inversion H; subst. cbn [concat app].
  rewrite <- app_assoc, lines_line by auto. now rewrite IH.
Qed.
Lemma lines_long n : forall x y, (n < List.length x)%nat -> ~ In 10%N x ->
  lines (x ++ y) = [] \/ exists l r, lines (x ++ y) = l :: r /\ (S n < List.length l)%nat.
Proof.
  intros x y L H. destruct (in_dec N.eq_dec 10%N y) as [Hi|Hn].
  - right. assert (E : exists a b, y = a ++ 10%N :: b /\ ~ In 10%N a).
    { clear - Hi. induction y as [|c y IH]; [destruct Hi|]. destruct (N.eq_dec c 10) as [->|Hc].
      - exists [], y. split; [reflexivity|intros []].
      - destruct IH as [a [b [-> A]]]; [destruct Hi; [congruence|auto]|]. exists (c :: a), b. split; [reflexivity|]. intros [G|G]; congruence || auto. }
    destruct E as [a [b [-> A]]]. exists ((x ++ a) ++ [10%N]), (lines b). split.
    + rewrite app_assoc. unfold lines. rewrite lines_from_line; [reflexivity|]. rewrite in_app_iff. tauto.
    + rewrite !app_length. cbn. lia.
  - left. apply lines_from_nolf. rewrite in_app_iff. tauto.
Qed.

Lemma lines_cut_from : forall bs cur, ~ In 10%N cur ->
  exists rest, cur ++ bs = concat (lines_from cur bs) ++ rest /\ ~ In 10%N rest /\ Forall is_line (lines_from cur bs).
Proof.
  induction bs as [|b bs IH]; intros cur H.
  - exists cur. cbn. rewrite app_nil_r. auto.
  - cbn [lines_from]. destruct (N.eqb_spec b 10) as [->|Hb].
    + destruct (IH [] (fun f => f)) as [rest [E [N F]]]. exists rest. cbn [concat app] in *. rewrite <- !app_assoc, <- E. repeat split; auto.
      constructor; auto. exists cur. auto.
    + destruct (IH (cur ++ [b])) as [rest [E [N F]]]; [rewrite in_app_iff; intros [G|[G|[]]]; auto|].
      exists rest. rewrite <- E, <- app_assoc. auto.
Qed.
Lemma lines_cut bs : exists rest, bs = concat (lines bs) ++ rest /\ ~ In 10%N rest /\ Forall is_line (lines bs).
Proof. apply (lines_cut_from bs []). intros []. Qed.

(** ** Finding the separator *)
Lemma index_some : forall l i j, index i l = Some j -> exists a b, l = a ++ 10%N :: b /\ ~ In 10%N a /\ j = (i + List.length a)%nat.
Proof.
  induction l as [|c l IH]; intros i j E; [discriminate|]. cbn [index] in E. destruct (N.eqb_spec c LF) as [->|H].
  - injection E as <-. exists [], l. cbn. repeat split; [tauto|lia].
  - destruct (IH _ _ E) as [a [b [-> [A ->]]]]. exists (c :: a), b. cbn. repeat split; [|lia]. intros [G|G]; [now apply H|auto].
Qed.
Lemma index_none : forall l i, index i l = None -> ~ In 10%N l.
Proof.
  induction l as [|c l IH]; intros i E; [intros []|]. cbn [index] in E. destruct (N.eqb_spec c LF) as [->|H]; [discriminate|].
  intros [G|G]; [now apply H|]. exact (IH _ E G).
Qed.
Lemma find_some buf off i : (off <= List.length buf)%nat -> ~ In 10%N (firstn off buf) -> find_sep buf off = Some i ->
  is_line (firstn (S i) buf) /\ buf = firstn (S i) buf ++ skipn (S i) buf /\ List.length (firstn (S i) buf) = S i.
Proof.
  intros L N E. unfold find_sep in E. destruct (index_some _ _ _ E) as [a [b [A [B C]]]].
  assert (G : buf = (firstn off buf ++ a) ++ 10%N :: b) by (rewrite <- app_assoc, <- A; now rewrite firstn_skipn).
  assert (Li : List.length (firstn off buf ++ a) = i) by (rewrite app_length, firstn_length; lia).
  assert (F : firstn (S i) buf = (firstn off buf ++ a) ++ [10%N]).
  { rewrite G at 1. rewrite firstn_app, Li. replace (S i - i)%nat with 1%nat by lia. rewrite firstn_all2 by lia. reflexivity. }
  split; [|split].
  - rewrite F. exists (firstn off buf ++ a). split; auto. rewrite in_app_iff. tauto.
  - now rewrite firstn_skipn.
  - rewrite F, app_length, Li. cbn. lia.
Qed.
Lemma find_none buf off : ~ In 10%N (firstn off buf) -> find_sep buf off = None -> ~ In 10%N buf.
Proof.
  intros N E. apply index_none in E. rewrite <- (firstn_skipn off buf). rewrite in_app_iff. tauto.
Qed.

Section Proofs.
Context {T : Type} (decode : list N -> option T) (answer : list T -> T -> option (list N)) (limit : nat).
Notation replies := (replies decode answer limit).
Notation cstep := (cstep decode answer limit).
Notation read_loop := (read_loop decode limit).
Notation harmless := (harmless decode answer limit).

(** The lines [done] were answered with [out] and [prev] were the requests among them. *)
Definition Settled (done : list (list N)) (prev : list T) (out : list (list N)) : Prop :=
  Forall is_line done /\ forall ls, replies [] (done ++ ls) = out ++ replies prev ls.
(** No event can change the replies any more. *)
Definition Final (bs : list N) (out : list (list N)) : Prop := forall x, replies [] (lines (bs ++ x)) = out.

Lemma settled_nil : Settled [] [] []. Proof. split; [constructor|reflexivity]. Qed.
Lemma settled_out done prev out : Settled done prev out -> replies [] done = out.
Proof. intros [_ H]. specialize (H []). rewrite !app_nil_r in H. exact H. Qed.
Lemma replies_cons prev l ls : is_line l -> (List.length l <= S limit)%nat -> replies prev (l :: ls) =
  if N.eqb (hd 0%N l) ENQ then [6%N; 10%N] :: replies prev ls
  else match decode l with None => [] | Some t => match answer prev t with None => [] | Some a => (a ++ [10%N]) :: replies (prev ++ [t]) ls end end.
Proof.
  intros Hl L. cbn [StreamSpec.replies]. assert (E : Nat.ltb (S limit) (List.length l) = false) by (apply Nat.ltb_ge; lia). rewrite E. reflexivity.
Qed.
Lemma replies_long prev l ls : (S limit < List.length l)%nat -> replies prev (l :: ls) = [].
Proof. intros L. cbn [StreamSpec.replies]. assert (E : Nat.ltb (S limit) (List.length l) = true) by (apply Nat.ltb_lt; lia). now rewrite E. Qed.

(** The state of a connection after receiving [bs]. *)
Definition Inv (bs : list N) (eof : bool) (c : conn T) : Prop :=
  ceof c = eof /\
  match cst c with
  | Reading off => eof = false /\ cexc c = false /\ off = List.length (cbuf c) /\ ~ In 10%N (cbuf c) /\ (off <= limit)%nat /\
      exists done, bs = concat done ++ cbuf c /\ Settled done (cprev c) (cout c)
  | Handling t => exists done l, bs = concat done ++ l ++ cbuf c /\ is_line l /\ decode l = Some t /\
      N.eqb (hd 0%N l) ENQ = false /\ (List.length l <= S limit)%nat /\
      exists out, Settled done (cprev c) out /\ (if cexc c then starts_with (cout c) out else cout c = out)
  | Closed => (cexc c = false -> eof = true /\ replies [] (lines bs) = cout c) /\
      (cexc c = true -> forall x, starts_with (cout c) (replies [] (lines (bs ++ (if eof then [] else x)))))
  | Died _ => if cexc c then forall x, starts_with (cout c) (replies [] (lines (bs ++ x))) else Final bs (cout c)
  end.

(** Reading from a connection that is not lost. *)
Lemma loop_inv : forall fuel off c done, cexc c = false -> (List.length (cbuf c) < fuel)%nat ->
  (off <= List.length (cbuf c))%nat -> ~ In 10%N (firstn off (cbuf c)) -> Settled done (cprev c) (cout c) ->
  Inv (concat done ++ cbuf c) (ceof c) (read_loop fuel off c).
Proof.
  induction fuel as [|fuel IH]; intros off c done X F L N S; [lia|]. cbn [StreamModel.read_loop]. rewrite X.
  destruct (find_sep (cbuf c) off) as [i|] eqn:E.
  - destruct (find_some _ _ _ L N E) as [Hl [Hb Hi]]. set (l := firstn (Datatypes.S i) (cbuf c)) in *. set (rest := skipn (Datatypes.S i) (cbuf c)) in *.
    destruct (Nat.ltb_spec limit i) as [Hlim|Hlim].
    + split; [reflexivity|]. cbn [set_st cst cexc cout]. rewrite X. intros x. rewrite Hb, <- !app_assoc, lines_concat by apply S.
      rewrite lines_line by auto. destruct S as [_ S]. rewrite S, replies_long by lia. apply app_nil_r.
    + destruct (N.eqb (hd 0%N l) ENQ) eqn:He.
      * rewrite Hb, app_assoc. replace (concat done ++ l) with (concat (done ++ [l])) by (rewrite concat_app; cbn; now rewrite app_nil_r).
        apply (IH 0%nat (write_data (set_buf c rest) ACK_response) (done ++ [l])).
        -- exact X.
        -- cbn [write_data set_buf cbuf]. assert (List.length (cbuf c) = List.length l + List.length rest)%nat by (rewrite Hb at 1; apply app_length). lia.
        -- cbn. lia.
        -- intros [].
        -- cbn [write_data set_buf cexc cprev cout]. rewrite X. destruct S as [S1 S2]. split; [apply Forall_app; auto|].
           intros ls. rewrite <- app_assoc. cbn [app]. rewrite S2, (replies_cons _ l) by (auto; lia). rewrite He, <- app_assoc. reflexivity.
      * destruct (decode l) as [t|] eqn:Ed.
        -- split; [reflexivity|]. cbn [set_st set_buf cst cbuf cexc cprev cout]. exists done, l. split; [now rewrite Hb at 1|].
           repeat split; auto; [lia|]. exists (cout c). rewrite X. auto.
        -- split; [reflexivity|]. cbn [set_st set_buf cst cexc cout]. rewrite X. intros x.
           rewrite Hb, <- !app_assoc, lines_concat by apply S. rewrite lines_line by auto. destruct S as [_ S].
           rewrite S, (replies_cons _ l) by (auto; lia). rewrite He, Ed. apply app_nil_r.
  - assert (Hn := find_none _ _ N E). destruct (Nat.ltb_spec limit (List.length (cbuf c))) as [Hlim|Hlim].
    + split; [reflexivity|]. cbn [set_st cst cexc cout]. rewrite X. intros x. rewrite <- app_assoc, lines_concat by apply S.
      destruct S as [_ S]. destruct (lines_long _ _ x Hlim Hn) as [G|[l [r [G G2]]]]; rewrite G, S; [apply app_nil_r|].
      rewrite replies_long by auto. apply app_nil_r.
    + destruct (ceof c) eqn:Ee.
      * split; [exact Ee|]. cbn [set_st set_buf cst cexc cout]. rewrite X. split; [|discriminate]. intros _. split; [reflexivity|].
        rewrite lines_concat by apply S. destruct S as [_ S]. rewrite S. unfold lines. rewrite lines_from_nolf by auto. apply app_nil_r.
      * split; [exact Ee|]. cbn [set_st cst cbuf cexc cprev cout]. rewrite X. repeat split; auto. exists done. auto.
Qed.

Lemma settled_starts done prev out ls : Settled done prev out -> starts_with out (replies [] (done ++ ls)).
Proof. intros [_ S]. exists (replies prev ls). apply S. Qed.
Lemma starts_trans {A} (a b c : list A) : starts_with a b -> starts_with b c -> starts_with a c.
Proof. intros [x ->] [y ->]. exists (x ++ y). now rewrite app_assoc. Qed.

Lemma step_inv bs eof c e : Inv bs eof c ->
  Inv (bs ++ (if eof then [] else match e with EFeed x => x | _ => [] end)) (eof || match e with EEof => true | _ => false end) (cstep c e).
Proof.
  intros [He I]. destruct e as [x| | |]; cbn [StreamModel.cstep].
  - (* data *)
    rewrite orb_false_r. rewrite He. destruct eof; [rewrite app_nil_r; now split|].
    unfold wake. cbn [set_buf cst]. destruct (cst c) as [off|t| |m] eqn:Es.
    + destruct I as [_ [X [-> [N [L [done [-> S]]]]]]]. rewrite <- app_assoc.
      rewrite <- He. apply (loop_inv _ _ (set_buf c (cbuf c ++ x)) done); cbn [set_buf cexc cbuf cprev cout]; auto.
      * rewrite app_length. lia.
      * rewrite firstn_app, firstn_all, Nat.sub_diag. cbn [firstn]. now rewrite app_nil_r.
    + split; [exact He|]. cbn [set_buf cst cbuf cexc cprev cout]. rewrite Es. destruct I as [done [l [-> I]]].
      exists done, l. split; [now rewrite <- !app_assoc|]. exact I.
    + split; [exact He|]. cbn [set_buf cst cbuf cexc cprev cout]. rewrite Es. destruct I as [I1 I2]. split.
      * intros X. destruct (I1 X) as [A _]. discriminate.
      * intros X y. rewrite <- app_assoc. exact (I2 X (x ++ y)).
    + split; [exact He|]. cbn [set_buf cst cbuf cexc cprev cout]. rewrite Es. destruct (cexc c).
      * intros y. rewrite <- app_assoc. apply I.
      * intros y. rewrite <- app_assoc. apply I.
  - (* end of stream *)
    rewrite orb_true_r. assert (A : (if eof then [] else []) = @nil N) by (destruct eof; reflexivity). rewrite A, app_nil_r. clear A.
    unfold wake. cbn [cst]. destruct (cst c) as [off|t| |m] eqn:Es.
    + destruct I as [_ [X [-> [N [L [done [-> S]]]]]]].
      apply (loop_inv _ _ (mkConn (cbuf c) true (cexc c) (Reading (List.length (cbuf c))) (cprev c) (cout c)) done); cbn [cexc cbuf cprev cout]; auto.
      now rewrite firstn_all.
    + split; [reflexivity|]. cbn [cst cbuf cexc cprev cout]. exact I.
    + split; [reflexivity|]. cbn [cst cbuf cexc cprev cout]. destruct I as [I1 I2]. split.
      * intros X. split; [reflexivity|]. apply I1. exact X.
      * intros X y. specialize (I2 X []). now destruct eof.
    + split; [reflexivity|]. exact I.
  - (* reset *)
    rewrite orb_false_r. assert (A : (if eof then [] else []) = @nil N) by (destruct eof; reflexivity). rewrite A, app_nil_r. clear A.
    unfold wake. cbn [cst]. destruct (cst c) as [off|t| |m] eqn:Es.
    + destruct I as [-> [X [-> [N [L [done [-> S]]]]]]]. unfold resume. cbn [StreamModel.read_loop cexc].
      split; [exact He|]. cbn [set_st cst cexc cout]. split; [discriminate|]. intros _ y.
      rewrite <- app_assoc, lines_concat by apply S. eapply settled_starts, S.
    + split; [exact He|]. cbn [cst cbuf cexc cprev cout]. destruct I as [done [l [-> [I1 [I2 [I3 [I4 [out [I5 I6]]]]]]]]].
      exists done, l. repeat split; auto. exists out. split; auto. destruct (cexc c); auto. rewrite I6. exists []. now rewrite app_nil_r.
    + split; [exact He|]. cbn [cst cbuf cexc cprev cout]. destruct I as [I1 I2]. split; [discriminate|]. intros _ y.
      destruct (cexc c); [now apply I2|]. destruct (I1 eq_refl) as [-> I]. rewrite app_nil_r, I. exists []. now rewrite app_nil_r.
    + split; [exact He|]. cbn [cst cbuf cexc cprev cout]. destruct (cexc c); [exact I|]. intros x. rewrite (I x). exists []. now rewrite app_nil_r.
  - (* the request is handled *)
    rewrite orb_false_r. assert (A : (if eof then [] else []) = @nil N) by (destruct eof; reflexivity). rewrite A, app_nil_r. clear A.
    destruct (cst c) as [off|t| |m] eqn:Es; try (split; [exact He|]; rewrite Es; exact I).
    destruct I as [done [l [-> [I1 [I2 [I3 [I4 [out [I5 I6]]]]]]]]].
    assert (R : forall x, replies [] (lines ((concat done ++ l ++ cbuf c) ++ x)) = out ++ replies (cprev c) (l :: lines (cbuf c ++ x))).
    { intros x. rewrite <- !app_assoc, lines_concat, lines_line by (auto; apply I5). apply I5. }
    destruct (answer (cprev c) t) as [r|] eqn:Ea.
    + cbn [cexc]. destruct (cexc c) eqn:X.
      * split; [exact He|]. cbn [set_st cst cexc cout]. split; [discriminate|]. intros _ y. rewrite R.
        eapply starts_trans; [exact I6|]. eexists. reflexivity.
      * unfold resume. subst out. rewrite app_assoc. replace (concat done ++ l) with (concat (done ++ [l])) by (rewrite concat_app; cbn; now rewrite app_nil_r).
        rewrite <- He. apply (loop_inv _ 0%nat (write_data (mkConn (cbuf c) (ceof c) false (Handling t) (cprev c ++ [t]) (cout c)) (r ++ [LF])) (done ++ [l]));
          cbn [write_data cexc cbuf cprev cout firstn]; auto; try lia.
        destruct I5 as [S1 S2]. split; [apply Forall_app; auto|].
        intros ls. rewrite <- app_assoc. cbn [app]. rewrite S2, (replies_cons _ l) by auto. rewrite I3, I2, Ea, <- app_assoc. reflexivity.
    + assert (G : forall x, replies [] (lines ((concat done ++ l ++ cbuf c) ++ x)) = out).
      { intros x. rewrite R, replies_cons by auto. rewrite I3, I2, Ea. apply app_nil_r. }
      split; [exact He|]. cbn [set_st cst cexc cout]. destruct (cexc c); intros x; rewrite G; auto.
Qed.

Lemma accept_inv : Inv [] false (@accept T).
Proof. split; [reflexivity|]. cbn. repeat split; auto; try lia. exists []. split; [reflexivity|apply settled_nil]. Qed.

Lemma received_app evs e : received (evs ++ [e]) = received evs ++ (if ended evs then [] else match e with EFeed x => x | _ => [] end).
Proof.
  unfold ended. induction evs as [|a evs IH].
  - destruct e; cbn; now rewrite ?app_nil_r.
  - destruct a; cbn [app received existsb orb]; rewrite ?IH, ?app_assoc; auto.
Qed.
Lemma ended_app evs e : ended (evs ++ [e]) = ended evs || match e with EEof => true | _ => false end.
Proof. unfold ended. rewrite existsb_app. cbn. now rewrite orb_false_r. Qed.
Theorem run_inv evs : Inv (received evs) (ended evs) (crun decode answer limit evs).
Proof.
  unfold crun. induction evs as [|e evs IH] using rev_ind; [apply accept_inv|].
  rewrite fold_left_app, received_app, ended_app. cbn [fold_left]. now apply step_inv.
Qed.
Lemma step_exc c e : cexc (cstep c e) = cexc c || match e with EReset => true | _ => false end.
Proof.
  assert (L : forall fuel off (c : conn T), cexc (read_loop fuel off c) = cexc c).
  { induction fuel as [|fuel IH]; intros off c0; [reflexivity|]. cbn [StreamModel.read_loop]. destruct (cexc c0) eqn:E; [exact E|].
    destruct (find_sep (cbuf c0) off); [destruct (Nat.ltb limit n)|destruct (Nat.ltb limit _); [|destruct (ceof c0)]]; try exact E.
    destruct (N.eqb _ ENQ); [now rewrite IH|]. destruct (decode _); exact E. }
  destruct e; cbn [StreamModel.cstep]; rewrite ?orb_false_r, ?orb_true_r.
  - destruct (ceof c); [reflexivity|]. unfold wake, resume. cbn [set_buf cst]. destruct (cst c); try reflexivity. now rewrite L.
  - unfold wake, resume. cbn [cst]. destruct (cst c); try reflexivity. now rewrite L.
  - unfold wake, resume. cbn [cst]. destruct (cst c); reflexivity.
  - destruct (cst c); try reflexivity. destruct (answer _ _); [|reflexivity]. cbn [cexc]. destruct (cexc c) eqn:E; [reflexivity|]. unfold resume. now rewrite L.
Qed.
Lemma run_exc evs : cexc (crun decode answer limit evs) = lost evs.
Proof.
  unfold crun, lost. induction evs as [|e evs IH] using rev_ind; [reflexivity|].
  rewrite fold_left_app, existsb_app. cbn [fold_left existsb]. rewrite step_exc, IH, orb_false_r. reflexivity.
Qed.

(** Whatever the schedule, what was written is an initial part of the replies to the complete lines received. *)
Theorem written_prefix evs : starts_with (cout (crun decode answer limit evs)) (replies [] (lines (received evs))).
Proof.
  destruct (run_inv evs) as [_ I]. destruct (cst _) as [off|t| |m].
  - destruct I as (_ & _ & _ & N & _ & done & -> & S). rewrite lines_concat by apply S. eapply settled_starts, S.
  - destruct I as [done [l [E [I1 [I2 [I3 [I4 [out [I5 I6]]]]]]]]]. rewrite E, lines_concat by apply I5.
    apply (starts_trans _ out). { destruct (cexc _); [exact I6|]. rewrite I6. exists []. now rewrite app_nil_r. } eapply settled_starts, I5.
  - destruct I as [I1 I2]. destruct (cexc _) eqn:X.
    + specialize (I2 eq_refl []). destruct (ended evs); now rewrite app_nil_r in I2.
    + destruct (I1 eq_refl) as [_ ->]. exists []. now rewrite app_nil_r.
  - destruct (cexc _).
    + specialize (I []). now rewrite app_nil_r in I.
    + specialize (I []). rewrite app_nil_r in I. rewrite I. exists []. now rewrite app_nil_r.
Qed.
(** On a connection that is not lost, when no request is being handled, everything has been written. *)
Theorem written_all evs : lost evs = false -> (forall t, cst (crun decode answer limit evs) <> Handling t) ->
  cout (crun decode answer limit evs) = replies [] (lines (received evs)).
Proof.
  intros X Hn. destruct (run_inv evs) as [_ I]. rewrite <- run_exc in X. rewrite X in I. destruct (cst _) as [off|t| |m].
  - destruct I as (_ & _ & _ & N & _ & done & -> & S). rewrite lines_concat by apply S. destruct S as [_ S].
    rewrite S. unfold lines. rewrite lines_from_nolf by auto. now rewrite app_nil_r.
  - now elim (Hn t).
  - destruct I as [I1 I2]. now destruct (I1 eq_refl).
  - specialize (I []). now rewrite app_nil_r in I.
Qed.
Lemma replies_harmless : forall ls prev, harmless prev ls -> List.length (replies prev ls) = List.length ls.
Proof.
  induction ls as [|l ls IH]; intros prev H; [reflexivity|]. cbn [StreamSpec.harmless] in H. destruct H as [L H].
  cbn [StreamSpec.replies]. assert (E : Nat.ltb (S limit) (List.length l) = false) by (apply Nat.ltb_ge; lia). rewrite E.
  assert (G : match decode l with None => False | Some t => match answer prev t with None => False | Some a => harmless (prev ++ [t]) ls end end ->
     List.length (match decode l with None => [] | Some t => match answer prev t with None => [] | Some a => (a ++ [10%N]) :: replies (prev ++ [t]) ls end end) = S (List.length ls)).
  { destruct (decode l) as [t|]; [|tauto]. destruct (answer prev t); [|tauto]. intros G. cbn [List.length]. now rewrite IH. }
  destruct (N.eqb (hd 0%N l) 5); [|exact (G H)]. cbn [List.length]. now rewrite IH.
Qed.
(** If nothing goes wrong with any line, there is one reply per line, and the connection dies only of a rest that is too long. *)
Theorem one_reply_per_line evs : lost evs = false -> (forall t, cst (crun decode answer limit evs) <> Handling t) ->
  harmless [] (lines (received evs)) ->
  List.length (cout (crun decode answer limit evs)) = List.length (lines (received evs)).
Proof. intros X Hn H. rewrite written_all by auto. now apply replies_harmless. Qed.
(** The end of the stream is noticed: the connection is then closed unless it died. *)
Theorem ended_closed evs : ended evs = true -> 
  match cst (crun decode answer limit evs) with Reading _ => False | _ => True end.
Proof. intros E. destruct (run_inv evs) as [_ I]. destruct (cst _); auto. destruct I as [A _]. congruence. Qed.

(** A connection on which one request was sent carries its reply and nothing else. *)
Theorem transient_reply_of evs line t a : is_line line -> received evs = line -> hd 0%N line <> 5%N -> (List.length line <= S limit)%nat ->
  decode line = Some t -> answer [] t = Some a ->
  cout (crun decode answer limit evs) = [] \/ cout (crun decode answer limit evs) = [a ++ [10%N]].
Proof.
  intros Hl Hr Hh Hn Hd Ha. destruct (written_prefix evs) as [r E]. rewrite Hr in E.
  assert (L : lines line = [line]) by (rewrite <- (app_nil_r line) at 1; now rewrite lines_line).
  rewrite L, replies_cons in E by auto. apply N.eqb_neq in Hh. change ENQ with 5%N in E. rewrite Hh, Hd, Ha in E. cbn [StreamSpec.replies] in E.
  destruct (cout (crun decode answer limit evs)) as [|x [|y l]]; [now left| |discriminate]. injection E as <- _. now right.
Qed.
End Proofs.

(** ** Datagrams *)
Section Udp.
Context {T A : Type} (decode : list N -> option T) (answer : list T -> T -> option (list N)).
Notation udp := (udp T A).
Notation ustep := (ustep decode answer).
Notation requests := (requests decode).
Notation answers := (answers answer).

Lemma shuffle_right {B} : forall l m n (x : list B), shuffle l m n -> shuffle l (m ++ x) (n ++ x).
Proof.
  intros l m n x H. induction H as [|y l m n H IH|y l m n H IH]; cbn [app].
  - induction x; constructor; auto.
  - now constructor.
  - now constructor.
Qed.
Lemma shuffle_left {B} : forall l m n (x : list B), shuffle l m n -> shuffle (l ++ x) m (n ++ x).
Proof.
  intros l m n x H. induction H as [|y l m n H IH|y l m n H IH]; cbn [app].
  - induction x; constructor; auto.
  - now constructor.
  - now constructor.
Qed.
Lemma answers_app : forall (rs : list (T * A)) before r, answers before (rs ++ [r]) = answers before rs ++
  match answer (before ++ map fst rs) (fst r) with Some x => [(x, snd r)] | None => [] end.
Proof.
  induction rs as [|[t a] rs IH]; intros before [t' a']; cbn [app StreamSpec.answers map fst].
  - rewrite !app_nil_r. reflexivity.
  - rewrite IH, <- !app_assoc. reflexivity.
Qed.
Definition UInv (evs : list (uev A)) (u : udp) : Prop :=
  exists done, requests evs = done ++ match uheld u with Some w => [w] | None => [] end ++ uwait u /\
    uprev u = map fst done /\ shuffle (enquiries evs) (answers [] done) (usent u) /\ (uheld u = None -> uwait u = []).
Theorem udp_inv evs : UInv evs (urun decode answer evs).
Proof.
  unfold urun. induction evs as [|e evs IH] using rev_ind.
  - exists []. repeat split. constructor.
  - rewrite fold_left_app. cbn [fold_left]. set (u := fold_left ustep evs _) in *. destruct IH as [done [R [P [S W]]]].
    unfold UInv, StreamSpec.requests, enquiries. rewrite !flat_map_app. cbn [flat_map]. rewrite !app_nil_r.
    fold (requests evs). fold (enquiries evs).
    destruct e as [d a|]; cbn [StreamModel.ustep].
    + destruct d as [|b d]. { exists done. cbn [ends_lf last begins andb N.eqb]. rewrite !app_nil_r. auto. }
      unfold ends_lf. cbn [begins]. change 6%N with ACK. change 10%N with LF.
      destruct (N.eqb (last (b :: d) 0%N) LF); [|exists done; cbn [andb]; rewrite !app_nil_r; auto].
      cbn [andb]. destruct (N.eqb b ACK); cbn [negb].
      * exists done. cbn [uheld uwait uprev usent]. rewrite app_nil_r. repeat split; auto. now apply shuffle_left.
      * destruct (decode (b :: d)) as [t|]; [|exists done; rewrite !app_nil_r; auto].
        exists done. rewrite R, app_nil_r. unfold grant. cbn [uheld uwait].
        destruct (uheld u) as [w|] eqn:Eh; cbn [uheld uwait uprev usent].
        -- rewrite <- !app_assoc. repeat split; auto. discriminate.
        -- rewrite (W eq_refl). cbn [app uheld uwait uprev usent]. rewrite app_nil_r. repeat split; auto. 
    + cbn [app]. rewrite !app_nil_r. destruct (uheld u) as [[t a]|] eqn:Eh.
      * exists (done ++ [(t, a)]).
        assert (An : answers [] (done ++ [(t, a)]) = answers [] done ++ match answer (uprev u) t with Some x => [(x, a)] | None => [] end).
        { rewrite answers_app. cbn [app fst snd]. now rewrite P. }
        assert (G : forall u', uheld u' = None -> uwait u' = uwait u -> uprev u' = uprev u ++ [t] ->
           usent u' = usent u ++ match answer (uprev u) t with Some x => [(x, a)] | None => [] end ->
           requests evs = (done ++ [(t, a)]) ++ match uheld (grant u') with Some w => [w] | None => [] end ++ uwait (grant u') /\
           uprev (grant u') = map fst (done ++ [(t, a)]) /\ shuffle (enquiries evs) (answers [] (done ++ [(t, a)])) (usent (grant u')) /\
           (uheld (grant u') = None -> uwait (grant u') = [])).
        { intros u' H1 H2 H3 H4. assert (H5 : uprev u' = map fst (done ++ [(t, a)])) by (rewrite H3, P, map_app; reflexivity). rewrite R, <- !app_assoc. unfold grant. rewrite H1, H2. destruct (uwait u) as [|w r] eqn:Ew.
          - rewrite H1, H2, H4, An. repeat split; auto. now apply shuffle_right.
          - cbn [uheld uwait uprev usent]. rewrite H4, An. repeat split; auto; [now apply shuffle_right|discriminate]. }
        destruct (answer (uprev u) t) as [x|]; apply G; auto. cbn [usent]. now rewrite app_nil_r.
      * exists done. rewrite Eh. auto.
Qed.
Theorem udp_failed (evs : list (uev A)) : let u := urun decode answer evs in
  (ufailed u + List.length (usent u) = List.length (enquiries evs) + List.length (uprev u))%nat.
Proof.
  unfold urun. induction evs as [|e evs IH] using rev_ind; [reflexivity|].
  cbv zeta in *. rewrite fold_left_app. cbn [fold_left]. set (u := fold_left ustep evs _) in *.
  unfold enquiries. rewrite flat_map_app. cbn [flat_map]. rewrite app_nil_r, app_length. fold (enquiries evs).
  assert (G : forall v : udp, (ufailed (grant v) = ufailed v /\ usent (grant v) = usent v /\ uprev (grant v) = uprev v)%nat).
  { intros v. unfold grant. destruct (uheld v), (uwait v); repeat split. }
  destruct e as [d a|]; cbn [StreamModel.ustep].
  - destruct d as [|b d]. { cbn [ends_lf last begins andb N.eqb List.length]. lia. }
    unfold ends_lf. cbn [begins]. change 6%N with ACK. change 10%N with LF.
    destruct (N.eqb (last (b :: d) 0%N) LF); [|cbn [andb List.length]; lia].
    cbn [andb]. destruct (N.eqb b ACK).
    + cbn [ufailed usent uprev]. rewrite app_length. cbn [List.length]. lia.
    + destruct (decode (b :: d)); [|cbn [List.length]; lia].
      match goal with |- context [grant ?v] => destruct (G v) as (-> & -> & ->) end. cbn [ufailed usent uprev List.length]. lia.
  - destruct (uheld u) as [[t a]|]; [|cbn [List.length]; lia].
    match goal with |- context [grant ?v] => destruct (G v) as (-> & -> & ->) end.
    destruct (answer (uprev u) t); cbn [ufailed usent uprev]; rewrite !app_length; cbn [List.length]; lia.
Qed.
Lemma requests_dones : forall n (evs : list (uev A)), requests (evs ++ repeat UDone n) = requests evs /\ enquiries (evs ++ repeat UDone n) = enquiries evs.
Proof.
  intros n evs. unfold StreamSpec.requests, enquiries. rewrite !flat_map_app.
  assert (E : forall B (f : uev A -> list B) k, f UDone = [] -> flat_map f (repeat UDone k) = []).
  { intros B f k H. induction k; [reflexivity|]. cbn [repeat flat_map]. now rewrite H. }
  rewrite !E, !app_nil_r by reflexivity. auto.
Qed.
Lemma udone_prev : forall n (u : udp), (uheld u = None -> uwait u = []) ->
  let v := fold_left ustep (repeat UDone n) u in
  (uheld v = None \/ List.length (uprev v) = List.length (uprev u) + n)%nat.
Proof.
  induction n as [|n IH]; intros u W; cbn [repeat fold_left].
  - right. lia.
  - assert (G : (uheld (ustep u UDone) = None -> uwait (ustep u UDone) = []) /\
               (uheld u = None \/ List.length (uprev (ustep u UDone)) = S (List.length (uprev u)))).
    { cbn [StreamModel.ustep]. destruct (uheld u) as [[t a]|] eqn:Eh; [|split; [intros _; auto|now left]].
      destruct (answer (uprev u) t); unfold grant; cbn [uheld uwait]; destruct (uwait u); cbn [uheld uwait uprev]; rewrite app_length; cbn [List.length];
        (split; [congruence || auto|right; lia]). }
    destruct G as [G1 G2]. specialize (IH _ G1). cbn zeta in IH |- *. destruct IH as [IH|IH]; [now left|].
    destruct G2 as [G2|G2]; [|right; lia]. left.
    assert (N : ustep u UDone = u) by (cbn [StreamModel.ustep]; now rewrite G2). rewrite N.
    clear -G2. induction n as [|n IH]; [exact G2|]. cbn [repeat fold_left]. cbn [StreamModel.ustep]. now rewrite G2.
Qed.
Theorem udp_progress (evs : list (uev A)) n : List.length (requests evs) = n ->
  let u := urun decode answer (evs ++ repeat UDone n) in
  uheld u = None /\ uprev u = map fst (requests evs) /\ shuffle (enquiries evs) (answers [] (requests evs)) (usent u).
Proof.
  intros L u. destruct (udp_inv (evs ++ repeat UDone n)) as [done [R [P [S W]]]].
  destruct (requests_dones n evs) as [R' E']. rewrite R' in R. rewrite E' in S. fold u in R, P, S, W.
  assert (Hh : uheld u = None).
  { unfold u, urun. rewrite fold_left_app. fold (urun decode answer evs).
    destruct (udp_inv evs) as [d0 [R0 [P0 [_ W0]]]].
    destruct (udone_prev n _ W0) as [G|G]; [exact G|].
    assert (Q : fold_left ustep (repeat UDone n) (urun decode answer evs) = u) by (unfold u, urun; now rewrite fold_left_app).
    rewrite Q in G |- *. destruct (uheld u) as [w|] eqn:E; [|reflexivity]. exfalso.
    apply (f_equal (@List.length _)) in P. rewrite map_length in P. apply (f_equal (@List.length _)) in R. rewrite !app_length in R. cbn [List.length] in R. lia. }
  rewrite Hh, W in R by auto. cbn [app] in R. rewrite app_nil_r in R. subst done. auto.
Qed.
End Udp.

Definition transient_reply := @transient_reply_of.
