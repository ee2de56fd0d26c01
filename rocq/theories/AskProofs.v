(** One connection that carries one request. *)
From Coq Require Import String Ascii ZArith NArith Bool List Arith Lia.
From Verif Require Import Base SpanKeyModel SpanKeySpec RouterModel JsonModel JsonSpec JsonProofs JsonProofs2 StreamModel StreamSpec StreamProofs
  ClientModel ClientSpec WireModel WireProofs AskModel AskSpec.
Import ListNotations.

Section Conn.
Context {D V : Type} (utf8 : list N -> bool) (dump : V -> json) (limit : nat) (accepted_resp : span_key -> V) (app : nat -> code D V).
Notation serve := (serve accepted_resp app).
Notation answer := (answer dump accepted_resp app).
Notation decode := (decode utf8).
Notation body := (body dump).
Context (L : list N) (line : is_line L) (noenq : hd 0%N L <> 5%N) (c : nat).
Notation text := (of_bytes L).

(** Before the request is handled to the end. *)
Definition W (k : conn string) (fed : nat) : Prop :=
  cout k = [] /\
  match cst k with
  | Reading off => cbuf k = firstn fed L /\ off = List.length (cbuf k) /\ ~ In 10%N (cbuf k) /\ cexc k = false /\ ceof k = false
  | Handling t => t = text /\ fed = List.length L /\ utf8 L = true /\ (List.length L <= S limit)%nat /\ cbuf k = []
  | Closed => cexc k = true \/ ceof k = true
  | Died _ => (S limit < List.length L)%nat \/ utf8 L = false
  end.
(** Afterwards. *)
Definition A (k : conn string) (fed : nat) : Prop :=
  (fed = List.length L /\ utf8 L = true /\ (List.length L <= S limit)%nat) /\
  match cst k with Reading off => cbuf k = [] /\ off = 0 | Handling _ => False | _ => True end /\
  ((cout k = [] /\ (cst k = Closed /\ cexc k = true \/ (exists m, cst k = Died m) /\ exists x, fst (serve c text) = Exc x)) \/
   (exists r, fst (serve c text) = Ret r /\ cout k = [bytes (body r) ++ [10%N]])).
Definition ConnInv (k : conn string) (fed : nat) (ran : list (string * list (call span_key D V))) : Prop :=
  (fed <= List.length L)%nat /\ ((ran = [] /\ W k fed) \/ (ran = [(text, snd (serve c text))] /\ A k fed)).

Lemma line_prefix p z : L = p ++ z -> In 10%N p -> z = [].
Proof.
  destruct line as (x & -> & NI). intros E I. destruct z as [|b z] using rev_ind; [reflexivity|].
  rewrite app_assoc in E. apply app_inj_tail in E as (E & _). elim NI. rewrite E. apply in_or_app. now left.
Qed.
Lemma resume_W k off z : L = cbuf k ++ z -> cexc k = false -> (off <= List.length (cbuf k))%nat -> ~ In 10%N (firstn off (cbuf k)) -> cout k = [] ->
  W (resume decode limit off k) (List.length (cbuf k)).
Proof.
  intros E X O N C. unfold resume. cbn [read_loop]. rewrite X. destruct (find_sep (cbuf k) off) as [i|] eqn:F.
  - destruct (find_some _ _ _ O N F) as (Il & Eq & Len).
    assert (I10 : In 10%N (cbuf k)). { rewrite Eq. apply in_or_app. left. destruct Il as (y & -> & _). apply in_or_app. right. now left. }
    assert (z = []) as -> by (eapply line_prefix; eauto). rewrite app_nil_r in E.
    symmetry in E. rewrite E in *.
    assert (S1 : skipn (S i) L = []). { eapply line_prefix; [exact Eq|]. destruct Il as (y & -> & _). apply in_or_app. right. now left. }
    assert (F1 : firstn (S i) L = L) by (rewrite S1, app_nil_r in Eq; now symmetry).
    assert (LL : List.length L = S i) by (rewrite <- F1; exact Len).
    destruct (Nat.ltb_spec limit i). { split; [exact C|]. cbn [set_st cst]. left. lia. }
    rewrite F1. destruct (N.eqb_spec (hd 0%N L) ENQ) as [e|_]; [elim noenq; exact e|]. unfold AskModel.decode. destruct (utf8 L) eqn:U.
    + split; [exact C|]. cbn [set_st set_buf cst cbuf]. split; [reflexivity|]. repeat split; auto; lia.
    + split; [exact C|]. cbn [set_st cst]. now right.
  - pose proof (find_none _ _ N F) as NN.
    assert (Z : z <> []). { intros ->. rewrite app_nil_r in E. destruct line as (x & Ex & _). apply NN. rewrite <- E, Ex. apply in_or_app. right. now left. }
    assert (LL : (List.length (cbuf k) < List.length L)%nat). { rewrite E at 1. rewrite app_length. destruct z; [congruence|cbn; lia]. }
    destruct (Nat.ltb_spec limit (List.length (cbuf k))). { split; [exact C|]. cbn [set_st cst]. left. lia. }
    destruct (ceof k) eqn:Ef. { split; [exact C|]. cbn [set_st set_buf cst cexc ceof]. now right. }
    split; [exact C|]. cbn [set_st cst cbuf cexc ceof]. rewrite E at 1. rewrite firstn_app, Nat.sub_diag, firstn_all. cbn [firstn]. rewrite app_nil_r. auto.
Qed.
Lemma accept_W : W accept 0.
Proof. split; [reflexivity|]. cbn. repeat split; auto. Qed.
Lemma split_fed fed n : (fed <= List.length L)%nat -> let chunk := firstn n (skipn fed L) in
  L = (firstn fed L ++ chunk) ++ skipn n (skipn fed L) /\ List.length (firstn fed L ++ chunk) = (fed + List.length chunk)%nat.
Proof.
  intros H chunk. split; [unfold chunk; rewrite <- app_assoc, !firstn_skipn; reflexivity|]. rewrite app_length, firstn_length. lia.
Qed.
Lemma feed_inv k fed ran n : ConnInv k fed ran -> ceof k = false -> let chunk := firstn n (skipn fed L) in
  ConnInv (cstep decode (answer c) limit k (EFeed chunk)) (fed + List.length chunk) ran.
Proof.
  intros (F & H) Ef chunk. destruct (split_fed fed n F) as (E & Len). fold chunk in E, Len.
  assert (F' : (fed + List.length chunk <= List.length L)%nat) by (pose proof (f_equal (@List.length _) E) as LE; rewrite app_length in LE; lia).
  split; [exact F'|]. cbn [cstep]. rewrite Ef. destruct H as [(R & C & H)|(R & Q & H & O)].
  - left. split; [exact R|]. unfold wake. change (cst (set_buf k (cbuf k ++ chunk))) with (cst k).
    destruct (cst k) as [off|t| |m] eqn:S.
    + destruct H as (B & Eo & N & X & _). pose proof (resume_W (set_buf k (cbuf k ++ chunk)) off (skipn n (skipn fed L))) as Q.
      cbn [set_buf cbuf cexc cout] in Q. rewrite B in *. rewrite <- Len. apply Q; auto.
      * rewrite app_length. lia.
      * rewrite Eo, firstn_app, Nat.sub_diag, firstn_all. cbn [firstn]. now rewrite app_nil_r.
    + destruct H as (-> & Ef1 & U & Li & B). assert (chunk = []) as -> by (unfold chunk; rewrite Ef1, skipn_all; now destruct n).
      split; [exact C|]. cbn [set_buf cst cbuf]. rewrite S. rewrite B. cbn [List.length Datatypes.app]. rewrite Nat.add_0_r. auto.
    + split; [exact C|]. cbn [set_buf cst cexc ceof]. now rewrite S.
    + split; [exact C|]. cbn [set_buf cst cexc ceof]. now rewrite S.
  - right. split; [exact R|]. assert (chunk = []) as -> by (unfold chunk; rewrite (proj1 Q), skipn_all; now destruct n).
    cbn [List.length]. rewrite Nat.add_0_r, app_nil_r. split; [exact Q|]. unfold wake. change (cst (set_buf k (cbuf k))) with (cst k).
    destruct (cst k) as [off|t| |m] eqn:S; [|destruct H| |].
    + destruct H as (B & ->). unfold resume. cbn [set_buf cbuf]. rewrite B. cbn [List.length read_loop set_buf cexc].
      destruct (cexc k) eqn:X.
      * cbn [set_st cst cbuf cexc]. split; [exact I|]. destruct O as [(O & [(O1 & _)|((m & O1) & _)])|O]; [discriminate|discriminate|right; exact O].
      * cbn [find_sep skipn index set_buf cbuf List.length Nat.ltb Nat.leb ceof]. rewrite Ef. cbn [set_st cst cbuf]. split; [auto|].
        destruct O as [(O & [(O1 & _)|((m & O1) & _)])|O]; [discriminate|discriminate|right; exact O].
    + cbn [set_buf cst]. rewrite S. split; [exact I|]. exact O.
    + cbn [set_buf cst]. rewrite S. split; [exact I|]. exact O.
Qed.
Lemma resume_empty k eof exc : cbuf k = [] -> 
  let k' := resume decode limit 0 (mkConn (cbuf k) eof exc (cst k) (cprev k) (cout k)) in
  cout k' = cout k /\ cexc k' = exc /\ (cst k' = Closed \/ (cst k' = Reading 0 /\ cbuf k' = [])).
Proof.
  intros B. unfold resume. cbn [cbuf]. rewrite B. cbn [List.length read_loop cexc]. destruct exc; [cbn; auto|].
  cbn [find_sep skipn index cbuf List.length Nat.ltb Nat.leb ceof]. destruct eof; cbn; auto.
Qed.
Lemma eof_inv k fed ran : ConnInv k fed ran -> ConnInv (cstep decode (answer c) limit k EEof) fed ran.
Proof.
  intros (F & H). split; [exact F|]. cbn [cstep]. unfold wake. cbn [cst]. destruct H as [(R & C & H)|(R & Q & H & O)].
  - left. split; [exact R|]. destruct (cst k) as [off|t| |m] eqn:S.
    + destruct H as (B & Eo & N & X & _).
      pose proof (resume_W (mkConn (cbuf k) true (cexc k) (Reading off) (cprev k) (cout k)) off (skipn fed L)) as G. cbn [cbuf cexc cout] in G.
      replace fed with (List.length (cbuf k)) at 1 by (rewrite B, firstn_length; lia). apply G; auto; [rewrite B; symmetry; apply firstn_skipn|lia|rewrite Eo, firstn_all; exact N].
    + split; [exact C|]. exact H.
    + split; [exact C|]. cbn [cst ceof cexc]. now right.
    + split; [exact C|]. exact H.
  - right. split; [exact R|]. split; [exact Q|]. destruct (cst k) as [off|t| |m] eqn:S; [|destruct H| |].
    + destruct H as (B & ->). pose proof (resume_empty k true (cexc k) B) as G. cbv zeta in G. rewrite S in G. destruct G as (G1 & G2 & G3).
      split. { destruct G3 as [->|(-> & ->)]; auto. }
      right. destruct O as [(O & [(O1 & _)|((m & O1) & _)])|(r & O1 & O2)]; [discriminate|discriminate|]. exists r. rewrite G1. auto.
    + cbn [cst cout cexc]. split; [exact I|]. exact O.
    + cbn [cst cout cexc]. split; [exact I|]. exact O.
Qed.
Lemma reset_inv k fed ran : ConnInv k fed ran -> ConnInv (cstep decode (answer c) limit k EReset) fed ran.
Proof.
  intros (F & H). split; [exact F|]. cbn [cstep]. unfold wake. cbn [cst]. destruct H as [(R & C & H)|(R & Q & H & O)].
  - left. split; [exact R|]. destruct (cst k) as [off|t| |m] eqn:S.
    + unfold resume. cbn [read_loop cexc]. split; [exact C|]. cbn. now left.
    + split; [exact C|]. exact H.
    + split; [exact C|]. cbn [cst ceof cexc]. now left.
    + split; [exact C|]. exact H.
  - right. split; [exact R|]. split; [exact Q|]. destruct (cst k) as [off|t| |m] eqn:S; [|destruct H| |].
    + unfold resume. cbn [read_loop cexc set_st cst]. split; [exact I|]. cbn [cout cexc].
      right. destruct O as [(O & [(O1 & _)|((m & O1) & _)])|O]; [discriminate|discriminate|exact O].
    + cbn [cst cout cexc]. split; [exact I|]. destruct O as [(O & _)|O]; [left; auto|right; exact O].
    + cbn [cst cout cexc]. split; [exact I|]. destruct O as [(O & [(O1 & _)|O1])|O]; [discriminate|left; auto|right; exact O].
Qed.
Lemma done_inv k fed ran t : ConnInv k fed ran -> cst k = Handling t ->
  t = text /\ ran = [] /\ ConnInv (cstep decode (answer c) limit k EDone) fed [(t, snd (serve c t))].
Proof.
  intros (F & H) S. destruct H as [(R & C & H)|(R & Q & H & O)]; [|rewrite S in H; destruct H]. rewrite S in H.
  destruct H as (-> & Ef & U & Li & B). split; [reflexivity|]. split; [exact R|]. split; [exact F|]. right. split; [reflexivity|]. split; [auto|].
  cbn [cstep]. rewrite S. destruct (answer c (cprev k) text) as [b|] eqn:An.
  - unfold AskModel.answer in An. destruct (fst (serve c text)) as [r|x] eqn:Sv; [|discriminate]. injection An as <-. destruct (cexc k) eqn:X.
    + cbn [cexc set_st cst cout cbuf]. split; [exact I|]. left. rewrite C. auto.
    + cbn [cexc]. unfold write_data. cbn [cexc cbuf ceof cst cprev cout].
      pose proof (resume_empty (mkConn (cbuf k) (ceof k) false (cst k) (cprev k ++ [text]) (cout k ++ [bytes (body r) ++ [LF]])) (ceof k) false B) as G.
      cbn [cbuf cst cprev cout] in G. destruct G as (G1 & G2 & G3). rewrite S in G1, G2, G3. split; [destruct G3 as [->|(-> & ->)]; auto|].
      right. exists r. rewrite G1, C. auto.
  - unfold AskModel.answer in An. destruct (fst (serve c text)) as [r|x] eqn:Sv; [discriminate|]. cbn [set_st cst cout]. split; [exact I|]. left.
    split; [exact C|]. right. eauto.
Qed.
End Conn.
