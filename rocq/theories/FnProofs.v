(** Which key the message of a decorated function carries. *)
From Coq Require Import List Bool String.
From Verif Require Import Base FnModel FnSpec.
Import ListNotations.
Local Open Scope string_scope.

Section Proofs.
Context {V : Type}.
Implicit Types (l : list (string * V)) (b : bound V) (s : signature V).
Lemma get_app n l l' : get n (l ++ l') = match get n l with Some v => Some v | None => get n l' end.
Proof. unfold get. induction l as [|e l IH]; [reflexivity|]. cbn [app find]. destruct (fst e =? n); [reflexivity|exact IH]. Qed.
Lemma get_one n (e : string * V) : get n [e] = if fst e =? n then Some (snd e) else None.
Proof. unfold get. cbn [find]. destruct (fst e =? n); reflexivity. Qed.
Lemma get_cons n e l : get n (e :: l) = if fst e =? n then Some (snd e) else get n l.
Proof. unfold get. cbn [find]. destruct (fst e =? n); reflexivity. Qed.
Lemma get_none n l : ~ In n (map fst l) -> get n l = None.
Proof.
  induction l as [|e l IH]; intros H; [reflexivity|]. rewrite get_cons. cbn [map In] in H. destruct (String.eqb_spec (fst e) n); [exfalso; auto|apply IH; auto].
Qed.
Lemma positional_names ps : forall args n, ~ In n (map (@pname V) ps) -> get n (fst (bind_positional ps args)) = None.
Proof.
  induction ps as [|p ps IH]; intros args n H; [destruct args; reflexivity|]. destruct args as [|a args]; [reflexivity|]. cbn [bind_positional].
  specialize (IH args n). destruct (bind_positional ps args) as [v r]. cbn [fst] in *. rewrite get_cons. cbn [fst map In] in *.
  destruct (String.eqb_spec (pname p) n); [exfalso; auto|apply IH; auto].
Qed.
Lemma keyword_none s b e b' n : bind_keyword s b e = Ok b' -> fst e <> n -> get n (values b') = get n (values b) /\ get n (other b') = get n (other b).
Proof.
  unfold bind_keyword. intros H N. apply String.eqb_neq in N. destruct (takes s (fst e)).
  - destruct (get (fst e) (values b)); [discriminate H|]. injection H as <-. cbn [values other]. rewrite get_app, get_one, N. split; [destruct (get n (values b)); reflexivity|reflexivity].
  - destruct (star_star s); [|discriminate H]. injection H as <-. cbn [values other]. rewrite get_app, get_one, N. split; [reflexivity|destruct (get n (other b)); reflexivity].
Qed.
Lemma keywords_none s kw : forall b b' n, bind_keywords s b kw = Ok b' -> ~ In n (map fst kw) -> get n (values b') = get n (values b) /\ get n (other b') = get n (other b).
Proof.
  induction kw as [|e r IH]; intros b b' n H N; cbn [bind_keywords] in H; [injection H as <-; split; reflexivity|]. cbn [map In] in N.
  destruct (bind_keyword s b e) as [b1|] eqn:E; [|discriminate H]. cbn [bind] in H.
  destruct (keyword_none s b e b1 n E) as [A1 A2]; [auto|]. destruct (IH b1 b' n H) as [B1 B2]; [auto|]. split; congruence.
Qed.
Lemma keywords_some s kw : forall b b' n v, bind_keywords s b kw = Ok b' -> NoDup (map fst kw) -> get n kw = Some v -> get n (other b) = None ->
  if takes s n then get n (values b') = Some v /\ get n (other b') = None else get n (values b') = get n (values b) /\ get n (other b') = Some v.
Proof.
  induction kw as [|e r IH]; intros b b' n v H D G O; [discriminate G|]. cbn [bind_keywords] in H. cbn [map] in D. inversion D as [|? ? D1 D2]; subst.
  destruct (bind_keyword s b e) as [b1|] eqn:E; [|discriminate H]. cbn [bind] in H. rewrite get_cons in G. destruct (String.eqb_spec (fst e) n) as [<-|N].
  - injection G as <-. destruct (keywords_none s r b1 b' (fst e) H D1) as [B1 B2]. rewrite B1, B2. unfold bind_keyword in E.
    destruct (takes s (fst e)).
    + destruct (get (fst e) (values b)) eqn:Gv; [discriminate E|]. injection E as <-. cbn [values other]. rewrite get_app, Gv, get_one, String.eqb_refl. auto.
    + destruct (star_star s); [|discriminate E]. injection E as <-. cbn [values other]. rewrite get_app, O, get_one, String.eqb_refl. auto.
  - destruct (keyword_none s b e b1 n E N) as [A1 A2]. specialize (IH b1 b' n v H D2 G ltac:(congruence)). rewrite A1 in IH. exact IH.
Qed.
Lemma keywords_refused s kw : forall b n, In n (map fst kw) -> takes s n = false -> star_star s = false -> exists e, bind_keywords s b kw = Raise e.
Proof.
  induction kw as [|e r IH]; intros b n H T S; [destruct H|]. cbn [bind_keywords]. cbn [map In] in H. destruct (String.eqb_spec (fst e) n) as [E|N].
  - unfold bind_keyword. rewrite E, T, S. exists "TypeError". reflexivity.
  - destruct H as [H|H]; [contradiction|]. destruct (bind_keyword s b e) as [b1|x]; cbn [bind]; [eapply IH; eauto|eauto].
Qed.
Lemma keyword_type_error s b e x : bind_keyword s b e = Raise x -> x = "TypeError".
Proof. unfold bind_keyword. destruct (takes s (fst e)); [destruct (get (fst e) (values b))|destruct (star_star s)]; intros H; try discriminate H; injection H as <-; reflexivity. Qed.
Lemma keywords_type_error s kw : forall b x, bind_keywords s b kw = Raise x -> x = "TypeError".
Proof.
  induction kw as [|e r IH]; intros b x H; [discriminate H|]. cbn [bind_keywords] in H. destruct (bind_keyword s b e) as [b1|y] eqn:E; cbn [bind] in H; [eauto|].
  injection H as <-. eapply keyword_type_error; eauto.
Qed.
Lemma defaults_keep ps : forall b b' n v, bind_defaults b ps = Ok b' -> get n (values b) = Some v -> get n (values b') = Some v.
Proof.
  induction ps as [|p ps IH]; intros b b' n v H G; cbn [bind_defaults] in H; [injection H as <-; exact G|].
  destruct (get (pname p) (values b)); [eauto|]. destruct (pdefault p); [|discriminate H]. eapply IH; [exact H|]. cbn [values]. rewrite get_app, G. reflexivity.
Qed.
Lemma defaults_other ps : forall b b', bind_defaults b ps = Ok b' -> other b' = other b.
Proof.
  induction ps as [|p ps IH]; intros b b' H; cbn [bind_defaults] in H; [injection H as <-; reflexivity|].
  destruct (get (pname p) (values b)); [eauto|]. destruct (pdefault p); [|discriminate H]. apply IH in H. exact H.
Qed.
Lemma defaults_names ps : forall b b' n, bind_defaults b ps = Ok b' -> ~ In n (map (@pname V) ps) -> get n (values b') = get n (values b).
Proof.
  induction ps as [|p ps IH]; intros b b' n H N; cbn [bind_defaults] in H; [injection H as <-; reflexivity|]. cbn [map In] in N.
  destruct (get (pname p) (values b)); [apply IH; auto|]. destruct (pdefault p); [|discriminate H]. apply IH with (n := n) in H; [|auto]. rewrite H. cbn [values]. rewrite get_app, get_one. cbn [fst].
  destruct (String.eqb_spec (pname p) n); [exfalso; auto|]. destruct (get n (values b)); reflexivity.
Qed.
Lemma not_taken s n : takes s n = false -> ~ hidden s n -> ~ In n (map pname (ordered s ++ by_keyword s)).
Proof.
  unfold takes. intros T H I. apply orb_false_iff in T as [T1 T2]. rewrite map_app in I. apply in_app_or in I as [I|I]; apply in_map_iff in I as (p & P & I).
  - destruct (positional_only p) eqn:K; [apply H; exists p; auto|]. enough (X : existsb (fun p => (pname p =? n) && negb (positional_only p)) (ordered s) = true) by congruence.
    apply existsb_exists. exists p. split; [exact I|]. rewrite P, K, String.eqb_refl. reflexivity.
  - enough (X : existsb (fun p => pname p =? n) (by_keyword s) = true) by congruence. apply existsb_exists. exists p. split; [exact I|]. rewrite P. apply String.eqb_refl.
Qed.
Lemma seen_keyword s args kw b v : bind_call s args kw = Ok b -> NoDup (map fst kw) -> ~ hidden s "span_key" -> get "span_key" kw = Some v -> seen b = Some v.
Proof.
  intros H D P G. unfold bind_call in H. pose proof (positional_names (ordered s) args "span_key") as Q. destruct (bind_positional (ordered s) args) as [v0 r]. cbn [fst] in Q.
  destruct (negb (star s) && negb match r with [] => true | _ => false end); [discriminate H|].
  destruct (bind_keywords s (mkBound v0 r []) kw) as [b1|] eqn:E; [|discriminate H]. cbn [bind] in H.
  pose proof (keywords_some s kw _ b1 "span_key" v E D G eq_refl) as K. unfold seen. rewrite get_app. destruct (takes s "span_key") eqn:T.
  - rewrite (defaults_keep _ _ _ _ _ H (proj1 K)). reflexivity.
  - destruct K as [K1 K2]. cbn [values] in K1. pose proof (not_taken s "span_key" T P) as N. rewrite (defaults_names _ _ _ _ H N), K1, Q, (defaults_other _ _ _ H); [exact K2|].
    intros I. apply N. rewrite map_app. apply in_or_app. left. exact I.
Qed.
Lemma refused s args kw : get "span_key" kw <> None -> takes s "span_key" = false -> star_star s = false -> bind_call s args kw = Raise "TypeError".
Proof.
  intros G T S. unfold bind_call. destruct (bind_positional (ordered s) args) as [v0 r]. destruct (negb (star s) && negb match r with [] => true | _ => false end); [reflexivity|].
  destruct (keywords_refused s kw (mkBound v0 r []) "span_key") as [e E]; [|exact T|exact S|].
  - destruct (in_dec string_dec "span_key" (map fst kw)) as [I|I]; [exact I|]. apply get_none in I. contradiction.
  - rewrite E. cbn [bind]. f_equal. eapply keywords_type_error; eauto.
Qed.
End Proofs.
