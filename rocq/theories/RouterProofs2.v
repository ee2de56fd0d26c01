(** Further proofs about routing: values handed on, registration, argument filtering, metadata. *)
From Coq Require Import List ZArith NArith Bool String Lia.
From Verif Require Import RouterModel RouterSpec RouterProofs.
Import ListNotations.
Local Open Scope string_scope.
Local Open Scope Z_scope.
Local Open Scope list_scope.

Lemma number_length {A B} (f : nat -> A -> B) : forall l i, Datatypes.length (number f i l) = Datatypes.length l.
Proof. induction l; intros; cbn; auto. Qed.
Lemma firstn_cons_len {A} (a : A) l : firstn (Datatypes.length l) (a :: l) = removelast (a :: l).
Proof. revert a. induction l as [|b l IH]; intros a; [reflexivity|]. cbn [Datatypes.length]. rewrite firstn_cons, IH. reflexivity. Qed.

Lemma nodup_app_l {A} (l m : list A) : NoDup (l ++ m) -> NoDup l.
Proof.
  induction l as [|a l IH]; cbn [app]; intros H; [constructor|]. inversion H; subst. constructor; [|auto].
  intros I. apply H2. apply in_or_app. now left.
Qed.
Lemma last_cons {A} (a : A) l d : last (a :: l) d = last l a.
Proof. revert a d. induction l as [|b l IH]; intros a d; [reflexivity|]. change (last (b :: l) d = last (b :: l) a). now rewrite !IH. Qed.

Lemma filtered_named {A} sig (kw : list (string * A)) args : filtered_call sig kw = Some args -> args = named_in sig kw.
Proof.
  unfold filtered_call. destruct (call_ok _ _); [|discriminate]. intros E. injection E as <-.
  unfold call_kwargs, named_in, accepted. apply filter_ext. intros x. induction sig as [|p sig IH]; [reflexivity|].
  cbn [map existsb]. now rewrite IH.
Qed.

(** ** Metadata *)
Definition merge1 (meta : list (string * json)) (r : option (list (string * json))) : list (string * json) :=
  match r with Some e => supdate meta e | None => meta end.
Lemma sset_nodup {V} k (v : V) d : NoDup (map fst d) -> NoDup (map fst (sset k v d)).
Proof.
  intros H. rewrite sset_keys. destruct (shas k d) eqn:E; auto.
  assert (~ In k (map fst d)) by (intros A; apply shas_in in A; congruence).
  clear E. induction (map fst d) as [|x l IH]; cbn [app]; [repeat constructor; intros []|].
  inversion H; subst. constructor. { rewrite in_app_iff. intros [A|[<-|[]]]; [auto|apply H0; now left]. }
  apply IH; auto. intros A. apply H0. now right.
Qed.
Lemma supdate_nodup {V} (e d : list (string * V)) : NoDup (map fst d) -> NoDup (map fst (supdate d e)).
Proof. unfold supdate. revert d. induction e as [|x e IH]; intros d H; cbn [fold_left]; auto. apply IH. now apply sset_nodup. Qed.
Lemma sget_supdate {V} k (e d : list (string * V)) : NoDup (map fst e) ->
  sget k (supdate d e) = match sget k e with Some v => Some v | None => sget k d end.
Proof.
  unfold supdate. revert d. induction e as [|[k' v'] e IH]; intros d H; cbn [fold_left fst snd sget]; [reflexivity|].
  cbn [map fst] in H. inversion H; subst. rewrite IH, sget_sset by auto.
  destruct (String.eqb_spec k k') as [->|]; [|reflexivity].
  assert (E : sget k' e = None) by now apply sget_missing. now rewrite E.
Qed.
Lemma sget_in {V} k (v : V) d : NoDup (map fst d) -> (sget k d = Some v <-> In (k, v) d).
Proof.
  intros H. rewrite sget_finds. split.
  - intros [a [b [-> _]]]. apply in_or_app. right. now left.
  - intros A. apply in_split in A. destruct A as [a [b ->]]. exists a, b. split; [reflexivity|].
    rewrite map_app in H. cbn [map fst] in H. apply NoDup_remove_2 in H. intros A. apply H. apply in_or_app. now left.
Qed.
Lemma merge_nodup : forall ms meta, NoDup (map fst meta) -> NoDup (map fst (fold_left merge1 ms meta)).
Proof. induction ms as [|[e|] ms IH]; intros meta H; cbn [fold_left merge1]; auto. apply IH. now apply supdate_nodup. Qed.
Lemma merge_get key v : forall ms, (forall e, In (Some e) ms -> NoDup (map fst e)) ->
  (sget key (fold_left merge1 ms []) = Some v <->
   exists earlier e later, ms = earlier ++ Some e :: later /\ In (key, v) e /\ forall e', In (Some e') later -> missing key e').
Proof.
  induction ms as [|r ms IH] using rev_ind; intros H.
  - cbn. split; [discriminate|]. intros [[|a l] [e [b [E _]]]]; discriminate.
  - rewrite fold_left_app. cbn [fold_left]. set (old := fold_left merge1 ms []) in *.
    assert (H' : forall e, In (Some e) ms -> NoDup (map fst e)) by (intros; apply H; apply in_or_app; auto).
    specialize (IH H'). destruct r as [e|]; cbn [merge1].
    + assert (He : NoDup (map fst e)) by (apply H; apply in_or_app; right; now left). rewrite sget_supdate by auto.
      destruct (sget key e) as [w|] eqn:Ee.
      * split.
        -- intros E. injection E as ->. exists ms, e, []. split; [reflexivity|]. split; [now apply sget_in|]. intros e' [].
        -- intros [a [e0 [b [E [Hi Hm]]]]]. destruct b as [|x b _] using rev_ind.
           ++ apply app_inj_tail in E. destruct E as [_ E]. injection E as <-. apply sget_in in Hi; auto. congruence.
           ++ rewrite app_comm_cons, app_assoc in E. apply app_inj_tail in E. destruct E as [_ <-]. exfalso.
              apply (Hm e); [apply in_or_app; right; now left|]. apply sget_in in Ee; auto. apply (in_map fst) in Ee. exact Ee.
      * rewrite IH. split.
        -- intros [a [e0 [b [-> [Hi Hm]]]]]. exists a, e0, (b ++ [Some e]). split; [now rewrite <- app_assoc|]. split; auto.
           intros e' He'. apply in_app_or in He'. destruct He' as [He'|[He'|[]]]; [auto|]. injection He' as <-. now apply sget_missing.
        -- intros [a [e0 [b [E [Hi Hm]]]]]. destruct b as [|x b _] using rev_ind.
           ++ apply app_inj_tail in E. destruct E as [_ E]. injection E as <-. apply sget_in in Hi; auto. congruence.
           ++ rewrite app_comm_cons, app_assoc in E. apply app_inj_tail in E. destruct E as [-> _]. exists a, e0, b. repeat split; auto.
              intros e' He'. apply Hm. apply in_or_app. now left.
    + rewrite IH. split.
      * intros [a [e0 [b [-> [Hi Hm]]]]]. exists a, e0, (b ++ [None]). split; [now rewrite <- app_assoc|]. split; auto.
        intros e' He'. apply in_app_or in He'. destruct He' as [He'|[He'|[]]]; [auto|discriminate].
      * intros [a [e0 [b [E [Hi Hm]]]]]. destruct b as [|x b _] using rev_ind.
        -- apply app_inj_tail in E. destruct E as [_ E]. discriminate.
        -- rewrite app_comm_cons, app_assoc in E. apply app_inj_tail in E. destruct E as [-> _]. exists a, e0, b. repeat split; auto.
           intros e' He'. apply Hm. apply in_or_app. now left.
Qed.
Lemma merge_merged ms : merged ms (fold_left merge1 ms []).
Proof.
  assert (N : NoDup (map fst (fold_left merge1 ms []))) by (apply merge_nodup; constructor).
  split; [exact N|]. intros H key v. rewrite <- sget_in by exact N. now apply merge_get.
Qed.

(** ** C48 *)
Lemma existsb_named (n : string) sig : existsb (String.eqb n) (map pname sig) = true <-> In n (map pname sig).
Proof. rewrite existsb_exists. split; [intros [x [A B]]; apply String.eqb_eq in B; congruence|intros A; exists n; split; auto; apply String.eqb_refl]. Qed.
Theorem filtered_plain {A} sig (kw : list (string * A)) : plain sig ->
  (satisfied sig kw -> filtered_call sig kw = Some (filter (fun x => declares sig (fst x)) kw)) /\
  (~ satisfied sig kw -> filtered_call sig kw = None).
Proof.
  intros Hp. unfold filtered_call.
  assert (F : call_kwargs (accepted sig) kw = filter (fun x => declares sig (fst x)) kw).
  { apply filter_ext. intros x. unfold accepted, declares. clear kw. induction sig as [|p sig IH]; [reflexivity|]. cbn [map existsb].
    rewrite IH by (intros q Hq; apply Hp; now right). destruct (Hp p (or_introl eq_refl)) as [-> | ->]; now rewrite andb_true_r. }
  rewrite F. set (kw' := filter _ kw).
  assert (A1 : forallb (fun x => takes_kw sig (fst x) || has_varkw sig) kw' = true).
  { apply forallb_forall. intros x Hx. apply filter_In in Hx. destruct Hx as [_ Hx]. apply orb_true_iff. left.
    unfold declares in Hx. unfold takes_kw. rewrite existsb_exists in *. destruct Hx as [p [Hi Hx]]. exists p. now rewrite String.eqb_sym. }
  assert (A2 : forallb (fun p => negb (required p) || (match pk p with PosOnly => false | _ => true end && shas (pname p) kw')) sig = true <-> satisfied sig kw).
  { rewrite forallb_forall. split.
    - intros H p Hi Hd Hk. specialize (H p Hi). unfold required in H. rewrite Hd in H.
      assert (I : shas (pname p) kw' = true) by (destruct (Hp p Hi) as [E|E]; rewrite E in H; exact H).
      apply shas_in in I. apply in_map_iff in I. destruct I as [x [Ex Hx]]. apply filter_In in Hx. rewrite <- Ex. apply in_map. apply Hx.
    - intros H p Hi. unfold required. destruct (pdefault p) eqn:Hd; [reflexivity|].
      assert (I : shas (pname p) kw' = true).
      { apply shas_in. assert (G : In (pname p) (map fst kw)) by (apply H; auto; destruct (Hp p Hi); auto).
        apply in_map_iff in G. destruct G as [x [Ex Hx]]. rewrite <- Ex. apply in_map. apply filter_In. split; auto.
        unfold declares. apply existsb_exists. exists p. split; auto. rewrite Ex, String.eqb_refl. destruct (Hp p Hi) as [-> | ->]; reflexivity. }
      rewrite I. destruct (Hp p Hi) as [-> | ->]; reflexivity. }
  unfold call_ok. rewrite A1. cbn [andb]. split; intros H.
  - apply A2 in H. now rewrite H.
  - destruct (forallb _ sig) eqn:E; [|reflexivity]. elim H. now apply A2.
Qed.

(** ** C26 *)
Section Register.
Context {K D V : Type}.
Implicit Types (t : table K D V) (hd : handler K D V) (hds : list (handler K D V)).
Lemma register_present track t hd : In (h_route hd) (map fst t) ->
  exists m, register_handler track t hd = (t, Exc (XOther m)).
Proof. intros H. apply shas_in in H. unfold register_handler. rewrite H. eexists. reflexivity. Qed.
Lemma register_absent track t hd : ~ In (h_route hd) (map fst t) ->
  fst (register_handler track t hd) = t ++ [(h_route hd, hd)] /\
  (snd (register_handler track t hd) = Ret tt <-> track (h_route hd) = true).
Proof.
  intros H. assert (E : shas (h_route hd) t = false) by (destruct (shas (h_route hd) t) eqn:E; auto; apply shas_in in E; now elim H).
  unfold register_handler. rewrite E. cbn [negb fst snd]. split; [now apply sset_new|]. destruct (track _); split; congruence.
Qed.
Lemma finds_app {A} k (v : A) a b : finds k v (a ++ b) <-> finds k v a \/ (missing k a /\ finds k v b).
Proof.
  rewrite <- !sget_finds, <- sget_missing. induction a as [|[k' v'] a IH]; cbn [app sget].
  - split; [auto|]. intros [H|[_ H]]; [discriminate|auto].
  - destruct (String.eqb k k'); [|exact IH]. split; [auto|]. intros [H|[H _]]; [auto|discriminate].
Qed.
Theorem register_all_table track hds :
  NoDup (map fst (register_all track hds)) /\
  (forall k, In k (map fst (register_all track hds)) <-> In k (map h_route hds)) /\
  (forall k hd, finds k hd (register_all track hds) <-> finds k hd (by_route hds)).
Proof.
  unfold register_all, by_route. induction hds as [|hd hds IH] using rev_ind.
  - cbn. repeat split; try tauto. constructor.
  - rewrite fold_left_app. cbn [fold_left]. set (t := fold_left (fun t hd => fst (register_handler track t hd)) hds []) in *. destruct IH as [N [I F]].
    rewrite !map_app. cbn [map]. destruct (in_dec string_dec (h_route hd) (map fst t)) as [Hi|Hn].
    + destruct (register_present track t hd Hi) as [m ->]. cbn [fst]. split; [exact N|]. split.
      * intros k. rewrite I, in_app_iff. split; [auto|]. intros [A|[<-|[]]]; [auto|]. now apply I.
      * intros k h. rewrite F, finds_app. split; [auto|]. intros [A|[A B]]; [auto|]. exfalso.
        destruct B as [[|x a] [b [B _]]]; [|destruct a; discriminate]. injection B as <- <- <-.
        apply A. unfold missing. apply I in Hi. rewrite map_map. exact Hi.
    + destruct (register_absent track t hd Hn) as [-> _]. rewrite map_app. cbn [map fst]. split; [|split].
      * assert (G := sset_nodup (h_route hd) hd t N). rewrite sset_new, map_app in G; [exact G|].
        destruct (shas (h_route hd) t) eqn:E; auto. apply shas_in in E. now elim Hn.
      * intros k. rewrite !in_app_iff, I. reflexivity.
      * intros k h. rewrite !finds_app, F. assert (M : missing k t <-> missing k (map (fun h => (h_route h, h)) hds)).
        { unfold missing. rewrite map_map. cbn [fst]. fold (@h_route K D V). change (fun x => h_route x) with (@h_route K D V). rewrite I. tauto. }
        rewrite M. tauto.
Qed.
Lemma table_routes track hds k hd : finds k hd (register_all track hds) -> h_route hd = k.
Proof.
  intros H. apply register_all_table in H. destruct H as [a [b [H _]]]. unfold by_route in H.
  assert (I : In (k, hd) (map (fun hd => (h_route hd, hd)) hds)) by (rewrite H; apply in_or_app; right; now left).
  apply in_map_iff in I. destruct I as [x [E _]]. now injection E as <- <-.
Qed.
End Register.

Section Proofs.
Context {K D V : Type}.
Context (accepted_resp : K -> V) (bms : list (bmiddleware K D V)) (mws : list (middleware K D V)).
Context (stats : list (call K D V) -> string -> option string).
Context (span_of : json -> option K) (loads : string -> outc json).
Notation hist := (list (call K D V)).
Notation serve := (serve_request accepted_resp bms mws stats span_of loads).
Notation raised := (raised mws bms stats).

(** ** C24: the simple cases *)
Theorem serve_decode t text m : loads text = Exc (XDecode m) -> serve t text = (Ret (mkResp None 100 (RText m)), []).
Proof. intros E. unfold serve_request. now rewrite E. Qed.
Theorem serve_not_request t text d : loads text = Ret (JObj d) -> (forall r, ~ describes span_of d r) ->
  exists m, serve t text = (Ret (mkResp None 300 (RText m)), []).
Proof.
  intros E H. unfold serve_request. rewrite E. destruct (request_of span_of d) as [r|] eqn:Er.
  - apply request_of_describes in Er. now apply H in Er.
  - eexists. reflexivity.
Qed.
Theorem serve_not_object t text j : loads text = Ret j -> (forall d, j <> JObj d) ->
  exists m, serve t text = (Ret (mkResp None 999 (RText m)), []).
Proof. intros E H. unfold serve_request. rewrite E. destruct j; try (eexists; reflexivity). now elim (H d). Qed.
Theorem serve_unknown t text d r : loads text = Ret (JObj d) -> describes span_of d r -> missing (rroute r) t ->
  serve t text = (Ret (mkResp (Some (rspan r)) 400 (RText (unknown_route_text (rroute r)))), []).
Proof.
  intros E H Hm. rewrite (serve_unfold _ _ _ _ _ _ _ _ _ _ E H). unfold route_request. apply sget_missing in Hm. rewrite Hm.
  reflexivity.
Qed.

Theorem serve_escapes t text x h : serve t text = (Exc x, h) ->
  is_base x /\ (loads text = Exc x \/ exists hd h0 c, In hd (map snd t) /\ h = h0 ++ [c] /\ raised hd h0 c = Some x).
Proof.
  unfold serve_request. destruct (loads text) as [j|y] eqn:E.
  2:{ intros A. destruct y; cbn [except_clauses] in A; try discriminate. injection A as <- <-. split; [now exists m|auto]. }
  destruct j; cbn [except_clauses]; try discriminate.
  destruct (request_of span_of d) as [r|] eqn:Er; [|discriminate].
  destruct (sget (rroute r) t) as [hd|] eqn:Et.
  - destruct (known_route accepted_resp bms mws stats t r hd Et) as [[o h'] [[t0 [Eh R]] ->]]. cbn [fst snd app] in *. subst h'.
    destruct o as [v|y]; [discriminate|]. destruct R as [[t1 [c [-> [Q [Hr Hp]]]]]|[_ [_ [_ [_ Hb]]]]].
    + intros A. assert (B : x = y /\ h = t1 ++ [c] /\ is_base y).
      { destruct y; cbn [except_clauses processing_failure] in A; try discriminate. injection A as <- <-. repeat split. now exists m. }
      destruct B as [-> [-> B]]. split; [exact B|]. right. exists hd, t1, c. repeat split; auto.
      apply sget_finds in Et. destruct Et as [a [b [-> _]]]. rewrite map_app. apply in_or_app. right. now left.
    + intros A. destruct y; cbn [except_clauses processing_failure] in A; try discriminate. elim Hb. now exists m.
  - unfold route_request. rewrite Et. cbn. discriminate.
Qed.

(** ** C25: values handed on *)
Lemma before_values k : forall (l : list (middleware K D V)) i p h p' h', run_before_routing i l k p h = (Ret p', h') ->
  exists ps, Datatypes.length ps = Datatypes.length l /\ p' = last ps p /\
    h' = h ++ number (fun i p => CBefore i k p) i (removelast (p :: ps)) /\
    forall j m a b, nth_error l j = Some m -> nth_error (p :: ps) j = Some a -> nth_error ps j = Some b ->
      m_before m (firstn (Datatypes.length h + j) h') k a = Ret b.
Proof.
  induction l as [|m l IH]; intros i p h p' h' E.
  - injection E as <- <-. exists []. repeat split; [now rewrite app_nil_r|]. intros [|j] m a b A; discriminate.
  - cbn [run_before_routing] in E. unfold bnd, ask in E. destruct (m_before m h k p) as [q|] eqn:Em; [|discriminate].
    destruct (IH _ _ _ _ _ E) as [ps [L [P [Hh C]]]]. exists (q :: ps). rewrite <- app_assoc in Hh.
    split; [cbn; now rewrite L|]. split; [now rewrite last_cons|].
    split. { rewrite Hh. destruct ps; reflexivity. }
    intros [|j] m' a b A B G.
    + injection A as <-. injection B as <-. injection G as <-. rewrite Hh, Nat.add_0_r, firstn_app, Nat.sub_diag, firstn_all. cbn [firstn]. now rewrite app_nil_r.
    + specialize (C j m' a b A B G). rewrite app_length in C. cbn [Datatypes.length] in C.
      replace (Datatypes.length h + S j)%nat with (Datatypes.length h + 1 + j)%nat by lia. exact C.
Qed.
Lemma after_values k p : forall (l : list (middleware K D V)) i v h v' h', run_after_routing i l k p v h = (Ret v', h') ->
  exists vs, Datatypes.length vs = Datatypes.length l /\ v' = last vs v /\
    h' = h ++ number (fun i v => CAfter i k p v) i (removelast (v :: vs)) /\
    forall j m a b, nth_error l j = Some m -> nth_error (v :: vs) j = Some a -> nth_error vs j = Some b ->
      m_after m (firstn (Datatypes.length h + j) h') k p a = Ret b.
Proof.
  induction l as [|m l IH]; intros i v h v' h' E.
  - injection E as <- <-. exists []. repeat split; [now rewrite app_nil_r|]. intros [|j] m a b A; discriminate.
  - cbn [run_after_routing] in E. unfold bnd, ask in E. destruct (m_after m h k p v) as [q|] eqn:Em; [|discriminate].
    destruct (IH _ _ _ _ _ E) as [ps [L [P [Hh C]]]]. exists (q :: ps). rewrite <- app_assoc in Hh.
    split; [cbn; now rewrite L|]. split; [now rewrite last_cons|].
    split. { rewrite Hh. destruct ps; reflexivity. }
    intros [|j] m' a b A B G.
    + injection A as <-. injection B as <-. injection G as <-. rewrite Hh, Nat.add_0_r, firstn_app, Nat.sub_diag, firstn_all. cbn [firstn]. now rewrite app_nil_r.
    + specialize (C j m' a b A B G). rewrite app_length in C. cbn [Datatypes.length] in C.
      replace (Datatypes.length h + S j)%nat with (Datatypes.length h + 1 + j)%nat by lia. exact C.
Qed.
Lemma push_values k d : forall (l : list (bmiddleware K D V)) i meta h meta' h', collect_push_metadata i l k d meta h = (Ret meta', h') ->
  exists ms, Datatypes.length ms = Datatypes.length l /\
    meta' = fold_left (fun meta r => match r with Some e => supdate meta e | None => meta end) ms meta /\
    h' = h ++ map (fun i => CBeforePush i k d) (seq i (Datatypes.length l)) /\
    forall j m b, nth_error l j = Some m -> nth_error ms j = Some b ->
      m_push m (firstn (Datatypes.length h + j) h') k d = Ret b.
Proof.
  induction l as [|m l IH]; intros i meta h meta' h' E.
  - injection E as <- <-. exists []. repeat split; [now rewrite app_nil_r|]. intros [|j] m b A; discriminate.
  - cbn [collect_push_metadata] in E. unfold bnd, ask in E. destruct (m_push m h k d) as [q|] eqn:Em; [|discriminate].
    destruct (IH _ _ _ _ _ E) as [ps [L [P [Hh C]]]]. exists (q :: ps). rewrite <- app_assoc in Hh.
    split; [cbn; now rewrite L|]. split; [exact P|]. split; [exact Hh|].
    intros [|j] m' b A G.
    + injection A as <-. injection G as <-. rewrite Hh, Nat.add_0_r, firstn_app, Nat.sub_diag, firstn_all. cbn [firstn]. now rewrite app_nil_r.
    + specialize (C j m' b A G). rewrite app_length in C. cbn [Datatypes.length] in C.
      replace (Datatypes.length h + S j)%nat with (Datatypes.length h + 1 + j)%nat by lia. exact C.
Qed.

Notation handled := (handled accepted_resp bms).
Lemma run_values hd k d h v h' : run accepted_resp bms hd k d h = (Ret v, h') ->
  exists mid, h' = h ++ mid /\ handled hd k d h mid v.
Proof.
  unfold run, handled. destruct (h_kind hd) as [sig f|paused].
  - destruct (filtered_call sig _) as [args|] eqn:Ea; [|discriminate]. unfold ask. intros E. injection E as E <-.
    exists [CFun (h_route hd) args]. split; auto. exists args. split; auto. split; auto. now apply filtered_named in Ea.
  - destruct paused; [discriminate|]. unfold bnd. intros E.
    destruct (collect_push_metadata 0 bms k d [] h) as [[meta|] h1] eqn:Ec; [|discriminate].
    unfold ask in E. injection E as <- <-. destruct (push_values _ _ _ _ _ _ _ _ Ec) as [ms [L [M [Hh C]]]]. subst h1.
    rewrite <- app_assoc. eexists. split; [reflexivity|]. repeat split. exists ms, meta. split; [auto|]. split; [auto|]. split; [subst meta; apply merge_merged|].
    intros j m b A B. specialize (C j m b A B). assert (j < Datatypes.length bms)%nat by (apply nth_error_Some; congruence).
    rewrite firstn_app_2 in C. rewrite firstn_app, map_length, seq_length, (proj2 (Nat.sub_0_le _ _)) by lia. cbn [firstn]. now rewrite app_nil_r.
Qed.

Theorem serve_values t text d r hd resp v h :
  loads text = Ret (JObj d) -> describes span_of d r -> finds (rroute r) hd t ->
  serve t text = (Ret resp, h) -> pdata resp = RVal v ->
  exists ps q data dto mid v0 vs,
    Datatypes.length ps = Datatypes.length mws /\ Datatypes.length vs = Datatypes.length mws /\
    h = number (fun i p => CBefore i (rspan r) p) 0 (removelast (Some r :: ps)) ++
        CDto (h_route hd) data :: mid ++
        number (fun i v => CAfter i (rspan r) (Some q) v) 0 (removelast (v0 :: vs)) ++ [CStats (rroute r)] /\
    (forall j m a b, nth_error mws j = Some m -> nth_error (Some r :: ps) j = Some a -> nth_error ps j = Some b ->
       m_before m (firstn j h) (rspan r) a = Ret b) /\
    last ps (Some r) = Some q /\ rdata q = JObj data /\
    h_dto hd (firstn (Datatypes.length mws) h) data = Ret dto /\
    handled hd (rspan r) dto (firstn (Datatypes.length mws + 1) h) mid v0 /\
    (forall j m a b, nth_error mws j = Some m -> nth_error (v0 :: vs) j = Some a -> nth_error vs j = Some b ->
       m_after m (firstn (Datatypes.length mws + 1 + Datatypes.length mid + j) h) (rspan r) (Some q) a = Ret b) /\
    v = last vs v0.
Proof.
  intros El Hd Hf. rewrite (serve_unfold _ _ _ _ _ _ _ _ _ _ El Hd). apply sget_finds in Hf. unfold route_request. rewrite Hf.
  intros E Ev.
  destruct (bnd (app_to_router (rroute r) _) _ []) as [[w|x] h'] eqn:Eb.
  2:{ injection E as E <-. destruct x; cbn [except_clauses] in E; try discriminate; injection E as <-; discriminate. }
  injection E as <- <-. injection Ev as <-.
  unfold bnd, app_to_router in Eb.
  destruct (run_before_routing 0 mws (rspan r) (Some r) []) as [[p|[]] h1] eqn:E1; try discriminate Eb.
  destruct (attempt_request accepted_resp bms hd p (rspan r) h1) as [[v0|[]] h2] eqn:E2; try discriminate Eb.
  destruct (run_after_routing 0 mws (rspan r) p v0 h2) as [[v1|[]] h3] eqn:E3; try discriminate Eb.
  unfold ask in Eb. destruct (stats h3 (rroute r)); [discriminate|]. unfold ret in Eb. injection Eb as <- <-.
  destruct (before_values _ _ _ _ _ _ _ E1) as [ps [L1 [P1 [H1 C1]]]]. cbn [app Datatypes.length plus] in H1, C1.
  destruct (after_values _ _ _ _ _ _ _ _ E3) as [vs [L3 [P3 [H3 C3]]]].
  unfold attempt_request in E2. destruct p as [q|]; [|discriminate]. destruct (rdata q) as [| | | | |data] eqn:Eq; try discriminate.
  unfold bnd, ask in E2. destruct (h_dto hd h1 data) as [dto|] eqn:Edto; [|discriminate].
  destruct (run_values _ _ _ _ _ _ E2) as [mid [H2 Hm]].
  assert (N1 : Datatypes.length h1 = Datatypes.length mws).
  { rewrite H1, number_length, <- firstn_cons_len, firstn_length. cbn. lia. }
  assert (F : forall j, (j <= Datatypes.length h1)%nat -> firstn j (h3 ++ [CStats (rroute r)]) = firstn j h1).
  { intros j Hj. rewrite H3, H2, <- !app_assoc, firstn_app, (proj2 (Nat.sub_0_le _ _)) by lia. cbn [firstn]. now rewrite app_nil_r. }
  exists ps, q, data, dto, mid, v0, vs. split; [exact L1|]. split; [exact L3|]. split.
  { rewrite H3, H2, <- H1, <- !app_assoc. reflexivity. }
  split. { intros j m a b A B G. rewrite F; [eauto|]. assert (j < Datatypes.length mws)%nat by (apply nth_error_Some; congruence). lia. }
  split; [now rewrite <- P1|]. split; [exact Eq|]. split. { rewrite <- N1, F, firstn_all; auto. }
  split. { rewrite <- N1. rewrite H3, H2, <- !app_assoc, firstn_app_2. exact Hm. }
  split. 2:{ exact P3. }
  intros j m a b A B G. specialize (C3 j m a b A B G). rewrite <- N1.
  assert (j < Datatypes.length mws)%nat by (apply nth_error_Some; congruence).
  assert (N2 : Datatypes.length h2 = (Datatypes.length h1 + 1 + Datatypes.length mid)%nat) by (rewrite H2, !app_length; cbn; lia).
  assert (N3 : Datatypes.length h3 = (Datatypes.length h2 + Datatypes.length mws)%nat).
  { rewrite H3, app_length, number_length, <- firstn_cons_len, firstn_length. cbn. lia. }
  rewrite <- N2. rewrite firstn_app, (proj2 (Nat.sub_0_le _ _)) by lia. cbn [firstn]. now rewrite app_nil_r.
Qed.

(** ** C20 *)
Theorem serve_paused t text d r hd resp h :
  loads text = Ret (JObj d) -> describes span_of d r -> finds (rroute r) hd t -> h_kind hd = Buffered true ->
  serve t text = (Ret resp, h) ->
  (forall c, In c h -> stage_of c <> Push /\ forall i, stage_of c <> PushMeta i) /\
  (forall v, pdata resp <> RVal v) /\
  ((forall h c, raised hd h c = None) -> pstatus resp = 999).
Proof.
  intros El Hd Hf Hk E.
  assert (A : forall v, pdata resp <> RVal v).
  { intros v Ev. destruct (serve_values _ _ _ _ _ _ _ _ El Hd Hf E Ev) as (ps & q & data & dto & mid & v0 & vs & H).
    destruct H as (_ & _ & _ & _ & _ & _ & _ & H & _). unfold handled in H. rewrite Hk in H. now destruct H. }
  split; [|split; [exact A|]].
  - rewrite (serve_unfold _ _ _ _ _ _ _ _ _ _ El Hd) in E. apply sget_finds in Hf. unfold route_request in E. rewrite Hf in E.
    unfold bnd at 1, app_to_router, bnd at 1 in E.
    pose proof (before_runs bms mws stats hd (rspan r) mws 0%nat [] (Some r) [] eq_refl eq_refl) as R.
    destruct (run_before_routing 0 mws (rspan r) (Some r) []) as [o h1] eqn:E1.
    assert (B : forall c, In c h1 -> exists i, stage_of c = Before i).
    { destruct R as [t0 [Et R]]. cbn [fst snd app] in Et, R. subst t0. intros c Hc.
      assert (P : prefix (map stage_of h1) (map Before (seq 0 (Datatypes.length mws)))).
      { destruct o; [destruct R as [R _]; exists []; now rewrite app_nil_r|destruct R as [[t0 [c0 [_ [_ [_ P]]]]]|[_ [P _]]]; exact P]. }
      destruct P as [rest P]. apply (in_map stage_of) in Hc. assert (Hi : In (stage_of c) (map Before (seq 0 (Datatypes.length mws)))).
      { rewrite P. apply in_or_app. now left. } apply in_map_iff in Hi. destruct Hi as [i [Hi _]]. eauto. }
    assert (Q : forall c, In c h -> (exists i, stage_of c = Before i) \/ stage_of c = MakeDto).
    { destruct o as [p|x].
      - unfold bnd, attempt_request in E. destruct p as [q|]; [destruct (rdata q)|]; cbn [raise] in E;
          try (injection E as _ <-; intros c Hc; left; auto; fail).
        unfold bnd, ask in E. destruct (h_dto hd h1 d0) as [dto|[]]; cbn [raise] in E;
          try (injection E as _ <-; intros c Hc; apply in_app_or in Hc; destruct Hc as [Hc|[<-|[]]]; [left; auto|right; reflexivity]; fail).
        unfold run in E. rewrite Hk in E. cbn [raise] in E. injection E as _ <-; intros c Hc; apply in_app_or in Hc; destruct Hc as [Hc|[<-|[]]]; [left; auto|right; reflexivity].
      - destruct x; injection E as _ <-; intros c Hc; left; auto. }
    intros c Hc. destruct (Q c Hc) as [[i ->]| ->]; split; congruence.
  - intros Hq. destruct (serve_known accepted_resp _ _ _ _ _ _ _ _ _ _ _ _ El Hd Hf E) as (_ & _ & _ & Hv & H).
    destruct (last (map Some h) None) as [c|] eqn:El'; [|exact H]. rewrite Hq in H.
    destruct c; try exact H. exfalso.
    destruct h as [|c0 h0 _] using rev_ind; [discriminate|]. rewrite map_app in El'. cbn [map] in El'. rewrite last_last in El'. injection El' as ->.
    rewrite (serve_unfold _ _ _ _ _ _ _ _ _ _ El Hd) in E. apply sget_finds in Hf.
    destruct (known_route accepted_resp bms mws stats t r hd Hf) as [[o h'] [[t0 [Eh R]] Ex]]. rewrite Ex in E. cbn [fst snd app] in *. subst h'.
    destruct o as [v|x]; [injection E as <- _; now apply (A v)|].
    destruct R as [[t1 [c [-> [_ [Hr _]]]]]|[Q [P [Hn _]]]]; [now rewrite Hq in Hr|].
    assert (t0 = h0 ++ [CStats route]) by (destruct x; now inversion E). subst t0.
    rewrite all_stages_eq in P, Hn. destruct P as [rest P]. destruct rest as [|s0 rest _] using rev_ind; [rewrite app_nil_r in P; congruence|].
    rewrite (app_assoc (map stage_of _) rest [s0]) in P. apply app_inj_tail in P. destruct P as [P _].
    rewrite map_app in P. cbn [map stage_of] in P.
    assert (I : In (@Count) (map Before (seq 0 (Datatypes.length mws)) ++
               (MakeDto :: handle_stages bms hd) ++ map After (seq 0 (Datatypes.length mws)))).
    { rewrite P. apply in_or_app. left. apply in_or_app. right. now left. }
    clear - I. unfold handle_stages in I. rewrite !in_app_iff in I.
    destruct I as [I|[[I|I]|I]]; try discriminate.
    + apply in_map_iff in I. destruct I as [? [I _]]. discriminate.
    + destruct (h_kind hd); [destruct I as [I|[]]; discriminate|]. apply in_app_iff in I.
      destruct I as [I|[I|[]]]; [|discriminate]. apply in_map_iff in I. destruct I as [? [I _]]. discriminate.
    + apply in_map_iff in I. destruct I as [? [I _]]. discriminate.
Qed.

(** ** C47: what is pushed *)
Lemma runs_stages {A} hd ss h (x : outc A * hist) : Runs bms mws stats hd ss h x ->
  exists t, snd x = h ++ t /\ incl (map stage_of t) ss.
Proof.
  intros [t [E R]]. exists t. split; [exact E|]. assert (P : prefix (map stage_of t) ss).
  { destruct (fst x); [destruct R as [<- _]; exists []; now rewrite app_nil_r|destruct R as [[? [? [_ [_ [_ P]]]]]|[_ [P _]]]; exact P]. }
  destruct P as [r ->]. intros c Hc. apply in_or_app. now left.
Qed.
Lemma no_push (rt : string) k d meta t ss : In (CPush rt k d meta) t -> incl (map (@stage_of K D V) t) ss -> In Push ss.
Proof. intros A B. apply B. change Push with (stage_of (CPush (V:=V) rt k d meta)). now apply in_map. Qed.
Lemma push_not_in (f : nat -> stage) l : (forall i, f i <> Push) -> ~ In Push (map f l).
Proof. intros H A. apply in_map_iff in A. destruct A as [i [A _]]. now apply (H i). Qed.

Theorem serve_push t text d r hd o h rt k dto meta :
  loads text = Ret (JObj d) -> describes span_of d r -> finds (rroute r) hd t -> serve t text = (o, h) ->
  In (CPush rt k dto meta) h ->
  rt = h_route hd /\ k = rspan r /\ h_kind hd = Buffered false /\
  exists ms h0 t1, Datatypes.length ms = Datatypes.length bms /\ merged ms meta /\
    h = h0 ++ map (fun i => CBeforePush i k dto) (seq 0 (Datatypes.length bms)) ++ CPush rt k dto meta :: t1 /\
    ~ In (CPush rt k dto meta) t1 /\
    forall j m b, nth_error bms j = Some m -> nth_error ms j = Some b ->
      m_push m (h0 ++ firstn j (map (fun i => CBeforePush i k dto) (seq 0 (Datatypes.length bms)))) k dto = Ret b.
Proof.
  intros El Hd Hf. rewrite (serve_unfold _ _ _ _ _ _ _ _ _ _ El Hd). apply sget_finds in Hf. unfold route_request. rewrite Hf.
  intros E I.
  assert (B : exists o', bnd (app_to_router (rroute r) (pipeline accepted_resp bms mws hd r))
      (fun v => bnd (ask (CStats (rroute r)) (fun h => match stats h (rroute r) with Some m => Exc (XOther m) | None => Ret tt end)) (fun _ => ret v)) [] = (o', h)).
  { unfold pipeline. destruct (bnd (app_to_router (rroute r) _) _ []) as [o' h'] eqn:Eb. destruct o'; injection E as _ <-; eauto. }
  clear E o. destruct B as [o E].
  assert (B : exists h3 t3, snd (pipeline accepted_resp bms mws hd r []) = h3 /\ h = h3 ++ t3 /\ ~ In (CPush rt k dto meta) t3).
  { unfold bnd, app_to_router in E. destruct (pipeline accepted_resp bms mws hd r []) as [o1 h3]. exists h3.
    destruct o1 as [v|x].
    - unfold ask, ret in E. exists [CStats (rroute r)]. split; auto. destruct (stats h3 (rroute r)); injection E as _ <-; split; auto; intros [A|[]]; discriminate.
    - exists []. rewrite app_nil_r. split; auto. destruct x; injection E as _ <-; auto. }
  destruct B as [h3 [t3 [E3 [-> N3]]]]. clear E. apply in_app_or in I. destruct I as [I|I]; [|now elim N3].
  unfold pipeline, bnd at 1 in E3.
  pose proof (runs_stages _ _ _ _ (before_runs bms mws stats hd (rspan r) mws 0%nat [] (Some r) [] eq_refl eq_refl)) as [t1 [S1 I1]].
  destruct (run_before_routing 0 mws (rspan r) (Some r) []) as [o1 h1] eqn:E1. cbn [fst snd app] in S1. subst h1.
  assert (N1 : ~ In (CPush rt k dto meta) t1).
  { intros A. apply (no_push _ _ _ _ _ _ A) in I1. revert I1. apply push_not_in. discriminate. }
  destruct o1 as [p|x]; [|cbn [snd] in E3; subst h3; now elim N1].
  unfold bnd in E3.
  destruct (attempt_request accepted_resp bms hd p (rspan r) t1) as [o2 h2] eqn:E2.
  assert (G : In (CPush rt k dto meta) h2 /\ exists t2, h3 = h2 ++ t2 /\ ~ In (CPush rt k dto meta) t2).
  { destruct o2 as [v|x].
    - pose proof (runs_stages _ _ _ _ (after_runs bms mws stats hd (rspan r) p mws 0%nat [] v h2 eq_refl eq_refl)) as [t2 [S2 I2]].
      rewrite E3 in S2. clear E3. subst h3. assert (N2 : ~ In (CPush rt k dto meta) t2).
      { intros A. apply (no_push _ _ _ _ _ _ A) in I2. revert I2. apply push_not_in. discriminate. }
      apply in_app_or in I. split; [tauto|]. eauto.
    - cbn [snd] in E3. subst h3. split; auto. exists []. rewrite app_nil_r. auto. }
  clear I. destruct G as [I [t2 [-> N2]]]. clear E3.
  unfold attempt_request in E2. destruct p as [q|]; [|injection E2 as <- <-; now elim N1].
  destruct (rdata q) as [| | | | |data] eqn:Eq; try (injection E2 as <- <-; now elim N1).
  unfold bnd, ask in E2.
  assert (N1' : ~ In (CPush rt k dto meta) (t1 ++ [CDto (h_route hd) data])).
  { intros A. apply in_app_or in A. destruct A as [A|[A|[]]]; [auto|discriminate]. }
  destruct (h_dto hd t1 data) as [d'|]; [|injection E2 as <- <-; now elim N1'].
  unfold run in E2. destruct (h_kind hd) as [sig f|paused] eqn:Ek.
  { exfalso. destruct (filtered_call sig _); [|injection E2 as <- <-; now elim N1'].
    unfold ask in E2. injection E2 as _ <-. apply in_app_or in I. destruct I as [A|[A|[]]]; [auto|discriminate]. }
  destruct paused; [injection E2 as <- <-; now elim N1'|]. unfold bnd in E2.
  set (h0 := t1 ++ [CDto (h_route hd) data]) in *.
  pose proof (runs_stages _ _ _ _ (collect_runs bms mws stats hd (rspan r) d' bms 0%nat [] [] h0 eq_refl eq_refl)) as [t4 [S4 I4]].
  destruct (collect_push_metadata 0 bms (rspan r) d' [] h0) as [o4 h4] eqn:E4. cbn [snd] in S4. subst h4.
  assert (N4 : ~ In (CPush rt k dto meta) (h0 ++ t4)).
  { intros A. apply in_app_or in A. destruct A as [A|A]; [auto|]. apply (no_push _ _ _ _ _ _ A) in I4. revert I4. apply push_not_in. discriminate. }
  destruct o4 as [meta'|]; [|injection E2 as <- <-; now elim N4].
  unfold ask in E2. injection E2 as _ <-. apply in_app_or in I. destruct I as [A|[A|[]]]; [now elim N4|].
  injection A as <- <- <- <-. split; [reflexivity|]. split; [reflexivity|]. split; [reflexivity|].
  destruct (push_values _ _ _ _ _ _ _ _ E4) as [ms [L [M [Hh C]]]]. apply app_inv_head in Hh. subst t4.
  exists ms, h0, (t2 ++ t3). split; [exact L|]. split; [subst meta'; apply merge_merged|]. split; [now rewrite <- !app_assoc|].
  split. { intros A. apply in_app_or in A. tauto. }
  intros j m b A B. specialize (C j m b A B). rewrite firstn_app_2 in C. exact C.
Qed.

End Proofs.
