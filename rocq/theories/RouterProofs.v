(** Proofs about routing. *)
From Coq Require Import List ZArith NArith Bool String Lia.
From Verif Require Import RouterModel RouterSpec.
Import ListNotations.
Local Open Scope string_scope.
Local Open Scope Z_scope.
Local Open Scope list_scope.

(** ** Dictionaries *)
Lemma sget_finds {V} k (v : V) d : sget k d = Some v <-> finds k v d.
Proof.
  induction d as [|[k' v'] d IH]; cbn [sget].
  - split; [discriminate|]. intros [[|x a] [b [H _]]]; discriminate.
  - destruct (String.eqb_spec k k') as [->|Hn].
    + split.
      * intros E. injection E as ->. exists [], d. split; [reflexivity|intros []].
      * intros [[|x a] [b [H Hi]]]; injection H; intros; subst; [reflexivity|]. elim Hi. now left.
    + rewrite IH. split.
      * intros [a [b [-> Hi]]]. exists ((k', v') :: a), b. split; [reflexivity|]. intros [A|A]; [now apply Hn|auto].
      * intros [[|x a] [b [H Hi]]]; injection H; intros; subst; [now elim Hn|].
        exists a, b. split; [reflexivity|]. intros A. apply Hi. now right.
Qed.
Lemma sget_missing {V} k (d : list (string * V)) : sget k d = None <-> missing k d.
Proof.
  unfold missing. induction d as [|[k' v'] d IH]; cbn [sget map fst].
  - split; [intros _ []|reflexivity].
  - destruct (String.eqb_spec k k') as [->|Hn].
    + split; [discriminate|]. intros A. elim A. now left.
    + rewrite IH. split; intros A B; apply A; [destruct B; [now elim Hn|auto]|now right].
Qed.
Lemma shas_in {V} k (d : list (string * V)) : shas k d = true <-> In k (map fst d).
Proof.
  unfold shas. destruct (sget k d) eqn:E.
  - split; auto. intros _. apply sget_finds in E. destruct E as [a [b [-> _]]]. rewrite map_app. apply in_or_app. right. now left.
  - apply sget_missing in E. split; [discriminate|]. intros A. now elim E.
Qed.
Lemma sset_keys {V} k (v : V) d : map fst (sset k v d) = if shas k d then map fst d else map fst d ++ [k].
Proof.
  unfold shas. induction d as [|[k' v'] d IH]; [reflexivity|]. cbn [sset sget].
  destruct (String.eqb_spec k k'); [reflexivity|]. cbn [map fst]. rewrite IH. destruct (sget k d); reflexivity.
Qed.
Lemma sget_sset {V} k k' (v : V) d : sget k (sset k' v d) = if String.eqb k k' then Some v else sget k d.
Proof.
  induction d as [|[k2 v2] d IH]; cbn [sset sget]; [reflexivity|].
  destruct (String.eqb_spec k' k2) as [->|Hn]; cbn [sget].
  - destruct (String.eqb k k2); reflexivity.
  - destruct (String.eqb_spec k k2) as [->|]; [|exact IH].
    destruct (String.eqb_spec k2 k') as [->|]; [now elim Hn|reflexivity].
Qed.
Lemma sset_new {V} k (v : V) d : shas k d = false -> sset k v d = d ++ [(k, v)].
Proof.
  unfold shas. induction d as [|[k' v'] d IH]; [reflexivity|]. cbn [sset sget].
  destruct (String.eqb_spec k k'); [discriminate|]. intros H. cbn [app]. now rewrite IH.
Qed.

Section Proofs.
Context {K D V : Type}.
Context (accepted_resp : K -> V) (bms : list (bmiddleware K D V)) (mws : list (middleware K D V)).
Context (stats : list (call K D V) -> string -> option string).
Context (span_of : json -> option K) (loads : string -> outc json).
Notation raised := (raised mws bms stats).
Notation hist := (list (call K D V)).
Notation Mon := (@Mon K D V).

Definition quiet (hd : handler K D V) (h t : hist) : Prop :=
  forall j c, nth_error t j = Some c -> raised hd (h ++ firstn j t) c = None.
Lemma quiet_nil hd h : quiet hd h []. Proof. intros [|j] c; discriminate. Qed.
Lemma quiet_app hd h t1 t2 : quiet hd h (t1 ++ t2) <-> quiet hd h t1 /\ quiet hd (h ++ t1) t2.
Proof.
  split.
  - intros H. split; intros j c E.
    + assert (j < Datatypes.length t1)%nat by (apply nth_error_Some; congruence).
      specialize (H j c). rewrite nth_error_app1, firstn_app, (proj2 (Nat.sub_0_le _ _)) in H by lia.
      cbn [firstn] in H. rewrite app_nil_r in H. auto.
    + specialize (H (Datatypes.length t1 + j)%nat c). rewrite nth_error_app2, firstn_app_2, Nat.add_comm, Nat.add_sub, app_assoc in H by lia. auto.
  - intros [A B] j c E. destruct (Nat.lt_ge_cases j (Datatypes.length t1)) as [H|H].
    + rewrite nth_error_app1 in E by auto. rewrite firstn_app, (proj2 (Nat.sub_0_le _ _)) by lia. cbn [firstn]. rewrite app_nil_r. auto.
    + rewrite nth_error_app2 in E by auto. replace j with (Datatypes.length t1 + (j - Datatypes.length t1))%nat at 1 by lia.
      rewrite firstn_app_2, app_assoc. auto.
Qed.
Lemma quiet_one hd h c : raised hd h c = None -> quiet hd h [c].
Proof. intros H [|[|j]] c' E; cbn in E; try discriminate. injection E as <-. cbn [firstn]. now rewrite app_nil_r. Qed.

(** How a piece of the computation ends: it runs through its stages, or stops in a call that raises, or stops with an
    exception of its own. *)
Definition Runs {A} (hd : handler K D V) (stages : list stage) (h : hist) (x : outc A * hist) : Prop :=
  exists t, snd x = h ++ t /\
  match fst x with
  | Ret _ => map stage_of t = stages /\ quiet hd h t
  | Exc e => (exists t0 c, t = t0 ++ [c] /\ quiet hd h t0 /\ raised hd (h ++ t0) c = Some e /\ prefix (map stage_of t) stages) \/
             (quiet hd h t /\ prefix (map stage_of t) stages /\ map stage_of t <> stages /\ status_of e = 999 /\ ~ is_base e)
  end.

Lemma runs_ret {A} hd h (a : A) : Runs hd [] h (ret a h).
Proof. exists []. cbn. rewrite app_nil_r. repeat split. apply quiet_nil. Qed.
Lemma runs_ask {A} hd h c (user : hist -> outc A) : raised hd h c = exn_of (user h) -> Runs hd [stage_of c] h (ask c user h).
Proof.
  intros H. exists [c]. split; [reflexivity|]. cbn [fst ask]. destruct (user h) eqn:E; cbn [exn_of] in H.
  - split; [reflexivity|]. now apply quiet_one.
  - left. exists [], c. rewrite app_nil_r. repeat split; auto; [apply quiet_nil|]. exists []. reflexivity.
Qed.
Lemma runs_raise {A} hd h x s ss : status_of x = 999 -> ~ is_base x -> Runs hd (s :: ss) h (@raise K D V A x h).
Proof.
  intros H B. exists []. split; [now rewrite app_nil_r|]. right. repeat split; auto; [apply quiet_nil| |discriminate].
  exists (s :: ss). reflexivity.
Qed.
Lemma prefix_app {A} (l m r : list A) : prefix l m -> prefix l (m ++ r).
Proof. intros [x ->]. exists (x ++ r). now rewrite app_assoc. Qed.
Lemma prefix_app2 {A} (l m r : list A) : prefix m r -> prefix (l ++ m) (l ++ r).
Proof. intros [x ->]. exists x. now rewrite app_assoc. Qed.
Lemma runs_bnd {A B} hd s1 s2 h (m : Mon A) (f : A -> Mon B) :
  Runs hd s1 h (m h) -> (forall a h', m h = (Ret a, h') -> Runs hd s2 h' (f a h')) -> Runs hd (s1 ++ s2) h (bnd m f h).
Proof.
  intros [t [E H]] H2. unfold bnd. destruct (m h) as [[a|x] h'] eqn:Em; cbn [fst snd] in *.
  - destruct (H2 _ _ eq_refl) as [t2 [E2 G]]. destruct H as [H Q]. subst h'.
    exists (t ++ t2). split; [now rewrite app_assoc|]. destruct (fst (f a (h ++ t))).
    + destruct G as [G G2]. rewrite map_app, H, G. split; auto. apply quiet_app. auto.
    + destruct G as [[t0 [c [Ht [Q0 [Hr Hp]]]]]|[Q2 [Hp [Hn Hs]]]].
      * left. exists (t ++ t0), c. subst t2. rewrite app_assoc. repeat split; auto; [apply quiet_app; auto|now rewrite app_assoc|].
        rewrite <- app_assoc. rewrite map_app, H. now apply prefix_app2.
      * right. split; [now apply quiet_app|]. rewrite map_app, H. split; [now apply prefix_app2|]. split; auto.
        intros C. apply Hn. now apply app_inv_head in C.
  - exists t. split; auto. destruct H as [[t0 [c [Ht [Q0 [Hr Hp]]]]]|[Q2 [Hp [Hn Hs]]]].
    + left. exists t0, c. repeat split; auto. now apply prefix_app.
    + right. split; auto. split; [now apply prefix_app|]. split; auto.
      intros C. destruct Hp as [r Hr]. destruct r as [|s r]; [rewrite app_nil_r in Hr; congruence|].
      rewrite C, <- app_assoc in Hr. apply (f_equal (@Datatypes.length _)) in Hr. rewrite !app_length in Hr. cbn in Hr. lia.
Qed.

Lemma seq_map {B} (f : nat -> B) i n : map f (seq i (S n)) = f i :: map f (seq (S i) n). Proof. reflexivity. Qed.

Lemma before_runs hd k : forall l i pre p h, mws = pre ++ l -> Datatypes.length pre = i ->
  Runs hd (map Before (seq i (Datatypes.length l))) h (run_before_routing i l k p h).
Proof.
  induction l as [|m l IH]; intros i pre p h E L.
  - apply runs_ret.
  - cbn [run_before_routing Datatypes.length]. rewrite seq_map.
    change (Before i :: map Before (seq (S i) (Datatypes.length l))) with ([stage_of (CBefore (D:=D) (V:=V) i k p)] ++ map Before (seq (S i) (Datatypes.length l))).
    apply runs_bnd.
    + apply runs_ask. cbn [raised]. unfold RouterSpec.raised.
      rewrite E, nth_error_app2, L, Nat.sub_diag by lia. reflexivity.
    + intros a h' _. apply (IH (S i) (pre ++ [m])). { now rewrite <- app_assoc. } rewrite app_length. cbn. lia.
Qed.
Lemma after_runs hd k p : forall l i pre v h, mws = pre ++ l -> Datatypes.length pre = i ->
  Runs hd (map After (seq i (Datatypes.length l))) h (run_after_routing i l k p v h).
Proof.
  induction l as [|m l IH]; intros i pre v h E L.
  - apply runs_ret.
  - cbn [run_after_routing Datatypes.length]. rewrite seq_map.
    change (After i :: map After (seq (S i) (Datatypes.length l))) with ([stage_of (CAfter (D:=D) (V:=V) i k p v)] ++ map After (seq (S i) (Datatypes.length l))).
    apply runs_bnd.
    + apply runs_ask. unfold RouterSpec.raised. rewrite E, nth_error_app2, L, Nat.sub_diag by lia. reflexivity.
    + intros a h' _. apply (IH (S i) (pre ++ [m])). { now rewrite <- app_assoc. } rewrite app_length. cbn. lia.
Qed.
Lemma collect_runs hd k d : forall l i pre meta h, bms = pre ++ l -> Datatypes.length pre = i ->
  Runs hd (map PushMeta (seq i (Datatypes.length l))) h (collect_push_metadata i l k d meta h).
Proof.
  induction l as [|m l IH]; intros i pre v h E L.
  - apply runs_ret.
  - cbn [collect_push_metadata Datatypes.length]. rewrite seq_map.
    change (PushMeta i :: map PushMeta (seq (S i) (Datatypes.length l))) with ([stage_of (CBeforePush (V:=V) i k d)] ++ map PushMeta (seq (S i) (Datatypes.length l))).
    apply runs_bnd.
    + apply runs_ask. unfold RouterSpec.raised. rewrite E, nth_error_app2, L, Nat.sub_diag by lia. reflexivity.
    + intros a h' _. apply (IH (S i) (pre ++ [m])). { now rewrite <- app_assoc. } rewrite app_length. cbn. lia.
Qed.

Definition handle_stages (hd : handler K D V) : list stage :=
  match h_kind hd with Standard _ _ => [Handle] | Buffered _ => map PushMeta (seq 0 (Datatypes.length bms)) ++ [Push] end.
Lemma run_runs hd k d h : Runs hd (handle_stages hd) h (run accepted_resp bms hd k d h).
Proof.
  unfold run, handle_stages. destruct (h_kind hd) as [sig f|paused] eqn:Ek.
  - destruct (filtered_call sig _).
    + apply (runs_ask hd h (CFun (h_route hd) l)). unfold RouterSpec.raised. now rewrite Ek.
    + apply runs_raise; [reflexivity|]. now intros [m H].
  - destruct paused.
    + destruct (map PushMeta (seq 0 (Datatypes.length bms)) ++ [Push]) eqn:E.
      * apply app_eq_nil in E. destruct E as [_ E]. discriminate.
      * apply runs_raise; [reflexivity|]. now intros [m H].
    + apply runs_bnd; [now apply (collect_runs hd k d bms 0%nat [])|].
      intros meta h' _. now apply (runs_ask hd h' (CPush (h_route hd) k d meta)).
Qed.
Lemma attempt_runs hd p k h : Runs hd (MakeDto :: handle_stages hd) h (attempt_request accepted_resp bms hd p k h).
Proof.
  unfold attempt_request. destruct p as [r|]; [destruct (rdata r)|];
    try (apply runs_raise; [reflexivity|now intros [m H]]).
  change (MakeDto :: handle_stages hd) with ([stage_of (CDto (K:=K) (D:=D) (V:=V) (h_route hd) d)] ++ handle_stages hd).
  apply runs_bnd; [now apply runs_ask|]. intros. apply run_runs.
Qed.

Definition pipeline (hd : handler K D V) (r : request K) : Mon V :=
  bnd (run_before_routing 0 mws (rspan r) (Some r)) (fun p =>
  bnd (attempt_request accepted_resp bms hd p (rspan r)) (fun v => run_after_routing 0 mws (rspan r) p v)).
Lemma pipeline_runs hd r h : Runs hd (map Before (seq 0 (Datatypes.length mws)) ++ (MakeDto :: handle_stages hd) ++ map After (seq 0 (Datatypes.length mws))) h (pipeline hd r h).
Proof.
  apply runs_bnd; [now apply (before_runs hd _ mws 0%nat [])|]. intros p h' _.
  apply runs_bnd; [apply attempt_runs|]. intros v h2 _. now apply (after_runs hd _ p mws 0%nat []).
Qed.

Notation serve := (serve_request accepted_resp bms mws stats span_of loads).

Lemma request_of_describes d r : request_of span_of d = Some r <-> describes span_of d r.
Proof.
  unfold request_of, describes. split.
  - destruct (sget "route_key" d) as [j|] eqn:E1; [|discriminate]. destruct j; try discriminate.
    destruct (sget "span_key" d) as [sk|] eqn:E2; [|discriminate]. destruct (sget "data" d) as [dt|] eqn:E3; [|discriminate].
    destruct (span_of sk) as [k|] eqn:E4; [|discriminate]. intros E. injection E as <-. cbn.
    exists sk. now rewrite <- !sget_finds.
  - intros [sk [A [B [C E]]]]. apply sget_finds in A, B, E. rewrite A, B, E, C. now destruct r.
Qed.

(** ** C24 *)
Lemma serve_unfold t text d r : loads text = Ret (JObj d) -> describes span_of d r -> serve t text =
  match bnd (route_request accepted_resp bms mws t r)
            (fun v => bnd (ask (CStats (rroute r)) (fun h => match stats h (rroute r) with Some m => Exc (XOther m) | None => Ret tt end)) (fun _ => ret v)) [] with
  | (Ret v, h) => (Ret (mkResp (Some (rspan r)) 0 (RVal v)), h)
  | (Exc x, h) => (except_clauses (Some (rspan r)) x, h)
  end.
Proof. intros E H. unfold serve_request. rewrite E. apply request_of_describes in H. now rewrite H. Qed.

Lemma all_stages_eq hd : all_stages (Datatypes.length mws) (Datatypes.length bms) hd =
  (map Before (seq 0 (Datatypes.length mws)) ++ (MakeDto :: handle_stages hd) ++ map After (seq 0 (Datatypes.length mws))) ++ [Count].
Proof. unfold all_stages, handle_stages. rewrite <- !app_assoc. reflexivity. Qed.

(** What a request with a known route does, before the except clauses. *)
Lemma known_route t r hd : sget (rroute r) t = Some hd ->
  exists x : outc V * hist, 
    Runs hd (all_stages (Datatypes.length mws) (Datatypes.length bms) hd) [] x /\
    bnd (route_request accepted_resp bms mws t r)
        (fun v => bnd (ask (CStats (rroute r)) (fun h => match stats h (rroute r) with Some m => Exc (XOther m) | None => Ret tt end)) (fun _ => ret v)) [] =
    (match fst x with Exc (XApp s) => Exc (processing_failure (rroute r) s) | o => o end, snd x).
Proof.
  intros E. unfold route_request. rewrite E.
  exists (bnd (pipeline hd r) (fun v => bnd (ask (CStats (rroute r)) (fun h => match stats h (rroute r) with Some m => Exc (XOther m) | None => Ret tt end)) (fun _ => ret v)) []).
  split.
  - rewrite all_stages_eq. apply runs_bnd; [apply pipeline_runs|]. intros v h' _.
    change [Count] with ([stage_of (CStats (K:=K) (D:=D) (V:=V) (rroute r))] ++ []).
    apply runs_bnd; [|intros; apply runs_ret]. apply runs_ask. unfold RouterSpec.raised. now destruct (stats h' (rroute r)).
  - fold (pipeline hd r). generalize (pipeline hd r) as m. intros m. unfold bnd, app_to_router, ask, ret.
    destruct (m []) as [[v|x] h]; [|now destruct x]. destruct (stats h (rroute r)); reflexivity.
Qed.

Theorem serve_known t text d r hd resp h :
  loads text = Ret (JObj d) -> describes span_of d r -> finds (rroute r) hd t ->
  serve t text = (Ret resp, h) ->
  pspan resp = Some (rspan r) /\
  (forall j c, nth_error h j = Some c -> (S j < Datatypes.length h)%nat -> raised hd (firstn j h) c = None) /\
  prefix (map stage_of h) (all_stages (Datatypes.length mws) (Datatypes.length bms) hd) /\
  (forall v, pdata resp = RVal v -> pstatus resp = 0 /\ map stage_of h = all_stages (Datatypes.length mws) (Datatypes.length bms) hd) /\
  (match last (map Some h) None with
   | None => pstatus resp = 999
   | Some c => match raised hd (removelast h) c with
      | Some x => pstatus resp = status_of x /\
          pdata resp = RText (failure_text (rroute r) x)
      | None => pstatus resp = (match c with CStats _ => 0 | _ => 999 end)
      end
   end).
Proof.
  intros El Hd Hf. rewrite (serve_unfold _ _ _ _ El Hd). apply sget_finds in Hf.
  destruct (known_route t r hd Hf) as [x [[t0 [E R]] ->]]. cbn [app] in E.
  destruct x as [[v|x] h']; cbn [fst snd] in *; subst h'.
  - destruct R as [R Q]. intros A. injection A as <- <-. cbn [pspan pstatus pdata].
    split; [reflexivity|]. split; [intros j c Ej _; exact (Q j c Ej)|]. split; [exists []; now rewrite app_nil_r|]. split; [auto|].
    rewrite all_stages_eq in R. destruct t0 as [|c0 t0 _] using rev_ind.
    { exfalso. cbn in R. symmetry in R. apply app_eq_nil in R. destruct R as [_ R]. discriminate. }
    rewrite map_app in R. apply app_inj_tail in R. destruct R as [_ R].
    rewrite map_app. cbn [map]. rewrite last_last, removelast_last.
    apply quiet_app in Q. destruct Q as [_ Q]. specialize (Q 0%nat c0 eq_refl). cbn [firstn] in Q. rewrite app_nil_r in Q. cbn [app] in Q.
    rewrite Q. destruct c0; try discriminate. reflexivity.
  - destruct R as [[t1 [c [-> [Q [Hr Hp]]]]]|[Q [Hp [Hn [Hs Hb]]]]].
    + intros A. cbn [app] in Hr.
      assert (G : pspan resp = Some (rspan r) /\ pstatus resp = status_of x /\ h = t1 ++ [c] /\
         pdata resp = RText (failure_text (rroute r) x)).
      { destruct x; cbn [except_clauses processing_failure text_of] in *; try discriminate; injection A as <- <-; repeat split. }
      destruct G as [G1 [G2 [-> G3]]]. split; [auto|]. split.
      { intros j c' Ej Hj. rewrite app_length in Hj. cbn in Hj.
        rewrite nth_error_app1 in Ej by lia. rewrite firstn_app, (proj2 (Nat.sub_0_le _ _)) by lia. cbn [firstn]. rewrite app_nil_r. exact (Q _ _ Ej). }
      split; [auto|]. split.
      { intros v Z. congruence. }
      rewrite map_app. cbn [map]. rewrite last_last, removelast_last, Hr. auto.
    + intros A. rewrite all_stages_eq in Hp, Hn.
      assert (G : pspan resp = Some (rspan r) /\ pstatus resp = 999 /\ h = t0 /\ exists m, pdata resp = RText m).
      { destruct x; cbn [except_clauses status_of] in *; try discriminate; injection A as <- <-; cbn [pspan pstatus pdata]; repeat split; eauto. }
      destruct G as [G1 [G2 [-> [m G3]]]]. split; [auto|]. split; [intros j c Ej _; exact (Q _ _ Ej)|].
      split; [now rewrite all_stages_eq|]. split; [intros v Z; congruence|].
      destruct t0 as [|c0 t0 _] using rev_ind; [exact G2|].
      rewrite map_app. cbn [map]. rewrite last_last, removelast_last.
      apply quiet_app in Q. destruct Q as [_ Q]. specialize (Q 0%nat c0 eq_refl). cbn [firstn] in Q. rewrite app_nil_r in Q. cbn [app] in Q.
      rewrite Q. destruct c0; try exact G2. exfalso.
      assert (Hp' : prefix (map stage_of (t0 ++ [CStats route])) (map Before (seq 0 (Datatypes.length mws)) ++
               (MakeDto :: handle_stages hd) ++ map After (seq 0 (Datatypes.length mws)))).
      { destruct Hp as [rest Hp]. destruct rest as [|s0 rest _] using rev_ind.
        - rewrite app_nil_r in Hp. congruence.
        - rewrite (app_assoc (map stage_of _) rest [s0]) in Hp. apply app_inj_tail in Hp. destruct Hp as [Hp _]. now exists rest. }
      destruct Hp' as [rest Hp']. rewrite map_app in Hp'. cbn [map stage_of] in Hp'.
      assert (I : In Count (map Before (seq 0 (Datatypes.length mws)) ++
               (MakeDto :: handle_stages hd) ++ map After (seq 0 (Datatypes.length mws)))).
      { rewrite Hp'. apply in_or_app. left. apply in_or_app. right. now left. }
      clear - I. unfold handle_stages in I. rewrite !in_app_iff in I.
      destruct I as [I|[[I|I]|I]]; try discriminate.
      * apply in_map_iff in I. destruct I as [? [I _]]. discriminate.
      * destruct (h_kind hd); [destruct I as [I|[]]; discriminate|]. apply in_app_iff in I.
        destruct I as [I|[I|[]]]; [|discriminate]. apply in_map_iff in I. destruct I as [? [I _]]. discriminate.
      * apply in_map_iff in I. destruct I as [? [I _]]. discriminate.
Qed.

End Proofs.
