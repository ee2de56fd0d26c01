(** Proofs about managing queues. *)
From Coq Require Import List ZArith NArith Bool String Lia.
From Verif Require Import Base PQueueModel PQueueSpec PQueueProofs PQueueProofs2 PendingModel PendingSpec PendingProofs HandlerModel HandlerProofs
  HandlerProofs3 HandlerProofs5 SenderModel SenderProofs SenderProofs3 SpanKeyModel RouterModel RouterProofs ManageModel ManageSpec.
Import ListNotations.
Local Open Scope Z_scope.

Lemma lookup_without {V} k (l : list (N * V)) : lookup k l = None -> without k l = l.
Proof.
  unfold lookup, without. induction l as [|[k' v] l IH]; [reflexivity|]. cbn [find filter fst]. destruct (N.eqb k' k); cbn [negb option_map]; [discriminate|].
  intros H. now rewrite IH.
Qed.

Section Proofs.
Context {D M : Type}.
Variable no_meta : M.
Variable truthy : D -> bool.

(** ** A queue *)
Definition good_q (q : pqueue D M) : Prop := pinv q /\ usable q.
Lemma good_is (q : pqueue D M) lp le : good_q q -> holds q lp le -> lp = pc q /\ le = ec q.
Proof. intros [A B]. now apply holds_unique. Qed.
Lemma good_holds (q : pqueue D M) lp le : good_q q -> pc q = lp -> ec q = le -> holds q lp le.
Proof. intros [A B] <- <-. now apply holds_contents. Qed.
Lemma good_sizes (q : pqueue D M) lp le : good_q q -> holds q lp le -> pending_size q = size lp /\ error_size q = size le.
Proof.
  intros G H. destruct (good_is q lp le G H) as [-> ->]. destruct G as [[A B _ _] _]. unfold pending_size, error_size, size. rewrite !size_ok by auto. auto.
Qed.
Lemma good_move_all q v : good_q q -> holds q (waiting v) (errors v) ->
  exists q', move_all no_meta q = Ok q' /\ good_q q' /\ holds q' (put_back v (errors v)) [].
Proof.
  intros G H. destruct (good_is _ _ _ G H) as [W E]. destruct G as [A [B C]]. destruct (move_all_ok no_meta q A C) as (q' & M1 & I & X & Y & U & V).
  exists q'. split; [exact M1|]. assert (G' : good_q q') by (split; [exact I|split; congruence]). split; [exact G'|]. apply good_holds; auto.
  rewrite Y. unfold put_back, PendingProofs.moved. now rewrite W, E.
Qed.
Lemma good_move_one q v k : good_q q -> holds q (waiting v) (errors v) ->
  exists q', move_one no_meta q k = Ok (q', option_map ee_data (lookup k (errors v))) /\ good_q q' /\
    holds q' (match lookup k (errors v) with Some x => put_back v [(k, x)] | None => waiting v end) (without k (errors v)).
Proof.
  intros G H. destruct (good_is _ _ _ G H) as [W E]. destruct G as [A [B C]]. destruct (move_one_ok no_meta q k A) as (q' & M1 & I & X & Y & U & V).
  rewrite <- E in M1. exists q'. split; [exact M1|]. assert (G' : good_q q') by (split; [exact I|split; congruence]). split; [exact G'|]. apply good_holds; [exact G'| |now rewrite X, E].
  rewrite Y, E. destruct (lookup k (ec q)) as [x|]; [|now rewrite W]. unfold put_back, add. cbn [filter map fst]. rewrite W. destruct (has k (pc q)); cbn [negb map]; [now rewrite app_nil_r|reflexivity].
Qed.
Lemma good_pop q v k : good_q q -> holds q (waiting v) (errors v) ->
  exists q', pop_error_key q k = Ok (q', option_map ee_data (lookup k (errors v))) /\ good_q q' /\ holds q' (waiting v) (without k (errors v)).
Proof.
  intros G H. destruct (good_is _ _ _ G H) as [W E]. destruct G as [A [B C]]. destruct (pop_error_key_ok q k A) as (q' & M1 & I & X & Y & U).
  rewrite <- E in M1. exists q'. split; [exact M1|]. assert (G' : good_q q') by (split; [exact I|split; [now rewrite Y|congruence]]). split; [exact G'|].
  apply good_holds; [exact G'| |now rewrite X, E]. unfold pc in *. now rewrite Y.
Qed.
Lemma good_inspect q v k : good_q q -> holds q (waiting v) (errors v) -> inspect_error_key q k = Ok (option_map ee_data (lookup k (errors v))).
Proof. intros G H. destruct (good_is _ _ _ G H) as [W E]. rewrite E. apply inspect_error_ok, G. Qed.
Lemma good_clear q v : good_q q -> holds q (waiting v) (errors v) -> good_q (clear_error q) /\ holds (clear_error q) (waiting v) [].
Proof.
  intros G H. destruct (good_is _ _ _ G H) as [W E]. destruct G as [A [B C]]. destruct (clear_error_ok q A) as (I & X & Y & U).
  assert (G' : good_q (clear_error q)) by (split; [exact I|split; [now rewrite Y|congruence]]). split; [exact G'|].
  apply good_holds; [exact G'| |exact X]. unfold pc in *. now rewrite Y.
Qed.


Lemma good_first10 q lp le : good_q q -> holds q lp le -> exists m, (m <= 10)%nat /\ first_x_error q 10 = map fst (firstn m le).
Proof.
  intros G H. destruct (good_is _ _ _ G H) as [_ ->]. unfold first_x_error, q_first_x, page_first_x, page_size_of, ec. set (f := plist (front (errq q))).
  assert (P : forall n, (n <= List.length f)%nat -> firstn n (contents (errq q)) = firstn n f).
  { intros n Hn. unfold contents. fold f. rewrite firstn_app. replace (n - List.length f)%nat with 0%nat by lia. cbn [firstn]. now rewrite app_nil_r. }
  destruct (0 <? Z.of_nat (List.length f)) eqn:E1.
  - destruct (Z.of_nat (List.length f) <? 10) eqn:E2.
    + exists (List.length f). split; [lia|]. now rewrite P, firstn_all by lia.
    + exists 10%nat. split; [lia|]. rewrite P by lia. reflexivity.
  - exists 0%nat. split; [lia|]. reflexivity.
Qed.

(** ** Endpoints *)
Lemma check_same (s : hstate D M) : hq (check_process s) = hq s /\ recv_paused (check_process s) = recv_paused s /\ proc_paused (check_process s) = proc_paused s.
Proof. unfold check_process. destruct (cur s) as [i|]; [|auto]. destruct (nth_error (tasks s) i) as [t|]; [|auto]. destruct t; auto. Qed.
Lemma s_check_same (s : sstate D M) : sq (s_check s) = sq s /\ spaused (s_check s) = spaused s.
Proof. unfold s_check. destruct (scur s) as [i|]; [|auto]. destruct (nth_error (stasks s) i) as [t|]; [|auto]. destruct t; auto. Qed.

(** What a lookup of an error entry becomes for the caller. *)
Definition given (ok : D -> bool) (x : option D) : res (option D) :=
  match x with Some d => if truthy d then (if ok d then Ok (Some d) else Raise "ValidationError"%string) else Ok None | None => Ok None end.

Section Endpoint.
Variable dto_ok : D -> bool.
Variable max_retries : Z.
Notation estep := (hstep no_meta dto_ok truthy max_retries).
Lemma eresult_reply x : eresult (reply (M:=M) dto_ok truthy x) = given dto_ok x.
Proof. unfold reply, given. destruct x as [d|]; [|reflexivity]. destruct (truthy d); [|reflexivity]. destruct (dto_ok d); reflexivity. Qed.
Lemma eresult_notes (l : list (hout D M)) o : Forall (fun x => match x with HExn _ | HReply _ => False | _ => True end) l -> eresult (l ++ o) = eresult o.
Proof. induction 1 as [|x l H _ IH]; [reflexivity|]. cbn [app eresult]. destruct x; try contradiction; exact IH. Qed.

Definition good_e (s : hstate D M) v : Prop := good_q (hq s) /\ endpoint_is s v.
Lemma good_check s v : good_e s v -> good_e (check_process s) v.
Proof. unfold good_e, endpoint_is. destruct (check_same s) as (-> & -> & ->). auto. Qed.
Lemma estep_plain s v ev v' : good_e s v -> In (ev, v') [(EPauseReceiving, with_pauses v true (processing_paused v)); (EUnpauseReceiving, with_pauses v false (processing_paused v));
    (EPauseProcessing, with_pauses v (receiving_paused v) true); (EUnpauseProcessing, with_pauses v (receiving_paused v) false);
    (EReprocessAll, unpaused (all_moved v)); (EClearError, cleared v)] ->
  good_e (fst (estep s ev)) v' /\ eresult (snd (estep s ev)) = Ok None.
Proof.
  intros [G (A & B & C)] I. cbn [In] in I. destruct I as [I|[I|[I|[I|[I|[I|[]]]]]]]; injection I as <- <-; cbn [hstep].
  - split; [|reflexivity]. split; [exact G|]. split; [|split]; auto.
  - split; [|reflexivity]. cbn [fst]. apply good_check. split; [exact G|]. split; [|split]; auto.
  - split; [|reflexivity]. split; [exact G|]. split; [|split]; auto.
  - split; [|reflexivity]. cbn [fst]. apply good_check. split; [exact G|]. split; [|split]; auto.
  - destruct (good_move_all (hq s) v G C) as (q' & -> & G' & H'). cbn [fst snd]. split.
    + apply good_check. split; [exact G'|]. split; [|split]; auto.
    + rewrite <- (app_nil_r (flat_map _ _)), eresult_notes; [reflexivity|]. apply Forall_forall. intros x X. apply in_flat_map in X as (e & _ & [<-|[<-|[]]]); [exact I|]. destruct (has _ _); exact I.
  - destruct (good_clear (hq s) v G C) as (G' & H'). cbn [fst snd]. split.
    + split; [exact G'|]. split; [|split]; auto.
    + rewrite <- (app_nil_r (map _ _)), eresult_notes; [reflexivity|]. apply Forall_forall. intros x X. apply in_map_iff in X as (e & <- & _). exact I.
Qed.
Lemma estep_found s v ev k v' : good_e s v -> In (ev, v') [(EReprocessOne k, unpaused (match lookup k (errors v) with Some e => moved v k (k, e) | None => v end));
    (EPopError k, match lookup k (errors v) with Some e => taken v k | None => v end); (EInspectError k, v)] ->
  good_e (fst (estep s ev)) v' /\ eresult (snd (estep s ev)) = given dto_ok (option_map ee_data (lookup k (errors v))).
Proof.
  intros [G (A & B & C)] I. cbn [In] in I. destruct I as [I|[I|[I|[]]]]; injection I as <- <-; cbn [hstep].
  - destruct (good_move_one (hq s) v k G C) as (q' & -> & G' & H'). cbn [fst snd]. split.
    + apply good_check. split; [exact G'|]. destruct (lookup k (errors v)) as [e|] eqn:L; (split; [|split]); auto. cbn [unpaused with_pauses waiting errors]. now rewrite (lookup_without _ _ L) in H'.
    + rewrite eresult_notes; [apply eresult_reply|]. destruct (lookup k (entries (errq (hq s)))); [|constructor]. repeat constructor. destruct (has _ _); exact I.
  - destruct (good_pop (hq s) v k G C) as (q' & -> & G' & H'). cbn [fst snd]. split.
    + split; [exact G'|]. destruct (lookup k (errors v)) as [e|] eqn:L; (split; [|split]); auto. now rewrite (lookup_without _ _ L) in H'.
    + rewrite eresult_notes; [apply eresult_reply|]. destruct (lookup k (entries (errq (hq s)))); repeat constructor.
  - rewrite (good_inspect (hq s) v k G C). cbn [fst snd]. split; [|apply eresult_reply]. split; [exact G|]. split; [|split]; auto.
Qed.
End Endpoint.

Variables edto sdto : string -> D -> bool.
Variables eretries sretries : string -> Z.
Variable swait : string -> bool.
Notation ekeep_ := (ekeep no_meta truthy edto eretries).
Notation emanage_ := (emanage no_meta truthy edto eretries).

Definition endpoint_does (op : eop) (v : view D M) : view D M :=
  match op with ReprocessOne _ | ReprocessAll => unpaused (fst (endpoint_should op v)) | _ => fst (endpoint_should op v) end.
Lemma einfo_ok r s v : good_e s v -> einfo r s = mkInfo r (receiving_paused v) (processing_paused v) (size (waiting v)) (size (errors v)).
Proof. intros [G (A & B & C)]. unfold einfo. destruct (good_sizes _ _ _ G C) as [-> ->]. now rewrite A, B. Qed.

Lemma ekeep_plain r s v ev v' : good_e s v -> In (ev, v') [(EPauseReceiving, with_pauses v true (processing_paused v)); (EUnpauseReceiving, with_pauses v false (processing_paused v));
    (EPauseProcessing, with_pauses v (receiving_paused v) true); (EUnpauseProcessing, with_pauses v (receiving_paused v) false);
    (EReprocessAll, unpaused (all_moved v)); (EClearError, cleared v)] ->
  let so := hstep no_meta (edto r) truthy (eretries r) s ev in good_e (fst so) v' /\ eplain r so = (fst so, KInfo (mkInfo r (receiving_paused v') (processing_paused v') (size (waiting v')) (size (errors v'))) None).
Proof.
  intros G I so. destruct (estep_plain (edto r) (eretries r) s v ev v' G I) as [G' E]. fold so in G', E. split; [exact G'|].
  unfold eplain. destruct so as [s' o]. cbn [fst snd] in *. rewrite E. now rewrite (einfo_ok r s' v' G').
Qed.
Lemma ekeep_found r s v ev k v' : good_e s v -> In (ev, v') [(EReprocessOne k, unpaused (match lookup k (errors v) with Some e => moved v k (k, e) | None => v end));
    (EPopError k, match lookup k (errors v) with Some e => taken v k | None => v end); (EInspectError k, v)] ->
  let so := hstep no_meta (edto r) truthy (eretries r) s ev in good_e (fst so) v' /\
    efound r so = (fst so, match given (edto r) (option_map ee_data (lookup k (errors v))) with
      Raise e => KExn e | Ok None => KFalse | Ok (Some d) => KInfo (mkInfo r (receiving_paused v') (processing_paused v') (size (waiting v')) (size (errors v'))) (Some d) end).
Proof.
  intros G I so. destruct (estep_found (edto r) (eretries r) s v ev k v' G I) as [G' E]. fold so in G', E. split; [exact G'|].
  unfold efound. destruct so as [s' o]. cbn [fst snd] in *. rewrite E. now rewrite (einfo_ok r s' v' G').
Qed.

Definition enough r op (v : view D M) : Prop := op <> First10 /\ (reprocesses op -> processing_paused v = false) /\
  (forall k e, about op = Some k -> lookup k (errors v) = Some e -> truthy (ee_data e) = true /\ edto r (ee_data e) = true).
Ltac okay := cbn [In]; tauto.
Lemma ekeep_ok r s v op s' x : good_e s v -> ekeep_ r s op = (s', x) ->
  good_e s' (endpoint_does op v) /\ (enough r op v -> eanswer op r x = endpoint_answer op r (endpoint_should op v)).
Proof.
  intros G E. destruct op; cbn [ekeep] in E; cbn [endpoint_does].
  - injection E as <- <-. split; [exact G|]. intros _. now rewrite (einfo_ok r s v G).
  - destruct (ekeep_plain r s v EPauseReceiving _ G ltac:(okay)) as [G' X]. rewrite X in E. injection E as <- <-. split; [exact G'|]. reflexivity.
  - destruct (ekeep_plain r s v EUnpauseReceiving _ G ltac:(okay)) as [G' X]. rewrite X in E. injection E as <- <-. split; [exact G'|]. reflexivity.
  - destruct (ekeep_plain r s v EPauseProcessing _ G ltac:(okay)) as [G' X]. rewrite X in E. injection E as <- <-. split; [exact G'|]. reflexivity.
  - destruct (ekeep_plain r s v EUnpauseProcessing _ G ltac:(okay)) as [G' X]. rewrite X in E. injection E as <- <-. split; [exact G'|]. reflexivity.
  - destruct (ekeep_plain r s v EPauseReceiving _ G ltac:(okay)) as [G1 _]. destruct (ekeep_plain r _ _ EPauseProcessing _ G1 ltac:(okay)) as [G' X].
    rewrite X in E. injection E as <- <-. split; [exact G'|]. reflexivity.
  - destruct (ekeep_plain r s v EUnpauseReceiving _ G ltac:(okay)) as [G1 _]. destruct (ekeep_plain r _ _ EUnpauseProcessing _ G1 ltac:(okay)) as [G' X].
    rewrite X in E. injection E as <- <-. split; [exact G'|]. reflexivity.
  - injection E as <- <-. split; [exact G|]. intros (X & _). now elim X.
  - destruct (ekeep_plain r s v EReprocessAll _ G ltac:(okay)) as [G' X]. rewrite X in E. injection E as <- <-. split; [exact G'|].
    intros (_ & P & _). specialize (P I). cbn [endpoint_should endpoint_answer all_moved unpaused with_pauses receiving_paused processing_paused waiting errors answer_of eanswer]. now rewrite P.
  - destruct (ekeep_plain r s v EClearError _ G ltac:(okay)) as [G' X]. rewrite X in E. injection E as <- <-. split; [exact G'|]. reflexivity.
  - destruct (ekeep_found r s v (EReprocessOne k) k _ G ltac:(okay)) as [G' X]. rewrite X in E. injection E as <- <-. cbn [endpoint_should]. unfold item. split.
    + destruct (lookup k (errors v)); exact G'.
    + intros (_ & P & Q). specialize (P I). specialize (Q k). destruct (lookup k (errors v)) as [e|]; [|reflexivity].
      destruct (Q e eq_refl eq_refl) as [T O]. cbn [option_map given]. rewrite T, O.
      cbn [endpoint_answer moved unpaused with_pauses receiving_paused processing_paused waiting errors answer_of eanswer]. now rewrite P.
  - destruct (ekeep_found r s v (EPopError k) k _ G ltac:(okay)) as [G' X]. rewrite X in E. injection E as <- <-. cbn [endpoint_should]. unfold item. split.
    + destruct (lookup k (errors v)); exact G'.
    + intros (_ & P & Q). specialize (Q k). destruct (lookup k (errors v)) as [e|]; [|reflexivity].
      destruct (Q e eq_refl eq_refl) as [T O]. cbn [option_map given]. now rewrite T, O.
  - destruct (ekeep_found r s v (EInspectError k) k _ G ltac:(okay)) as [G' X]. rewrite X in E. injection E as <- <-. cbn [endpoint_should]. unfold item. split.
    + destruct (lookup k (errors v)); exact G'.
    + intros (_ & P & Q). specialize (Q k). destruct (lookup k (errors v)) as [e|]; [|reflexivity].
      destruct (Q e eq_refl eq_refl) as [T O]. cbn [option_map given]. now rewrite T, O.
Qed.

(** ** Senders *)
Section Sender.
Variable dto_ok : D -> bool.
Variable wait : bool.
Variable max_retries : Z.
Notation sstep_ := (sstep no_meta dto_ok truthy wait max_retries).
Lemma sresult_reply x : sresult (s_reply dto_ok truthy x) = given dto_ok x.
Proof. unfold s_reply, given. destruct x as [d|]; [|reflexivity]. destruct (truthy d); [|reflexivity]. destruct (dto_ok d); reflexivity. Qed.
Lemma sresult_notes (l : list (sout D)) o : Forall (fun x => match x with OExn _ | OReply _ => False | _ => True end) l -> sresult (l ++ o) = sresult o.
Proof. induction 1 as [|x l H _ IH]; [reflexivity|]. cbn [app sresult]. destruct x; try contradiction; exact IH. Qed.

Definition good_s (s : sstate D M) v : Prop := good_q (sq s) /\ sender_is s v.
Lemma good_s_check s v : good_s s v -> good_s (s_check s) v.
Proof. unfold good_s, sender_is. destruct (s_check_same s) as (-> & ->). auto. Qed.
Lemma sstep_plain s v ev v' : good_s s v -> In (ev, v') [(SPause, with_pauses v (receiving_paused v) true); (SUnpause, with_pauses v (receiving_paused v) false);
    (SReprocessAll, unpaused (all_moved v)); (SClearError, cleared v)] ->
  good_s (fst (sstep_ s ev)) v' /\ sresult (snd (sstep_ s ev)) = Ok None.
Proof.
  intros [G (A & C)] I. cbn [In] in I. destruct I as [I|[I|[I|[I|[]]]]]; injection I as <- <-; cbn [sstep].
  - split; [|reflexivity]. split; [exact G|]. split; auto.
  - split; [|reflexivity]. cbn [fst]. apply good_s_check. split; [exact G|]. split; auto.
  - destruct (good_move_all (sq s) v G C) as (q' & -> & G' & H'). cbn [fst snd]. split.
    + apply good_s_check. split; [exact G'|]. split; auto.
    + rewrite <- (app_nil_r (flat_map _ _)), sresult_notes; [reflexivity|]. apply Forall_forall. intros x X. apply in_flat_map in X as (e & _ & [<-|[<-|[]]]); [exact I|]. destruct (has _ _); exact I.
  - destruct (good_clear (sq s) v G C) as (G' & H'). cbn [fst snd]. split.
    + split; [exact G'|]. split; auto.
    + rewrite <- (app_nil_r (map _ _)), sresult_notes; [reflexivity|]. apply Forall_forall. intros x X. apply in_map_iff in X as (e & <- & _). exact I.
Qed.
Lemma sstep_found s v ev k v' : good_s s v -> In (ev, v') [(SReprocessOne k, unpaused (match lookup k (errors v) with Some e => moved v k (k, e) | None => v end));
    (SPopError k, match lookup k (errors v) with Some e => taken v k | None => v end); (SInspectError k, v)] ->
  good_s (fst (sstep_ s ev)) v' /\ sresult (snd (sstep_ s ev)) = given dto_ok (option_map ee_data (lookup k (errors v))).
Proof.
  intros [G (A & C)] I. cbn [In] in I. destruct I as [I|[I|[I|[]]]]; injection I as <- <-; cbn [sstep].
  - destruct (good_move_one (sq s) v k G C) as (q' & -> & G' & H'). cbn [fst snd]. split.
    + apply good_s_check. split; [exact G'|]. destruct (lookup k (errors v)) as [e|] eqn:L; split; auto. cbn [unpaused with_pauses waiting errors]. now rewrite (lookup_without _ _ L) in H'.
    + rewrite sresult_notes; [apply sresult_reply|]. destruct (lookup k (all_entries (errq (sq s)))); [|constructor]. repeat constructor. destruct (has _ _); exact I.
  - destruct (good_pop (sq s) v k G C) as (q' & -> & G' & H'). cbn [fst snd]. split.
    + split; [exact G'|]. destruct (lookup k (errors v)) as [e|] eqn:L; split; auto. now rewrite (lookup_without _ _ L) in H'.
    + rewrite sresult_notes; [apply sresult_reply|]. destruct (lookup k (all_entries (errq (sq s)))); repeat constructor.
  - rewrite (good_inspect (sq s) v k G C). cbn [fst snd]. split; [|apply sresult_reply]. split; [exact G|]. split; auto.
Qed.
End Sender.

Notation skeep_ := (skeep no_meta truthy sdto sretries swait).
Notation smanage_ := (smanage no_meta truthy sdto sretries swait).
Definition sender_does (op : sop) (v : view D M) : view D M :=
  match op with SReprocessOne_ _ | SReprocessAll_ => unpaused (fst (sender_should op v)) | _ => fst (sender_should op v) end.
Lemma sinfo_ok r s v : good_s s v -> sinfo r s = mkSInfo r (processing_paused v) (size (waiting v)) (size (errors v)).
Proof. intros [G (A & C)]. unfold sinfo. destruct (good_sizes _ _ _ G C) as [-> ->]. now rewrite A. Qed.
Lemma skeep_plain r s v ev v' : good_s s v -> In (ev, v') [(SPause, with_pauses v (receiving_paused v) true); (SUnpause, with_pauses v (receiving_paused v) false);
    (SReprocessAll, unpaused (all_moved v)); (SClearError, cleared v)] ->
  let so := sstep no_meta (sdto r) truthy (swait r) (sretries r) s ev in good_s (fst so) v' /\ splain r so = (fst so, KInfo (mkSInfo r (processing_paused v') (size (waiting v')) (size (errors v'))) None).
Proof.
  intros G I so. destruct (sstep_plain (sdto r) (swait r) (sretries r) s v ev v' G I) as [G' E]. fold so in G', E. split; [exact G'|].
  unfold splain. destruct so as [s' o]. cbn [fst snd] in *. rewrite E. now rewrite (sinfo_ok r s' v' G').
Qed.
Lemma skeep_found r s v ev k v' : good_s s v -> In (ev, v') [(SReprocessOne k, unpaused (match lookup k (errors v) with Some e => moved v k (k, e) | None => v end));
    (SPopError k, match lookup k (errors v) with Some e => taken v k | None => v end); (SInspectError k, v)] ->
  let so := sstep no_meta (sdto r) truthy (swait r) (sretries r) s ev in good_s (fst so) v' /\
    sfound r so = (fst so, match given (sdto r) (option_map ee_data (lookup k (errors v))) with
      Raise e => KExn e | Ok None => KFalse | Ok (Some d) => KInfo (mkSInfo r (processing_paused v') (size (waiting v')) (size (errors v'))) (Some d) end).
Proof.
  intros G I so. destruct (sstep_found (sdto r) (swait r) (sretries r) s v ev k v' G I) as [G' E]. fold so in G', E. split; [exact G'|].
  unfold sfound. destruct so as [s' o]. cbn [fst snd] in *. rewrite E. now rewrite (sinfo_ok r s' v' G').
Qed.
Definition s_enough r op (v : view D M) : Prop := op <> SFirst10 /\ (s_reprocesses op -> processing_paused v = false) /\
  (forall k e, s_about op = Some k -> lookup k (errors v) = Some e -> truthy (ee_data e) = true /\ sdto r (ee_data e) = true).
Lemma skeep_ok r s v op s' x : good_s s v -> skeep_ r s op = (s', x) ->
  good_s s' (sender_does op v) /\ (s_enough r op v -> sanswer op r x = sender_answer op r (sender_should op v)).
Proof.
  intros G E. destruct op; cbn [skeep] in E; cbn [sender_does].
  - injection E as <- <-. split; [exact G|]. intros _. now rewrite (sinfo_ok r s v G).
  - destruct (skeep_plain r s v SPause _ G ltac:(okay)) as [G' X]. rewrite X in E. injection E as <- <-. split; [exact G'|]. reflexivity.
  - destruct (skeep_plain r s v SUnpause _ G ltac:(okay)) as [G' X]. rewrite X in E. injection E as <- <-. split; [exact G'|]. reflexivity.
  - injection E as <- <-. split; [exact G|]. intros (X & _). now elim X.
  - destruct (skeep_plain r s v SReprocessAll _ G ltac:(okay)) as [G' X]. rewrite X in E. injection E as <- <-. split; [exact G'|].
    intros (_ & P & _). specialize (P I). cbn [sender_should sender_answer all_moved unpaused with_pauses receiving_paused processing_paused waiting errors answer_of sanswer]. now rewrite P.
  - destruct (skeep_plain r s v SClearError _ G ltac:(okay)) as [G' X]. rewrite X in E. injection E as <- <-. split; [exact G'|]. reflexivity.
  - destruct (skeep_found r s v (SReprocessOne k) k _ G ltac:(okay)) as [G' X]. rewrite X in E. injection E as <- <-. cbn [sender_should]. unfold item. split.
    + destruct (lookup k (errors v)); exact G'.
    + intros (_ & P & Q). specialize (P I). specialize (Q k). destruct (lookup k (errors v)) as [e|]; [|reflexivity].
      destruct (Q e eq_refl eq_refl) as [T O]. cbn [option_map given]. rewrite T, O.
      cbn [sender_answer moved unpaused with_pauses receiving_paused processing_paused waiting errors answer_of sanswer]. now rewrite P.
  - destruct (skeep_found r s v (SPopError k) k _ G ltac:(okay)) as [G' X]. rewrite X in E. injection E as <- <-. cbn [sender_should]. unfold item. split.
    + destruct (lookup k (errors v)); exact G'.
    + intros (_ & P & Q). specialize (Q k). destruct (lookup k (errors v)) as [e|]; [|reflexivity].
      destruct (Q e eq_refl eq_refl) as [T O]. cbn [option_map given]. now rewrite T, O.
  - destruct (skeep_found r s v (SInspectError k) k _ G ltac:(okay)) as [G' X]. rewrite X in E. injection E as <- <-. cbn [sender_should]. unfold item. split.
    + destruct (lookup k (errors v)); exact G'.
    + intros (_ & P & Q). specialize (Q k). destruct (lookup k (errors v)) as [e|]; [|reflexivity].
      destruct (Q e eq_refl eq_refl) as [T O]. cbn [option_map given]. now rewrite T, O.
Qed.

(** ** Any history *)
Notation hrun_ r := (hrun no_meta (edto r) truthy (eretries r)).
Notation srun_ r := (srun no_meta (sdto r) truthy (swait r) (sretries r)).
Notation wstep_ := (wstep no_meta truthy edto sdto eretries sretries swait).
Notation wrun_ := (wrun no_meta truthy edto sdto eretries sretries swait).
Definition e_run r (s : hstate D M) : Prop := exists q evs, preachable no_meta q /\ usable q /\ s = fst (hrun_ r (setup q) evs).
Definition s_run r (s : sstate D M) : Prop := exists q evs, preachable no_meta q /\ usable q /\ s = fst (srun_ r (s_setup q) evs).
Lemma e_run_step r s ev : e_run r s -> e_run r (fst (hstep no_meta (edto r) truthy (eretries r) s ev)).
Proof.
  intros (q & evs & P & U & ->). exists q, (evs ++ [ev]). split; [exact P|]. split; [exact U|]. rewrite hrun_app. destruct (hrun_ r (setup q) evs) as [s1 o1]. cbn [fst hrun].
  now destruct (hstep _ _ _ _ s1 ev).
Qed.
Lemma s_run_step r s ev : s_run r s -> s_run r (fst (sstep no_meta (sdto r) truthy (swait r) (sretries r) s ev)).
Proof.
  intros (q & evs & P & U & ->). exists q, (evs ++ [ev]). split; [exact P|]. split; [exact U|]. rewrite srun_app. destruct (srun_ r (s_setup q) evs) as [s1 o1]. cbn [fst srun].
  now destruct (sstep _ _ _ _ _ s1 ev).
Qed.
Lemma e_run_keep r s op : e_run r s -> e_run r (fst (ekeep_ r s op)).
Proof.
  intros R. assert (F : forall so, fst (eplain (D:=D) (M:=M) r so) = fst so) by (intros []; reflexivity). assert (F' : forall so, fst (efound (D:=D) (M:=M) r so) = fst so) by (intros []; reflexivity).
  destruct op; cbn [ekeep]; rewrite ?F, ?F'; cbn [fst]; repeat apply e_run_step; exact R.
Qed.
Lemma s_run_keep r s op : s_run r s -> s_run r (fst (skeep_ r s op)).
Proof.
  intros R. assert (F : forall so, fst (splain (D:=D) (M:=M) r so) = fst so) by (intros []; reflexivity). assert (F' : forall so, fst (sfound (D:=D) (M:=M) r so) = fst so) by (intros []; reflexivity).
  destruct op; cbn [skeep]; rewrite ?F, ?F'; cbn [fst]; repeat apply s_run_step; exact R.
Qed.
Definition w_run (w : world (D:=D) (M:=M)) : Prop := (forall r s, sget r (endpoints w) = Some s -> e_run r s) /\ (forall r s, sget r (senders w) = Some s -> s_run r s).
Lemma sget_In {V} k (v : V) d : sget k d = Some v -> In (k, v) d.
Proof. intros H. apply sget_finds in H as (a & b & -> & _). apply in_or_app. right. now left. Qed.
Lemma started_run w : started no_meta w -> w_run w.
Proof.
  intros [A B]. split; intros r s H; apply sget_In in H.
  - destruct (A r s H) as (q & -> & P & U). now exists q, [].
  - destruct (B r s H) as (q & -> & P & U). now exists q, [].
Qed.
Lemma w_run_step w ev : w_run w -> w_run (wstep_ w ev).
Proof.
  intros [A B]. destruct ev as [r e|r e|r op|r op]; cbn [wstep].
  - destruct (sget r (endpoints w)) as [s|] eqn:E; [|split; auto]. split; cbn [endpoints senders]; [|exact B]. intros r' s'. rewrite sget_sset.
    destruct (String.eqb_spec r' r) as [->|_]; [intros [= <-]|apply A]. apply e_run_step. now apply A.
  - destruct (sget r (senders w)) as [s|] eqn:E; [|split; auto]. split; cbn [endpoints senders]; [exact A|]. intros r' s'. rewrite sget_sset.
    destruct (String.eqb_spec r' r) as [->|_]; [intros [= <-]|apply B]. apply s_run_step. now apply B.
  - split; cbn [endpoints senders]; [|exact B]. unfold emanage. destruct (sget r (endpoints w)) as [s|] eqn:E; [|exact A].
    pose proof (e_run_keep r s op (A r s E)) as X. destruct (ekeep_ r s op) as [s1 x]. intros r' s'. cbn [fst] in *. rewrite sget_sset.
    destruct (String.eqb_spec r' r) as [->|_]; [intros [= <-]; exact X|apply A].
  - split; cbn [endpoints senders]; [exact A|]. unfold smanage. destruct (sget r (senders w)) as [s|] eqn:E; [|exact B].
    pose proof (s_run_keep r s op (B r s E)) as X. destruct (skeep_ r s op) as [s1 x]. intros r' s'. cbn [fst] in *. rewrite sget_sset.
    destruct (String.eqb_spec r' r) as [->|_]; [intros [= <-]; exact X|apply B].
Qed.
Lemma w_run_run evs : forall w, w_run w -> w_run (wrun_ w evs).
Proof. induction evs as [|ev evs IH]; [auto|]. intros w H. unfold wrun. cbn [fold_left]. apply IH. now apply w_run_step. Qed.

Lemma e_run_good r s : e_run r s -> closed s = 0%nat -> good_q (hq s).
Proof.
  intros (q & evs & P & U & ->) C. destruct (hrun_ r (setup q) evs) as [s o] eqn:E. cbn [fst] in *.
  destruct (run_inv no_meta (edto r) truthy (eretries r) q evs s o P U E C) as [X Y _ _ _ _ _]. now split.
Qed.
Lemma s_run_good r s : s_run r s -> sclosed s = 0%nat -> good_q (sq s).
Proof.
  intros (q & evs & P & U & ->) C. destruct (srun_ r (s_setup q) evs) as [s o] eqn:E. cbn [fst] in *.
  destruct (reach_R no_meta (sdto r) truthy (swait r) (sretries r) q evs s o P U E C) as [a [[] _]]. now split.
Qed.

Theorem endpoint_managed w0 evs r s v op : started no_meta w0 -> sget r (endpoints (wrun_ w0 evs)) = Some s -> closed s = 0%nat -> endpoint_is s v ->
  let (es, a) := emanage_ (endpoints (wrun_ w0 evs)) r op in
  (exists s', sget r es = Some s' /\ endpoint_is s' (endpoint_does op v)) /\ (enough r op v -> a = endpoint_answer op r (endpoint_should op v)).
Proof.
  intros S E C V. pose proof (w_run_run evs w0 (started_run w0 S)) as [W _]. unfold emanage. rewrite E. destruct (ekeep_ r s op) as [s' x] eqn:K.
  destruct (ekeep_ok r s v op s' x) as [[_ G] A]; [split; [apply (e_run_good r); auto|exact V]|exact K|]. split; [|exact A].
  exists s'. split; [|exact G]. now rewrite sget_sset, String.eqb_refl.
Qed.
Theorem sender_managed w0 evs r s v op : started no_meta w0 -> sget r (senders (wrun_ w0 evs)) = Some s -> sclosed s = 0%nat -> sender_is s v ->
  let (es, a) := smanage_ (senders (wrun_ w0 evs)) r op in
  (exists s', sget r es = Some s' /\ sender_is s' (sender_does op v)) /\ (s_enough r op v -> a = sender_answer op r (sender_should op v)).
Proof.
  intros S E C V. pose proof (w_run_run evs w0 (started_run w0 S)) as [_ W]. unfold smanage. rewrite E. destruct (skeep_ r s op) as [s' x] eqn:K.
  destruct (skeep_ok r s v op s' x) as [[_ G] A]; [split; [apply (s_run_good r); auto|exact V]|exact K|]. split; [|exact A].
  exists s'. split; [|exact G]. now rewrite sget_sset, String.eqb_refl.
Qed.
(** Every queue has such a view. *)
Theorem endpoint_viewed w0 evs r s : started no_meta w0 -> sget r (endpoints (wrun_ w0 evs)) = Some s -> closed s = 0%nat -> exists v, endpoint_is s v.
Proof.
  intros S E C. pose proof (w_run_run evs w0 (started_run w0 S)) as [W _]. pose proof (e_run_good r s (W r s E) C) as G.
  exists (mkView (recv_paused s) (proc_paused s) (pc (hq s)) (ec (hq s))). split; [reflexivity|]. split; [reflexivity|]. now apply good_holds.
Qed.
Theorem sender_viewed w0 evs r s : started no_meta w0 -> sget r (senders (wrun_ w0 evs)) = Some s -> sclosed s = 0%nat -> exists v, sender_is s v.
Proof.
  intros S E C. pose proof (w_run_run evs w0 (started_run w0 S)) as [_ W]. pose proof (s_run_good r s (W r s E) C) as G.
  exists (mkView false (spaused s) (pc (sq s)) (ec (sq s))). split; [reflexivity|]. now apply good_holds.
Qed.
Theorem endpoint_first10 w0 evs r s v : started no_meta w0 -> sget r (endpoints (wrun_ w0 evs)) = Some s -> closed s = 0%nat -> endpoint_is s v ->
  exists m, (m <= 10)%nat /\ emanage_ (endpoints (wrun_ w0 evs)) r First10 =
    (sset r s (endpoints (wrun_ w0 evs)), Answer (SpanKeys (map key_text (map fst (firstn m (errors v))))) None (endpoint_message (D:=D) First10 r TheState)).
Proof.
  intros S E C (_ & _ & H). pose proof (w_run_run evs w0 (started_run w0 S)) as [W _]. destruct (good_first10 (hq s) _ _ (e_run_good r s (W r s E) C) H) as (m & L & X).
  exists m. split; [exact L|]. unfold emanage. rewrite E. cbn [ekeep eanswer]. now rewrite X.
Qed.
Theorem sender_first10 w0 evs r s v : started no_meta w0 -> sget r (senders (wrun_ w0 evs)) = Some s -> sclosed s = 0%nat -> sender_is s v ->
  exists m, (m <= 10)%nat /\ smanage_ (senders (wrun_ w0 evs)) r SFirst10 =
    (sset r s (senders (wrun_ w0 evs)), Answer (SpanKeys (map key_text (map fst (firstn m (errors v))))) None (sender_message (D:=D) SFirst10 r TheState)).
Proof.
  intros S E C (_ & H). pose proof (w_run_run evs w0 (started_run w0 S)) as [_ W]. destruct (good_first10 (sq s) _ _ (s_run_good r s (W r s E) C) H) as (m & L & X).
  exists m. split; [exact L|]. unfold smanage. rewrite E. cbn [skeep sanswer]. now rewrite X.
Qed.
(** A request for one queue leaves the others as they are; a request for none changes nothing. *)
Theorem endpoint_only r r' op (es : list (string * hstate D M)) : r' <> r -> sget r' (fst (emanage_ es r op)) = sget r' es.
Proof.
  intros N. unfold emanage. destruct (sget r es) as [s|]; [|reflexivity]. destruct (ekeep_ r s op). cbn [fst]. rewrite sget_sset. destruct (String.eqb_spec r' r); [contradiction|reflexivity].
Qed.
Theorem sender_only r r' op (es : list (string * sstate D M)) : r' <> r -> sget r' (fst (smanage_ es r op)) = sget r' es.
Proof.
  intros N. unfold smanage. destruct (sget r es) as [s|]; [|reflexivity]. destruct (skeep_ r s op). cbn [fst]. rewrite sget_sset. destruct (String.eqb_spec r' r); [contradiction|reflexivity].
Qed.
End Proofs.
