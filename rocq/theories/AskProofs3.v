(** From the response's bytes to what the caller gets. *)
From Coq Require Import String Ascii ZArith NArith Bool List Arith Lia.
From Verif Require Import Base SpanKeyModel SpanKeySpec RouterModel RouterSpec RouterProofs JsonModel JsonSpec JsonProofs JsonProofs2 StreamModel StreamSpec StreamProofs
  ClientModel ClientSpec WireModel WireProofs AskModel AskSpec AskProofs AskProofs2.
Import ListNotations.

Lemma cut_lf (t z b : string) : (t ++ z = b ++ lf)%string -> z = EmptyString \/ exists z', z = (z' ++ lf)%string /\ (t ++ z' = b)%string.
Proof.
  revert b. induction t as [|c t IH]; intros b E; [cbn in E; right; exists b; auto|]. destruct b as [|d b].
  - cbn in E. injection E as -> E. destruct t; [|discriminate]. left. exact E.
  - cbn in E. injection E as -> E. destruct (IH b E) as [->|(z' & -> & E')]; [auto|]. right. exists z'. split; [reflexivity|]. cbn. now rewrite E'.
Qed.

Section Told.
Context {D V R : Type} (utf8 : list N -> bool) (dump : V -> json) (limit : nat) (max : Z) (accepted_resp : span_key -> V) (app : nat -> code D V)
        (str_of : json -> string) (build : list (string * json) -> option R).
Notation serve := (serve accepted_resp app).
Notation body := (body dump).
Notation run := (AskModel.run utf8 dump limit max accepted_resp app).
Notation step := (AskModel.step utf8 dump limit max accepted_resp app).
Notation Inv := (Inv utf8 dump limit max accepted_resp app).
Notation Got := (Got dump accepted_resp app).
Notation receive := (receive parse client_int client_span_ok str_of build).
Notation told := (told str_of build).
Notation data_of := (data_of dump).

Definition wellformed (s : net D V) (i : nat) : Prop := valid_key (rspan (asked s i)) /\ JsonSpec.proper (rdata (asked s i)).
Lemma serve_span c route k data resp : valid_key k -> JsonSpec.proper data -> fst (serve c (request_text route k data)) = Ret resp -> pspan resp = Some k.
Proof.
  intros Vk P E. unfold AskModel.serve, serve_request in E. rewrite loads_request in E by exact P.
  pose proof (read_request route k data Vk P) as Rq. unfold server_read in Rq. rewrite loads_request in Rq by exact P. rewrite Rq in E.
  destruct (bnd _ _ _) as [[v|x] h].
  - cbn in E. injection E as <-. reflexivity.
  - cbn [fst] in E. destruct x; cbn [except_clauses] in E; try discriminate E; injection E as <-; reflexivity.
Qed.
Definition fields (resp : response span_key V) := [("span_key", opt_key (pspan resp)); ("status", JNum (pstatus resp)); ("data", data_of resp)]%string.
Lemma fields_proper resp : (forall v, JsonSpec.proper (dump v)) -> JsonSpec.proper (JObj (fields resp)).
Proof. intros H. apply response_proper. unfold AskSpec.data_of. destruct (pdata resp); [apply H|constructor]. Qed.
Lemma body_fields resp : body resp = print (JObj (fields resp)).
Proof. reflexivity. Qed.
Lemma receive_fields t resp k : valid_key k -> pspan resp = Some k -> parse t = Some (JObj (fields resp)) ->
  receive (OText t) = told (pstatus resp) (data_of resp).
Proof.
  intros Vk E P. unfold ClientModel.receive. rewrite P.
  assert (Q : response_of client_int client_span_ok (fields resp) = Some (pstatus resp, data_of resp)).
  { unfold response_of. change (sget "status" (fields resp)) with (Some (JNum (pstatus resp))). change (sget "data" (fields resp)) with (Some (data_of resp)).
    change (sget "span_key" (fields resp)) with (Some (opt_key (pspan resp))). rewrite E. cbn [client_int opt_key].
    unfold client_span_ok. rewrite key_round_trip by exact Vk. reflexivity. }
  rewrite Q. unfold AskSpec.told, generate_response_exception, documented.
  destruct (Z.eqb_spec (pstatus resp) 0) as [->|N0]; [reflexivity|].
  destruct (Z.eqb_spec (pstatus resp) 100) as [->|N1]; [reflexivity|]. destruct (Z.eqb_spec (pstatus resp) 200) as [->|N2]; [reflexivity|].
  destruct (Z.eqb_spec (pstatus resp) 300) as [->|N3]; [reflexivity|]. destruct (Z.eqb_spec (pstatus resp) 400) as [->|N4]; [reflexivity|].
  destruct (Z.eqb_spec (pstatus resp) 500) as [->|N5]; [reflexivity|]. destruct (Z.eqb_spec (pstatus resp) 600) as [->|N6]; [reflexivity|].
  destruct (Z.eqb_spec (pstatus resp) 999) as [->|N7]; [reflexivity|].
  destruct (pstatus resp) as [|p|p]; [congruence| |reflexivity].
  repeat (destruct p as [p|p|]; try reflexivity; try congruence).
Qed.
Lemma got_told s i c t : (forall v, JsonSpec.proper (dump v)) -> wellformed s i -> Got s i c t -> Mine s i c ->
  (exists resp h, carried accepted_resp app s i c resp h /\ receive (OText t) = told (pstatus resp) (data_of resp)) \/
  (receive (OText t) = Raised CDecode /\ exists resp h, carried accepted_resp app s i c resp h /\ l_eof (links s c) = true).
Proof.
  intros DP (Vk & P) (resp & Rn & Sv & z & E & Z) (C & M).
  assert (CA : carried accepted_resp app s i c resp (snd (serve c (asks s i)))).
  { split; [exact C|]. split; [exact M|]. split; [exact Rn|]. rewrite <- Sv. apply surjective_pairing. }
  assert (SP : pspan resp = Some (rspan (asked s i))) by (eapply serve_span; [exact Vk|exact P|exact Sv]).
  assert (W : forall w, blank w -> parse (body resp ++ w) = Some (JObj (fields resp))).
  { intros w B. rewrite body_fields. apply (round_trip _ EmptyString w (fields_proper resp DP) blank_nil B). }
  destruct (cut_lf _ _ _ E) as [->|(z' & -> & E')].
  - left. exists resp. eexists. split; [exact CA|]. rewrite sapp_nil in E. subst t. eapply receive_fields; [exact Vk|exact SP|]. apply W, blank_lf.
  - destruct z' as [|a z'].
    + left. exists resp. eexists. split; [exact CA|]. rewrite sapp_nil in E'. subst t. eapply receive_fields; [exact Vk|exact SP|]. rewrite <- (sapp_nil (body resp)). apply W, blank_nil.
    + right. split; [|exists resp; eexists; split; [exact CA|]; destruct Z as [Z|Z]; [discriminate|exact Z]].
      unfold ClientModel.receive. rewrite (cut_unreadable (fields resp) t (String a z')); [reflexivity|apply fields_proper, DP|exact E'|discriminate].
Qed.

(** ** Counting *)
Lemma link_ran s c : Inv s -> (c < nlinks s)%nat -> (List.length (l_ran (links s c)) <= 1)%nat.
Proof.
  intros I C. destruct (v_links _ _ _ _ _ _ _ I c C) as (_ & L). destruct (l_conn (links s c)); [|rewrite L; cbn; lia].
  destruct L as (_ & [(-> & _)|(-> & _)]); cbn; lia.
Qed.
Lemma times_opened s i : Inv s -> (handled_times s i <= List.length (opened_by s i))%nat.
Proof.
  intros I. unfold handled_times. assert (F : forall c, In c (opened_by s i) -> (c < nlinks s)%nat).
  { intros c H. apply filter_In in H as (H & _). apply in_seq in H. lia. }
  induction (opened_by s i) as [|c l IH]; [cbn; lia|]. cbn [map list_sum fold_right List.length].
  pose proof (link_ran s c I (F c (or_introl eq_refl))). specialize (IH (fun c' H' => F c' (or_intror H'))). unfold list_sum in IH. lia.
Qed.
Lemma carried_times s i c resp h : carried accepted_resp app s i c resp h -> (1 <= handled_times s i)%nat.
Proof.
  intros (C & M & Rn & _). unfold handled_times.
  assert (H : In c (opened_by s i)) by (apply filter_In; split; [apply in_seq; lia|now apply Nat.eqb_eq]).
  induction (opened_by s i) as [|c' l IH]; [destruct H|]. cbn [map list_sum fold_right]. destruct H as [->|H].
  - rewrite Rn. cbn. lia.
  - specialize (IH H). unfold list_sum in IH. lia.
Qed.

(** ** The answer arrives *)
Lemma readline_all b eof : ~ In 10%N b -> readline limit (b ++ [10%N]) eof = if Nat.ltb limit (List.length b) then Some (inr (XMisc "ValueError")) else Some (inl (b ++ [10%N])).
Proof.
  intros N. unfold readline.
  assert (X : forall b n, ~ In 10%N b -> index n (b ++ [10%N]) = Some (n + List.length b)%nat).
  { clear. induction b as [|x b IH]; intros n N; cbn [Datatypes.app index List.length]; [rewrite Nat.add_0_r; reflexivity|].
    destruct (N.eqb_spec x LF) as [->|]; [elim N; now left|]. rewrite IH by (intros H; apply N; now right). f_equal. lia. }
  rewrite X by exact N. cbn [Nat.add]. destruct (Nat.ltb _ _); [reflexivity|]. rewrite firstn_all2; [reflexivity|]. rewrite app_length. cbn. lia.
Qed.
Lemma all_written s c k resp h : Inv s -> (c < nlinks s)%nat -> l_conn (links s c) = Some k -> ceof k = false -> cexc k = false ->
  (forall t, cst k <> Handling t) -> let L := sent s (l_call (links s c)) in l_fed (links s c) = List.length L ->
  (List.length L <= S limit)%nat -> utf8 L = true -> serve c (asks s (l_call (links s c))) = (Ret resp, h) ->
  written (links s c) = bytes (body resp) ++ [10%N] /\ l_ran (links s c) = [(asks s (l_call (links s c)), h)].
Proof.
  intros I C K Ef X NH L Fd Ln U Sv. destruct (v_links _ _ _ _ _ _ _ I c C) as (_ & Q). rewrite K in Q. unfold written. rewrite K.
  destruct Q as (_ & [(Rn & O & Q)|(Rn & _ & _ & Q)]); fold L in Q.
  - exfalso. destruct (cst k) as [off|t| |m] eqn:St.
    + destruct Q as (B & _ & N & _). apply N. rewrite B, Fd. fold L. rewrite firstn_all. destruct (sent_line s (l_call (links s c))) as (x & Ex & _). fold L in Ex. rewrite Ex. apply in_or_app. right. now left.
    + now apply (NH t).
    + destruct Q; congruence.
    + destruct Q as [Q|Q]; [lia|congruence].
  - rewrite sent_text in Rn. split; [|rewrite Rn, Sv; reflexivity]. unfold L in Q. rewrite sent_text, Sv in Q. cbn [fst] in Q.
    destruct Q as [(_ & [(_ & Q)|(_ & x & Q)])|(r & Q & O)]; [congruence|discriminate|]. injection Q as <-. rewrite O. cbn [List.concat]. apply app_nil_r.
Qed.
End Told.
