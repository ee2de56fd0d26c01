(** Properties of the way of a log record: C65, C66, C67. *)
From Coq Require Import String Ascii ZArith Bool Lia List Arith.
From Verif Require Import Base SpanKeyModel SpanKeySpec RouterModel RouterSpec RouterProofs JsonModel JsonSpec JsonProofs WireModel WireProofs
  ShipperModel ShipperSpec ShipperProofs ShipperProps EnvelopeModel EnvelopeSpec EnvelopeProofs.
Import ListNotations.
Local Open Scope Z_scope.

(** ** C65: the time of a record *)
(** Full claim: for every moment that datetime has, the record's nanoseconds are a thousand times its microseconds. *)
Definition C65_time (bound : Z) : Prop := forall a span r, 0 <= created r < bound ->
  exists d t, convert_one_record (format a span r) = Some (JObj d) /\ finds "timeUnixNano"%string (JStr t) d /\ numeral t (1000 * created r).
(** False: the nanoseconds since 1970 leave 64 bits in the year 2554. *)
Definition ev_app : application := mkApp "shop" "0".
Definition ev_late : record := mkRecord 18446744073709552 20 "" "" 0 "" "" None.
Lemma some_str (s t : string) : Some (JStr s) = Some (JStr t) -> s = t.
Proof. intros H. now injection H. Qed.
Theorem C65_time_refuted : ~ C65_time end_of_time.
Proof.
  intros H. destruct (H ev_app None ev_late) as (d & t & E & F & N); [cbn; unfold end_of_time; lia|].
  assert (X : t = "384"%string).
  { rewrite convert_format in E. injection E as <-. apply sget_finds in F.
    rewrite converted_time in F. apply some_str in F. rewrite <- F. vm_compute. reflexivity. }
  subst t. assert (M : numeral "384" 384) by (apply (numeral_dec 384); lia).
  pose proof (numeral_fun _ _ N _ M) as Q. cbn in Q. lia.
Qed.
Print Assumptions C65_time_refuted.
(** True until then. *)
Theorem C65_time_partial : C65_time 18446744073709552.
Proof.
  intros a span r H. exists (converted a span r), (dec (parse_iso8601 (isoformat (created r)))).
  split; [apply convert_format|]. split; [apply sget_finds, converted_time|].
  rewrite parse_isoformat by (unfold end_of_time; lia). rewrite Z.mod_small; [apply numeral_dec; lia|].
  change (2 ^ 64) with 18446744073709551616. lia.
Qed.
Print Assumptions C65_time_partial.
(** Up to the last moment that datetime has, different moments are written differently; and a numeral means one number. *)
Theorem C65_distinct : forall s t, 0 <= s < end_of_time -> 0 <= t < end_of_time -> isoformat s = isoformat t -> s = t.
Proof. exact isoformat_inj. Qed.
Print Assumptions C65_distinct.
Theorem C65_numerals_are_unambiguous : forall s v w, numeral s v -> numeral s w -> v = w.
Proof. intros s v w H G. exact (numeral_fun s v H w G). Qed.
Print Assumptions C65_numerals_are_unambiguous.
Example C65_example : isoformat 1781803644331740 = "2026-06-18T17:27:24.331740+00:00"%string /\
  isoformat 951782399000000 = "2000-02-28T23:59:59+00:00"%string /\ isoformat 951782400000007 = "2000-02-29T00:00:00.000007+00:00"%string /\
  parse_iso8601 "2000-02-29T00:00:00.000007+00:00" = 951782400000007000 /\ isoformat 253402300799999999 = "9999-12-31T23:59:59.999999+00:00"%string.
Proof. vm_compute. repeat split. Qed.

(** ** C66: the content of a record *)
Theorem C66_content : forall a span r, (forall k, span = Some k -> valid_key k) ->
  exists d, convert_one_record (format a span r) = Some (JObj d) /\ content a span r d.
Proof. intros a span r V. exists (converted a span r). split; [apply convert_format|now apply content_ok]. Qed.
Print Assumptions C66_content.
(** The attributes of any line that converts, whoever wrote it: one OTLP attribute for each, under the same name, with the
    value written as OTLP writes values of its type. *)
Lemma insert_in x y l : In x (insert y l) <-> x = y \/ In x l.
Proof.
  induction l as [|z l IH]; cbn [insert]; [cbn; intuition|]. destruct (String.compare _ _); cbn [In]; try rewrite IH; intuition.
Qed.
Lemma insert_len y l : List.length (insert y l) = S (List.length l).
Proof. induction l as [|z l IH]; cbn [insert]; [reflexivity|]. destruct (String.compare _ _); cbn [List.length]; congruence. Qed.
Lemma by_key_in x l : In x (by_key l) <-> In x l.
Proof.
  induction l as [|z l IH]; [reflexivity|]. change (by_key (z :: l)) with (insert z (by_key l)). rewrite insert_in, IH. cbn [In]. intuition congruence.
Qed.
Lemma by_key_len l : List.length (by_key l) = List.length l.
Proof.
  induction l as [|z l IH]; [reflexivity|]. change (by_key (z :: l)) with (insert z (by_key l)). rewrite insert_len, IH. reflexivity.
Qed.
Theorem C66_attributes_of_any_line : forall d atts out, finds "attributes"%string (JObj atts) d -> convert_one_record (JObj d) = Some (JObj out) ->
  exists l, finds "attributes"%string (JArr l) out /\ List.length l = List.length atts /\
    (forall k v, In (k, v) atts -> exists w, otlp_value v w /\ attribute k w l).
Proof.
  intros d atts out Fa E. cbn [convert_one_record] in E. unfold get_items in E. apply sget_finds in Fa. rewrite Fa in E.
  destruct (get_str "timestamp" d); [|discriminate]. destruct (get_int "severity_number" d); [|discriminate].
  destruct (get_str "severity_text" d); [|discriminate]. destruct (get_str "body" d); [|discriminate].
  destruct (get_id "trace_id" d); [|discriminate]. destruct (get_id "span_id" d); [|discriminate]. injection E as <-.
  eexists. split; [apply sget_finds; reflexivity|]. split; [rewrite map_length; apply by_key_len|].
  intros k v I. exists (value_kv v). split.
  - destruct v; cbn [value_kv]; constructor; discriminate.
  - unfold attribute. apply in_map_iff. exists (k, v). split; [reflexivity|]. now apply by_key_in.
Qed.
Print Assumptions C66_attributes_of_any_line.
Example C66_any_line_example : exists out,
  convert_one_record (JObj [("timestamp", JStr "2000-02-29T00:00:00.000007+00:00"); ("severity_number", JNum 9); ("severity_text", JStr "INFO");
    ("body", JStr "x"); ("attributes", JObj [("retry", JBool true); ("n", JNum 3)])]%string) = Some (JObj out).
Proof. eexists. vm_compute. reflexivity. Qed.
(** Which other lines convert, and what their severity and resource are. A number may be written as a boolean, an id may be
    null, and names and attributes may be left out; nothing else may. *)
Definition text_field (k : string) (d : list (string * json)) : Prop := exists s, finds k (JStr s) d.
Definition number_field (k : string) (z : Z) (d : list (string * json)) : Prop :=
  finds k (JNum z) d \/ (z = 1 /\ finds k (JBool true) d) \/ (z = 0 /\ finds k (JBool false) d).
Definition id_or_none (k : string) (d : list (string * json)) : Prop := missing k d \/ finds k JNull d \/ text_field k d.
Definition name_field (k s : string) (d : list (string * json)) : Prop := finds k (JStr s) d \/ (s = EmptyString /\ missing k d).
Lemma text_field_get k d : text_field k d <-> exists s, get_str k d = Some s.
Proof.
  unfold text_field, get_str. split; intros (s & H); exists s.
  - apply sget_finds in H. now rewrite H.
  - apply sget_finds. destruct (sget k d) as [[]|]; try discriminate; congruence.
Qed.
Lemma number_field_get k z d : number_field k z d <-> get_int k d = Some z.
Proof.
  unfold number_field, get_int. rewrite <- !sget_finds. split.
  - intros [H|[(-> & H)|(-> & H)]]; now rewrite H.
  - destruct (sget k d) as [[]|]; try discriminate; intros H; injection H as <-; auto.
    match goal with |- context [b2z ?b] => destruct b end; auto.
Qed.
Lemma id_field_get k d : id_or_none k d <-> exists o, get_id k d = Some o.
Proof.
  unfold id_or_none, text_field, get_id. rewrite <- sget_finds, <- sget_missing. split.
  - intros [H|[H|(s & H)]]; [rewrite H; now exists None|rewrite H; now exists None|]. apply sget_finds in H. rewrite H. now exists (Some s).
  - intros (o & H). destruct (sget k d) as [[]|] eqn:E; try discriminate; auto. right. right. eexists. apply sget_finds. exact E.
Qed.
Lemma name_field_get k s d : name_field k s d <-> name_of k d = Some s.
Proof.
  unfold name_field, name_of. rewrite <- sget_finds, <- sget_missing. split.
  - intros [H|(-> & H)]; now rewrite H.
  - destruct (sget k d) as [[]|]; try discriminate; intros H; injection H as <-; auto.
Qed.
Theorem C66_any_line : forall d, missing "attributes"%string d \/ (exists a, finds "attributes"%string (JObj a) d) ->
  ((exists out, convert_one_record (JObj d) = Some out) <->
   text_field "timestamp" d /\ (exists z, number_field "severity_number" z d) /\ text_field "severity_text" d /\ text_field "body" d /\
   id_or_none "trace_id" d /\ id_or_none "span_id" d).
Proof.
  intros d A. assert (X : exists a, get_items "attributes" d = Some a).
  { unfold get_items. destruct A as [A|(a & A)]; [apply sget_missing in A; rewrite A; now exists []|apply sget_finds in A; rewrite A; now exists a]. }
  destruct X as (a & X). rewrite !text_field_get, !id_field_get. setoid_rewrite number_field_get. cbn [convert_one_record]. rewrite X. split.
  - intros (out & H). destruct (get_str "timestamp" d); [|discriminate]. destruct (get_int "severity_number" d); [|discriminate].
    destruct (get_str "severity_text" d); [|discriminate]. destruct (get_str "body" d); [|discriminate].
    destruct (get_id "trace_id" d); [|discriminate]. destruct (get_id "span_id" d); [|discriminate]. repeat split; eexists; reflexivity.
  - intros ((x1 & ->) & (x2 & ->) & (x3 & ->) & (x4 & ->) & (x5 & ->) & (x6 & ->)). eexists. reflexivity.
Qed.
Theorem C66_any_line_severity : forall d out, convert_one_record (JObj d) = Some (JObj out) ->
  exists z t, number_field "severity_number" z d /\ finds "severityNumber"%string (JNum z) out /\
    finds "severity_text"%string (JStr t) d /\ finds "severityText"%string (JStr t) out.
Proof.
  intros d out E. cbn [convert_one_record] in E.
  destruct (get_str "timestamp" d); [|discriminate]. destruct (get_int "severity_number" d) as [z|] eqn:Z; [|discriminate].
  destruct (get_str "severity_text" d) as [t|] eqn:T; [|discriminate]. destruct (get_str "body" d); [|discriminate].
  destruct (get_items "attributes" d); [|discriminate].
  destruct (get_id "trace_id" d); [|discriminate]. destruct (get_id "span_id" d); [|discriminate]. injection E as <-.
  exists z, t. split; [now apply number_field_get|]. split; [apply sget_finds; reflexivity|]. split; [|apply sget_finds; reflexivity].
  apply sget_finds. unfold get_str in T. destruct (sget "severity_text" d) as [[]|]; try discriminate; congruence.
Qed.
Theorem C66_any_line_resource : forall d,
  (missing "attributes"%string d -> extract_resource_info (JObj d) = Some (EmptyString, EmptyString)) /\
  (forall a n i, finds "attributes"%string (JObj a) d ->
    (extract_resource_info (JObj d) = Some (n, i) <-> name_field "application_name" n a /\ name_field "application_instance" i a)).
Proof.
  intros d. split.
  - intros M. apply sget_missing in M. cbn [extract_resource_info]. now rewrite M.
  - intros a n i F. apply sget_finds in F. cbn [extract_resource_info]. rewrite F, !name_field_get. split.
    + destruct (name_of "application_name" a), (name_of "application_instance" a); try discriminate. intros H. injection H as <- <-. auto.
    + intros (-> & ->). reflexivity.
Qed.
Print Assumptions C66_any_line. Print Assumptions C66_any_line_severity. Print Assumptions C66_any_line_resource.
Example C66_any_line_bool_example : exists out,
  convert_one_record (JObj [("timestamp", JStr "x"); ("severity_number", JBool true); ("severity_text", JStr "INFO");
    ("body", JStr "x"); ("span_id", JNull)]%string) = Some (JObj out) /\ finds "severityNumber"%string (JNum 1) out.
Proof. eexists. split; [vm_compute; reflexivity|]. apply sget_finds. reflexivity. Qed.
(** Full claim: records that differ are written differently. *)
Definition C66_lossless (same : record -> record -> Prop) : Prop := forall a span r1 r2,
  0 <= created r1 < end_of_time -> 0 <= created r2 < end_of_time -> print (format a span r1) = print (format a span r2) -> same r1 r2.
(** False: the formatter leaves the traceback out. *)
Definition ev_plain : record := mkRecord 0 40 "failed" "a.py" 1 "a" "f" None.
Definition ev_traced : record := mkRecord 0 40 "failed" "a.py" 1 "a" "f" (Some "ZeroDivisionError"%string).
Theorem C66_lossless_refuted : ~ C66_lossless (fun r1 r2 => levelno r1 = levelno r2 -> r1 = r2).
Proof.
  intros H. specialize (H ev_app None ev_plain ev_traced). assert (Q : ev_plain = ev_traced); [|discriminate].
  apply H; try reflexivity; cbn; unfold end_of_time; lia.
Qed.
Print Assumptions C66_lossless_refuted.
(** Nothing else is lost, but which of the levels without a severity it was. *)
Theorem C66_lossless_partial : C66_lossless (fun r1 r2 =>
  created r1 = created r2 /\ message r1 = message r2 /\ filename r1 = filename r2 /\ lineno r1 = lineno r2 /\ module_ r1 = module_ r2 /\ funcname r1 = funcname r2 /\
  (In (levelno r1) [10; 20; 30; 40; 50] -> levelno r1 = levelno r2)).
Proof.
  intros a span r1 r2 T1 T2 E. pose proof (parse_line (mkEntry a span r1)) as P1. pose proof (parse_line (mkEntry a span r2)) as P2.
  unfold line in *. cbn [e_app e_span e_record] in *. rewrite E, P2 in P1. unfold format in P1. injection P1 as Q1 Q2 Q3 Q4 Q5 Q6 Q7 Q8.
  repeat split; auto.
  - apply isoformat_inj; auto.
  - intros I. eapply severity_inj; [apply severity_ok|apply severity_ok|symmetry; exact Q2|exact I].
Qed.
Print Assumptions C66_lossless_partial.
(** A batch of lines becomes one message with one record for each line, in order, reported under the application that wrote
    the first line. *)
Theorem C66_batch : forall e es, Forall sane (e :: es) ->
  exists records, build (map line_of (e :: es)) = Some (message_of (app_name (e_app e)) (app_instance (e_app e)) records) /\
    Forall2 reports (e :: es) records.
Proof.
  intros e es S. exists (map conv (e :: es)). split; [apply build_ok|]. revert S. generalize (e :: es). clear e es.
  induction l as [|e l IH]; intros S; cbn [map]; constructor; inversion S as [|? ? [B V] S']; subst; auto.
  exists (converted (e_app e) (e_span e) (e_record e)), (dec (parse_iso8601 (isoformat (created (e_record e))))).
  split; [reflexivity|]. split; [apply sget_finds, converted_time|]. split; [|now apply content_ok].
  assert (B' := B). change (2 ^ 64) with 18446744073709551616 in B.
  rewrite parse_isoformat by (unfold end_of_time; lia). rewrite Z.mod_small by exact B'. apply numeral_dec. lia.
Qed.
Print Assumptions C66_batch.
(** Full claim: every record is reported under the application that wrote it. *)
Definition C66_resource (P : list entry -> Prop) : Prop := forall es p, P es -> build (map line_of es) = Some p ->
  forall e, In e es -> exists records j, p = message_of (app_name (e_app e)) (app_instance (e_app e)) records /\ In j records /\ reports e j.
(** False of a file that two applications write. *)
Theorem C66_resource_refuted : ~ C66_resource (fun es => Forall sane es).
Proof.
  intros H. set (e1 := mkEntry ev_app None ev_plain). set (e2 := mkEntry (mkApp "other" "0") None ev_plain).
  assert (S : Forall sane [e1; e2]).
  { constructor; [|constructor; [|constructor]]; (split; [cbn; lia|intros k E; discriminate E]). }
  destruct (C66_batch e1 [e2] S) as (rs & B & _). destruct (H [e1; e2] _ S B e2) as (records & j & E & _); [right; now left|].
  discriminate E.
Qed.
Print Assumptions C66_resource_refuted.
(** True of a file that one application writes. *)
Theorem C66_resource_partial : C66_resource (fun es => Forall sane es /\ forall e e', In e es -> In e' es -> e_app e = e_app e').
Proof.
  intros es p [S A] B e I. destruct es as [|e0 es]; [destruct I|]. destruct (C66_batch e0 es S) as (rs & B' & F). rewrite B' in B. injection B as <-.
  rewrite (A e e0 I (or_introl eq_refl)). exists rs.
  assert (G : exists j, In j rs /\ reports e j).
  { clear -F I. induction F as [|x y l m R F IH]; [destruct I|]. destruct I as [->|I]; [exists y; split; [now left|exact R]|].
    destruct (IH I) as (j & J & R'). exists j. split; [now right|exact R']. }
  destruct G as (j & J & R). exists j. auto.
Qed.
Print Assumptions C66_resource_partial.
Definition ev_key : span_key := mkKey 0x0123456789abcdef0011223344556677 0xfedcba9876543210.
Definition ev_entry : entry := mkEntry ev_app (Some ev_key) (mkRecord 951782400000007 25 (String "010" "x") "a.py" 3 "a" "f" None).
Example C66_example : Forall sane [ev_entry; mkEntry ev_app None ev_plain] /\
  (forall e e', In e [ev_entry; mkEntry ev_app None ev_plain] -> In e' [ev_entry; mkEntry ev_app None ev_plain] -> e_app e = e_app e') /\
  line_of ev_entry = "{""timestamp"":""2000-02-29T00:00:00.000007+00:00"",""severity_number"":0,""severity_text"":""UNSPECIFIED"",""body"":""\nx"",""attributes"":{""application_name"":""shop"",""application_instance"":""0"",""filename"":""a.py"",""lineno"":3,""module"":""a"",""funcName"":""f""},""trace_id"":""0123456789abcdef0011223344556677"",""span_id"":""fedcba9876543210""}"%string.
Proof.
  split; [|split; [|vm_compute; reflexivity]].
  - constructor; [|constructor; [|constructor]]; (split; [cbn; lia|]); intros k E; [injection E as <-; unfold valid_key; cbn; lia|discriminate E].
  - cbn. intros e e' [<-|[<-|[]]] [<-|[<-|[]]]; reflexivity.
Qed.

(** ** C67: from the logger to the collector *)
(** Whatever was logged arrives: if the lines in the log files are those of the entries [ents], and the shipper was disturbed
    by nothing worse than what C43 allows, then, left alone, it has delivered one record for each of them, in order. *)
Theorem C67_delivered : forall es ents, let good l := converts (string_of_list_ascii l) in
  always calm good fresh es -> Forall clean es -> up (run good fresh es) ->
  written (run good fresh es) = map (fun e => list_ascii_of_string (line_of e)) ents -> Forall sane ents ->
  forall k, (6 <= k)%nat ->
  exists batches, concat batches = ents /\
    Forall2 (fun b ents => map string_of_list_ascii b = map line_of ents /\
       (ents <> [] -> exists name inst records, build (map string_of_list_ascii b) = Some (message_of name inst records) /\ Forall2 reports ents records))
      (arrived (run good (run good fresh es) (quiet k))) batches.
Proof.
  intros es ents good A C U W S k K. destruct (C43_exactly_once_partial good es A C) as [_ D]. specialize (D U).
  assert (G : Forall (fun l => good l = true) (written (run good fresh es))).
  { rewrite W. apply Forall_map, Forall_forall. intros e _. unfold good. rewrite string_of_list_ascii_of_string. apply converts_line. }
  specialize (D G k K). rewrite W in D. clear -D S. revert D. generalize (arrived (run good (run good fresh es) (quiet k))) as bs.
  intros bs. revert ents S. induction bs as [|b bs IH]; intros ents S D; cbn [concat] in D.
  - exists []. destruct ents; [|discriminate D]. split; [reflexivity|constructor].
  - symmetry in D. apply map_eq_app in D. destruct D as (e1 & e2 & -> & D1 & D2). apply Forall_app in S as [S1 S2].
    destruct (IH e2 S2 (eq_sym D2)) as (bb & C & F). exists (e1 :: bb). split; [cbn [concat]; now rewrite C|]. constructor; [|exact F].
    assert (M : map string_of_list_ascii b = map line_of e1).
    { rewrite <- D1, map_map. apply map_ext. intros e. apply string_of_list_ascii_of_string. }
    split; [exact M|]. intros N. rewrite M. destruct e1 as [|e e1]; [congruence|]. destruct (C66_batch e e1 S1) as (rs & B & R).
    exists (app_name (e_app e)), (app_instance (e_app e)), rs. auto.
Qed.
Print Assumptions C67_delivered.
(** The lines that convert are those whose batch of one builds, and batches of such lines build. *)
Theorem C67_batches_build :
  (forall l, converts l = true <-> build [l] <> None) /\
  (forall l ls, Forall (fun l => converts l = true) (l :: ls) -> build (l :: ls) <> None) /\
  (forall l ls, build (l :: ls) <> None -> converts l = true).
Proof. exact (conj converts_alone (conj converts_batch batch_converts)). Qed.
Print Assumptions C67_batches_build.
(** A line that the formatter wrote never stops the shipper. *)
Theorem C67_lines_convert : forall e, converts (line_of e) = true.
Proof. exact converts_line. Qed.
Print Assumptions C67_lines_convert.
Definition ev_bytes (e : entry) : list byte := list_ascii_of_string (line_of e) ++ [newline].
Definition ev_events : list event := [Create 1; Boot; Step; Append (ev_bytes ev_entry); Step; Reply true true; Step; Rename; Create 2; Append (ev_bytes (mkEntry ev_app None ev_plain))].
Example C67_example : let good l := converts (string_of_list_ascii l) in
  always calm good fresh ev_events /\ Forall clean ev_events /\ up (run good fresh ev_events) /\
  written (run good fresh ev_events) = map (fun e => list_ascii_of_string (line_of e)) [ev_entry; mkEntry ev_app None ev_plain] /\
  List.length (arrived (run good (run good fresh ev_events) (quiet 6))) = 2%nat.
Proof.
  cbv zeta. split; [|split; [repeat constructor|split; [vm_compute; discriminate|split; vm_compute; reflexivity]]].
  clear. vm_compute. repeat split; try (right; exists 0%nat; split; reflexivity).
Qed.
