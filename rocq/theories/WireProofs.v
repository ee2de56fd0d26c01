From Coq Require Import String Ascii ZArith NArith Bool Lia List Arith.
From Verif Require Import Base SpanKeyModel SpanKeySpec SpanKeyProofs RouterModel RouterSpec RouterProofs RouterProofs2 JsonModel JsonSpec JsonProofs StreamModel StreamSpec StreamProofs WireModel.
Import ListNotations.
Local Open Scope Z_scope.
Set Default Goal Selector "!".

(** ** Blanks around a value *)
Lemma blank_cons c s : blank (String c s) -> is_ws c = true /\ blank s.
Proof.
  unfold blank, bytes. cbn [list_ascii_of_string map]. intros H. inversion H as [|? ? H1 H2]; subst. split; [|exact H2].
  cbn [In] in H1. destruct H1 as [E|[E|[E|[E|[]]]]]; apply (f_equal ascii_of_N) in E; rewrite ascii_N_embedding in E; subst c; reflexivity.
Qed.
Lemma skip_blank w s : blank w -> skip_ws (w ++ s) = skip_ws s.
Proof. induction w as [|c w IH]; intros H; [reflexivity|]. apply blank_cons in H as [E H]. cbn [append skip_ws]. rewrite E. auto. Qed.
Lemma skip_blank_all w : blank w -> skip_ws w = EmptyString.
Proof. intros H. rewrite <- (sapp_nil w), skip_blank by exact H. reflexivity. Qed.
Lemma parse_value_skip fuel w s : blank w -> parse_value fuel (w ++ s) = parse_value fuel s.
Proof. intros H. destruct fuel; [reflexivity|]. cbn [parse_value]. now rewrite skip_blank. Qed.
Lemma stops_blank w : blank w -> stops w.
Proof.
  destruct w as [|c w]; intros H; [exact I|]. apply blank_cons in H as [H _]. cbn [stops].
  destruct c as [[] [] [] [] [] [] [] []]; try discriminate H; split; reflexivity.
Qed.
Theorem round_trip j w1 w2 : proper j -> blank w1 -> blank w2 -> parse (w1 ++ print j ++ w2) = Some j.
Proof.
  intros P B1 B2. unfold parse. rewrite parse_value_skip by exact B1.
  rewrite (parse_print j P); [|now apply stops_blank|rewrite !slen; lia]. now rewrite skip_blank_all.
Qed.

(** ** No control characters *)
Definition visible (s : string) : Prop := Forall (fun b => (32 <= b < 256)%N) (bytes s).
Lemma bytes_app a b : bytes (a ++ b) = (bytes a ++ bytes b)%list.
Proof. unfold bytes. induction a as [|c a IH]; cbn; [reflexivity|]. now rewrite <- IH. Qed.
Lemma visible_app a b : visible a -> visible b -> visible (a ++ b).
Proof. unfold visible. rewrite bytes_app. intros. now apply Forall_app. Qed.
Lemma visible_cons c s : (32 <= N_of_ascii c < 256)%N -> visible s -> visible (String c s).
Proof. intros. now constructor. Qed.
Lemma visible_nil : visible EmptyString.
Proof. constructor. Qed.
Ltac vis := repeat first [apply visible_nil|apply visible_app|apply visible_cons; [split; [discriminate|reflexivity]|]].
Lemma visible_escape c : visible (escape c).
Proof. destruct c as [[] [] [] [] [] [] [] []]; vis. Qed.
Lemma visible_escaped s : visible (escaped s).
Proof. induction s as [|c s IH]; [apply visible_nil|]. cbn [escaped]. apply visible_app; [apply visible_escape|exact IH]. Qed.
Lemma visible_string s : visible (print_string s).
Proof. unfold print_string. vis. apply visible_escaped. Qed.
Lemma visible_digit d : 0 <= d <= 9 -> visible (chr (digit d)).
Proof. intros H. apply digit_cases in H. repeat (destruct H as [->|H]; [unfold chr; vis|]). subst. unfold chr. vis. Qed.
Lemma visible_dec fuel : forall n, 0 <= n -> visible (dec_fuel fuel n).
Proof.
  induction fuel as [|k IH]; intros n H; cbn [dec_fuel]; [apply visible_nil|]. destruct (Z.ltb_spec n 10).
  - apply visible_digit. lia.
  - apply visible_app; [apply IH, Z.div_pos; lia|apply visible_digit; pose proof (Z.mod_pos_bound n 10); lia].
Qed.
Theorem visible_print j : visible (print j).
Proof.
  induction j as [|[]|z|s|l IH|d IH] using json_ind'; cbn [print]; vis.
  - unfold dec_int. destruct (Z.ltb_spec z 0); [vis|]; apply visible_dec; lia.
  - apply visible_escaped.
  - fold (elems true l). generalize true. induction IH as [|x l Hx Hl IHl]; intros []; cbn [elems]; vis; auto.
  - fold (membs true d). generalize true. induction IH as [|[k x] d Hx Hl IHl]; intros []; cbn [membs snd] in *; vis; auto using visible_escaped.
Qed.
Lemma visible_no_lf s : visible s -> ~ In 10%N (bytes s).
Proof. unfold visible. rewrite Forall_forall. intros H I. apply H in I. lia. Qed.

(** ** What is read is proper *)
Lemma parse_proper_all fuel :
  (forall s j r, parse_value fuel s = Some (j, r) -> proper j) /\
  (forall s l r, parse_elements fuel s = Some (l, r) -> Forall proper l) /\
  (forall s d r, parse_members fuel s = Some (d, r) -> Forall (fun x => proper (snd x)) d).
Proof.
  induction fuel as [|k [IV [IE IM]]]; [repeat split; discriminate|].
  assert (U : forall d e, NoDup (map fst e) -> Forall (fun x => proper (snd x)) e -> Forall (fun x => proper (snd x)) d ->
              let u := fold_left (fun d x => sset (fst x) (snd x) d) d e in NoDup (map fst u) /\ Forall (fun x : string * json => proper (snd x)) u).
  { clear. induction d as [|[q x] d IH]; intros e N F G; cbn [fold_left]; [auto|]. inversion G; subst. cbn [fst snd].
    apply IH; auto.
    - now apply sset_nodup.
    - revert F. clear -H1. cbn [snd] in H1. induction e as [|[a y] e IH]; intros F; cbn [sset]; [repeat constructor; exact H1|].
      inversion F; subst. destruct (String.eqb _ _); constructor; auto. }
  split; [|split].
  - intros s j r. cbn [parse_value]. destruct (skip_ws s) as [|c t]; [discriminate|].
    repeat match goal with
    | |- (if ?b then _ else _) = _ -> _ => destruct b
    | |- match ?o with Some _ => _ | None => _ end = _ -> _ => destruct o eqn:?
    | |- match ?o with pair _ _ => _ end = _ -> _ => destruct o
    | |- match ?o with EmptyString => _ | String _ _ => _ end = _ -> _ => destruct o
    end; intros E; try discriminate E; inversion E; subst; try solve [constructor].
    + constructor. constructor.
    + constructor. eapply IE; eassumption.
    + constructor; constructor.
    + destruct (U l [] (NoDup_nil _) (Forall_nil _)) as [A B]; [eapply IM; eassumption|]. now constructor.
  - intros s l r. cbn [parse_elements]. destruct (parse_value k s) as [[x u]|] eqn:E1; [|discriminate].
    destruct (skip_ws u) as [|c v]; [discriminate|]. destruct (Ascii.eqb _ _).
    + intros E. injection E as <- <-. constructor; [eapply IV; eassumption|constructor].
    + destruct (Ascii.eqb _ _); [|discriminate]. destruct (parse_elements k v) as [[m w]|] eqn:E2; [|discriminate].
      intros E. injection E as <- <-. constructor; [eapply IV; eassumption|eapply IE; eassumption].
  - intros s l r. cbn [parse_members]. destruct (parse_key s) as [[q t]|]; [|discriminate]. destruct (parse_value k t) as [[x u]|] eqn:E1; [|discriminate].
    destruct (skip_ws u) as [|c v]; [discriminate|]. destruct (Ascii.eqb _ _).
    + intros E. injection E as <- <-. constructor; [eapply IV; eassumption|constructor].
    + destruct (Ascii.eqb _ _); [|discriminate]. destruct (parse_members k v) as [[m w]|] eqn:E2; [|discriminate].
      intros E. injection E as <- <-. constructor; [eapply IV; eassumption|eapply IM; eassumption].
Qed.
Theorem parse_proper s j : parse s = Some j -> proper j.
Proof.
  unfold parse. destruct (parse_value _ s) as [[x r]|] eqn:E; [|discriminate]. destruct (skip_ws r); [|discriminate].
  intros H. injection H as <-. eapply parse_proper_all; eassumption.
Qed.

(** ** Span keys *)
Lemma to_of t : to_text (of_text t) = t.
Proof. apply list_ascii_of_string_of_list_ascii. Qed.
Lemma key_round_trip k : valid_key k -> key_of_json (key_json k) = Some k.
Proof.
  intros [A B]. unfold key_of_json, key_json. cbn [sget String.eqb Ascii.eqb Bool.eqb].
  cbn [trace_of_json spanid_of_json]. rewrite !to_of, uuid_roundtrip by exact A. rewrite span_hex_roundtrip by exact B. now destruct k.
Qed.
Lemma key_proper k : proper (key_json k).
Proof. constructor; [repeat constructor; cbn; intuition discriminate|repeat constructor]. Qed.

(** ** Messages *)
Lemma obj_ends d : exists s, print (JObj d) = (String "{" s ++ chr "}")%string.
Proof.
  rewrite print_obj. enough (G : forall b, exists s, membs b d = (s ++ chr "}")%string) by (destruct (G true) as [s ->]; now exists s).
  induction d as [|[k x] d IH]; intros b; cbn [membs]; [now exists EmptyString|]. destruct (IH false) as [s ->].
  exists ((if b then "" else ",") ++ print_string k ++ String ":" (print x) ++ s)%string.
  rewrite !sapp_assoc. cbn [append]. now rewrite ?sapp_assoc.
Qed.
Lemma rstrip_end s : rstrip ((s ++ chr "}") ++ lf) = (s ++ chr "}")%string.
Proof.
  induction s as [|c s IH]; [reflexivity|]. cbn [append rstrip]. rewrite IH. destruct s; reflexivity.
Qed.
Lemma strip_obj d : rstrip (lstrip (print (JObj d) ++ lf)) = print (JObj d).
Proof.
  destruct (obj_ends d) as [s ->]. change (lstrip ((String "{" s ++ chr "}") ++ lf)) with ((String "{" s ++ chr "}") ++ lf)%string.
  apply rstrip_end.
Qed.
Definition request_dict (route : string) (k : span_key) (data : json) := [("route_key", JStr route); ("span_key", key_json k); ("data", data)]%string.
Definition response_dict (span : option span_key) (status : Z) (data : json) := [("span_key", opt_key span); ("status", JNum status); ("data", data)]%string.
Lemma blank_nil : blank EmptyString.
Proof. constructor. Qed.
Lemma blank_lf : blank lf.
Proof. unfold blank, lf, chr, bytes. cbn. constructor; [auto|constructor]. Qed.
Lemma request_proper route k data : proper data -> proper (JObj (request_dict route k data)).
Proof.
  intros H. constructor; [repeat constructor; cbn; intuition discriminate|]. constructor; [constructor|].
  constructor; [apply key_proper|]. constructor; [exact H|constructor].
Qed.
Lemma response_proper span s data : proper data -> proper (JObj (response_dict span s data)).
Proof.
  intros H. constructor; [repeat constructor; cbn; intuition discriminate|]. constructor; [|repeat constructor; exact H].
  cbn [snd]. destruct span; [apply key_proper|constructor].
Qed.
Lemma loads_request route k data : proper data -> server_loads (request_text route k data) = Ret (JObj (request_dict route k data)).
Proof.
  intros H. unfold server_loads, request_text. fold (request_dict route k data). rewrite strip_obj.
  pose proof (round_trip _ EmptyString EmptyString (request_proper route k data H) blank_nil blank_nil) as Q. rewrite sapp_nil in Q. cbn [append] in Q.
  now rewrite Q.
Qed.
Lemma read_request route k data : valid_key k -> proper data -> server_read (request_text route k data) = Some (mkReq route k data).
Proof.
  intros V H. unfold server_read. rewrite loads_request by exact H. unfold request_of.
  change (sget "route_key" (request_dict route k data)) with (Some (JStr route)).
  change (sget "span_key" (request_dict route k data)) with (Some (key_json k)).
  change (sget "data" (request_dict route k data)) with (Some data). cbn iota beta. now rewrite key_round_trip.
Qed.
Lemma loads_response span s data : proper data -> parse (response_text span s data) = Some (JObj (response_dict span s data)).
Proof. intros H. apply (round_trip _ EmptyString lf (response_proper span s data H) blank_nil blank_lf). Qed.
Lemma text_line j : is_line (bytes (print j ++ lf)).
Proof. exists (bytes (print j)). split; [now rewrite bytes_app|apply visible_no_lf, visible_print]. Qed.
Lemma bytes_inj a b : bytes a = bytes b -> a = b.
Proof.
  revert b. induction a as [|c a IH]; intros [|d b] H; try discriminate H; [reflexivity|]. unfold bytes in H. cbn in H.
  injection H as H1 H2. f_equal; [|now apply IH]. rewrite <- (ascii_N_embedding c), <- (ascii_N_embedding d). now f_equal.
Qed.
Lemma of_bytes_bytes s : of_bytes (bytes s) = s.
Proof.
  unfold of_bytes, bytes. rewrite map_map. erewrite map_ext; [|apply ascii_N_embedding]. rewrite map_id. apply string_of_list_ascii_of_string.
Qed.

(** ** A connection *)
Section Conn.
Context (reply : list (option (request span_key)) -> option (request span_key) -> list N) (limit : nat).
Definition sent (r : request span_key) : list N := bytes (request_text (rroute r) (rspan r) (rdata r)).
Definition wire_answer (before : list string) (t : string) : option (list N) := Some (reply (map server_read before) (server_read t)).
Lemma sent_head r : hd 0%N (sent r) = 123%N.
Proof. reflexivity. Qed.
Lemma wire_run : forall rs before,
  Forall (fun r => valid_key (rspan r) /\ proper (rdata r) /\ (List.length (sent r) <= S limit)%nat) (before ++ rs) ->
  replies (fun b => Some (of_bytes b)) wire_answer limit (map (fun r => of_bytes (sent r)) before) (map sent rs) = in_turn reply before rs.
Proof.
  induction rs as [|r rs IH]; intros before H; [reflexivity|]. cbn [map replies in_turn].
  assert (R : forall x, In x (before ++ r :: rs) -> server_read (of_bytes (sent x)) = Some x).
  { intros x Hx. rewrite Forall_forall in H. destruct (H x Hx) as (A & B & _). unfold sent. rewrite of_bytes_bytes, read_request by auto. now destruct x. }
  assert (L : Nat.ltb (S limit) (List.length (sent r)) = false).
  { apply Nat.ltb_ge. rewrite Forall_forall in H. apply (H r). apply in_or_app. right. now left. }
  rewrite L, sent_head. cbn [N.eqb Pos.eqb]. unfold wire_answer at 1. cbn iota. f_equal.
  - rewrite map_map. rewrite R by (apply in_or_app; right; now left). do 2 f_equal.
    apply map_ext_in. intros x Hx. apply R. apply in_or_app. now left.
  - rewrite <- IH by (now rewrite <- app_assoc). now rewrite map_app.
Qed.
End Conn.
