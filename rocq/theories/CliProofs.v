(** Proofs about the command line tools. *)
From Coq Require Import List ZArith NArith Bool String Ascii Lia Permutation.
From Verif Require Import Base SpanKeyModel SpanKeySpec SpanKeyProofs RouterModel RouterSpec RouterProofs RouterProofs2 JsonSpec WireModel WireProofs ConfigModel ConfigSpec ConfigProofs2
  ManageModel CliModel CliSpec.
Import ListNotations.
Local Open Scope string_scope.

(** ** argparse *)
Definition reads (opts : list opt) (toks : list string) (dv : string * value) : Prop :=
  exists n o, find_option opts n = Some o /\ dest o = fst dv /\
    ((kind o = Flag /\ toks = [n] /\ snd dv = VTrue) \/ (exists s, kind o <> Flag /\ toks = [n; s] /\ dashed s = false /\ convert (kind o) s = Some (snd dv))).
Definition lone (opts : list opt) (d : string) : Prop := exists p, In p opts /\ alone p = true /\ dest p = d.
Definition compatible (opts : list opt) (ds : list string) : Prop := forall d e, In d ds -> In e ds -> lone opts d -> lone opts e -> d = e.

Lemma find_option_in opts n o : find_option opts n = Some o -> In o opts /\ (n = short o \/ n = long o).
Proof.
  intros H. apply find_some in H as [I H]. split; [exact I|]. apply orb_prop in H as [H|H]; apply String.eqb_eq in H; auto.
Qed.
Lemma shas_in {V} k (d : list (string * V)) : shas k d = true <-> In k (map fst d).
Proof. unfold shas. destruct (sget k d) as [v|] eqn:E.
  - apply sget_finds in E as (a & b & -> & _). split; [intros _|reflexivity]. rewrite map_app. apply in_or_app. right. now left.
  - apply sget_missing in E. split; [discriminate|]. intros H. now elim E.
Qed.
Lemma not_excluded opts given o : compatible opts (dest o :: map fst given) -> In o opts -> excluded opts given o = false.
Proof.
  intros C I. unfold excluded. destruct (alone o) eqn:A; [|reflexivity]. cbn [andb]. apply not_true_is_false. intros H. apply existsb_exists in H as (p & P & H).
  apply andb_prop in H as [H S]. apply andb_prop in H as [B N]. apply shas_in in S.
  assert (E : dest p = dest o) by (apply C; [now right|now left|now exists p|now exists o]). rewrite E, String.eqb_refl in N. discriminate.
Qed.
Lemma sset_in {V} k (v : V) d e : In e (map fst (sset k v d)) <-> e = k \/ In e (map fst d).
Proof.
  rewrite sset_keys. destruct (shas k d) eqn:S.
  - apply shas_in in S. split; [auto|]. now intros [->|H].
  - rewrite in_app_iff. cbn [In]. split; [intros [H|[H|[]]]; auto|intros [H|H]; auto].
Qed.
Lemma take_groups opts gs dvs : Forall2 (reads opts) gs dvs -> forall given, compatible opts (map fst dvs ++ map fst given)%list ->
  take opts given (List.concat gs) = Some (supdate given dvs).
Proof.
  unfold supdate. induction 1 as [|toks [d v] gs dvs R _ IH]; intros given C; [reflexivity|]. destruct R as (n & o & F & E & R). cbn [fst snd] in *. subst d.
  assert (X : excluded opts given o = false).
  { apply not_excluded; [|now apply find_option_in in F]. intros a b A B. apply C; cbn [map fst app In]; [destruct A as [A|A]|destruct B as [B|B]]; auto; right; apply in_or_app; auto. }
  assert (C' : compatible opts (map fst dvs ++ map fst (sset (dest o) v given))%list).
  { assert (Q : forall e, In e (map fst dvs ++ map fst (sset (dest o) v given))%list -> In e (map fst ((dest o, v) :: dvs) ++ map fst given)%list).
    { intros e. rewrite !in_app_iff, sset_in. cbn [map fst In]. intros [H|[->|H]]; auto. }
    intros a b A B. apply C; auto. }
  cbn [List.concat fold_left fst snd]. destruct R as [(K & -> & ->)|(s & K & -> & D & V)]; cbn [app take]; rewrite F, X.
  - rewrite K. now apply IH.
  - destruct (kind o) eqn:Ko; [now elim K| | |]; rewrite D, V; now apply IH.
Qed.
Lemma supdate_get {V} (dvs : list (string * V)) : NoDup (map fst dvs) -> forall given d,
  sget d (supdate given dvs) = match sget d dvs with Some v => Some v | None => sget d given end.
Proof.
  unfold supdate. induction dvs as [|[k v] dvs IH]; intros N given d; [reflexivity|]. inversion N as [|? ? N1 N2]; subst. cbn [fold_left fst snd sget]. rewrite IH, sget_sset by assumption.
  destruct (String.eqb_spec d k) as [->|_]; [|reflexivity]. apply sget_missing in N1. now rewrite N1.
Qed.
Lemma sget_perm {V} (l l' : list (string * V)) d : NoDup (map fst l) -> Permutation l l' -> sget d l' = sget d l.
Proof.
  intros N P. assert (N' : NoDup (map fst l')) by (eapply Permutation_NoDup; [apply Permutation_map, P|exact N]).
  destruct (sget d l) as [v|] eqn:E.
  - apply sget_in; [exact N'|]. apply sget_in in E; [|exact N]. now apply (Permutation_in _ P).
  - apply sget_missing. apply sget_missing in E. intros H. apply E. apply (Permutation_in (l:=map fst l')); [|exact H]. symmetry. now apply Permutation_map.
Qed.
Definition ns_of (opts : list opt) (dvs : list (string * value)) : namespace :=
  map (fun o => (dest o, match sget (dest o) dvs with Some v => v | None => default o end)) opts.
Lemma parse_groups opts gs0 gs dvs : Forall2 (reads opts) gs0 dvs -> Permutation gs0 gs -> NoDup (map fst dvs) -> compatible opts (map fst dvs) ->
  forallb (fun o => implb (needed o) (shas (dest o) dvs)) opts = true -> parse_args opts (List.concat gs) = Some (ns_of opts dvs).
Proof.
  intros F P N C R. destruct (Permutation_Forall2 P F) as (dvs' & P' & F'). unfold parse_args.
  assert (N' : NoDup (map fst dvs')) by (eapply Permutation_NoDup; [apply Permutation_map, P'|exact N]).
  rewrite (take_groups opts gs dvs' F').
  2: { cbn [map]. rewrite app_nil_r. intros d e D E. apply C; eapply Permutation_in; try eassumption; symmetry; now apply Permutation_map. }
  assert (G : forall d, sget d (supdate [] dvs') = sget d dvs) by (intros d; rewrite supdate_get by exact N'; cbn [sget]; rewrite (sget_perm dvs dvs') by assumption; now destruct (sget d dvs)).
  assert (H : forall d, shas d (supdate [] dvs') = shas d dvs) by (intros d; unfold shas; now rewrite G).
  replace (forallb _ opts) with true.
  - unfold ns_of. f_equal. apply map_ext. intros o. now rewrite G.
  - rewrite <- R. clear -H. induction opts as [|o l IH]; [reflexivity|]. cbn [forallb]. now rewrite H, IH.
Qed.

Lemma ordinary_dashed s : ordinary s -> dashed s = false.
Proof. intros H. destruct s as [|c r]; [reflexivity|]. cbn [dashed]. destruct (Ascii.eqb_spec c "-") as [->|]; [now elim (H r)|reflexivity]. Qed.

(** ** Addresses *)
Lemma host_port host port n : without ":"%char host -> host <> "" -> numeral port n -> make_tcp_udp_host_port (host ++ ":" ++ port) = Ok (host, n).
Proof.
  intros W H P. unfold make_tcp_udp_host_port. change (":" ++ port) with (String ":"%char port). rewrite split_app by exact W.
  rewrite (split_without port) by (apply (numeral_without port n); [exact P|vm_compute; lia]). cbn [fst snd].
  destruct (String.eqb_spec host ""); [contradiction|]. destruct (numeral_dig _ _ P) as (_ & Q). destruct (String.eqb_spec port ""); [contradiction|].
  now rewrite (numeral_int _ _ P).
Qed.
Lemma get_client_ok ns t d c f : attr ns "server_type" = Ok (VStr t) -> attr ns "server_details" = Ok (VStr d) -> address t d c -> host_without_colon c ->
  get_client ns f = f c.
Proof.
  intros T E A W. unfold get_client. rewrite T, E. cbn [get]. destruct A as [host port n H P|host port n H P|path]; cbn [host_without_colon] in W.
  - rewrite (host_port _ _ _ W H P). reflexivity.
  - rewrite (host_port _ _ _ W H P). reflexivity.
  - reflexivity.
Qed.
Lemma queue_main_ok ns t d c r act : attr ns "server_type" = Ok (VStr t) -> attr ns "server_details" = Ok (VStr d) -> attr ns "route_key" = Ok (VStr r) ->
  address t d c -> host_without_colon c -> r <> "" -> queue_main ns act = act c r.
Proof.
  intros T E R A W N. unfold queue_main. rewrite (get_client_ok ns t d c) by assumption. rewrite R. cbn [get]. destruct (String.eqb_spec r ""); [contradiction|reflexivity].
Qed.

(** ** Keys *)
Lemma key_of_N_valid k : (k < 2 ^ 192)%N -> valid_key (key_of_N k).
Proof.
  intros H. unfold valid_key, key_of_N. cbn [trace_id span_id]. split; [|split]. all: try split.
  all: assert (k / 2 ^ 64 < 2 ^ 128)%N by (apply N.div_lt_upper_bound; [discriminate|exact H]); assert (k mod 2 ^ 64 < 2 ^ 64)%N by (apply N.mod_lt; discriminate); lia.
Qed.
Lemma N_of_key_of_N k : N_of_key (key_of_N k) = k.
Proof. unfold N_of_key, key_of_N. cbn [trace_id span_id]. rewrite !N2Z.id. rewrite N.mul_comm. symmetry. apply N.div_mod'. Qed.
Lemma key_text_start k : exists c r, key_text k = String c r /\ hex_digit c <> None.
Proof.
  unfold key_text, key_str, key_of_N, of_text, uuid_str, format_0x. cbn [trace_id span_id]. destruct (Z.ltb_spec (Z.of_N (k / 2 ^ 64)) 0) as [L|_]; [lia|].
  change (hex_fixed 32 ?n) with (hex_char ((n / 16 ^ Z.of_nat 31) mod 16) :: hex_fixed 31 n). cbn [firstn app string_of_list_ascii]. eexists _, _. split; [reflexivity|].
  rewrite hex_char_digit by (apply Z.mod_pos_bound; lia). discriminate.
Qed.
Lemma key_text_ordinary k : dashed (key_text k) = false.
Proof. destruct (key_text_start k) as (c & r & -> & H). cbn [dashed]. destruct (Ascii.eqb_spec c "-") as [->|]; [now elim H|reflexivity]. Qed.
Lemma key_text_nonempty k : String.eqb (key_text k) "" = false.
Proof. destruct (key_text_start k) as (c & r & -> & H). reflexivity. Qed.
Lemma key_text_read k : (k < 2 ^ 192)%N -> key_of_text (to_text (key_text k)) = Ok (key_of_N k).
Proof. intros H. unfold key_text. rewrite to_of. apply text_roundtrip. now apply key_of_N_valid. Qed.

(** ** What is sent arrives *)
Lemma proper_key k : proper (key_json k).
Proof.
  constructor; [repeat constructor; cbn [In map fst]; intuition discriminate|]. repeat constructor.
Qed.
Lemma proper_queue r : proper (queue_request r).
Proof. constructor; [repeat constructor; intros []|]. repeat constructor. Qed.
Lemma proper_item r k : proper (item_request r k).
Proof. constructor; [repeat constructor; cbn [In map fst]; intuition discriminate|]. constructor; [constructor|]. constructor; [apply proper_key|constructor]. Qed.
Lemma arrives route k data : valid_key k -> proper data ->
  endpoint_request (request_text route k data) = match sget route endpoint_requests with Some f => f data | None => None end.
Proof. intros V P. unfold endpoint_request. now rewrite read_request. Qed.
Lemma plain_queue {A} (op : A) r : plain op (queue_request r) = Some (r, op).
Proof. reflexivity. Qed.
Lemma about_item {A} (f : N -> A) r k : (k < 2 ^ 192)%N -> about_key f (item_request r (key_of_N k)) = Some (r, f k).
Proof.
  intros H. unfold about_key, read_key, item_request, read_route. cbn [sget String.eqb Ascii.eqb Bool.eqb]. rewrite key_round_trip by now apply key_of_N_valid.
  cbn [option_map]. now rewrite N_of_key_of_N.
Qed.

(** ** bem *)
Definition base_dvs (t d r : string) : list (string * value) := [("server_type", VStr t); ("server_details", VStr d); ("route_key", VStr r)].
Ltac by_name H := destruct H as [-> | ->]; reflexivity.
Lemma base_reads opts st sd rk t d r : (forall n, named "-st" "--server_type" n -> find_option opts n = find_option bem_options n) ->
  (forall n, named "-sd" "--server_details" n -> find_option opts n = find_option bem_options n) ->
  (forall n, named "-rk" "--route_key" n -> find_option opts n = find_option bem_options n) ->
  named "-st" "--server_type" st -> named "-sd" "--server_details" sd -> named "-rk" "--route_key" rk ->
  (t = "tcp" \/ t = "udp" \/ t = "uds") -> ordinary d -> ordinary r -> Forall2 (reads opts) [[st; t]; [sd; d]; [rk; r]] (base_dvs t d r).
Proof.
  intros H1 H2 H3 N1 N2 N3 T D R. unfold base_dvs. constructor; [|constructor; [|constructor; [|constructor]]].
  - exists st, (mkOpt "-st" "--server_type" "server_type" (Choice ["tcp"; "udp"; "uds"]) true VNone false). split; [rewrite H1 by exact N1; by_name N1|]. split; [reflexivity|].
    right. exists t. cbn [kind]. split; [discriminate|]. split; [reflexivity|]. destruct T as [-> | [-> | ->]]; split; reflexivity.
  - exists sd, (mkOpt "-sd" "--server_details" "server_details" Text true VNone false). split; [rewrite H2 by exact N2; by_name N2|]. split; [reflexivity|].
    right. exists d. cbn [kind]. split; [discriminate|]. split; [reflexivity|]. split; [now apply ordinary_dashed|reflexivity].
  - exists rk, route_key_option. split; [rewrite H3 by exact N3; by_name N3|]. split; [reflexivity|].
    right. exists r. cbn [kind]. split; [discriminate|]. split; [reflexivity|]. split; [now apply ordinary_dashed|reflexivity].
Qed.
Lemma address_type t d c : address t d c -> t = "tcp" \/ t = "udp" \/ t = "uds".
Proof. destruct 1; auto. Qed.

Lemma sends_plain c r route op : sget route endpoint_requests = Some (plain op) -> sends_as (Sends c [(route, queue_request r)]) c r op.
Proof. intros E. exists route, (queue_request r). split; [reflexivity|]. intros k V. rewrite arrives by auto using proper_queue. now rewrite E. Qed.
Lemma sends_item c r route (f : N -> eop) k : (k < 2 ^ 192)%N -> sget route endpoint_requests = Some (about_key f) -> sends_as (Sends c [(route, item_request r (key_of_N k))]) c r (f k).
Proof. intros H E. exists route, (item_request r (key_of_N k)). split; [reflexivity|]. intros k' V. rewrite arrives by auto using proper_item. rewrite E. now apply about_item. Qed.

(** Decidable form. *)
Definition loneb (opts : list opt) (d : string) : bool := existsb (fun p => alone p && String.eqb (dest p) d) opts.
Lemma loneb_ok opts d : loneb opts d = true <-> lone opts d.
Proof.
  unfold loneb, lone. rewrite existsb_exists. split; intros (p & P & H); exists p; (split; [exact P|]).
  - apply andb_prop in H as [A B]. apply String.eqb_eq in B. auto.
  - destruct H as [-> ->]. now rewrite String.eqb_refl.
Qed.
Definition compatibleb (opts : list opt) (ds : list string) : bool :=
  forallb (fun d => forallb (fun e => implb (loneb opts d && loneb opts e) (String.eqb d e)) ds) ds.
Lemma compatibleb_ok opts ds : compatibleb opts ds = true -> compatible opts ds.
Proof.
  unfold compatibleb. intros H d e D E LD LE. rewrite forallb_forall in H. specialize (H d D). rewrite forallb_forall in H. specialize (H e E).
  apply loneb_ok in LD, LE. rewrite LD, LE in H. now apply String.eqb_eq in H.
Qed.
Fixpoint nodupb (l : list string) : bool := match l with [] => true | x :: r => negb (existsb (String.eqb x) r) && nodupb r end.
Lemma nodup_strings (l : list string) : nodupb l = true -> NoDup l.
Proof.
  induction l as [|x r IH]; [constructor|]. cbn [nodupb]. intros H. apply andb_prop in H as [A B]. constructor; [|auto]. intros I. apply negb_true_iff in A.
  assert (X : existsb (String.eqb x) r = true) by (apply existsb_exists; exists x; now rewrite String.eqb_refl). congruence.
Qed.

Theorem bem_ok st sd rk t d r c acts op gs :
  named "-st" "--server_type" st -> named "-sd" "--server_details" sd -> named "-rk" "--route_key" rk ->
  address t d c -> host_without_colon c -> ordinary d -> ordinary r -> r <> "" -> asks bem_asks bem_asks_item Data acts op ->
  Permutation ([[st; t]; [sd; d]; [rk; r]] ++ acts)%list gs -> sends_as (bem (List.concat gs)) c r op.
Proof.
  intros N1 N2 N3 A W D R Hr K P. pose proof (base_reads bem_options st sd rk t d r (fun _ _ => eq_refl) (fun _ _ => eq_refl) (fun _ _ => eq_refl) N1 N2 N3 (address_type _ _ _ A) D R) as B.
  assert (Q : forall dvs, Forall2 (reads bem_options) acts dvs -> NoDup (map fst (base_dvs t d r ++ dvs)%list) -> compatible bem_options (map fst (base_dvs t d r ++ dvs)%list) ->
    bem (List.concat gs) = do_endpoint_action (ns_of bem_options (base_dvs t d r ++ dvs)) c r).
  { intros dvs F N C. unfold bem, tool. rewrite (parse_groups bem_options _ gs (base_dvs t d r ++ dvs)%list (Forall2_app B F) P N C ltac:(reflexivity)).
    apply (queue_main_ok _ t d); auto; reflexivity. }
  assert (Qp : forall n s l dst, acts = [[n]] -> find_option bem_options n = Some (flag s l dst) -> nodupb (map fst (base_dvs t d r ++ [(dst, VTrue)])%list) = true ->
    compatibleb bem_options (map fst (base_dvs t d r ++ [(dst, VTrue)])%list) = true -> bem (List.concat gs) = do_endpoint_action (ns_of bem_options (base_dvs t d r ++ [(dst, VTrue)])) c r).
  { intros n s l dst E F N C. apply Q; [|now apply nodup_strings|now apply compatibleb_ok]. rewrite E. constructor; [|constructor]. exists n, (flag s l dst). repeat split; auto. }
  assert (Qi : forall n s l dst sk k, acts = [[n]; [sk; key_text k]] -> find_option bem_options n = Some (flag s l dst) -> named "-sk" "--span_key" sk ->
    nodupb (map fst (base_dvs t d r ++ [(dst, VTrue); ("span_key", VNone)])%list) = true ->
    compatibleb bem_options (map fst (base_dvs t d r ++ [(dst, VTrue); ("span_key", VNone)])%list) = true ->
    bem (List.concat gs) = do_endpoint_action (ns_of bem_options (base_dvs t d r ++ [(dst, VTrue); ("span_key", VStr (key_text k))])) c r).
  { intros n s l dst sk k E F Nk N C. apply Q; [|now apply nodup_strings|now apply compatibleb_ok]. rewrite E. constructor; [|constructor; [|constructor]].
    - exists n, (flag s l dst). repeat split; auto.
    - exists sk, (mkOpt "-sk" "--span_key" "span_key" Text false VNone false). split; [by_name Nk|]. split; [reflexivity|]. right. exists (key_text k). split; [discriminate|].
      split; [reflexivity|]. split; [apply key_text_ordinary|reflexivity]. }
  destruct K as [|s l n op K Nn|s l n f k sk K Nn Nk Hk].
  - rewrite (Q []); [|constructor|apply nodup_strings; reflexivity|apply compatibleb_ok; reflexivity]. apply sends_plain. reflexivity.
  - cbn [bem_asks In] in K.
    Ltac plain_case K Qp Nn dst := destruct K as [K|K]; [injection K as <- <- <-; rewrite (Qp _ _ _ dst eq_refl ltac:(by_name Nn) eq_refl eq_refl); apply sends_plain; reflexivity|].
    plain_case K Qp Nn "pause_receiving". plain_case K Qp Nn "pause_processing". plain_case K Qp Nn "pause_all". plain_case K Qp Nn "unpause_receiving".
    plain_case K Qp Nn "unpause_processing". plain_case K Qp Nn "unpause_all". plain_case K Qp Nn "error_10". plain_case K Qp Nn "reprocess_all". plain_case K Qp Nn "clear".
    destruct K.
  - cbn [bem_asks_item In] in K.
    assert (S : forall dst route, In (dst, route) bem_items -> sget route endpoint_requests = Some (about_key f) ->
      do_endpoint_action (ns_of bem_options (base_dvs t d r ++ [(dst, VTrue); ("span_key", VStr (key_text k))])) c r =
      item_actions (ns_of bem_options (base_dvs t d r ++ [(dst, VTrue); ("span_key", VStr (key_text k))])) c r bem_items ->
      sends_as (do_endpoint_action (ns_of bem_options (base_dvs t d r ++ [(dst, VTrue); ("span_key", VStr (key_text k))])) c r) c r (f k)).
    { intros dst route I E X. rewrite X. unfold item_actions. replace (attr _ "span_key") with (Ok (VStr (key_text k))).
      2: { cbn [bem_items In] in I. destruct I as [I|[I|[I|[]]]]; injection I as <- <-; reflexivity. }
      cbn [get]. rewrite key_text_nonempty, key_text_read by exact Hk. cbn [get].
      replace (first_flag _ _ _ _) with (Sends c [(route, item_request r (key_of_N k))]); [now apply sends_item|].
      cbn [bem_items In] in I. destruct I as [I|[I|[I|[]]]]; injection I as <- <-; reflexivity. }
    Ltac item_case K Qi Nn Nk S dst := destruct K as [K|K]; [injection K as <- <- <-; rewrite (Qi _ _ _ dst _ _ eq_refl ltac:(by_name Nn) Nk eq_refl eq_refl); eapply (S dst); [cbn [bem_items In]; eauto 4|reflexivity|reflexivity]|].
    item_case K Qi Nn Nk S "reprocess_one". item_case K Qi Nn Nk S "inspect_request". item_case K Qi Nn Nk S "pop_request". destruct K.
Qed.

(** ** Nothing is sent that was not asked for *)
(** What is in the Namespace came from the arguments. *)
Definition came (opts : list opt) (args : list string) (d : string) (v : value) : Prop :=
  exists o n, In o opts /\ dest o = d /\ (n = short o \/ n = long o) /\ In n args /\ ((kind o = Flag /\ v = VTrue) \/ (kind o <> Flag /\ exists s, In s args /\ convert (kind o) s = Some v)).
Lemma came_more opts args args' d v : (forall a, In a args' -> In a args) -> came opts args' d v -> came opts args d v.
Proof. intros H (o & n & A & B & C & D & E). exists o, n. repeat split; auto. destruct E as [E|(E & s & S & T)]; [now left|]. right. split; [exact E|]. exists s. auto. Qed.
Lemma take_came opts args : forall given given', take opts given args = Some given' -> forall d v, sget d given' = Some v -> sget d given = Some v \/ came opts args d v.
Proof.
  assert (Main : forall m args, (List.length args <= m)%nat -> forall given given', take opts given args = Some given' -> forall d v, sget d given' = Some v -> sget d given = Some v \/ came opts args d v);
    [|exact (Main (List.length args) args (le_n _))]. clear args.
  induction m as [|m IH]; intros args L given given' T d v G.
  - destruct args; [|cbn [List.length] in L; lia]. injection T as <-. now left.
  - destruct args as [|a rest]; [injection T as <-; now left|]. cbn [List.length] in L. cbn [take] in T. destruct (find_option opts a) as [o|] eqn:F; [|discriminate].
    destruct (excluded opts given o); [discriminate|]. apply find_option_in in F as [I N].
    assert (K : kind o = Flag /\ take opts (sset (dest o) VTrue given) rest = Some given' \/
      kind o <> Flag /\ exists s rest' x, rest = s :: rest' /\ convert (kind o) s = Some x /\ take opts (sset (dest o) x given) rest' = Some given').
    { destruct (kind o) eqn:K; [left; auto| | |]; right; (split; [discriminate|]); (destruct rest as [|s rest']; [discriminate|]); (destruct (dashed s); [discriminate|]);
      match type of T with context [convert ?k s] => destruct (convert k s) as [x|] eqn:V; [|discriminate] end; exists s, rest', x; auto. }
    destruct K as [[K T']|(K & s & rest' & x & -> & V & T')].
    + destruct (IH rest ltac:(lia) _ _ T' d v G) as [H|H].
      * rewrite sget_sset in H. destruct (String.eqb_spec d (dest o)) as [->|_]; [|now left]. injection H as <-. right. exists o, a. repeat split; auto. now left.
      * right. eapply came_more; [|exact H]. intros y Y. now right.
    + cbn [List.length] in L. destruct (IH rest' ltac:(lia) _ _ T' d v G) as [H|H].
      * rewrite sget_sset in H. destruct (String.eqb_spec d (dest o)) as [->|_]; [|now left]. injection H as <-. right. exists o, a. repeat split; auto; [now left|].
        right. split; [exact K|]. exists s. split; [now right; left|exact V].
      * right. eapply came_more; [|exact H]. intros y Y. right. now right.
Qed.
Lemma parse_came opts args ns d v : parse_args opts args = Some ns -> sget d ns = Some v ->
  came opts args d v \/ exists o, In o opts /\ dest o = d /\ default o = v.
Proof.
  unfold parse_args. destruct (take opts [] args) as [given|] eqn:T; [|discriminate]. destruct (forallb _ opts); [|discriminate]. intros [= <-] H.
  apply sget_finds in H as (a & b & E & _). assert (I : In (d, v) (map (fun o => (dest o, match sget (dest o) given with Some v => v | None => default o end)) opts)) by (rewrite E; apply in_or_app; right; now left).
  apply in_map_iff in I as (o & X & I). injection X as <- <-. destruct (sget (dest o) given) as [w|] eqn:G.
  - destruct (take_came opts args [] given T (dest o) w G) as [C|C]; [discriminate|now left].
  - right. exists o. auto.
Qed.
Lemma parse_flag opts args ns d : parse_args opts args = Some ns -> (forall o, In o opts -> dest o = d -> default o = VFalse) -> forall v, attr ns d = Ok v -> truth v = true ->
  exists o, In o opts /\ dest o = d /\ (In (short o) args \/ In (long o) args).
Proof.
  intros P D v A T. unfold attr in A. destruct (sget d ns) as [w|] eqn:S; [|discriminate]. injection A as ->. destruct (parse_came opts args ns d v P S) as [(o & n & I & E & N & M & _)|(o & I & E & F)].
  - exists o. repeat split; auto. destruct N as [-> | ->]; auto.
  - rewrite (D o I E) in F. subst v. discriminate.
Qed.
Lemma first_flag_found ns l found none out : first_flag ns l found none = out -> (exists e, out = Crashed e) \/ (exists n route v, In (n, route) l /\ attr ns n = Ok v /\ truth v = true /\ out = found route) \/
  (forall n route, In (n, route) l -> exists v, attr ns n = Ok v /\ truth v = false) /\ out = none.
Proof.
  induction l as [|[n route] l IH]; intros H; [right; right; split; [intros ? ? []|now symmetry]|]. cbn [first_flag] in H. destruct (attr ns n) as [v|e] eqn:A; cbn [get] in H; [|left; exists e; auto].
  destruct (truth v) eqn:T.
  - right. left. exists n, route, v. repeat split; auto. now left.
  - destruct (IH H) as [X|[(n' & r' & v' & I & X)|[X Y]]]; [now left| |].
    + right. left. exists n', r', v'. split; [now right|exact X].
    + right. right. split; [|exact Y]. intros n' r' [E|E]; [injection E as <- <-; eauto|eauto].
Qed.
Lemma attrs_true ns l vs : attrs ns l = Ok vs -> any_true_check vs = true -> exists n v, In n l /\ attr ns n = Ok v /\ truth v = true.
Proof.
  revert vs. induction l as [|n l IH]; intros vs H T; cbn [attrs] in H; [injection H as <-; discriminate|]. destruct (attr ns n) as [v|] eqn:A; cbn [bind] in H; [|discriminate].
  destruct (attrs ns l) as [vs'|] eqn:B; cbn [bind] in H; [|discriminate]. injection H as <-. cbn [any_true_check existsb] in T. apply orb_prop in T as [T|T].
  - exists n, v. repeat split; auto. now left.
  - destruct (IH vs' eq_refl T) as (n' & v' & I & X). exists n', v'. split; [now right|exact X].
Qed.
Lemma get_client_sends ns f c l : get_client ns f = Sends c l -> exists c', f c' = Sends c l.
Proof.
  unfold get_client. destruct (attr ns "server_type") as [t|]; cbn [get]; [|discriminate]. destruct (attr ns "server_details") as [d|]; cbn [get]; [|discriminate].
  set (hp := make_tcp_udp_host_port _). intros H.
  assert (X : forall g : string * Z -> outcome, get hp g = Sends c l -> exists x, g x = Sends c l) by (intros g; destruct hp as [x|]; cbn [get]; [eauto|discriminate]).
  destruct t; eauto. repeat (match type of H with context [match ?s with _ => _ end] => is_var s; destruct s; eauto end).
  all: apply X in H as [x H]; eauto.
Qed.
Lemma queue_main_sends ns act c l : queue_main ns act = Sends c l -> exists c' r, attr ns "route_key" = Ok (VStr r) /\ act c' r = Sends c l.
Proof.
  unfold queue_main. intros H. apply get_client_sends in H as [c' H]. destruct (attr ns "route_key") as [v|]; cbn [get] in H; [|discriminate]. destruct v; try discriminate.
  destruct (String.eqb s ""); [discriminate|]. eauto.
Qed.

Lemma sent_plain args r route op : sget route endpoint_requests = Some (plain op) -> requested args op -> only_asked args r [(route, queue_request r)].
Proof.
  intros E R. exists route, (queue_request r). split; [reflexivity|]. intros k r' op' V. rewrite arrives by auto using proper_queue. rewrite E, plain_queue. intros [= <- <-]. auto.
Qed.
Lemma sent_item args r key route (f : N -> eop) : sget route endpoint_requests = Some (about_key f) -> (forall k, requested args (f k)) -> only_asked args r [(route, item_request r key)].
Proof.
  intros E R. exists route, (item_request r key). split; [reflexivity|]. intros k r' op' V. rewrite arrives by auto using proper_item. rewrite E. unfold about_key.
  change (read_route (item_request r key)) with (Some r). destruct (read_key _) as [k'|]; [|discriminate]. intros [= <- <-]. auto.
Qed.
Theorem bem_safe args c l : bem args = Sends c l -> exists r, In r args /\ only_asked args r l.
Proof.
  unfold bem, tool. destruct (parse_args bem_options args) as [ns|] eqn:P; [|discriminate]. intros H. apply queue_main_sends in H as (c' & r & Rr & H). exists r. split.
  { unfold attr in Rr. destruct (sget "route_key" ns) as [w|] eqn:S; [|discriminate]. injection Rr as ->. destruct (parse_came _ _ _ _ _ P S) as [(o & n & I & E & N & M & K)|(o & I & E & F)].
    - destruct K as [[_ K]|(K & s & Is & V)]; [discriminate|]. cbn in I. repeat (destruct I as [<-|I]; [try discriminate E; injection V as ->; exact Is|]). destruct I.
    - cbn in I. repeat (destruct I as [<-|I]; [try discriminate E; discriminate F|]). destruct I. }
  assert (Fl : forall d v, attr ns d = Ok v -> truth v = true -> In d (map dest (filter alone bem_options)) -> exists o, In o bem_options /\ dest o = d /\ (In (short o) args \/ In (long o) args)).
  { intros d v A T I. eapply parse_flag; eauto. intros o O E. cbn in O, I. repeat (destruct O as [<-|O]; [try reflexivity; exfalso; subst d; cbn in I; repeat (destruct I as [I|I]; [discriminate I|]); destruct I|]). destruct O. }
  unfold do_endpoint_action in H. destruct (attrs ns _) as [vs|] eqn:As; cbn [get] in H; [|discriminate]. destruct (any_true_check vs) eqn:An; cbn [negb] in H.
  2: { injection H as <- <-. apply (sent_plain args r _ Data); [reflexivity|now left]. }
  apply first_flag_found in H as [[e H]|[(n & route & v & I & A & T & H)|[Off H]]]; [discriminate| |].
  - injection H as -> ->. destruct (Fl n v A T) as (o & O & E & M).
    { cbn in I |- *. repeat (destruct I as [I|I]; [injection I as <- <-; tauto|]). destruct I. }
    assert (Mm : forall s l' op, In (s, l', op) bem_asks -> short o = s -> long o = l' -> requested args op).
    { intros s l' op B S L. right. left. exists s, l'. destruct M as [M|M]; [exists (short o)|exists (long o)]; (split; [exact B|split; [|exact M]]); [now left|now right]. }
    cbn in I. repeat (destruct I as [I|I]; [injection I as <- <-; cbn in O; repeat (destruct O as [<-|O]; [first [discriminate E|eapply sent_plain; [reflexivity|]; (eapply Mm; [|reflexivity|reflexivity]); cbn; tauto]|]); destruct O|]). destruct I.
  - symmetry in H. unfold item_actions in H. destruct (attr ns "span_key") as [sk|]; cbn [get] in H; [|discriminate]. destruct sk; try discriminate. destruct (String.eqb s ""); [discriminate|].
    destruct (key_of_text (to_text s)) as [key|]; cbn [get] in H; [|discriminate]. apply first_flag_found in H as [[e H]|[(n & route & v & I & A & T & H)|[Off' H]]]; [discriminate| |].
    + injection H as -> ->. destruct (Fl n v A T) as (o & O & E & M).
      { cbn in I |- *. repeat (destruct I as [I|I]; [injection I as <- <-; tauto|]). destruct I. }
      assert (Mm : forall s l' f, In (s, l', f) bem_asks_item -> short o = s -> long o = l' -> forall k, requested args (f k)).
      { intros s' l' f B S L k. right. right. exists s', l'. destruct M as [M|M]; [exists (short o)|exists (long o)]; exists f, k; (split; [reflexivity|split; [exact B|split; [|exact M]]]); [now left|now right]. }
      cbn in I. repeat (destruct I as [I|I]; [injection I as <- <-; cbn in O; repeat (destruct O as [<-|O]; [first [discriminate E|eapply sent_item; [reflexivity|]; (eapply Mm; [|reflexivity|reflexivity]); cbn; tauto]|]); destruct O|]). destruct I.
    + exfalso. destruct (attrs_true ns _ vs As An) as (n & v & I & A & T).
      assert (X : exists route, In (n, route) bem_plain \/ In (n, route) bem_items).
      { cbn in I |- *. repeat (destruct I as [<-|I]; [eexists; tauto|]). destruct I. }
      destruct X as [route [X|X]]; [destruct (Off n route X) as (w & B & F)|destruct (Off' n route X) as (w & B & F)]; rewrite A in B; injection B as <-; congruence.
Qed.

(** ** bsm *)
Lemma namespace_names opts args ns : parse_args opts args = Some ns -> forall d, (forall o, In o opts -> dest o <> d) -> sget d ns = None.
Proof.
  unfold parse_args. destruct (take opts [] args) as [given|]; [|discriminate]. destruct (forallb _ opts); [|discriminate]. intros [= <-] d H.
  induction opts as [|o opts IH]; [reflexivity|]. cbn [map sget]. destruct (String.eqb_spec d (dest o)) as [E|_]; [exfalso; exact (H o (or_introl eq_refl) (eq_sym E))|]. apply IH. intros o' I. apply H. now right.
Qed.
Theorem bsm_never args c l : bsm args <> Sends c l.
Proof.
  unfold bsm, tool. destruct (parse_args bsm_options args) as [ns|] eqn:P; [|discriminate]. intros H. apply queue_main_sends in H as (c' & r & _ & H).
  unfold do_sender_action in H. cbn [any_attr] in H. unfold attr at 1 in H. rewrite (namespace_names _ _ _ P) in H; [discriminate|].
  intros o I. cbn in I. repeat (destruct I as [<-|I]; [discriminate|]). destruct I.
Qed.

(** ** Actions exclude each other *)
Lemma take_keeps opts : forall m args, (List.length args <= m)%nat -> forall given given', take opts given args = Some given' ->
  (forall d, shas d given = true -> shas d given' = true) /\
  (forall n, In n args -> dashed n = true -> exists o, find_option opts n = Some o /\ shas (dest o) given' = true) /\
  ((forall o p, In o opts -> In p opts -> dest o = dest p -> alone o = alone p) ->
   (forall o p, In o opts -> In p opts -> alone o = true -> alone p = true -> shas (dest o) given = true -> shas (dest p) given = true -> dest o = dest p) ->
   forall o p, In o opts -> In p opts -> alone o = true -> alone p = true -> shas (dest o) given' = true -> shas (dest p) given' = true -> dest o = dest p).
Proof.
  induction m as [|m IH]; intros args L given given' T.
  - destruct args; [|cbn [List.length] in L; lia]. injection T as <-. split; [auto|]. split; [intros n []|auto].
  - destruct args as [|a rest]; [injection T as <-; split; [auto|]; split; [intros n []|auto]|]. cbn [List.length] in L. cbn [take] in T. destruct (find_option opts a) as [o|] eqn:F; [|discriminate].
    destruct (excluded opts given o) eqn:X; [discriminate|].
    assert (K : exists x rest', take opts (sset (dest o) x given) rest' = Some given' /\ (List.length rest' <= m)%nat /\ forall n, In n rest -> dashed n = true -> In n rest').
    { destruct (kind o) eqn:K; [exists VTrue, rest; repeat split; auto; lia| | |]; (destruct rest as [|s rest']; [discriminate|]); destruct (dashed s) eqn:Ds; try discriminate;
      match type of T with context [convert ?k s] => destruct (convert k s) as [x|] eqn:V; [|discriminate] end; exists x, rest'; cbn [List.length] in L; (split; [exact T|split; [lia|]]);
      (intros n [<-|I] D; [congruence|exact I]). }
    destruct K as (x & rest' & T' & L' & R). destruct (IH rest' L' _ _ T') as (A & B & C).
    assert (S : forall d, shas d (sset (dest o) x given) = true <-> d = dest o \/ shas d given = true) by (intros d; rewrite !shas_in; apply sset_in).
    split; [intros d H; apply A, S; now right|]. split.
    + intros n [<-|I] D; [exists o; split; [exact F|apply A, S; now left]|]. apply B; [now apply R|exact D].
    + intros U H. apply C; [exact U|]. assert (E : forall p, In p opts -> alone p = true -> alone o = true -> shas (dest p) given = true -> dest p = dest o).
      { intros p P Ap Ao Sp. destruct (String.eqb_spec (dest p) (dest o)) as [Q|Q]; [exact Q|]. exfalso. unfold excluded in X. rewrite Ao in X. cbn [andb] in X.
        assert (Y : existsb (fun p => alone p && negb (String.eqb (dest p) (dest o)) && shas (dest p) given) opts = true); [|congruence].
        apply existsb_exists. exists p. split; [exact P|]. rewrite Ap, Sp. destruct (String.eqb_spec (dest p) (dest o)); [contradiction|reflexivity]. }
      apply find_option_in in F as [F _].
      intros p q P Q Ap Aq Sp Sq. apply S in Sp, Sq. destruct Sp as [Sp|Sp]; destruct Sq as [Sq|Sq]; try congruence.
      * rewrite Sp. symmetry. apply E; auto. now rewrite <- (U p o).
      * rewrite Sq. apply E; auto. now rewrite <- (U q o).
      * now apply H.
Qed.
Lemma bem_dest o p : In o bem_options -> In p bem_options -> dest o = dest p -> o = p.
Proof.
  intros O Q. cbn in O, Q. repeat (destruct O as [<-|O]; [repeat (destruct Q as [<-|Q]; [first [reflexivity|discriminate]|]); destruct Q|]). destruct O.
Qed.
Lemma bem_excludes args s1 l1 n1 s2 l2 n2 : bem_action s1 l1 -> named s1 l1 n1 -> In n1 args -> bem_action s2 l2 -> named s2 l2 n2 -> In n2 args -> s1 <> s2 -> bem args = Exit 2.
Proof.
  intros A1 N1 I1 A2 N2 I2 D. unfold bem, tool. destruct (parse_args bem_options args) as [ns|] eqn:P; [|reflexivity]. exfalso. unfold parse_args in P.
  destruct (take bem_options [] args) as [given|] eqn:T; [|discriminate]. destruct (take_keeps bem_options _ args (le_n _) _ _ T) as (_ & B & C).
  pose proof bem_dest as U.
  assert (F : forall s l n, bem_action s l -> named s l n -> dashed n = true /\ exists o, find_option bem_options n = Some o /\ short o = s /\ alone o = true).
  { intros s l n A N. assert (X : In (s, l) (map fst bem_asks ++ map fst bem_asks_item)).
    { apply in_or_app. destruct A as [[x A]|[x A]]; [left|right]; apply in_map_iff; exists (s, l, x); auto. }
    cbn in X. repeat (destruct X as [X|X]; [injection X as <- <-; destruct N as [-> | ->]; (split; [reflexivity|eexists; split; [reflexivity|split; reflexivity]])|]). destruct X. }
  destruct (F _ _ _ A1 N1) as (D1 & o1 & F1 & S1 & L1). destruct (F _ _ _ A2 N2) as (D2 & o2 & F2 & S2 & L2).
  destruct (B n1 I1 D1) as (o1' & E1 & G1). destruct (B n2 I2 D2) as (o2' & E2 & G2). rewrite F1 in E1. rewrite F2 in E2. injection E1 as <-. injection E2 as <-.
  apply find_option_in in F1 as [F1 _], F2 as [F2 _]. apply D. rewrite <- S1, <- S2. f_equal. apply U; auto. apply C; auto.
  - intros o p O Q E. now rewrite (U o p O Q E).
  - intros o p _ _ _ _ X. discriminate.
Qed.
Lemma attrs_false ns l vs : attrs ns l = Ok vs -> any_true_check vs = false -> forall n, In n l -> exists v, attr ns n = Ok v /\ truth v = false.
Proof.
  revert vs. induction l as [|m l IH]; intros vs H T n I; [destruct I|]. cbn [attrs] in H. destruct (attr ns m) as [v|] eqn:A; cbn [bind] in H; [|discriminate].
  destruct (attrs ns l) as [vs'|] eqn:B; cbn [bind] in H; [|discriminate]. injection H as <-. cbn [any_true_check existsb] in T. apply orb_false_elim in T as [T1 T2].
  destruct I as [<-|I]; [eauto|]. exact (IH vs' eq_refl T2 n I).
Qed.
Lemma flag_given opts args ns n o : parse_args opts args = Some ns -> In n args -> dashed n = true -> find_option opts n = Some o -> (forall p, In p opts -> dest p = dest o -> p = o) -> kind o = Flag ->
  attr ns (dest o) = Ok VTrue.
Proof.
  intros P I D F U K. unfold parse_args in P. destruct (take opts [] args) as [given|] eqn:T; [|discriminate]. destruct (forallb _ opts); [|discriminate]. injection P as <-.
  destruct (take_keeps opts _ args (le_n _) _ _ T) as (_ & B & _). destruct (B n I D) as (o' & F' & S). rewrite F in F'. injection F' as <-. apply find_option_in in F as [F _].
  unfold attr. replace (sget (dest o) _) with (Some VTrue); [reflexivity|]. symmetry. revert F. unfold shas in S. destruct (sget (dest o) given) as [w|] eqn:G; [|discriminate].
  assert (W : w = VTrue).
  { destruct (take_came opts args [] given T (dest o) w G) as [C|(p & m & Ip & E & _ & _ & Q)]; [discriminate|]. rewrite (U p Ip E) in Q. destruct Q as [[_ Q]|[Q _]]; [exact Q|contradiction]. }
  subst w. clear -G. induction opts as [|p opts IH]; [intros []|]. cbn [map sget]. intros [->|I]; [now rewrite String.eqb_refl, G|]. destruct (String.eqb_spec (dest o) (dest p)) as [E|_]; [now rewrite <- E, G|]. auto.
Qed.
Lemma bem_needs_key args s l n f : In (s, l, f) bem_asks_item -> named s l n -> In n args -> (forall sk, named "-sk" "--span_key" sk -> ~ In sk args) -> forall c l', bem args <> Sends c l'.
Proof.
  intros A N I Nk c l' H. pose proof H as H0. unfold bem, tool in H. destruct (parse_args bem_options args) as [ns|] eqn:P; [|discriminate]. apply queue_main_sends in H as (c' & r & _ & H).
  assert (Sk : attr ns "span_key" = Ok VNone).
  { unfold attr. destruct (sget "span_key" ns) as [v|] eqn:S.
    - destruct (parse_came _ _ _ _ _ P S) as [(o & m & O & E & M & Im & _)|(o & O & E & Q)].
      + exfalso. apply (Nk m); [|exact Im]. cbn in O. repeat (destruct O as [<-|O]; [first [discriminate E|exact M]|]). destruct O.
      + cbn in O. repeat (destruct O as [<-|O]; [first [discriminate E|now rewrite <- Q]|]). destruct O.
    - exfalso. unfold parse_args in P. destruct (take _ _ _); [|discriminate]. destruct (forallb _ _); [|discriminate]. injection P as <-. apply sget_missing in S. apply S. cbn. tauto. }
  unfold do_endpoint_action in H. destruct (attrs ns _) as [vs|] eqn:As; cbn [get] in H; [|discriminate]. destruct (any_true_check vs) eqn:An; cbn [negb] in H.
  - apply first_flag_found in H as [[e H]|[(m & route & v & M & At & T & H)|[_ H]]]; [discriminate| |unfold item_actions in H; rewrite Sk in H; discriminate].
    destruct (parse_flag bem_options args ns m P) with (v := v) as (o & O & E & Na); auto.
    { intros o O E. cbn in O, M. repeat (destruct O as [<-|O]; [first [reflexivity|exfalso; subst m; cbn in M; repeat (destruct M as [M|M]; [discriminate M|]); destruct M]|]). destruct O. }
    assert (B : exists op, In (short o, long o, op) bem_asks).
    { cbn in O, M. repeat (destruct O as [<-|O]; [first [eexists; cbn; tauto|exfalso; subst m; cbn in M; repeat (destruct M as [M|M]; [discriminate M|]); destruct M]|]). destruct O. }
    destruct B as [op B]. assert (X : bem args = Exit 2); [|congruence].
    assert (D : short o <> s).
    { intros Es. assert (X : existsb (String.eqb s) (map (fun x => fst (fst x)) bem_asks) = true) by (apply existsb_exists; exists s; split; [apply in_map_iff; exists (short o, long o, op); auto|apply String.eqb_refl]).
      clear -X A. cbn in A. repeat (destruct A as [A|A]; [injection A as <- <- <-; discriminate X|]). destruct A. }
    destruct Na as [Na|Na]; (eapply (bem_excludes args (short o) (long o) _ s l n); [left; exists op; exact B| |exact Na|right; exists f; exact A|exact N|exact I|exact D]); [now left|now right].
  - assert (Q : exists o, find_option bem_options n = Some o /\ dashed n = true /\ kind o = Flag /\ In (dest o) ["reprocess_one"; "inspect_request"; "pop_request"]).
    { cbn in A. repeat (destruct A as [A|A]; [injection A as <- <- <-; destruct N as [-> | ->]; eexists; (split; [reflexivity|]); (split; [reflexivity|]); (split; [reflexivity|]); cbn; tauto|]). destruct A. }
    destruct Q as (o & F & D & K & M). pose proof (flag_given bem_options args ns n o P I D F) as G.
    destruct (attrs_false ns _ vs As An (dest o)) as (v & Av & Tv); [cbn in M |- *; tauto|]. rewrite G in Av; [injection Av as <-; discriminate| |exact K].
    intros p Ip E. apply bem_dest; auto. now apply find_option_in in F.
Qed.

(** ** log and stat *)
Lemma proper_one n v : proper v -> proper (JObj [(n, v)]).
Proof. intros H. constructor; [repeat constructor; intros []|]. constructor; [exact H|constructor]. Qed.
Lemma sent_level name v k : In (name, v) level_names -> valid_key k -> admin_request (request_text "eco.log.level" k (JObj [("level", JStr name)])) = Some (SetLevel v).
Proof.
  intros I V. unfold admin_request. rewrite read_request by auto using proper_one, proper_str. cbn [rroute rdata]. cbn in I. repeat (destruct I as [I|I]; [injection I as <- <-; reflexivity|]). destruct I.
Qed.
Lemma sent_size n k : valid_key k -> admin_request (request_text "eco.log.buffer" k (JObj [("size", JNum n)])) = Some (SetBuffer n).
Proof. intros V. unfold admin_request. rewrite read_request; [reflexivity|exact V|]. apply proper_one. constructor. Qed.
Lemma sent_type name v k : In (name, v) period_names -> valid_key k -> admin_request (request_text "eco.statistics.get" k (JObj [("type", JStr name)])) = Some (GetStatistics v).
Proof.
  intros I V. unfold admin_request. rewrite read_request; [|exact V|apply proper_one; constructor]. cbn [rroute rdata]. cbn in I. repeat (destruct I as [I|I]; [injection I as <- <-; reflexivity|]). destruct I.
Qed.
Lemma server_reads opts st sd t d : (forall n, named "-st" "--server_type" n -> find_option opts n = find_option bem_options n) ->
  (forall n, named "-sd" "--server_details" n -> find_option opts n = find_option bem_options n) ->
  named "-st" "--server_type" st -> named "-sd" "--server_details" sd -> (t = "tcp" \/ t = "udp" \/ t = "uds") -> ordinary d ->
  Forall2 (reads opts) [[st; t]; [sd; d]] [("server_type", VStr t); ("server_details", VStr d)].
Proof.
  intros H1 H2 N1 N2 T D. constructor; [|constructor; [|constructor]].
  - exists st, (mkOpt "-st" "--server_type" "server_type" (Choice ["tcp"; "udp"; "uds"]) true VNone false). split; [rewrite H1 by exact N1; by_name N1|]. split; [reflexivity|].
    right. exists t. cbn [kind]. split; [discriminate|]. split; [reflexivity|]. destruct T as [-> | [-> | ->]]; split; reflexivity.
  - exists sd, (mkOpt "-sd" "--server_details" "server_details" Text true VNone false). split; [rewrite H2 by exact N2; by_name N2|]. split; [reflexivity|].
    right. exists d. cbn [kind]. split; [discriminate|]. split; [reflexivity|]. split; [now apply ordinary_dashed|reflexivity].
Qed.
Theorem log_ok st sd t d c acts ops gs : named "-st" "--server_type" st -> named "-sd" "--server_details" sd -> address t d c -> host_without_colon c -> ordinary d ->
  log_asks acts ops -> Permutation ([[st; t]; [sd; d]] ++ acts)%list gs -> sends_admin (log_tool (List.concat gs)) c ops.
Proof.
  intros N1 N2 A W D K P.
  assert (B : Forall2 (reads log_options) [[st; t]; [sd; d]] [("server_type", VStr t); ("server_details", VStr d)])
    by (apply server_reads; eauto using address_type; intros n [-> | ->]; reflexivity).
  assert (Lr : forall n name v, named "-l" "--level" n -> In (name, v) level_names -> reads log_options [n; name] ("level", VStr name)).
  { intros n name v N I. exists n, (mkOpt "-l" "--level" "level" (Choice ["debug"; "info"; "warn"; "error"; "critical"]) false VNone false). split; [by_name N|]. split; [reflexivity|]. right. exists name.
    split; [discriminate|]. split; [reflexivity|]. cbn in I. repeat (destruct I as [I|I]; [injection I as <- <-; split; reflexivity|]). destruct I. }
  assert (Br : forall n size v, named "-b" "--buff_size" n -> numeral size v -> reads log_options [n; size] ("buff_size", VInt v)).
  { intros n size v N I. exists n, (mkOpt "-b" "--buff_size" "buff_size" Number false VNone false). split; [by_name N|]. split; [reflexivity|]. right. exists size.
    split; [discriminate|]. split; [reflexivity|]. split; [|cbn [kind convert snd]; now rewrite (numeral_int _ _ I)]. destruct (numeral_dig _ _ I) as [Q _]. destruct size as [|x size]; [reflexivity|].
    cbn [alldig] in Q. destruct Q as [Q _]. cbn [dashed]. destruct (Ascii.eqb_spec x "-") as [->|]; [vm_compute in Q; lia|reflexivity]. }
  assert (Q : forall dvs, Forall2 (reads log_options) acts dvs -> NoDup (map fst ([("server_type", VStr t); ("server_details", VStr d)] ++ dvs)%list) ->
    log_tool (List.concat gs) = log_main (ns_of log_options ([("server_type", VStr t); ("server_details", VStr d)] ++ dvs)%list)).
  { intros dvs F N. unfold log_tool, tool. rewrite (parse_groups log_options _ gs _ (Forall2_app B F) P N); [reflexivity| |reflexivity].
    intros a b _ _ (o & O & L & _) _. cbn in O. repeat (destruct O as [<-|O]; [discriminate L|]). destruct O. }
  unfold sends_admin.
  destruct K as [|n name v N I|n size v N I|n name v m size w N I M J].
  - rewrite (Q []); [|constructor|apply nodup_strings; reflexivity]. unfold log_main. rewrite (get_client_ok _ t d c) by (reflexivity || assumption). eexists. split; [reflexivity|]. constructor.
  - rewrite (Q [("level", VStr name)]); [|constructor; eauto|apply nodup_strings; reflexivity]. unfold log_main. rewrite (get_client_ok _ t d c) by (reflexivity || assumption). eexists. split; [reflexivity|].
    intros k V. constructor; [|constructor]. now apply sent_level.
  - rewrite (Q [("buff_size", VInt v)]); [|constructor; eauto|apply nodup_strings; reflexivity]. unfold log_main. rewrite (get_client_ok _ t d c) by (reflexivity || assumption). eexists. split; [reflexivity|].
    intros k V. constructor; [|constructor]. now apply sent_size.
  - rewrite (Q [("level", VStr name); ("buff_size", VInt w)]); [|constructor; eauto|apply nodup_strings; reflexivity]. unfold log_main. rewrite (get_client_ok _ t d c) by (reflexivity || assumption). eexists. split; [reflexivity|].
    intros k V. constructor; [|constructor; [|constructor]]; [now apply sent_level|now apply sent_size].
Qed.
Theorem stat_ok st sd t d c acts ops gs : named "-st" "--server_type" st -> named "-sd" "--server_details" sd -> address t d c -> host_without_colon c -> ordinary d ->
  stat_asks acts ops -> Permutation ([[st; t]; [sd; d]] ++ acts)%list gs -> sends_admin (stat_tool (List.concat gs)) c ops.
Proof.
  intros N1 N2 A W D K P.
  assert (B : Forall2 (reads stat_options) [[st; t]; [sd; d]] [("server_type", VStr t); ("server_details", VStr d)])
    by (apply server_reads; eauto using address_type; intros n [-> | ->]; reflexivity).
  assert (Q : forall dvs, Forall2 (reads stat_options) acts dvs -> NoDup (map fst ([("server_type", VStr t); ("server_details", VStr d)] ++ dvs)%list) ->
    stat_tool (List.concat gs) = stat_main (ns_of stat_options ([("server_type", VStr t); ("server_details", VStr d)] ++ dvs)%list)).
  { intros dvs F N. unfold stat_tool, tool. rewrite (parse_groups stat_options _ gs _ (Forall2_app B F) P N); [reflexivity| |reflexivity].
    intros a b _ _ (o & O & L & _) _. cbn in O. repeat (destruct O as [<-|O]; [discriminate L|]). destruct O. }
  unfold sends_admin. destruct K as [|n name v N I].
  - rewrite (Q []); [|constructor|apply nodup_strings; reflexivity]. unfold stat_main. rewrite (get_client_ok _ t d c) by (reflexivity || assumption). eexists. split; [reflexivity|].
    intros k V. constructor; [|constructor]. apply sent_type; [cbn; tauto|exact V].
  - rewrite (Q [("type", VStr name)]); [|constructor; [|constructor]|apply nodup_strings; reflexivity].
    + unfold stat_main. rewrite (get_client_ok _ t d c) by (reflexivity || assumption). eexists. split; [reflexivity|]. intros k V. constructor; [|constructor]. now apply sent_type.
    + exists n, (mkOpt "-type" "--type" "type" (Choice ["current"; "gathered"; "full"]) false (VStr "current") false). split; [by_name N|]. split; [reflexivity|]. right. exists name.
      split; [discriminate|]. split; [reflexivity|]. cbn in I. repeat (destruct I as [I|I]; [injection I as <- <-; split; reflexivity|]). destruct I.
Qed.
