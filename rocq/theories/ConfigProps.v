(** C41, C54-C56: settings from environment variables. *)
From Coq Require Import String Ascii ZArith Bool Lia List.
From Verif Require Import Base RouterModel ConfigModel ConfigSpec ConfigProofs ConfigProofs2.
Import ListNotations.
Local Open Scope string_scope.

(** C41: in every environment exactly one value is the effective one, and that is the value the setting has. *)
Theorem C41_precedence : forall app inst env p only (A : Type) (f : string -> A) d r,
  NoDup (map fst env) -> effective env app inst p only r ->
  get_eco_env app inst f env p d only = match r with Some v => f v | None => d end.
Proof. exact (@precedence). Qed.
Print Assumptions C41_precedence.
Theorem C41_total : forall app inst env p only, NoDup (map fst env) -> exists r, effective env app inst p only r.
Proof. exact (@effective_total). Qed.
Print Assumptions C41_total.

Definition ex_env : list (string * string) :=
  [("PATH", "/bin"); ("ECOENV_LOG_LEVEL", "info"); ("ECOENV_LOG_LEVEL_ROUTER", "debug"); ("ECOENV_LOG_LEVEL_ROUTER_0", "");
   ("ECOENV_TCP_ROUTER", "127.0.0.1:1"); ("ECOENV_TCP_ROUTER_0", "127.0.0.1:8080"); ("ECOENV_UDS_ROUTER_0", "/tmp//run/DEFAULT");
   ("ECOENV_UDP_ROUTER_0", ":8090"); ("ECOENV_LOCK_DIR", "/tmp");
   ("ECOENV_EXTRA_A", "1"); ("ECOENV_EXTRA_ROUTER_A", "2"); ("ECOENV_EXTRA_ROUTER_0_A", ""); ("ECOENV_EXTRA_ROUTER_B", "3"); ("ECOENV_EXTRA_B", "4");
   ("ECOENV_EXTRA_C", "5")].
Example C41_ex_nodup : NoDup (map fst ex_env).
Proof. repeat (constructor; [cbn [map fst ex_env In]; intros H; repeat destruct H as [H|H]; try discriminate H; exact H|]). constructor. Qed.
Example C41_ex : effective ex_env "ROUTER" "0" "LOG_LEVEL" false (Some "debug") /\ effective ex_env "ROUTER" "0" "LOCK_DIR" false (Some "/tmp") /\
  effective ex_env "ROUTER" "0" "TCP" true (Some "127.0.0.1:8080") /\ effective ex_env "ROUTER" "1" "TCP" true None.
Proof.
  repeat split.
  - apply eff_app.
    + intros v (H & E). cbn in H. repeat destruct H as [H|H]; try discriminate H; [injection H as <-; congruence|exact H].
    + split; [cbn; tauto|discriminate].
  - apply eff_machine; [| |split; [cbn; tauto|discriminate]]; intros v (H & E); cbn in H; repeat destruct H as [H|H]; try discriminate H; exact H.
  - apply eff_instance. split; [cbn; tauto|discriminate].
  - apply eff_only_default. intros v (H & E); cbn in H; repeat destruct H as [H|H]; try discriminate H; exact H.
Qed.

(** C54: the extra settings are exactly those the variables define, the most specific first; one value per name. *)
Theorem C54_extra : forall app inst env k v, NoDup (map fst env) ->
  NoDup (map fst (get_app_instance_extra app inst env)) /\
  (In (k, v) (get_app_instance_extra app inst env) <->
   extra_instance env app inst k v \/
   (forall w, ~ extra_instance env app inst k w) /\ extra_app env app inst k v \/
   (forall w, ~ extra_instance env app inst k w) /\ (forall w, ~ extra_app env app inst k w) /\ extra_machine env app k v).
Proof. exact (@extra_ok). Qed.
Print Assumptions C54_extra.
Example C54_ex : get_app_instance_extra "ROUTER" "0" ex_env = [("A", ""); ("B", "3"); ("C", "5")].
Proof. reflexivity. Qed.

(** C55: addresses. *)
Definition C55_addresses : Prop := forall app inst env p, NoDup (map fst env) ->
  (unset env (instance_var p app inst) -> get_app_instance_address app inst p env = Ok None) /\
  (forall host port n, is_set env (instance_var p app inst) (host ++ ":" ++ port) -> without ":"%char host -> host <> "" -> numeral port n ->
     get_app_instance_address app inst p env = Ok (Some (host, n))) /\
  (forall v, is_set env (instance_var p app inst) v -> get_app_instance_address app inst p env <> Ok None).
(** False of the code: an address without a host is ignored, and the application runs without that server. *)
Theorem C55_addresses_refuted : ~ C55_addresses.
Proof.
  intros H. destruct (H "ROUTER" "0" ex_env "UDP" C41_ex_nodup) as (_ & _ & H3). apply (H3 ":8090").
  - split; [cbn; tauto|discriminate].
  - reflexivity.
Qed.
Print Assumptions C55_addresses_refuted.
(** Everything else holds: well-formed addresses are honoured exactly, an address that is used comes from the variable,
    and only an address with an empty host or an empty port is ignored; any other stops the application. *)
Theorem C55_addresses_partial : forall app inst env p, NoDup (map fst env) ->
  (unset env (instance_var p app inst) -> get_app_instance_address app inst p env = Ok None) /\
  (forall host port n, is_set env (instance_var p app inst) (host ++ ":" ++ port) -> without ":"%char host -> host <> "" -> integer port n ->
     get_app_instance_address app inst p env = Ok (Some (host, n))) /\
  (forall h n, get_app_instance_address app inst p env = Ok (Some (h, n)) ->
     exists port, is_set env (instance_var p app inst) (h ++ ":" ++ port) /\ h <> "" /\ without ":"%char h /\ integer port n) /\
  (forall v, is_set env (instance_var p app inst) v -> get_app_instance_address app inst p env = Ok None ->
     exists x, without ":"%char x /\ (v = ":" ++ x \/ v = x ++ ":")).
Proof.
  intros app inst env p N. split; [|split; [|split]].
  - exact (address_unset app inst env p N).
  - intros host port n. exact (address_honoured app inst env p host port n N).
  - intros h n. exact (address_only app inst env p h n N).
  - intros v. exact (address_silent app inst env p v N).
Qed.
Print Assumptions C55_addresses_partial.
Example C55_example_port : integer " +80_90
" 8090.
Proof. apply int_integer. vm_compute. reflexivity. Qed.
(** A socket path names the directory and the file; DEFAULT stands for a name made of the application and the instance. *)
Theorem C55_socket : forall uapp uinst app inst isdir env dir file, NoDup (map fst env) ->
  is_set env (instance_var "UDS" uapp uinst) (dir ++ "/" ++ file) -> dir <> "" -> (forall a, dir <> a ++ "/") -> without "/"%char file -> file <> "" ->
  isdir dir = true ->
  get_app_instance_uds uapp uinst app inst isdir env =
  Some (dir, if String.eqb file "DEFAULT" then app ++ "_" ++ inst ++ ".uds.sock" else file).
Proof. exact (@uds_honoured). Qed.
Print Assumptions C55_socket.
Lemma num_8080 : numeral "8080" 8080.
Proof.
  change "8080" with ((("8" ++ "0") ++ "8") ++ "0").
  apply (num_more _ 808 "0"); [|vm_compute; lia]. apply (num_more _ 80 "8"); [|vm_compute; lia].
  apply (num_more _ 8 "0"); [|vm_compute; lia]. apply (num_one "8"). vm_compute. lia.
Qed.
Example C55_ex : numeral "8080" 8080 /\ without ":"%char "127.0.0.1" /\ get_app_instance_address "ROUTER" "0" "TCP" ex_env = Ok (Some ("127.0.0.1", 8080%Z)) /\
  get_app_instance_uds "ROUTER" "0" "router" "0" (fun _ => true) ex_env = Some ("/tmp//run", "router_0.uds.sock") /\
  parse_host_port_string "::1:80" = Raise "ValueError" /\ parse_host_port_string "h:eighty" = Raise "ValueError".
Proof.
  split; [exact num_8080|]. split.
  - repeat (apply without_cons; split; [discriminate|]). apply without_nil.
  - vm_compute. auto.
Qed.

(** C56: settings of different applications and instances do not interfere. Names are as in the variables (upper case). *)
Definition C56_isolation : Prop := forall a i b j env v p q d only,
  In p postfixes -> In q postfixes -> (a, i) <> (b, j) ->
  get_eco_env a i Some (sset (instance_var q b j) v env) p d only = get_eco_env a i Some env p d only.
(** False of the code: instance B_C of A and instance C of A_B have the same variables. *)
Theorem C56_isolation_refuted : ~ C56_isolation.
Proof.
  intros H. specialize (H "A" "B_C" "A_B" "C" [] "h:1" "TCP" "TCP" None true).
  assert (P : In "TCP" postfixes) by (cbn; tauto). specialize (H P P). assert (E : ("A", "B_C") <> ("A_B", "C")) by congruence.
  specialize (H E). vm_compute in H. discriminate.
Qed.
Print Assumptions C56_isolation_refuted.
(** It holds for application names without an underscore: variables of another instance, *)
Theorem C56_isolation_partial : forall (A : Type) (f : string -> A) a i b j env v p q d only,
  without "_"%char a -> without "_"%char b -> In p postfixes -> In q postfixes -> (a, i) <> (b, j) ->
  get_eco_env a i f (sset (instance_var q b j) v env) p d only = get_eco_env a i f env p d only.
Proof. exact (@isolation_instance). Qed.
Print Assumptions C56_isolation_partial.
(** of another application, *)
Theorem C56_isolation_app_partial : forall (A : Type) (f : string -> A) a i b env v p q d only,
  without "_"%char a -> without "_"%char b -> In p postfixes -> In q postfixes -> a <> b ->
  get_eco_env a i f (sset (app_var q b) v env) p d only = get_eco_env a i f env p d only.
Proof. exact (@isolation_app). Qed.
Print Assumptions C56_isolation_app_partial.
(** and default socket names. *)
Theorem C56_sockets_partial : forall a i b j, without "_"%char a -> without "_"%char b ->
  a ++ "_" ++ i ++ ".uds.sock" = b ++ "_" ++ j ++ ".uds.sock" -> a = b /\ i = j.
Proof.
  intros a i b j A B H. apply under_inj in H; auto. destruct H as (-> & H). split; auto.
  revert j H. induction i as [|c i IH]; intros j H; destruct j as [|d j]; cbn in H; auto.
  - apply (f_equal String.length) in H. cbn in H. rewrite slen_app in H. cbn in H. lia.
  - apply (f_equal String.length) in H. cbn in H. rewrite slen_app in H. cbn in H. lia.
  - injection H as -> H. f_equal. auto.
Qed.
Print Assumptions C56_sockets_partial.
Example C56_ex : without "_"%char "ROUTER" /\ without "_"%char "AUTH" /\
  get_eco_env "ROUTER" "0" Some (sset (instance_var "LOG_LEVEL" "AUTH" "0") "error" ex_env) "LOG_LEVEL" None false = Some "debug".
Proof. repeat split; repeat (apply without_cons; split; [discriminate|]); apply without_nil. Qed.
