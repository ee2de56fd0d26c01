(** C73, C74: who has which queue files. *)
From Coq Require Import List ZArith Bool String Ascii.
From Verif Require Import Base ConfigSpec FilesModel FilesSpec FilesProofs.
Import ListNotations.
Local Open Scope string_scope.

(** ** C73: inside one application *)
(** An application starts exactly when no two endpoints have one route key. *)
Theorem C73_starts c ds : (forall n m r d d', nth_error ds n = Some d -> nth_error ds m = Some d' -> endpoint_route d r -> endpoint_route d' r -> n = m) <-> exists l, start c ds = Ok l.
Proof. apply starts. Qed.
(** The full claim: every buffered endpoint and sender that is declared has two queues of its own and accepts messages. *)
Definition C73_own_files : Prop := forall c ds l n k r, start c ds = Ok l -> declared ds n k r ->
  exists p e, has_files c ds n p e /\ p <> e /\ push_message l n = Ok p /\ forall m f, file_of c ds n f -> file_of c ds m f -> m = n.
Definition shop : config := mkConfig "/var/shop" "shop" "1".
Definition twice : list decl := [BufferedEndpoint "orders"; BufferedSender "mail"; Endpoint "price"; BufferedSender "mail"].
Example ex_twice : start shop twice = Ok
  [(0%nat, ("/var/shop/shop-1-orders-endpoint-pending.sqlite", "/var/shop/shop-1-orders-endpoint-error.sqlite"));
   (3%nat, ("/var/shop/shop-1-mail-sender-pending.sqlite", "/var/shop/shop-1-mail-sender-error.sqlite"))].
Proof. reflexivity. Qed.
(** The first of two senders for one route key has no queue. *)
Theorem C73_own_files_refuted : ~ C73_own_files.
Proof.
  intros H. destruct (H shop twice _ 1%nat false "mail" ex_twice) as (p & e & _ & _ & P & _); [|discriminate P].
  exists (BufferedSender "mail"). split; [reflexivity|constructor].
Qed.
Theorem C73_own_files_partial c ds l n k r : start c ds = Ok l -> senders_differ ds -> declared ds n k r ->
  exists p e, has_files c ds n p e /\ p <> e /\ push_message l n = Ok p /\ forall m f, file_of c ds n f -> file_of c ds m f -> m = n.
Proof.
  intros S D Dn. destruct (every_queue c ds l n k r S D Dn) as (p & e & H & P). exists p, e. split; [exact H|]. split; [exact (own_two_files _ _ _ _ _ H)|]. split; [exact P|].
  intros m f F G. exact (files_disjoint c ds m n f G F).
Qed.
(** Whatever is declared, no file is used twice. *)
Theorem C73_no_file_is_shared c ds n m f : file_of c ds n f -> file_of c ds m f -> n = m.
Proof. apply files_disjoint. Qed.
(** What happens to the first of two senders for one route key. *)
Theorem C73_replaced_sender c ds l n m r : start c ds = Ok l -> declared ds n false r -> declared ds m false r -> (n < m)%nat ->
  push_message l n = Raise "AttributeError" /\ forall f, ~ file_of c ds n f.
Proof. apply replaced. Qed.
(** After a restart, with other declarations before, between and after: the same files. *)
Theorem C73_same_files_after_a_restart c ds ds' n n' k r p e p' e' :
  declared ds n k r -> declared ds' n' k r -> has_files c ds n p e -> has_files c ds' n' p' e' -> p = p' /\ e = e'.
Proof. apply restart. Qed.
(** Everything that has been set up is shut down, once. *)
Theorem C73_all_are_shut_down c ds l : start c ds = Ok l -> shut_down ds = Ok (map fst l) /\ NoDup (map fst l).
Proof. apply shut_all. Qed.

Definition once : list decl := [BufferedSender "mail"; BufferedEndpoint "mail"; BufferedEndpoint "mail-sender"; Endpoint "price"].
Example ex_once : exists l, start shop once = Ok l /\ List.length l = 3%nat /\ senders_differ once /\ declared once 1 true "mail".
Proof.
  eexists. split; [reflexivity|]. split; [reflexivity|]. split.
  - intros n m r (d & A & B) (d' & A' & B'). inversion B; subst. inversion B'; subst. do 4 (destruct n as [|n]; [do 4 (destruct m as [|m]; [try reflexivity; discriminate|]); destruct m; discriminate|]). destruct n; discriminate.
  - exists (BufferedEndpoint "mail"). split; [reflexivity|constructor].
Qed.
Example ex_files : has_files shop once 0 "/var/shop/shop-1-mail-sender-pending.sqlite" "/var/shop/shop-1-mail-sender-error.sqlite" /\
  has_files shop twice 3 "/var/shop/shop-1-mail-sender-pending.sqlite" "/var/shop/shop-1-mail-sender-error.sqlite".
Proof. split; eexists; (split; [reflexivity|]); cbn; tauto. Qed.
Example ex_not_started : start shop [Endpoint "price"; BufferedEndpoint "price"] = Raise "Exception".
Proof. reflexivity. Qed.

(** ** C74: different instances *)
(** The full claim: applications and instances that share a buffer directory share no queue file. *)
Definition C74_instances_apart : Prop := forall c c' ds ds' n m f, buffer_directory c = buffer_directory c' ->
  file_of c ds n f -> file_of c' ds' m f -> name c = name c' /\ instance c = instance c'.
(** The weaker claim that the lock keeps them apart: two that share a queue file have one lock file, so that they cannot run at one time. *)
Definition C74_lock_keeps_apart : Prop := forall c c' ds ds' n m f, buffer_directory c = buffer_directory c' ->
  file_of c ds n f -> file_of c' ds' m f -> lock_file c = lock_file c'.
Definition shop_1 : config := mkConfig "/var/shop" "shop" "1".
Definition shop_1_eu : config := mkConfig "/var/shop" "shop" "1-eu".
Example ex_shared : file_of shop_1 [BufferedEndpoint "eu-orders"] 0 "/var/shop/shop-1-eu-orders-endpoint-pending.sqlite" /\
  file_of shop_1_eu [BufferedEndpoint "orders"] 0 "/var/shop/shop-1-eu-orders-endpoint-pending.sqlite".
Proof. split; eexists _, _; (split; [eexists; split; [reflexivity|left; reflexivity]|left; reflexivity]). Qed.
Theorem C74_lock_keeps_apart_refuted : ~ C74_lock_keeps_apart.
Proof. intros H. destruct ex_shared as [A B]. specialize (H shop_1 shop_1_eu _ _ _ _ _ eq_refl A B). discriminate H. Qed.
Theorem C74_instances_apart_refuted : ~ C74_instances_apart.
Proof. intros H. destruct ex_shared as [A B]. destruct (H shop_1 shop_1_eu _ _ _ _ _ eq_refl A B) as [_ E]. discriminate E. Qed.
(** Without dashes in names and instances, or in instances and route keys, it is true. *)
Theorem C74_instances_apart_partial c c' ds ds' n m f : buffer_directory c = buffer_directory c' -> no_dash (instance c) -> no_dash (instance c') ->
  (no_dash (name c) /\ no_dash (name c') \/ (forall k r, declared ds n k r -> no_dash r) /\ (forall k r, declared ds' m k r -> no_dash r)) ->
  file_of c ds n f -> file_of c' ds' m f -> name c = name c' /\ instance c = instance c'.
Proof. intros D I I' [[N N']|[R R']]; [now apply apart_front|now apply apart_back]. Qed.
(** Lock files, log files and sockets. *)
Definition C74_locks_apart : Prop := forall c c', lock_file c = lock_file c' -> name c = name c' /\ instance c = instance c'.
Theorem C74_locks_apart_refuted : ~ C74_locks_apart.
Proof. intros H. destruct (H (mkConfig "" "shop" "1-eu") (mkConfig "" "shop-1" "eu") eq_refl) as [E _]. discriminate E. Qed.
Theorem C74_locks_apart_partial c c' : no_dash (instance c) -> no_dash (instance c') -> lock_file c = lock_file c' \/ log_file c = log_file c' -> name c = name c' /\ instance c = instance c'.
Proof. intros A A' [H|H]; [now apply lock_inj|now apply log_inj]. Qed.
Theorem C74_sockets_apart_partial c c' : without "_"%char (instance c) -> without "_"%char (instance c') -> socket_file c = socket_file c' -> name c = name c' /\ instance c = instance c'.
Proof. apply socket_inj. Qed.
Example ex_no_dash : no_dash "shop" /\ no_dash "1" /\ without "_"%char "1".
Proof. repeat split; apply free_without; reflexivity. Qed.

Print Assumptions C73_starts.
Print Assumptions C73_own_files_refuted.
Print Assumptions C73_own_files_partial.
Print Assumptions C73_no_file_is_shared.
Print Assumptions C73_replaced_sender.
Print Assumptions C73_same_files_after_a_restart.
Print Assumptions C73_all_are_shut_down.
Print Assumptions C74_lock_keeps_apart_refuted.
Print Assumptions C74_instances_apart_refuted.
Print Assumptions C74_instances_apart_partial.
Print Assumptions C74_locks_apart_refuted.
Print Assumptions C74_locks_apart_partial.
Print Assumptions C74_sockets_apart_partial.
