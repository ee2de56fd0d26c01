(** C137: a queue used with span keys. *)
From Coq Require Import List ZArith NArith Bool String Lia ZifyBool Permutation.
From Verif Require Import Base SpanKeyModel SpanKeySpec SpanKeyProps PQueueModel PQueueSpec PQueueProps KQueueModel KQueueSpec KQueueProofs.
Import ListNotations.
Local Open Scope Z_scope.

(** The full statement: every key that can be read from a message can be queued. *)
Definition C137_every_key : Prop := forall s k ps (v : Z), ps <> 0 -> key_of_text s = Ok k -> krun (open_queue ps []) [KPush k v] = [KKey k].

(** It is false: a span id may be written with a sign. *)
Theorem C137_every_key_refuted : ~ C137_every_key.
Proof. intros H. specialize (H (lit "00000000-0000-0000-0000-000000000007:-000000000000001") (mkKey 7 (-1)) 2 0 ltac:(lia) ltac:(vm_compute; reflexivity)). vm_compute in H. discriminate H. Qed.
Print Assumptions C137_every_key_refuted.

(** Exactly the keys without a negative span id can. *)
Theorem C137_exactly_partial : forall s k ps (v : Z), ps <> 0 -> key_of_text s = Ok k ->
  (krun (open_queue ps []) [KPush k v] = [KKey k] <-> 0 <= span_id k).
Proof.
  intros s k ps v Z E. rewrite (krun_spec _ _ [] (fresh_behaves ps Z) (Forall_nil _)). cbn [kspec_run]. unfold kspec_step. cbn [key_of].
  assert (R : 0 <= trace_id k < 2 ^ 128 /\ span_id k < 2 ^ 64).
  { unfold key_of_text in E. destruct (uuid_of_hex _) as [t|] eqn:T in E; [|discriminate E]. cbn [bind] in E. destruct (span_id_of_hex _) as [w|] eqn:W in E; [|discriminate E]. cbn [bind] in E. injection E as <-. cbn [trace_id span_id].
    apply C33_accepted_range_partial in W. unfold uuid_of_hex in T. destruct (Nat.eqb _ 32) in T; [|discriminate T]. destruct (py_int16 _) as [z|] in T; [|discriminate T]. cbn [bind] in T.
    destruct ((0 <=? z) && (z <? 2 ^ 128)) eqn:B; [|discriminate T]. injection T as <-. lia. }
  destruct (usable k) eqn:U; unfold usable in U.
  - split; [intros _; lia|reflexivity].
  - split; [discriminate|intros S; exfalso; lia].
Qed.
Print Assumptions C137_exactly_partial.

(** With whatever keys the calls are made, a queue is a first-in first-out list that holds each key once. A call with a key without
    a 24-byte form raises OverflowError, and no other call notices. *)
Theorem C137_queue_of_keys : forall (V : Type) (ps : Z) (ops : list (kop V)), ps <> 0 -> krun (open_queue ps []) ops = kspec_run [] ops.
Proof. intros V ps ops Z. exact (krun_spec ops _ [] (fresh_behaves ps Z) (Forall_nil _)). Qed.
Print Assumptions C137_queue_of_keys.

(** After a restart the queue holds the same keys with their values (in the order of C05). *)
Theorem C137_restart : forall (V : Type) (ps ps' : Z) (ops ops2 : list (kop V)), ps <> 0 -> 1 <= ps' ->
  exists q', reopen ps' (kafter (open_queue ps []) ops) = Ok q' /\ krun q' ops2 = kspec_run (order_after (Z.to_nat ps') (kheld [] ops)) ops2.
Proof. exact (@restarted). Qed.
Print Assumptions C137_restart.

(** After a crash it holds all but at most two pages of them. *)
Theorem C137_crash : forall (V : Type) (ps ps' : Z) (ops ops2 : list (kop V)), 1 <= ps -> ps' <> 0 ->
  exists lost l', Permutation (kheld [] ops) (lost ++ l') /\ Z.of_nat (List.length lost) <= 2 * ps /\
    krun (open_queue ps' (db (kafter (open_queue ps []) ops))) ops2 = kspec_run l' ops2.
Proof. exact (@crashed). Qed.
Print Assumptions C137_crash.

(** Two keys never share an entry, whichever half they differ in. *)
Theorem C137_no_collision : forall a b n, queue_key a = Ok n -> queue_key b = Ok n -> a = b.
Proof.
  intros a b n A B. destruct (usable a) eqn:Ua.
  2: { rewrite queue_key_bad in A; [discriminate A|]. rewrite <- usable_valid. congruence. }
  destruct (usable b) eqn:Ub.
  2: { rewrite queue_key_bad in B; [discriminate B|]. rewrite <- usable_valid. congruence. }
  apply usable_valid in Ua, Ub. rewrite queue_key_ok in A, B by assumption. apply num_inj; [assumption..|congruence].
Qed.
Print Assumptions C137_no_collision.

Definition ex_key (t s : Z) : span_key := mkKey t s.
Definition ex_kops : list (kop Z) := [KPush (ex_key 1 2) 10; KPush (ex_key 2 1) 20; KPush (ex_key 1 2) 11; KPush (ex_key 1 (-2)) 12; KPush (ex_key 1 (2 ^ 64 - 1)) 13; KPush (ex_key 0 0) 14].
Example C137_example : krun (open_queue 1 []) (ex_kops ++ [KSize; KInspect (ex_key 1 (-2)); KPopKey (ex_key 2 1); KPop; KPop; KPop; KPop])
  = [KKey (ex_key 1 2); KKey (ex_key 2 1); KKey (ex_key 1 2); KExn "OverflowError"; KKey (ex_key 1 (2 ^ 64 - 1)); KKey (ex_key 0 0);
     KNum 4; KExn "OverflowError"; KVal (Some 20); KEntry (Some (ex_key 1 2, 10)); KEntry (Some (ex_key 1 (2 ^ 64 - 1), 13)); KEntry (Some (ex_key 0 0, 14)); KEntry None].
Proof. vm_compute. reflexivity. Qed.
Example C137_example_restart : kheld [] ex_kops = [(ex_key 1 2, 10); (ex_key 2 1, 20); (ex_key 1 (2 ^ 64 - 1), 13); (ex_key 0 0, 14)] /\
  match reopen 2 (kafter (open_queue 1 []) ex_kops) with Ok q' => krun q' [KPop; KPop; KPop; KPop] | Raise _ => [] end =
    [KEntry (Some (ex_key 1 2, 10)); KEntry (Some (ex_key 2 1, 20)); KEntry (Some (ex_key 0 0, 14)); KEntry (Some (ex_key 1 (2 ^ 64 - 1), 13))].
Proof. split; vm_compute; reflexivity. Qed.
Example C137_example_crash : krun (open_queue 1 (db (kafter (open_queue 1 []) ex_kops))) [KSize; KPop] = [KNum 2; KEntry (Some (ex_key 2 1, 20))].
Proof. vm_compute. reflexivity. Qed.
