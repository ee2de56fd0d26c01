(** C43: the log shipper. *)
From Coq Require Import Bool Lia List Arith Ascii.
From Verif Require Import ShipperModel ShipperSpec ShipperProofs ShipperProofs2.
Import ListNotations.

(** Every complete line written under the watched name is posted at least once, in order, as soon as the shipper is left alone
    with an endpoint that works; over all histories in which every event satisfies [P]. *)
Definition C43_at_least_once (P : sys -> event -> Prop) : Prop := forall good es, always P good fresh es ->
  let s := run good fresh es in
  up s -> Forall (fun l => good l = true) (written s) ->
  forall k, 6 <= k -> brought (written s) (arrived (run good s (quiet k))) (length (written s)).

Definition a_ : byte := "a"%char. Definition b_ : byte := "b"%char. Definition c_ : byte := "c"%char.
Definition any_line (l : line) : bool := true.
Lemma brought_one : forall w b n, brought w [b] n -> stands w 0 b /\ n = length b.
Proof.
  intros w b n H. remember [b] as l eqn:E. destruct H as [|bs n m b' B S M]; [discriminate|].
  destruct bs as [|x bs]; [|destruct bs; discriminate]. injection E as ->. remember [] as l eqn:E. destruct B as [|bs n m' b' B S' M']; [|destruct bs; discriminate].
  assert (m = 0) by lia. subst m. split; [exact S|]. cbn. lia.
Qed.
(** False: two rotations between two polls lose the file in between. *)
Definition ex_two : list event :=
  [Create 1; Boot; Step; Append [a_; newline]; Rename; Create 2; Append [b_; newline]; Rename; Create 3; Append [c_; newline]].
Theorem C43_at_least_once_refuted : ~ C43_at_least_once (fun _ e => e <> Kill).
Proof.
  intros H. specialize (H any_line ex_two). cbv zeta in H.
  assert (W : written (run any_line fresh ex_two) = [[a_]; [b_]; [c_]]) by (vm_compute; reflexivity).
  assert (A : arrived (run any_line (run any_line fresh ex_two) (quiet 6)) = [[[a_]; [c_]]]) by (vm_compute; reflexivity).
  assert (E : brought [[a_]; [b_]; [c_]] [[[a_]; [c_]]] 3).
  { rewrite <- A. rewrite W in H. apply H; [|vm_compute; discriminate|vm_compute; repeat constructor|lia].
    vm_compute. repeat split; discriminate. }
  clear H. apply brought_one in E. destruct E as ((x & z & S & L) & _). destruct x; [|discriminate]. discriminate.
Qed.
Print Assumptions C43_at_least_once_refuted.
(** False: a rotation while the shipper is down loses the rest of the old file. *)
Definition ex_down : list event :=
  [Create 1; Boot; Step; Append [a_; newline]; Kill; Rename; Create 2; Append [b_; newline]; Boot; Step].
Theorem C43_restart_refuted : ~ C43_at_least_once (fun s e => e = Rename -> tailing s \/ ~ up s).
Proof.
  intros H. specialize (H any_line ex_down). cbv zeta in H.
  assert (W : written (run any_line fresh ex_down) = [[a_]; [b_]]) by (vm_compute; reflexivity).
  assert (A : arrived (run any_line (run any_line fresh ex_down) (quiet 6)) = [[[b_]]]) by (vm_compute; reflexivity).
  assert (E : brought [[a_]; [b_]] [[[b_]]] 2).
  { rewrite <- A. rewrite W in H. apply H; [|vm_compute; discriminate|vm_compute; repeat constructor|lia].
    clear. vm_compute. repeat split; try discriminate. intros _. right. intros X. apply X. reflexivity. }
  clear H. apply brought_one in E. destruct E as (_ & E). discriminate.
Qed.
Print Assumptions C43_restart_refuted.
(** False: an inode number used again makes a restart skip the beginning of a new file, even though the old one was shipped
    completely. *)
Definition ex_inode : list event :=
  [Create 1; Boot; Step; Append [a_; newline]] ++ quiet 3 ++ [Rename; Kill; Delete 0; Create 1; Append [b_; newline]; Boot; Step; Step].
Theorem C43_inode_refuted : ~ C43_at_least_once (fun s e =>
  match e with
  | Rename => tailing s
  | Boot => match path s, saved_file s, saved s with Some f, Some g, Some (_, o) => complete (skipn o (content s g)) = [] | _, _, _ => True end
  | _ => True
  end).
Proof.
  intros H. specialize (H any_line ex_inode). cbv zeta in H.
  assert (W : written (run any_line fresh ex_inode) = [[a_]; [b_]]) by (vm_compute; reflexivity).
  assert (A : arrived (run any_line (run any_line fresh ex_inode) (quiet 6)) = [[[a_]]]) by (vm_compute; reflexivity).
  assert (E : brought [[a_]; [b_]] [[[a_]]] 2).
  { rewrite <- A. rewrite W in H. apply H; [|vm_compute; discriminate|vm_compute; repeat constructor|lia].
    vm_compute. repeat split. exists 0. split; reflexivity. }
  clear H. apply brought_one in E. destruct E as (_ & E). discriminate.
Qed.
Print Assumptions C43_inode_refuted.
(** True of every history in which no rotation is missed, with crashes, restarts and failing posts anywhere. *)
Theorem C43_at_least_once_partial : C43_at_least_once calm.
Proof.
  intros good es A s U G k K.
  destruct (inv_run good le Nat.le_refl (fun m n H => H) le_max es fresh 0 (inv_fresh le Nat.le_refl) A) as (n & _ & V); [left; auto|].
  destruct (ships_all good k s n V G U) as (n' & V' & -> & W); [right; pose proof (rank_max s); lia|].
  rewrite <- W at 1. apply comes_brought. apply (v_comes _ _ _ V').
Qed.
Print Assumptions C43_at_least_once_partial.
(** And at any time: what has come so far is a beginning of what was written, in order, with nothing left out. *)
Theorem C43_in_order_partial : forall good es, always calm good fresh es ->
  exists n, brought (written (run good fresh es)) (arrived (run good fresh es)) n.
Proof.
  intros good es A.
  destruct (inv_run good le Nat.le_refl (fun m n H => H) le_max es fresh 0 (inv_fresh le Nat.le_refl) A) as (n & _ & V); [left; auto|].
  exists n. apply comes_brought. apply (v_comes _ _ _ V).
Qed.
Print Assumptions C43_in_order_partial.
(** Exactly once, when the process is not killed and no post fails after it has come through. *)
Theorem C43_exactly_once_partial : forall good es, always calm good fresh es -> Forall clean es ->
  let s := run good fresh es in
  (exists n, concat (arrived s) = firstn n (written s)) /\
  (up s -> Forall (fun l => good l = true) (written s) -> forall k, 6 <= k -> concat (arrived (run good s (quiet k))) = written s).
Proof.
  intros good es A C s.
  destruct (inv_run good eq (@eq_refl nat) eq_le eq_max es fresh 0 (inv_fresh eq (@eq_refl nat)) A) as (n & _ & V); [right; exact C|].
  split; [exists n; apply (comes_exact _ _ _ (v_comes _ _ _ V))|]. intros U G k K. fold s in V.
  assert (Q : always calm good s (quiet k) /\ Forall clean (quiet k)).
  { clear. generalize s. clear s. induction k as [|k IH]; intros s; [split; [exact I|constructor]|].
    destruct (IH (step good (step good s Step) (Reply true true))) as (I1 & I2).
    split; [split; [exact I|split; [exact I|exact I1]]|constructor; [exact I|constructor; [reflexivity|exact I2]]]. }
  destruct Q as (Q1 & Q2).
  destruct (inv_run good eq (@eq_refl nat) eq_le eq_max (quiet k) s n V Q1) as (n1 & _ & V1); [right; exact Q2|].
  destruct (inv_run good le Nat.le_refl (fun m n H => H) le_max es fresh 0 (inv_fresh le Nat.le_refl) A) as (n2 & _ & V2); [left; auto|].
  destruct (ships_all good k s n2 V2 G U) as (n' & V' & E & W); [right; pose proof (rank_max s); lia|].
  destruct (comes_exact _ _ _ (v_comes _ _ _ V1)) as (C1 & L1). rewrite W in C1, L1. rewrite C1. apply firstn_all2.
  assert (L : forall w bs m, brought w bs m -> m <= length (concat bs)).
  { intros w bs m B. induction B as [|bs m j b B IH S M]; [cbn; lia|]. rewrite concat_app, app_length. cbn [concat]. rewrite app_nil_r. lia. }
  pose proof (L _ _ _ (comes_brought _ _ _ (v_comes _ _ _ V'))) as L2. rewrite C1, firstn_length in L2. lia.
Qed.
Print Assumptions C43_exactly_once_partial.
(** A complete line that is not a log record stops the shipper, and with it everything behind the line, until the file is
    rotated - and then that is lost: nothing is posted any more, however often the process is started. *)
Definition C43_bad_lines_skipped : Prop := forall good es, always calm good fresh es ->
  let s := run good fresh es in
  up s -> forall k, 6 <= k -> forall l, In l (written s) -> good l = true -> In l (concat (arrived (run good s (quiet k)))).
Definition not_b (l : line) : bool := match l with [c] => negb (Ascii.eqb c b_) | _ => true end.
Definition ex_bad : list event := [Create 1; Boot; Step; Append [a_; newline; b_; newline; c_; newline]].
Theorem C43_bad_lines_skipped_refuted : ~ C43_bad_lines_skipped.
Proof.
  intros H. specialize (H not_b ex_bad). cbv zeta in H.
  assert (A : arrived (run not_b (run not_b fresh ex_bad) (quiet 6)) = []) by (vm_compute; reflexivity).
  specialize (H ltac:(vm_compute; repeat split) ltac:(vm_compute; discriminate) 6 (le_n 6) [a_]). rewrite A in H.
  apply H; vm_compute; auto.
Qed.
Print Assumptions C43_bad_lines_skipped_refuted.
Theorem C43_bad_line_stops : forall good s f o l,
  ship s = Down -> path s = Some f -> o <= length (content s f) ->
  (saved s = Some (ino s f, o) \/ saved s = None /\ o = 0) ->
  In l (complete (skipn o (content s f))) -> good l = false ->
  forall es, ~ In Rename es -> arrived (run good s es) = arrived s.
Proof.
  intros good s f o l D P L SV H B es N. apply (jam_run good es s f o); [|exact N].
  split; [exact P|]. split; [exact L|]. split; [exists l; auto|]. rewrite D. destruct SV as [->|(-> & ->)]; auto.
Qed.
Print Assumptions C43_bad_line_stops.

(** Cases that meet the hypotheses: a line begun before and finished after a poll, a failed post, a rotation between two polls,
    a kill between post and save (the batch comes twice), a restart on the same file. *)
Definition ex_calm : list event :=
  [Create 1; Boot; Step; Append [a_; newline; b_]; Step; Step; Reply false false; Append [newline]; Step; Reply true true; Kill;
   Boot; Step; Step; Step; Append [c_]; Reply true true; Step; Step; Reply true true; Step; Append [newline]; Rename; Create 2; Append [a_; newline]].
Example C43_example : always calm any_line fresh ex_calm /\ up (run any_line fresh ex_calm) /\
  written (run any_line fresh ex_calm) = [[a_]; [b_]; [c_]; [a_]] /\
  arrived (run any_line (run any_line fresh ex_calm) (quiet 6)) = [[[a_]]; [[a_]; [b_]]; [[c_]; [a_]]].
Proof.
  split; [|split; [vm_compute; discriminate|split; vm_compute; reflexivity]].
  vm_compute. repeat split; try (right; exists 0; split; reflexivity).
Qed.
Example C43_example_exact : let es := [Create 1; Boot; Step; Append [a_; newline; b_]; Step; Step; Reply false false; Append [newline]; Step; Reply true true;
    Step; Rename; Create 2; Append [c_; newline]] in
  always calm any_line fresh es /\ Forall clean es /\ up (run any_line fresh es) /\
  concat (arrived (run any_line (run any_line fresh es) (quiet 6))) = [[a_]; [b_]; [c_]].
Proof.
  cbv zeta. split; [|split; [repeat constructor|split; [vm_compute; discriminate|vm_compute; reflexivity]]].
  vm_compute. repeat split; try (right; exists 0; split; reflexivity).
Qed.
Example C43_example_bad : let s := run not_b fresh (ex_bad ++ [Step; Step]) in
  ship s = Down /\ path s = Some 0 /\ saved s = None /\ In [b_] (complete (skipn 0 (content s 0))) /\ not_b [b_] = false.
Proof. cbv zeta. vm_compute. repeat split. right. left. reflexivity. Qed.
