(** C42, C61, C62: the log files. *)
From Coq Require Import ZArith Bool Lia List Arith.
From Verif Require Import LogBufModel LogBufSpec LogBufProofs.
Import ListNotations.

Section Props.
Context {R Sp : Type} (formats : R -> bool) (setting_size size_set : Z -> R).
Context (roll : list (line R Sp) -> line R Sp -> bool) (backups : nat).
Set Default Proof Using "Type".
Notation run := (run formats setting_size size_set roll backups).
Notation flush := (flush formats roll backups).
Notation flush_signalled := (flush_signalled formats roll backups).

(** Every record logged is written once and in order, except those still in the buffer; what was in the files before stays
    in front of it. Rotation removes lines only from the front, and only when all backup files are in use. *)
Theorem C42_order : forall size d es, let s := run (start size d) es in
  exists written gone,
    text backups d ++ written = gone ++ text backups (files s) /\
    records written ++ writable formats (buffer s) = writable formats (records (logged setting_size size_set 10 es)) /\
    (gone <> [] -> backups <> 0 /\ bak (files s) backups <> None).
Proof.
  intros size d es s.
  destruct (in_order formats setting_size size_set roll backups (fun _ => True) size d es (fun _ _ => I)) as [w [g [A [B [_ C]]]]].
  exists w, g. auto.
Qed.
(** After a flush nothing is left in the buffer. *)
Theorem C42_flush : forall size d es now, let s := run (start size d) (es ++ [Flush now]) in
  exists written gone,
    text backups d ++ written = gone ++ text backups (files s) /\
    records written = writable formats (records (logged setting_size size_set 10 es)) /\
    (gone <> [] -> backups <> 0 /\ bak (files s) backups <> None).
Proof.
  intros size d es now s. destruct (C42_order size d (es ++ [Flush now])) as [w [g [A [B C]]]]. exists w, g.
  split; [exact A|]. split; [|exact C]. rewrite flushed in B. cbn [LogBufSpec.writable filter] in B. rewrite app_nil_r in B. rewrite B.
  f_equal. f_equal. clear. generalize 10%Z. induction es as [|[now' lv r|now'|lv|now' n] es IH]; intros z; cbn [logged app]; auto;
  destruct (Z.leb _ _); rewrite ?IH; reflexivity.
Qed.
(** One rotation removes at most the oldest backup file. *)
Theorem C42_rotation : forall d : disk R Sp, exists gone,
  text backups d = gone ++ text backups (do_rollover backups d) /\
  (gone = [] \/ backups <> 0 /\ bak d backups = Some gone).
Proof.
  intros d. destruct (rollover backups d) as [g [A [B [C _]]]]. exists g. split; [exact A|].
  destruct B as [B|B]; [left; exact B|]. destruct g as [|x g]; [left; reflexivity|right].
  assert (F : full backups d) by (apply C; discriminate). unfold full, oldest in *. destruct backups; [contradiction|].
  split; [discriminate|]. destruct (bak d (S n)); [cbn in B; congruence|contradiction].
Qed.

(** Fewer records are unwritten than the buffer size in force (or none, for sizes below one). *)
Definition C42_bound : Prop := forall size d es,
  (Z.of_nat (length (buffer (run (start size d) es))) < Z.max 1 (size_now size es))%Z.
(** True while records at level INFO are logged. *)
Theorem C42_bound_partial : forall size d es, info_shown es ->
  (Z.of_nat (length (buffer (run (start size d) es))) < Z.max 1 (size_now size es))%Z.
Proof.
  intros size d es H. destruct (run_bounded formats setting_size size_set roll backups es (start size d)) as [A B]; [cbn; lia|exact H|unfold bounded; cbn; lia|].
  unfold bounded in A. rewrite B in A. exact A.
Qed.
(** False otherwise: a smaller size takes effect with the next record. *)
Theorem C42_bound_refuted : forall r : R, ~ C42_bound.
Proof.
  intros r H.
  specialize (H 5%Z (mkDisk [] (fun _ => None)) [Log None 40 r; Log None 40 r; Log None 40 r; SetLevel 40; SetSize None 1]).
  cbn in H. lia.
Qed.

(** C61: a line carries the span key of the request during which it was logged. *)
Definition C61_own_span : Prop := forall size d es, let s := run (start size d) es in
  exists written gone unwritten,
    text backups d ++ written = gone ++ text backups (files s) /\
    written ++ unwritten = own_lines formats (logged setting_size size_set 10 es) /\
    (gone <> [] -> backups <> 0 /\ bak (files s) backups <> None).
(** False: records are stamped when the buffer is written. *)
Theorem C61_own_span_refuted : forall (r : R) (a b : Sp), formats r = true -> (forall f l, roll f l = false) -> a <> b -> ~ C61_own_span.
Proof.
  intros r a b F NR D H.
  destruct (H 2%Z (mkDisk [] (fun _ => None)) [Log (Some a) 40%Z r; Log (Some b) 40%Z r]) as [w [g [u [A [B _]]]]].
  cbn in A, B. rewrite F in B. cbn in B. unfold LogBufModel.file_emit in A. rewrite F in A. rewrite NR in A. cbn in A.
  rewrite NR in A. cbn in A. clear H.
  unfold text in A. cbn [bak base] in A.
  assert (Z : forall n, flat_map (fun _ : nat => content (@None (list (line R Sp)))) (rev (seq 1 n)) = []).
  { intros n. induction (rev (seq 1 n)); [reflexivity|exact IHl]. }
  rewrite Z in A. cbn [app] in A. subst w.
  assert (L := f_equal (@length _) B). rewrite !app_length in L. cbn in L.
  assert (g = []) by (destruct g; [reflexivity|cbn in L; lia]). subst g.
  cbn in B. injection B as E _. congruence.
Qed.
(** True when nothing is buffered: sizes of at most one. *)
Theorem C61_own_span_partial : forall size d es, (size <= 1)%Z -> (forall now n, In (SetSize now n) es -> (n <= 1)%Z) ->
  let s := run (start size d) es in
  exists written gone,
    text backups d ++ written = gone ++ text backups (files s) /\
    written = own_lines formats (logged setting_size size_set 10 es) /\
    (gone <> [] -> backups <> 0 /\ bak (files s) backups <> None).
Proof.
  intros size d es S N s. destruct (run_small formats setting_size size_set roll backups es (start size d) S N eq_refl) as [[g [A [B _]]] _].
  eexists _, g. split; [exact A|]. split; [reflexivity|]. intros K. apply B in K. unfold full in K.
  destruct backups; [contradiction|split; [discriminate|exact K]].
Qed.
(** In general a line carries a span key that was current at some time. *)
Theorem C61_some_span_partial : forall size d es, let s := run (start size d) es in
  exists written gone,
    text backups d ++ written = gone ++ text backups (files s) /\
    records written ++ writable formats (buffer s) = writable formats (records (logged setting_size size_set 10 es)) /\
    (forall x, In x written -> In (snd x) (spans es)) /\
    (gone <> [] -> backups <> 0 /\ bak (files s) backups <> None).
Proof.
  intros size d es s.
  destruct (in_order formats setting_size size_set roll backups (fun sp => In sp (spans es)) size d es (fun _ H => H)) as [w [g [A [B [P C]]]]].
  exists w, g. auto.
Qed.

(** C62: a signal that arrives while the buffer is written ends the application. *)
Definition C62_ends : Prop := forall now m s, snd (flush_signalled now m s) = true.
(** False: inside the writing of a record the signal's exception is caught with all others. *)
Theorem C62_ends_refuted : forall d : disk R Sp, ~ C62_ends.
Proof. intros d H. specialize (H None (Inside 0) (mkLog 10 1 [] d)). discriminate. Qed.
(** Every record is written once, by the flush at shut-down at the latest. *)
Definition C62_once : Prop := forall now now' m s,
  let s2 := flush now' (fst (flush_signalled now m s)) in
  exists written gone,
    text backups (files s) ++ written = gone ++ text backups (files s2) /\
    records written = writable formats (buffer s) /\
    (gone <> [] -> backups <> 0 /\ bak (files s2) backups <> None).
(** False: a record is written twice, or not at all. *)
Theorem C62_once_refuted : forall r : R, formats r = true -> (forall f l, roll f l = false) -> ~ C62_once.
Proof.
  intros r F NR H. destruct (H None None (Between 1) (mkLog 10 1 [r] (mkDisk [] (fun _ => None)))) as [w [g [A [B _]]]].
  cbn in A, B. rewrite F in B. unfold LogBufModel.file_emit in A. rewrite F in A. rewrite NR in A. cbn in A. rewrite NR in A. cbn in A.
  unfold text in A. cbn [bak base] in A.
  assert (Z : forall n, flat_map (fun _ : nat => content (@None (list (line R Sp)))) (rev (seq 1 n)) = []).
  { intros n. induction (rev (seq 1 n)); [reflexivity|exact IHl]. }
  rewrite Z in A. cbn [app] in A. subst w. apply (f_equal (@length _)) in B. unfold records in B. rewrite map_length, app_length in B. cbn in B. lia.
Qed.
Theorem C62_lost_refuted : forall r : R, formats r = true -> ~ C62_once.
Proof.
  intros r F H. destruct (H None None (Inside 0) (mkLog 10 1 [r] (mkDisk [] (fun _ => None)))) as [w [g [A [B C]]]].
  cbn in A, B, C. rewrite F in B. destruct g as [|x g]; [|exfalso; apply C; [discriminate|reflexivity]].
  rewrite app_nil_l in A. rewrite <- (app_nil_r (text _ _)) in A at 2. apply app_inv_head in A. subst w. discriminate.
Qed.
(** Between two records: nothing is lost, but those written already are written again by the flush at shut-down. *)
Theorem C62_between_partial : forall now now' k s,
  let (s1, ends) := flush_signalled now (Between k) s in
  ends = true /\ buffer (flush now' s1) = [] /\
  exists written gone, text backups (files s) ++ written = gone ++ text backups (files (flush now' s1)) /\
    records written = writable formats (firstn k (buffer s)) ++ writable formats (buffer s) /\
    (gone <> [] -> backups <> 0 /\ bak (files (flush now' s1)) backups <> None).
Proof.
  intros now now' k s. cbn [flush_signalled LogBufModel.flush_signalled]. split; [reflexivity|]. split; [reflexivity|].
  destruct (signalled_between formats roll backups now now' k s) as [g [A [C _]]].
  eexists _, g. split; [exact A|]. split; [rewrite records_app, !records_stamped; reflexivity|].
  intros K. apply C in K. unfold full in K. destruct backups; [contradiction|split; [discriminate|exact K]].
Qed.
(** Inside the writing of a record: that record is lost, and the application goes on. *)
Theorem C62_inside_partial : forall now k s,
  let (s1, ends) := flush_signalled now (Inside k) s in
  ends = false /\ buffer s1 = [] /\
  exists written gone, text backups (files s) ++ written = gone ++ text backups (files s1) /\
    records written = writable formats (firstn k (buffer s)) ++ writable formats (skipn (S k) (buffer s)) /\
    (gone <> [] -> backups <> 0 /\ bak (files s1) backups <> None).
Proof.
  intros now k s. cbn [flush_signalled LogBufModel.flush_signalled]. split; [reflexivity|]. split; [reflexivity|].
  destruct (signalled_inside formats roll backups now k s) as [g [A [C _]]].
  eexists _, g. split; [exact A|]. split; [rewrite records_stamped; apply writable_app|].
  intros K. apply C in K. unfold full in K. destruct backups; [contradiction|split; [discriminate|exact K]].
Qed.
End Props.
Print Assumptions C42_order.
Print Assumptions C42_flush.
Print Assumptions C42_rotation.
Print Assumptions C42_bound_partial.
Print Assumptions C42_bound_refuted.
Print Assumptions C61_own_span_refuted.
Print Assumptions C61_own_span_partial.
Print Assumptions C61_some_span_partial.
Print Assumptions C62_ends_refuted.
Print Assumptions C62_once_refuted.
Print Assumptions C62_lost_refuted.
Print Assumptions C62_between_partial.
Print Assumptions C62_inside_partial.

(** A run with rotation: two backups, a file is full after two lines, the fourth record cannot be formatted. *)
Definition ex_roll (f : list (line nat nat)) (_ : line nat nat) : bool := Nat.leb 2 (length f).
Definition ex_formats (r : nat) : bool := negb (Nat.eqb r 4).
Definition ex_events : list (event nat nat) :=
  [Log (Some 1) 20 1; Log (Some 1) 20 2; Log (Some 2) 10 3; Log (Some 2) 20 4; SetSize None 2; SetLevel 30; Log None 20 5;
   Log (Some 3) 30 6; Log (Some 3) 40 7; Log (Some 3) 40 8].
Definition ex_run := run ex_formats (fun _ => 100) (fun _ => 101) ex_roll 2 (start 3 (mkDisk [(0, None)] (fun _ => None))) ex_events.
Example C42_example : text 2 (files ex_run) =
    [(2, Some 2); (3, Some 2); (100, None); (101, None); (6, Some 3); (7, Some 3)] /\ buffer ex_run = [8].
Proof. vm_compute. auto. Qed.
Example C61_example : (forall now n, In (SetSize now n) [Log (Some 1) 20 1; SetSize (Sp := nat) (Some 2) 1; Log None 20 2] -> (n <= 1)%Z).
Proof. intros now n H. cbn in H. destruct H as [H|[H|[H|[]]]]; try discriminate. injection H as _ <-. lia. Qed.
Example C61_example_run :
  text 2 (files (run ex_formats (fun _ => 100) (fun _ => 101) ex_roll 2 (start 0 (mkDisk [] (fun _ => None)))
    [Log (Some 1) 20 1; SetSize (Some 2) 1; Log None 20 2])) = [(1, Some 1); (100, Some 2); (101, Some 2); (2, None)].
Proof. vm_compute. reflexivity. Qed.
(** Three records in the buffer, the signal after the first: it is written twice. *)
Example C62_example :
  text 2 (files (flush ex_formats ex_roll 2 None (fst (flush_signalled ex_formats ex_roll 2 None (Between 1)
    (mkLog 10 5 [1; 2; 3] (mkDisk [] (fun _ => None))))))) =
  [(1, @None nat); (1, None); (2, None); (3, None)].
Proof. vm_compute. reflexivity. Qed.
(** The hypotheses of the refutations are met, e.g. by files that never roll over. *)
Example C61_refuted_example : ~ C61_own_span ex_formats (fun _ => 100) (fun _ => 101) (fun _ _ => false) 2 (Sp := nat).
Proof. exact (C61_own_span_refuted _ _ _ _ 2 1 1 2 eq_refl (fun _ _ => eq_refl) ltac:(discriminate)). Qed.
Example C62_refuted_example : ~ C62_once ex_formats (fun _ _ => false) 2 (Sp := nat).
Proof. exact (C62_once_refuted _ _ 2 1 eq_refl (fun _ _ => eq_refl)). Qed.
