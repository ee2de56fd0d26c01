(** C91, C92: the log shipper over all files of the directory. *)
From Coq Require Import Bool Lia List Arith Ascii.
From Verif Require Import ShipperModel ShipperSpec ShipperProofs ShipperProofs2 ShipperProps FleetModel FleetSpec FleetProofs FleetProofs2.
Import ListNotations.

(** C91: every complete line of every log file is posted, in the order of its file and each line at least once, as soon as the
    shipper is left alone with an endpoint that works; over all histories in which every event satisfies [P]. A file counts when
    the shipper watches it or it is in the directory. *)
Definition C91_every_file (P : nat -> fleet -> event -> Prop) : Prop := forall good np orders es k,
  falways (P np) good np ffresh (es ++ fquiet orders k) ->
  let s := frun good np ffresh es in
  at_ s <> Off -> (forall p, p < np -> Forall (fun l => good l = true) (written (file s p))) -> 8 * (18 * np + 6) <= k ->
  forall p, p < np -> up (file s p) \/ path (file s p) <> None ->
  brought (written (file s p)) (arrived (file (frun good np s (fquiet orders k)) p)) (length (written (file s p))).
(** False: two rotations between two polls. *)
Definition ex_ftwo : list event :=
  [FWrite 0 (Create 1); FStart []; FStep []; FWrite 0 (Append [a_; newline]); FWrite 0 Rename; FWrite 0 (Create 2);
   FWrite 0 (Append [b_; newline]); FWrite 0 Rename; FWrite 0 (Create 3); FWrite 0 (Append [c_; newline])].
Theorem C91_every_file_refuted : ~ C91_every_file (fun _ _ e => e <> FKill).
Proof.
  intros H. specialize (H any_line 1 (fun _ => []) ex_ftwo 192). cbv zeta in H.
  assert (W : written (file (frun any_line 1 ffresh ex_ftwo) 0) = [[a_]; [b_]; [c_]]) by (vm_compute; reflexivity).
  assert (A : arrived (file (frun any_line 1 (frun any_line 1 ffresh ex_ftwo) (fquiet (fun _ => []) 192)) 0) = [[[a_]; [c_]]]) by (vm_compute; reflexivity).
  assert (E : brought [[a_]; [b_]; [c_]] [[[a_]; [c_]]] 3).
  { rewrite <- A. rewrite <- W. change 3 with (length [[a_]; [b_]; [c_]]). rewrite <- W. apply H; [|vm_compute; discriminate| |vm_compute; lia|lia|left; vm_compute; discriminate].
    - assert (X : forall (l : list event), Forall (fun e => e <> FKill) l -> forall s, falways (fun _ e => e <> FKill) any_line 1 s l).
      { induction l as [|e l IH]; intros N s; [exact I|]. inversion N. split; [assumption|now apply IH]. }
      apply X. apply Forall_app. split; [repeat constructor; discriminate|].
      generalize 192. induction n as [|n IH]; [constructor|]. constructor; [discriminate|constructor; [discriminate|exact IH]].
    - intros p Hp. destruct p; [|lia]. rewrite W. repeat constructor. }
  clear H. apply brought_one in E. destruct E as ((x & z & S & L) & _). destruct x; [|discriminate]. discriminate.
Qed.
Print Assumptions C91_every_file_refuted.

Lemma falways_app P good np : forall es s es', falways P good np s (es ++ es') -> falways P good np s es /\ falways P good np (frun good np s es) es'.
Proof.
  induction es as [|e es IH]; intros s es' H; [split; [exact I|exact H]|]. destruct H as (H1 & H2). destruct (IH _ _ H2) as (I1 & I2).
  split; [split; [exact H1|exact I1]|exact I2].
Qed.
(** True of every history in which no rotation of any file is missed, with crashes, restarts, new files and failing posts
    anywhere, whatever the other files do. *)
Theorem C91_every_file_partial : C91_every_file fcalm.
Proof.
  intros good np orders es k A s U G K p Hp V. apply falways_app in A as (A1 & A2).
  pose proof (linv_run good np es _ (linv_fresh np)) as L.
  pose proof (all_run good np le Nat.le_refl (fun m n H => H) le_max es _ (linv_fresh np) (all_fresh le Nat.le_refl) A1 (or_introl (fun a b H => H))) as I.
  fold s in L, I, A2.
  assert (F : Fine good np s) by (split; [exact L|]; intros q Hq; split; [exact (I q)|exact (G q Hq)]).
  destruct (lives good np p orders Hp k s F U A2 V) as ((n & Inv & Ln) & W).
  { right. pose proof (frank_pos (file s p)). pose proof (W_max np s p L). unfold FleetProofs2.K in *. nia. }
  rewrite <- W. pose proof (v_comes _ _ _ Inv) as C. apply comes_brought in C.
  replace (length (written (file (frun good np s (fquiet orders k)) p))) with n; [exact C|].
  assert (B : forall w bs m, brought w bs m -> m <= length w).
  { intros w bs m B. induction B as [|bs m j b B IH S M]; [lia|]. apply stands_len in S. lia. }
  apply B in C. lia.
Qed.
Print Assumptions C91_every_file_partial.
(** And at any time: what has come so far from a file is a beginning of what was written to it, in order, with nothing left
    out. *)
Theorem C91_in_order_partial : forall good np es, falways (fcalm np) good np ffresh es -> forall p,
  exists n, brought (written (file (frun good np ffresh es) p)) (arrived (file (frun good np ffresh es) p)) n.
Proof.
  intros good np es A p.
  destruct (all_run good np le Nat.le_refl (fun m n H => H) le_max es _ (linv_fresh np) (all_fresh le Nat.le_refl) A (or_introl (fun a b H => H)) p) as (n & V).
  exists n. apply comes_brought. apply (v_comes _ _ _ V).
Qed.
Print Assumptions C91_in_order_partial.
(** Each line once, when the process is not killed and no post fails after it has come through - also when the process ends by
    itself, on a line of any of the files, and is started again. *)
Theorem C91_exactly_once_partial : forall good np es, falways (fcalm np) good np ffresh es -> Forall fclean es -> forall p,
  exists n, concat (arrived (file (frun good np ffresh es) p)) = firstn n (written (file (frun good np ffresh es) p)).
Proof.
  intros good np es A C p.
  destruct (all_run good np eq (@eq_refl nat) eq_le eq_max es _ (linv_fresh np) (all_fresh eq (@eq_refl nat)) A (or_intror C) p) as (n & V).
  exists n. apply (comes_exact _ _ _ (v_comes _ _ _ V)).
Qed.
Print Assumptions C91_exactly_once_partial.

(** A test of [fcalm], for the cases below. *)
Definition same_fileb (s : sys) : bool :=
  match path s, saved_file s, saved s with
  | Some f, Some g, Some (i, o) => Nat.eqb f g || (Nat.eqb f (S g) && match complete (skipn o (content s g)) with [] => true | _ => false end && negb (Nat.eqb (ino s f) i))
  | Some f, _, _ => Nat.eqb f 0
  | None, _, _ => true
  end.
Lemma same_fileb_ok x : same_fileb x = true -> same_file x.
Proof.
  unfold same_fileb, same_file. destruct (path x) as [f|]; [|auto]. destruct (saved_file x) as [g|]; [|apply Nat.eqb_eq]. destruct (saved x) as [(i, o)|]; [|apply Nat.eqb_eq].
  intros H. apply orb_true_iff in H as [H|H]; [left; now apply Nat.eqb_eq|]. right. apply andb_true_iff in H as (H & H3). apply andb_true_iff in H as (H1 & H2).
  split; [now apply Nat.eqb_eq|]. split; [destruct (complete _); [reflexivity|discriminate]|]. apply negb_true_iff in H3. now apply Nat.eqb_neq.
Qed.
Definition fcalmb (np : nat) (s : fleet) (e : event) : bool :=
  match e with
  | FWrite p Rename => match path (file s p), held (ship (file s p)) with None, _ => true | Some f, Some g => Nat.eqb f g | _, _ => false end
  | _ => true
  end && (negb (lists s e) || forallb (fun p => negb (down (file s p)) || same_fileb (file s p)) (seq 0 np)).
Fixpoint falwaysb (good : line -> bool) (np : nat) (s : fleet) (es : list event) : bool :=
  match es with [] => true | e :: r => fcalmb np s e && falwaysb good np (fstep good np s e) r end.
Lemma fcalmb_ok np s e : fcalmb np s e = true -> fcalm np s e.
Proof.
  unfold fcalmb, fcalm. intros H. apply andb_true_iff in H as (H1 & H2). split.
  - intros p ->. destruct (path (file s p)) as [f|] eqn:P; [|now left]. right. destruct (held (ship (file s p))) as [g|] eqn:Hd; [|discriminate]. apply Nat.eqb_eq in H1. subst g. now exists f.
  - intros L p Hp D. rewrite L in H2. cbn [negb orb] in H2. rewrite forallb_forall in H2. specialize (H2 p ltac:(apply in_seq; lia)). unfold down in H2. rewrite D in H2. now apply same_fileb_ok.
Qed.
Lemma falwaysb_ok good np : forall es s, falwaysb good np s es = true -> falways (fcalm np) good np s es.
Proof. induction es as [|e es IH]; intros s H; [exact I|]. cbn [falwaysb] in H. apply andb_true_iff in H as (H1 & H2). split; [now apply fcalmb_ok|now apply IH]. Qed.

(** C92: a line that cannot be converted to a log record holds up its own file only. *)
Definition C92_own_file_only : Prop := forall good np orders es k,
  falways (fcalm np) good np ffresh (es ++ fquiet orders k) ->
  let s := frun good np ffresh es in
  at_ s <> Off -> 8 * (18 * np + 6) <= k ->
  forall p, p < np -> up (file s p) \/ path (file s p) <> None -> Forall (fun l => good l = true) (written (file s p)) ->
  brought (written (file s p)) (arrived (file (frun good np s (fquiet orders k)) p)) (length (written (file s p))).
(** False: the process ends, for all files. *)
Definition ex_fbad : list event :=
  [FWrite 0 (Create 1); FWrite 0 (Append [b_; newline]); FWrite 1 (Create 1); FWrite 1 (Append [a_; newline]); FStart []].
Theorem C92_own_file_only_refuted : ~ C92_own_file_only.
Proof.
  intros H. specialize (H not_b 2 (fun _ => []) ex_fbad 336). cbv zeta in H.
  assert (W : written (file (frun not_b 2 ffresh ex_fbad) 1) = [[a_]]) by (vm_compute; reflexivity).
  assert (A : arrived (file (frun not_b 2 (frun not_b 2 ffresh ex_fbad) (fquiet (fun _ => []) 336)) 1) = []) by (vm_compute; reflexivity).
  assert (E : brought [[a_]] [] 1).
  { assert (C : falways (fcalm 2) not_b 2 ffresh (ex_fbad ++ fquiet (fun _ => []) 336)) by (apply falwaysb_ok; vm_compute; reflexivity).
    specialize (H C ltac:(vm_compute; discriminate) ltac:(vm_compute; lia) 1 ltac:(lia) ltac:(left; vm_compute; discriminate)).
    rewrite A, W in H. apply H. repeat constructor. }
  inversion E. destruct bs; discriminate.
Qed.
Print Assumptions C92_own_file_only_refuted.
(** Not only that: while there is a line that cannot be converted among those still to be shipped of some file, nothing more of
    that file or of any file after it in the order of their names is posted, however often the process is started and whatever
    is written, until that one file is rotated. *)
Theorem C92_bad_line_stops_the_files_after_it : forall good np es0,
  let s := frun good np ffresh es0 in
  at_ s = Off -> forall p f o l, p < np -> path (file s p) = Some f -> o <= length (content (file s p) f) ->
  (saved (file s p) = Some (ino (file s p) f, o) \/ saved (file s p) = None /\ o = 0) ->
  In l (complete (skipn o (content (file s p) f))) -> good l = false ->
  forall es, ~ In (FWrite p Rename) es -> forall q, p <= q -> arrived (file (frun good np s es) q) = arrived (file s q).
Proof.
  intros good np es0 s O p f o l Hp P L SV H B es N q Q. pose proof (linv_run good np es0 _ (linv_fresh np)) as LI. fold s in LI.
  assert (D : forall q, ship (file s q) = Down) by (unfold FleetProofs.LInv in LI; rewrite O in LI; exact LI).
  assert (J : Jam good p f o s s).
  { split; [|split; [reflexivity|split; [|rewrite O; exact I]]].
    - split; [exact P|]. split; [exact L|]. split; [exists l; auto|]. rewrite D. destruct SV as [->|(-> & ->)]; auto.
    - intros q' _. unfold early. rewrite D. exact I. }
  destruct (jam_frun good np p f o s Hp es s LI J N) as (_ & A & _). now apply A.
Qed.
Print Assumptions C92_bad_line_stops_the_files_after_it.
(** What is left: when every line of every file can be converted. *)
Theorem C92_own_file_only_partial : forall good np orders es k,
  falways (fcalm np) good np ffresh (es ++ fquiet orders k) ->
  let s := frun good np ffresh es in
  at_ s <> Off -> 8 * (18 * np + 6) <= k ->
  (forall q, q < np -> Forall (fun l => good l = true) (written (file s q))) ->
  forall p, p < np -> up (file s p) \/ path (file s p) <> None ->
  brought (written (file s p)) (arrived (file (frun good np s (fquiet orders k)) p)) (length (written (file s p))).
Proof. intros good np orders es k A s U K G. exact (C91_every_file_partial good np orders es k A U G K). Qed.
Print Assumptions C92_own_file_only_partial.

(** Cases that meet the hypotheses: three files, the directory read in another order; posts that come through but seem to
    fail (those batches come again), a rotation of the first file, a kill, a third file that turns up while the process is
    down. *)
Definition ex_fleet : list event :=
  [FWrite 0 (Create 1); FWrite 1 (Create 1); FWrite 0 (Append [a_; newline]); FWrite 1 (Append [c_]); FStart [1; 0]]
  ++ flat_map (fun _ => [FStep [1]; FReply true false]) (seq 0 16)
  ++ [FWrite 1 (Append [newline]); FWrite 0 (Append [b_; newline]); FWrite 0 Rename; FWrite 0 (Create 2); FWrite 0 (Append [c_; newline])]
  ++ fquiet (fun _ => []) 40 ++ [FWrite 2 (Create 1); FWrite 2 (Append [b_; newline]); FKill; FStart [2; 1; 0]] ++ fquiet (fun _ => []) 4.
Example C91_example : let s := frun any_line 3 ffresh ex_fleet in
  falways (fcalm 3) any_line 3 ffresh (ex_fleet ++ fquiet (fun _ => [2]) 480) /\ at_ s <> Off /\
  (forall p, p < 3 -> Forall (fun l => any_line l = true) (written (file s p))) /\ (forall p, p < 3 -> up (file s p)) /\
  map (fun p => written (file s p)) [0; 1; 2] = [[[a_]; [b_]; [c_]]; [[c_]]; [[b_]]] /\
  map (fun p => arrived (file (frun any_line 3 s (fquiet (fun _ => [2]) 480)) p)) [0; 1; 2] = [[[[a_]]; [[a_]]; [[b_]; [c_]]]; [[[c_]]]; [[[b_]]]].
Proof.
  cbv zeta. split; [apply falwaysb_ok; vm_compute; reflexivity|]. split; [vm_compute; discriminate|]. split; [intros p _; apply Forall_forall; reflexivity|].
  split; [intros p H; destruct p as [|[|[|p]]]; [vm_compute; discriminate|vm_compute; discriminate|vm_compute; discriminate|lia]|].
  split; vm_compute; reflexivity.
Qed.
Example C91_example_exact :
  let es := [FWrite 0 (Create 1); FWrite 1 (Create 1); FWrite 0 (Append [a_; newline]); FStart [1; 0]] ++ fquiet (fun _ => []) 12 ++
    [FWrite 1 (Append [b_; newline])] ++ fquiet (fun _ => []) 12 ++ [FStart []] ++ fquiet (fun _ => []) 12 in
  falways (fcalm 2) not_b 2 ffresh es /\ Forall fclean es /\ at_ (frun not_b 2 ffresh es) = Off /\ arrived (file (frun not_b 2 ffresh es) 0) = [[[a_]]].
Proof.
  cbv zeta. split; [apply falwaysb_ok; vm_compute; reflexivity|]. split; [repeat constructor|]. split; vm_compute; reflexivity.
Qed.
Example C92_example : let s := frun not_b 2 ffresh ex_fbad in let s' := frun not_b 2 s (fquiet (fun _ => []) 20) in
  at_ s' = Off /\ path (file s' 0) = Some 0 /\ saved (file s' 0) = None /\ In [b_] (complete (skipn 0 (content (file s' 0) 0))) /\ not_b [b_] = false /\
  written (file s' 1) = [[a_]].
Proof. cbv zeta. repeat (split; [vm_compute; auto|]). vm_compute. reflexivity. Qed.
