(** Proofs about the posts of the log shipper. *)
From Coq Require Import Bool List Arith Lia ZArith String.
From Verif Require Import ShipperModel ShipperSpec ShipperProofs ShipperProofs2 HttpSenderModel HttpSenderSpec.
Import ListNotations.
Local Open Scope list_scope.

Lemma success_iff : forall strerror x, success (post_json strerror x) = true <-> acknowledged x.
Proof.
  intros e x. unfold post_json, acknowledged. destruct (handle x); cbn [negb success].
  - rewrite !andb_true_iff, Z.eqb_eq, Z.geb_le, Z.ltb_lt. lia.
  - split; [discriminate|intros (A & _); discriminate].
Qed.
Lemma fail_told : forall strerror x, let r := post_json strerror x in told strerror x (http_status r, response_body r).
Proof.
  intros e x r. subst r. unfold post_json, told. destruct (handle x); cbn [negb http_status response_body].
  - split; [discriminate|]. destruct (Z.eqb_spec (result x) 0); split; intros; congruence.
  - split; [reflexivity|]. split; discriminate.
Qed.

Section Proofs.
Context (good : line -> bool) (strerror : Z -> string).
Notation cstep := (cstep good strerror).
Notation crun := (crun good strerror).

(** The shipper's part of a history, with a reply for each end of a post. *)
Definition plain_ev (e : cevent) : list event :=
  match e with
  | Ev (Reply _ _) => []
  | Ev e => [e]
  | Posted x => let ok := success (post_json strerror x) in [Reply ok ok]
  end.
Lemma core_step : forall c e, core (cstep c e) = run good (core c) (plain_ev e).
Proof.
  intros c [e|x]; [destruct e; reflexivity|]. cbn [HttpSenderModel.cstep plain_ev run fold_left]. destruct (ship (core c)) eqn:S; [..|reflexivity|];
    cbn [step]; rewrite S; reflexivity.
Qed.
Lemma core_run : forall es c, core (crun c es) = run good (core c) (flat_map plain_ev es).
Proof.
  induction es as [|e es IH]; intros c; [reflexivity|]. cbn [HttpSenderModel.crun fold_left flat_map]. fold (crun (cstep c e) es).
  rewrite IH, core_step. unfold run. rewrite fold_left_app. reflexivity.
Qed.
Lemma calm_run : forall es c, calmly good strerror c es -> always calm good (core c) (flat_map plain_ev es).
Proof.
  induction es as [|e es IH]; intros c A; [exact I|]. destruct A as [A B]. apply IH in B. rewrite core_step in B. cbn [flat_map].
  destruct e as [e|x]; [destruct e|]; cbn [plain_ev app always] in *; auto.
Qed.
Lemma clean_run : forall es, ~ In (Ev Kill) es -> Forall clean (flat_map plain_ev es).
Proof.
  induction es as [|e es IH]; intros N; [constructor|]. cbn [flat_map]. apply Forall_app. split; [|apply IH; intros A; apply N; right; exact A].
  destruct e as [e|x]; [destruct e|]; cbn [plain_ev]; repeat constructor. apply N. left. reflexivity.
Qed.

(** [arrived] is what was acknowledged, and the complaints are about the rest. *)
Record Book (c : client) : Prop := {
  k_acks : acks (posts c) (arrived (core c));
  k_tells : tells strerror (posts c) (complaints c) }.
Lemma arrived_step : forall s e, (forall a b, e <> Reply a b) -> arrived (step good s e) = arrived s.
Proof.
  intros s e N. destruct e; cbn [step]; try reflexivity.
  - destruct (path s); reflexivity.
  - destruct (path s); [reflexivity|]. destruct (free_ino s n); reflexivity.
  - destruct (path s); [destruct (Nat.eqb i n)|]; reflexivity.
  - destruct (ship s); try reflexivity. destruct (path s); reflexivity.
  - unfold ship_step. destruct (ship s) as [|i o|o|t und|t|t ls|t ls|t und|t und]; try reflexivity.
    + destruct (path s); reflexivity.
    + destruct und; reflexivity.
    + destruct (read_lines s t); reflexivity.
    + destruct (path s); reflexivity.
    + destruct (read_lines s t); reflexivity.
  - elim (N came ok). reflexivity.
Qed.
Lemma book_step : forall c e, Book c -> Book (cstep c e).
Proof.
  intros c e [A T]. destruct e as [e|x].
  - destruct e; cbn [HttpSenderModel.cstep]; constructor; cbn [core posts complaints]; try rewrite arrived_step by discriminate; assumption.
  - cbn [HttpSenderModel.cstep]. destruct (ship (core c)) as [| | | | | | |t und|] eqn:S; try (constructor; assumption).
    pose proof (success_iff strerror x) as F. pose proof (fail_told strerror x) as G. cbv zeta in G.
    constructor; cbn [core posts complaints step]; try rewrite S; cbn [with_arrived arrived];
      destruct (success (post_json strerror x)); cbn [orb].
    + apply acks_yes; [exact A|apply F; reflexivity].
    + apply acks_no; [exact A|]. intros Q. apply F in Q. discriminate.
    + apply tells_ok; [exact T|apply F; reflexivity].
    + apply tells_fail; [exact T| |exact G]. intros Q. apply F in Q. discriminate.
Qed.
Lemma book_run : forall es c, Book c -> Book (crun c es).
Proof. induction es as [|e es IH]; intros c B; [exact B|]. apply (IH (cstep c e)). apply book_step. exact B. Qed.
Lemma book_fresh : Book cfresh.
Proof. constructor; constructor. Qed.

(** The batch of a post that was not acknowledged stays in hand. *)
Definition last_post (c : client) : option (list line * transfer) := last (map Some (posts c)) None.
Definition InHand (c : client) : Prop :=
  (forall b x, last_post c = Some (b, x) -> ~ acknowledged x ->
     b <> [] /\ forallb good b = true /\ ((exists t, ship (core c) = Idle t b) \/ (exists t, ship (core c) = Post t b))) /\
  (forall t b, ship (core c) = Post t b -> b <> [] /\ forallb good b = true).
Definition Same (c : client) : Prop :=
  forall p q b x b' x', posts c = p ++ (b, x) :: (b', x') :: q -> ~ acknowledged x -> b' = b.
Lemma deliver_post : forall t und t' b, deliver good t und = Post t' b -> b <> [] /\ forallb good b = true.
Proof.
  intros t und t' b. unfold deliver. destruct und as [|l r]; [discriminate|]. destruct (forallb good (l :: r)) eqn:E; [|discriminate].
  intros H. injection H as _ <-. split; [discriminate|exact E].
Qed.
Lemma ship_quiet : forall s e, e <> Kill -> (forall a b, e <> Reply a b) ->
  (forall t b, ship s = Idle t b -> b <> [] -> forallb good b = true -> (ship (step good s e) = Idle t b \/ ship (step good s e) = Post t b)) /\
  (forall t b, ship s = Post t b -> ship (step good s e) = Post t b) /\
  (forall t b, ship (step good s e) = Post t b -> ship s = Post t b \/ (b <> [] /\ forallb good b = true)).
Proof.
  intros s e NK NR.
  assert (Q : ship (step good s e) = ship s \/ (e = Boot /\ ship s = Down /\ forall t b, ship (step good s e) <> Post t b) \/ e = Step).
  { destruct e; cbn [step]; auto.
    - left. destruct (path s); reflexivity.
    - left. destruct (path s); [reflexivity|]. destruct (free_ino s n); reflexivity.
    - left. destruct (path s); [destruct (Nat.eqb i n)|]; reflexivity.
    - destruct (ship s) eqn:S; auto. destruct (path s); [|left; exact S]. right. left. repeat split. cbn [ship with_ship].
      intros t b. destruct (saved s) as [[i o]|]; discriminate.
    - elim NK. reflexivity.
    - elim (NR came ok). reflexivity. }
  destruct Q as [Q|[(-> & D & Q)| ->]].
  - rewrite Q. repeat split; auto.
  - rewrite D. repeat split; try (intros; discriminate). intros t b H. elim (Q _ _ H).
  - cbn [step]. unfold ship_step. split; [|split].
    + intros t b S N G. rewrite S. destruct b as [|l r]; [congruence|]. cbn [with_ship ship]. unfold deliver. rewrite G. auto.
    + intros t b S. rewrite S. exact S.
    + intros t b. destruct (ship s) as [|i o|o|t0 und|t0|t0 ls|t0 ls|t0 und|t0 und] eqn:S.
      * rewrite S. discriminate.
      * cbn [with_ship ship]. discriminate.
      * destruct (path s); cbn [with_ship ship]; discriminate.
      * destruct und as [|l r]; cbn [with_ship ship].
        { destruct (path s); [destruct (Nat.eqb _ _)|]; discriminate. }
        intros H. right. apply (deliver_post t0 (l :: r) t). exact H.
      * destruct (read_lines s t0); cbn [with_ship ship]; discriminate.
      * destruct (path s); cbn [with_ship ship]; discriminate.
      * destruct (read_lines s t0) as [t1 ls1]; cbn [with_ship ship]. intros H. right. apply (deliver_post t1 (ls ++ ls1) t). exact H.
      * rewrite S. auto.
      * cbn [with_saved ship]. discriminate.
Qed.
Lemma ev_step : forall c e, (forall a b, e <> Reply a b) -> cstep c (Ev e) = mkC (step good (core c) e) (posts c) (complaints c).
Proof. intros c e N. destruct e; try reflexivity. elim (N came ok). reflexivity. Qed.
Lemma hand_step : forall c e, InHand c -> Same c -> e <> Ev Kill -> InHand (cstep c e) /\ Same (cstep c e).
Proof.
  intros c e [H1 H2] Sm NK. destruct e as [e|x].
  - assert (D : (exists a b, e = Reply a b) \/ forall a b, e <> Reply a b).
    { destruct e; try (right; discriminate). left. eauto. }
    destruct D as [(a & b & ->)|NR]; [split; [split; assumption|exact Sm]|]. rewrite ev_step by exact NR.
    destruct (ship_quiet (core c) e) as (Q1 & Q2 & Q3); [intros ->; apply NK; reflexivity|exact NR|].
    split; [|exact Sm]. split; cbn [core].
    + intros b x L N. destruct (H1 b x L N) as (A & G & P). split; [exact A|]. split; [exact G|]. destruct P as [(t & P)|(t & P)].
      * destruct (Q1 t b P A G) as [Q|Q]; [left|right]; exists t; exact Q.
      * right. exists t. apply Q2. exact P.
    + intros t b P. destruct (Q3 t b P) as [Q|Q]; [apply (H2 t b Q)|exact Q].
  - cbn [HttpSenderModel.cstep]. revert H1 H2. destruct (ship (core c)) as [| | | | | | |t und|] eqn:S; intros H1 H2;
      try (split; [split; [intros b1 y1; rewrite S; apply H1|intros t1 b1; rewrite S; apply H2]|exact Sm]).
    destruct (H2 t und eq_refl) as (A & G). pose proof (success_iff strerror x) as F. split; [split|].
    + intros b x' L N. unfold last_post in L. cbn [posts core] in *. rewrite map_app in L. cbn [map] in L. rewrite last_last in L. injection L as <- <-.
      split; [exact A|]. split; [exact G|]. left. exists t. cbn [step]. rewrite S. cbn [with_arrived ship].
      destruct (success (post_json strerror x)); [elim N; apply F; reflexivity|reflexivity].
    + intros t' b. cbn [core step]. rewrite S. cbn [with_arrived ship]. destruct (success (post_json strerror x)); discriminate.
    + intros p q b y b' y' E N. cbn [posts] in E. destruct q as [|z q _] using rev_ind.
      * change (p ++ [(b, y); (b', y')]) with (p ++ [(b, y)] ++ [(b', y')]) in E. rewrite app_assoc in E. apply app_inj_tail in E.
        destruct E as (E & E'). injection E' as <- <-.
        destruct (H1 b y) as (_ & _ & [(t' & P)|(t' & P)]); [|exact N|discriminate P|injection P as _ P; exact P].
        unfold last_post. rewrite E, map_app. cbn [map]. rewrite last_last. reflexivity.
      * change (p ++ (b, y) :: (b', y') :: q ++ [z]) with (p ++ ((b, y) :: (b', y') :: q) ++ [z]) in E. rewrite app_assoc in E.
        apply app_inj_tail in E. destruct E as (E & _). exact (Sm p q b y b' y' E N).
Qed.
Lemma hand_run : forall es c, InHand c -> Same c -> ~ In (Ev Kill) es -> Same (crun c es).
Proof.
  induction es as [|e es IH]; intros c H S N; [exact S|]. destruct (hand_step c e H S) as (H' & S'); [intros ->; apply N; left; reflexivity|].
  apply (IH (cstep c e) H' S'). intros A. apply N. right. exact A.
Qed.
Lemma hand_fresh : InHand cfresh /\ Same cfresh.
Proof.
  split; [split|].
  - intros b x L. discriminate L.
  - intros t b L. discriminate L.
  - intros p q b x b' x' E. destruct p; discriminate E.
Qed.

(** Everything before the saved position was acknowledged. *)
Lemma saved_acked : forall es, calmly good strerror cfresh es ->
  let s := core (crun cfresh es) in
  exists n, brought (written s) (arrived s) n /\
    forall i o, saved s = Some (i, o) -> exists g, saved_file s = Some g /\ i = ino s g /\ (g < nfiles s)%nat /\
      (List.length (lines_before s g o) <= n)%nat.
Proof.
  intros es A s. apply calm_run in A. subst s. rewrite core_run. cbn [core cfresh] in *.
  destruct (inv_run good le Nat.le_refl (fun m n H => H) le_max _ fresh 0 (inv_fresh le Nat.le_refl) A) as (n & _ & V); [left; auto|].
  exists n. split; [apply comes_brought; apply (v_comes _ _ _ V)|]. intros i o E. pose proof (v_saved _ _ _ V) as Q. unfold sidx_ok in Q. rewrite E in Q.
  destruct (saved_file _) as [g|]; [|destruct Q]. destruct Q as (Q1 & Q2 & Q3 & Q4). exists g. split; [reflexivity|]. split; [exact Q3|]. split; [exact Q1|].
  unfold lines_before. rewrite app_length. unfold idx, before in Q4. destruct (ship _); exact Q4.
Qed.
Lemma serving_quiet : forall x k, acknowledged x -> flat_map plain_ev (serving x k) = quiet k.
Proof.
  intros x k A. apply (success_iff strerror) in A. induction k as [|k IH]; [reflexivity|]. cbn [serving flat_map plain_ev app quiet]. rewrite A, IH. reflexivity.
Qed.
End Proofs.
