(** Progress of buffered senders: proofs on the machine of SenderProofs. *)
From Coq Require Import List ZArith NArith Bool String Lia Permutation.
From Coq Require Import ZifyBool ZifyNat ZifyN.
From Verif Require Import Base PermTac PQueueModel PQueueSpec PQueueProofs PendingModel PendingSpec PendingProofs
  SenderModel SenderSpec SenderProofs SenderProofs2 SenderProofs3 SProgressSpec.
Import ListNotations.
Local Open Scope Z_scope.

Section Proofs.
Context {D M : Type}.
Variable no_meta : M.
Variables dto_ok truthy : D -> bool.
Variable wait : bool.
Variable max_retries : Z.
Notation sout := (sout D). Notation sev := (sev D). Notation pentry := (pentry D M). Notation ststate := (ststate D M).
Notation ast := (@ast D M).
Notation astep := (@astep D M no_meta dto_ok truthy wait max_retries).
Notation arun := (@arun D M no_meta dto_ok truthy wait max_retries).
Notation a_loop := (@a_loop D M dto_ok wait).
Notation a_settle := (@a_settle D M no_meta max_retries).
Implicit Types (a : ast) (t : ststate).

Definition left t : nat := match t with SCreated => 1 | SWaiting _ => 2 | SSending _ => 1 | SDone => 0 end.
Definition live t : bool := match t with SDone => false | _ => true end.
Definition own (i : nat) (ev : sev) : bool := match ev with STask j _ => Nat.eqb j i | _ => false end.

Lemma add_tail {V} (l : list (N * V)) k v : exists p, add l k v = l ++ p.
Proof. unfold add. destruct (has k l); [exists []; now rewrite app_nil_r|now exists [(k, v)]]. Qed.

Lemma wake_live a : live (at_ a) = true -> a_wake a = a.
Proof. unfold a_wake. destruct (at_ a); [reflexivity..|discriminate]. Qed.

Lemma other a ev : s_undisturbed ev = true -> own (an a) ev = false -> ap a = false -> live (at_ a) = true ->
  exists post, al (fst (astep a ev)) = al a ++ post /\ at_ (fst (astep a ev)) = at_ a /\ an (fst (astep a ev)) = an a /\ ap (fst (astep a ev)) = false.
Proof.
  intros U O P L.
  assert (W : forall b : ast, at_ b = at_ a -> a_wake b = b) by (intros b E; apply wake_live; now rewrite E).
  assert (Nil : exists post, al a = al a ++ post /\ at_ a = at_ a /\ an a = an a /\ ap a = false)
    by (exists []; rewrite app_nil_r; auto).
  destruct ev; cbn [SenderProofs.astep]; try discriminate.
  - cbn [fst snd a_pend]. rewrite W by reflexivity. destruct (add_tail (al a) k (mkP k 0 d no_meta)) as [p E]. exists p. cbn [with_l al at_ an ap]. auto.
  - cbn [own] in O. rewrite O. exact Nil.
  - cbn [fst]. rewrite W by reflexivity. exists []. rewrite app_nil_r. cbn [with_p al at_ an ap]. auto.
  - cbn [fst]. rewrite W by reflexivity. eexists. cbn [with_p with_l with_e al at_ an ap]. auto.
  - destruct (lookup k (ae a)) as [x|]; cbn [fst]; rewrite W by reflexivity; cbn [with_p with_l with_e al at_ an ap].
    + destruct (add_tail (al a) k (snd (retried (k, x)))) as [p E]. exists p. auto.
    + exists []. rewrite app_nil_r. auto.
  - destruct (lookup k (ae a)); exact Nil.
  - exact Nil.
  - exact Nil.
Qed.

Lemma settle_tail a e r : exists p, al (fst (a_settle a e r)) = al a ++ p.
Proof.
  assert (Nil : exists p, al a = al a ++ p) by (exists []; now rewrite app_nil_r).
  destruct r; cbn [SenderProofs.a_settle]; [exact Nil| |exact Nil].
  destruct (_ <=? _); [exact Nil|]. cbn [fst a_pend with_l al]. apply add_tail.
Qed.

(** What the loop does with a non-empty list. *)
Lemma loop_next a k e r : ap a = false -> al a = (k, e) :: r -> dto_ok (pe_data e) = true ->
  al (fst (a_loop a)) = r /\ an (fst (a_loop a)) = an a /\ ap (fst (a_loop a)) = false /\
  ((wait = true /\ at_ (fst (a_loop a)) = SWaiting e) \/
   (wait = false /\ at_ (fst (a_loop a)) = SSending e /\ In (OSend (pe_key e) (pe_data e)) (snd (a_loop a)))).
Proof.
  intros P L V. unfold SenderProofs.a_loop. rewrite P, L, V. destruct wait; cbn [fst snd with_t with_l al an ap at_].
  - split; [auto|]. split; [auto|]. split; [auto|]. now left.
  - split; [auto|]. split; [auto|]. split; [auto|]. right. split; [auto|]. split; [auto|]. cbn. auto.
Qed.

Definition ok_entry (x : N * pentry) : Prop := dto_ok (pe_data (snd x)) = true.

Lemma steps_cons i ev evs : s_steps_of i (ev :: evs) = ((if own i ev then 1 else 0) + s_steps_of i evs)%nat.
Proof. unfold s_steps_of, own. cbn [filter]. destruct ev; try reflexivity. destruct (Nat.eqb _ _); reflexivity. Qed.

Lemma arun_cons a ev evs : snd (arun a (ev :: evs)) = snd (astep a ev) ++ snd (arun (fst (astep a ev)) evs) /\
  fst (arun a (ev :: evs)) = fst (arun (fst (astep a ev)) evs).
Proof. cbn [SenderProofs.arun]. destruct (astep a ev) as [a1 o1]. cbn [fst snd]. destruct (arun a1 evs). auto. Qed.

(** An entry that is only waiting for the wait period is sent at the task's next step. *)
Lemma waiting_sent evs : forall a e, forallb s_undisturbed evs = true -> ap a = false -> at_ a = SWaiting e ->
  (1 <= s_steps_of (an a) evs)%nat -> In (OSend (pe_key e) (pe_data e)) (snd (arun a evs)).
Proof.
  induction evs as [|ev evs IH]; intros a e U P T St; [cbn in St; lia|].
  cbn [forallb] in U. apply andb_prop in U as [U1 U2]. rewrite steps_cons in St. destruct (arun_cons a ev evs) as [-> _].
  apply in_or_app. destruct (own (an a) ev) eqn:O.
  - left. destruct ev; try discriminate. cbn [own] in O. cbn [SenderProofs.astep]. rewrite O, T. cbn. auto.
  - right. destruct (other a ev U1 O P ltac:(now rewrite T)) as (p & A & B & C & E). apply IH; auto; [congruence|]. rewrite C. lia.
Qed.

Lemma bounded evs : forall a pre k e post, forallb s_undisturbed evs = true -> ap a = false -> live (at_ a) = true ->
  al a = pre ++ (k, e) :: post -> Forall ok_entry (pre ++ [(k, e)]) ->
  (2 * List.length pre + left (at_ a) + 1 <= s_steps_of (an a) evs)%nat ->
  In (OSend (pe_key e) (pe_data e)) (snd (arun a evs)).
Proof.
  induction evs as [|ev evs IH]; intros a pre k e post U P L A V St; [cbn in St; lia|].
  cbn [forallb] in U. apply andb_prop in U as [U1 U2]. rewrite steps_cons in St. destruct (arun_cons a ev evs) as [-> _].
  apply in_or_app. destruct (own (an a) ev) eqn:O.
  2:{ right. destruct (other a ev U1 O P L) as (p & B1 & B2 & B3 & B4).
      apply (IH _ pre k e (post ++ p)); auto; [congruence| |rewrite B2, B3; lia]. rewrite B1, A. now rewrite <- app_assoc. }
  (* a step of the task that runs the loop on [b] *)
  assert (Lp : forall b post', ap b = false -> an b = an a -> al b = pre ++ (k, e) :: post' -> left (at_ a) = 1%nat ->
     In (OSend (pe_key e) (pe_data e)) (snd (a_loop b)) \/ In (OSend (pe_key e) (pe_data e)) (snd (arun (fst (a_loop b)) evs))).
  { intros b post' Pb Nb Ab Lb. destruct pre as [|[k1 e1] pre].
    - cbn [app] in *. inversion V as [|? ? V1 V2]; subst. destruct (loop_next b k e post' Pb Ab V1) as (X1 & X2 & X3 & [[W X4]|(W & X4 & X5)]); [right|now left].
      apply waiting_sent; auto. rewrite X2, Nb. cbn [List.length] in St. lia.
    - cbn [app] in *. inversion V as [|? ? V1 V2]; subst. right.
      destruct (loop_next b k1 e1 _ Pb Ab V1) as (X1 & X2 & X3 & X4).
      apply (IH _ pre k e post'); auto.
      + destruct X4 as [[_ ->]|(_ & -> & _)]; reflexivity.
      + rewrite X2, Nb. cbn [List.length] in St. destruct X4 as [[_ ->]|(_ & -> & _)]; cbn [left]; lia. }
  destruct ev; try discriminate. cbn [own] in O. cbn [SenderProofs.astep]. rewrite O. destruct (at_ a) as [|x|x|] eqn:T; [| | |discriminate].
  - destruct (Lp a post P eq_refl A eq_refl); auto.
  - right. apply (IH _ pre k e post); auto. cbn [fst with_t at_ an left] in *. lia.
  - cbn [fst snd]. destruct (settle_tail a x r) as [p Ep]. destruct (a_settle_n no_meta max_retries a x r) as (N1 & N2 & N3 & N4).
    destruct (Lp (fst (a_settle a x r)) (post ++ p)) as [H|H]; auto.
    + congruence.
    + rewrite Ep, A. now rewrite <- app_assoc.
    + left. apply in_or_app. now right.
Qed.

(** ** Draining *)
Definition att (e : pentry) : nat := s_attempts_left max_retries (pe_retries e).
Definition cost (l : list (N * pentry)) : nat := list_sum (map (fun x => att (snd x)) l).
Definition hold t : nat := match t with SWaiting e | SSending e => att e - 1 | _ => 0 end.
Definition measure a : nat := (left (at_ a) + 2 * hold (at_ a) + 2 * cost (al a))%nat.
Lemma att_pos e : (1 <= att e)%nat. Proof. unfold att, s_attempts_left. lia. Qed.
Lemma cost_cons x l : cost (x :: l) = (att (snd x) + cost l)%nat. Proof. reflexivity. Qed.
Lemma cost_app l l' : cost (l ++ l') = (cost l + cost l')%nat.
Proof. unfold cost. now rewrite map_app, list_sum_app. Qed.

Lemma loop_measure a : ap a = false -> Forall ok_entry (al a) ->
  an (fst (a_loop a)) = an a /\ ap (fst (a_loop a)) = false /\ Forall ok_entry (al (fst (a_loop a))) /\
  (forall e, hand_of (at_ (fst (a_loop a))) = [e] -> dto_ok (pe_data e) = true) /\
  (measure (fst (a_loop a)) <= 2 * cost (al a))%nat /\ (at_ (fst (a_loop a)) = SDone -> al (fst (a_loop a)) = []).
Proof.
  intros P V. destruct (al a) as [|[k e] r] eqn:A.
  - unfold SenderProofs.a_loop. rewrite P, A. cbn [fst with_t an ap al at_ hand_of measure]. rewrite A, P. unfold measure. cbn. rewrite A. cbn.
    split; [auto|]. split; [auto|]. split; [constructor|]. split; [discriminate|]. split; [lia|auto].
  - inversion V as [|? ? V1 V2]; subst. cbn in V1. destruct (loop_next a k e r P A V1) as (X1 & X2 & X3 & X4).
    rewrite X1, X2, X3, cost_cons. cbn [snd]. pose proof (att_pos e) as Ap. unfold measure. rewrite X1.
    split; [auto|]. split; [auto|]. split; [auto|].
    destruct X4 as [[_ ->]|(_ & -> & _)]; cbn [hand_of left hold];
      (split; [intros e' [= <-]; exact V1|split; [lia|discriminate]]).
Qed.

Lemma settle_measure a e r : dto_ok (pe_data e) = true -> Forall ok_entry (al a) ->
  Forall ok_entry (al (fst (a_settle a e r))) /\ (cost (al (fst (a_settle a e r))) <= att e - 1 + cost (al a))%nat.
Proof.
  intros V1 V. pose proof (att_pos e) as Ap.
  assert (Nil : Forall ok_entry (al a) /\ (cost (al a) <= att e - 1 + cost (al a))%nat) by (split; [auto|lia]).
  destruct r; cbn [SenderProofs.a_settle]; [exact Nil| |exact Nil].
  destruct (max_retries <=? pe_retries e + 1) eqn:B; [exact Nil|]. cbn [fst a_pend with_l al]. unfold add.
  destruct (has _ _); [exact Nil|]. split; [apply Forall_app; split; [auto|now repeat constructor]|].
  rewrite cost_app. cbn [cost map list_sum fold_right snd]. unfold att, s_attempts_left in *. cbn [pe_retries]. lia.
Qed.

Definition good a : Prop := ap a = false /\ Forall ok_entry (al a) /\ (forall e, hand_of (at_ a) = [e] -> dto_ok (pe_data e) = true) /\
  (at_ a = SDone -> al a = []).

Lemma own_step a r : good a -> let a' := fst (astep a (STask (an a) r)) in
  good a' /\ an a' = an a /\ (measure a' <= measure a - 1)%nat.
Proof.
  intros (P & V & Hd & Dn). cbn [SenderProofs.astep]. rewrite Nat.eqb_refl. destruct (at_ a) as [|e|e|] eqn:T.
  - destruct (loop_measure a P V) as (X1 & X2 & X3 & X4 & X5 & X6). cbv zeta. split; [repeat split; auto|]. split; [auto|].
    unfold measure at 2. rewrite T. cbn [left hold]. lia.
  - cbn [fst]. cbv zeta. split; [split; [exact P|split; [exact V|split; [exact Hd|discriminate]]]|]. split; [reflexivity|].
    unfold measure. cbn [with_t at_ al left hold]. rewrite T. cbn [left hold]. lia.
  - cbn [fst]. cbv zeta. destruct (settle_measure a e r (Hd e eq_refl) V) as [S1 S2].
    destruct (a_settle_n no_meta max_retries a e r) as (N1 & N2 & N3 & N4).
    destruct (loop_measure (fst (a_settle a e r)) ltac:(congruence) S1) as (X1 & X2 & X3 & X4 & X5 & X6).
    split; [repeat split; auto|]. split; [congruence|]. unfold measure at 2. rewrite T. cbn [left hold]. lia.
  - cbn [fst]. cbv zeta. split; [split; [exact P|split; [exact V|split; [now rewrite T|auto]]]|]. split; [reflexivity|].
    unfold measure. rewrite T, (Dn eq_refl). cbn. lia.
Qed.

Lemma drains rs : forall a, good a -> (measure a <= List.length rs)%nat ->
  al (fst (arun a (map (STask (an a)) rs))) = [] /\ at_ (fst (arun a (map (STask (an a)) rs))) = SDone.
Proof.
  induction rs as [|r rs IH]; intros a G L; cbn [map List.length] in *.
  - cbn [SenderProofs.arun fst]. destruct G as (_ & _ & _ & Dn). unfold measure in L.
    destruct (at_ a); cbn [left] in L; try lia. auto.
  - destruct (arun_cons a (STask (an a) r) (map (STask (an a)) rs)) as [_ ->].
    destruct (own_step a r G) as (G' & N' & L'). specialize (IH _ G' ltac:(lia)). rewrite N' in IH. exact IH.
Qed.

End Proofs.
