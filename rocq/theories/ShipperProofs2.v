(** The shipper, left alone, delivers everything; lines it cannot parse stop it for good. *)
From Coq Require Import Bool Lia List Arith Ascii.
From Verif Require Import ShipperModel ShipperSpec ShipperProofs.
Import ListNotations.

Section Live.
Context (good : line -> bool).
Notation Inv := (Inv le).
Definition tick (s : sys) : sys := step good (step good s Step) (Reply true true).
Lemma le_or : forall P : Prop, (forall a b : nat, a <= b -> a <= b) \/ P.
Proof. intros P. left. auto. Qed.
Lemma inv_tick : forall s n, Inv s n -> exists n', n <= n' /\ Inv (tick s) n'.
Proof.
  intros s n V. pose proof (inv_ship_step good le (fun m n H => H) s n V) as V1.
  apply (inv_reply good le (fun m n H => H) le_max _ n true true V1). left. auto.
Qed.
Lemma ship_written : forall s, written (ship_step good s) = written s /\ nfiles (ship_step good s) = nfiles s /\ path (ship_step good s) = path s /\ content (ship_step good s) = content s.
Proof.
  intros s. unfold ship_step. destruct (ship s) as [|i o|o|t [|]|t|t ls|t ls|t und|t und]; try (repeat split; reflexivity).
  - destruct (path s) eqn:P; cbn [path with_ship]; rewrite ?P; repeat split; reflexivity.
  - destruct (read_lines s t). repeat split; reflexivity.
  - destruct (path s) eqn:P; cbn [path with_ship]; rewrite ?P; repeat split; reflexivity.
  - destruct (read_lines s t). repeat split; reflexivity.
Qed.
Lemma reply_written : forall s a b, written (step good s (Reply a b)) = written s /\ nfiles (step good s (Reply a b)) = nfiles s /\ path (step good s (Reply a b)) = path s.
Proof. intros s a b. cbn [step]. destruct (ship s); repeat split; reflexivity. Qed.
Lemma tick_written : forall s, written (tick s) = written s.
Proof. intros s. unfold tick. destruct (reply_written (step good s Step) true true) as (-> & _). apply ship_written. Qed.
Definition last_open (s : sys) (t : tracked) : bool := Nat.eqb (nfiles s) (S (fd t)).
Definition rank (s : sys) : nat :=
  match ship s with
  | Down => 0
  | Read t _ => if last_open s t then 1 else 6
  | Reopen _ _ => 2
  | Drain _ => 3
  | Idle _ [] => 4
  | Save _ _ | Open0 _ => 5
  | Attach _ _ | Idle _ _ | Post _ _ => 6
  end.
Definition all_good (s : sys) : Prop := Forall (fun l => good l = true) (written s).
Lemma hand_good : forall s n t ls, all_good s -> hand le s n t ls -> forallb good ls = true.
Proof.
  intros s n t ls G (m & _ & (x & z & E & _) & _). apply forallb_forall. intros l H. unfold all_good in G. rewrite E in G.
  apply Forall_app in G. destruct G as (_ & G). apply Forall_app in G. destruct G as (G & _). rewrite Forall_forall in G. auto.
Qed.
(** A batch in hand is delivered. *)
Lemma deliver_ships : forall s n t und, Inv (with_ship s (deliver good t und)) n -> T_ok s t -> hand le s n t und -> all_good s ->
  let s' := step good (with_ship s (deliver good t und)) (Reply true true) in
  exists n', n <= n' /\ Inv s' n' /\ pidx s t <= n' /\ ship s' = (match und with [] => Idle t [] | _ => Save t und end).
Proof.
  intros s n t und V T H G s'. destruct und as [|l r].
  - exists n. split; [lia|]. split; [exact V|]. split; [apply (hand_nil_inv le); exact H|reflexivity].
  - destruct (inv_reply good le (fun m n H => H) le_max _ n true true V) as (n' & L & V'); [left; auto|]. fold s' in V'.
    assert (S : ship s' = Save t (l :: r)).
    { unfold s'. cbn [step]. unfold deliver. rewrite (hand_good s n t (l :: r) G H). reflexivity. }
    exists n'. split; [exact L|]. split; [exact V'|]. split; [|exact S].
    pose proof (v_pc _ _ _ V') as P. unfold pc_ok in P. rewrite S in P. destruct P as (_ & P).
    assert (E : pidx s' t = pidx s t); [|rewrite <- E; exact P].
    unfold s'. cbn [step]. unfold deliver. rewrite (hand_good s n t (l :: r) G H). reflexivity.
Qed.
Lemma tick_rank : forall s n, Inv s n -> all_good s -> ship s <> Down ->
  exists n', n <= n' /\ Inv (tick s) n' /\ ship (tick s) <> Down /\ (length (written s) <= n' \/ rank (tick s) < rank s).
Proof.
  intros s n V G U. pose proof (inv_ship_step good le (fun m n H => H) s n V) as V1.
  pose proof V as [W1 W2 W3 W4 W5]. unfold pc_ok in W4.
  unfold tick, rank at 2. cbn [step] in V1 |- *. unfold ship_step in *. destruct (ship s) as [|i o|o|t und|t|t ls|t ls|t und|t und] eqn:S.
  - congruence.
  - exists n. split; [lia|]. split; [exact V1|]. split; [discriminate|]. right. cbn. lia.
  - destruct W4 as (f & P & _). rewrite P in *. exists n. split; [lia|]. split; [exact V1|]. split; [discriminate|]. right. cbn. lia.
  - destruct W4 as (T & H). destruct und as [|l r].
    + destruct (path s) as [f|] eqn:P.
      * destruct (Nat.eqb_spec (ino s f) (inode t)) as [E|E].
        -- exists n. split; [lia|]. split; [exact V1|]. split; [discriminate|]. right. cbn. unfold last_open. cbn [nfiles with_ship].
           rewrite (t_ino s t T) in E. rewrite <- (t_uniq s t T f P E), (W3 f eq_refl), Nat.eqb_refl. lia.
        -- exists n. split; [lia|]. split; [exact V1|]. split; [discriminate|]. right. cbn. lia.
      * exists n. split; [lia|]. split; [exact V1|]. split; [discriminate|]. right. cbn. unfold last_open. cbn [nfiles with_ship].
        rewrite (t_gone s t T P), Nat.eqb_refl. lia.
    + destruct (deliver_ships s n t (l :: r) V1 T H G) as (n' & L & V' & _ & S'). exists n'. split; [exact L|]. split; [exact V'|].
      cbn [step] in S'. unfold rank. rewrite S'. split; [discriminate|]. right. lia.
  - destruct (read_lines s t) as (t', ls). exists n. split; [lia|]. split; [exact V1|]. split; [discriminate|]. right. cbn. lia.
  - destruct W4 as (T & H & P & B). rewrite P in *. exists n. split; [lia|]. split; [exact V1|]. split; [discriminate|]. right.
    cbn. unfold last_open. cbn [nfiles with_ship open_at fd]. rewrite (W3 _ eq_refl), Nat.eqb_refl. lia.
  - destruct W4 as (T & H). destruct (read_lines s t) as (t', ls') eqn:E.
    destruct (hand_read le s n t t' ls ls' T H E) as (T' & H'). destruct (read_ok s t t' ls' T E) as (_ & F & _ & _ & B).
    destruct (deliver_ships s n t' (ls ++ ls') V1 T' H' G) as (n' & L & V' & Q & S'). cbn [step] in S', V'.
    exists n'. split; [exact L|]. split; [exact V'|]. split; [rewrite S'; destruct (ls ++ ls'); discriminate|].
    unfold last_open. destruct (Nat.eqb_spec (nfiles s) (Datatypes.S (fd t))) as [N|N].
    + left. rewrite written_before, N. congruence.
    + right. unfold rank. rewrite S'. destruct (ls ++ ls'); lia.
  - destruct W4 as (T & H). destruct (inv_reply good le (fun m n H => H) le_max s n true true V) as (n' & L & V'); [left; auto|].
    exists n'. split; [exact L|]. split; [exact V'|].
    assert (S' : ship (step good s (Reply true true)) = Save t und) by (cbn [step]; rewrite S; reflexivity).
    cbn [step] in S'. unfold rank. rewrite S in S' |- *. rewrite S'. split; [discriminate|]. right. lia.
  - exists n. split; [lia|]. split; [exact V1|]. split; [discriminate|]. right. cbn. lia.
Qed.
Lemma run_quiet : forall k s, run good s (quiet (S k)) = run good (tick s) (quiet k).
Proof. reflexivity. Qed.
Lemma ships_all : forall k s n, Inv s n -> all_good s -> ship s <> Down -> (length (written s) <= n \/ rank s <= k) ->
  exists n', Inv (run good s (quiet k)) n' /\ n' = length (written s) /\ written (run good s (quiet k)) = written s.
Proof.
  induction k as [|k IH]; intros s n V G U H.
  - exists n. split; [exact V|]. split; [|reflexivity]. pose proof (v_n _ _ _ V). destruct H as [H|H]; [lia|].
    exfalso. unfold rank in H. destruct (ship s) as [| | |t [|]| | |t ls| |]; try lia; [congruence|]. destruct (last_open s t); lia.
  - rewrite run_quiet. destruct (tick_rank s n V G U) as (n1 & L & V1 & U1 & D).
    destruct (IH (tick s) n1 V1) as (n' & V' & E & E'); [unfold all_good; rewrite tick_written; exact G|exact U1| |].
    + rewrite tick_written. destruct D as [D|D]; [left; exact D|]. destruct H as [H|H]; [left; lia|right; lia].
    + rewrite tick_written in *. exists n'. auto.
Qed.
Lemma rank_max : forall s, rank s <= 6.
Proof. intros s. unfold rank. destruct (ship s) as [| | |t [|]| | |t ls| |]; try lia. destruct (last_open s t); lia. Qed.

(** A line that cannot be parsed. *)
Definition bad_after (s : sys) (f o : nat) : Prop := exists l, In l (complete (skipn o (content s f))) /\ good l = false.
Definition jammed (s : sys) (f o : nat) : Prop :=
  path s = Some f /\ o <= length (content s f) /\ bad_after s f o /\
  match saved s with Some (i, o') => i = ino s f /\ o' = o | None => o = 0 end /\
  match ship s with
  | Down => True
  | Attach i o' => i = ino s f /\ o' = o
  | Open0 o' => o' = o
  | Idle t [] | Read t [] => t = open_at s f o
  | _ => False
  end.
Lemma bad_app : forall s f o b, o <= length (content s f) -> bad_after s f o -> exists l, In l (complete (skipn o (content s f ++ b))) /\ good l = false.
Proof.
  intros s f o b L (l & H & B). exists l. split; [|exact B]. rewrite skipn_app. destruct (complete_grows (skipn o (content s f)) (skipn (o - length (content s f)) b)) as (m & ->).
  apply in_or_app. left. exact H.
Qed.
Lemma jam_step : forall s f o e, jammed s f o -> e <> Rename -> jammed (step good s e) f o /\ arrived (step good s e) = arrived s.
Proof.
  intros s f o e (P & L & B & SV & PC) NR. destruct e; cbn [step]; try congruence; rewrite ?P.
  - split; [|reflexivity]. unfold jammed. cbn [path content saved ship ino].
    split; [reflexivity|]. unfold upd. rewrite Nat.eqb_refl. split; [rewrite app_length; lia|]. split.
    + unfold bad_after. cbn [content]. unfold upd. rewrite Nat.eqb_refl. apply bad_app; assumption.
    + split; [exact SV|]. exact PC.
  - split; [|reflexivity]. repeat split; assumption.
  - destruct (Nat.eqb i f); (split; [|reflexivity]); repeat split; assumption.
  - destruct (ship s) eqn:S; (split; [|reflexivity]); try (unfold jammed; rewrite S; exact (conj P (conj L (conj B (conj SV PC))))).
    unfold jammed. cbn [with_ship path content saved ship ino]. repeat (split; [assumption|]). destruct (saved s) as [(i, o')|]; [exact SV|]. symmetry; exact SV.
  - split; [|reflexivity]. unfold jammed. cbn [with_ship path content saved ship ino]. repeat (split; [assumption|]). exact I.
  - unfold ship_step. destruct (ship s) as [|i o'|o'|t [|]|t|t ls|t [|]|t und|t und] eqn:S; try contradiction.
    + split; [|reflexivity]. unfold jammed. rewrite S. exact (conj P (conj L (conj B (conj SV PC)))).
    + destruct PC as (-> & ->). rewrite P, Nat.eqb_refl. split; [|reflexivity]. unfold jammed. cbn [with_ship path content saved ship ino]. repeat (split; [assumption|]). reflexivity.
    + subst o'. rewrite P. split; [|reflexivity]. unfold jammed. cbn [with_ship path content saved ship ino]. repeat (split; [assumption|]). reflexivity.
    + subst t. rewrite P. cbn [open_at inode]. rewrite Nat.eqb_refl. split; [|reflexivity]. unfold jammed. cbn [with_ship path content saved ship ino]. repeat (split; [assumption|]). reflexivity.
    + subst t. unfold read_lines. cbn [open_at pending pos fd app]. rewrite split_ok.
      split; [|reflexivity]. unfold jammed. cbn [with_ship path content saved ship ino]. repeat (split; [assumption|]).
      destruct B as (l & H & Bl). unfold deliver. destruct (complete (skipn o (content s f))) as [|x r] eqn:E; [destruct H|].
      destruct (forallb good (x :: r)) eqn:F; [|exact I]. rewrite forallb_forall in F. rewrite (F l H) in Bl. discriminate.
  - destruct (ship s) as [|i o'|o'|t [|]|t|t ls|t [|]|t und|t und] eqn:S; try contradiction; (split; [|reflexivity]); unfold jammed; rewrite S; exact (conj P (conj L (conj B (conj SV PC)))).
Qed.
Lemma jam_run : forall es s f o, jammed s f o -> ~ In Rename es -> arrived (run good s es) = arrived s.
Proof.
  induction es as [|e es IH]; intros s f o J N; [reflexivity|].
  destruct (jam_step s f o e J) as (J' & E); [intros ->; apply N; left; reflexivity|].
  change (arrived (run good (step good s e) es) = arrived s). rewrite (IH _ f o J'); [exact E|]. intros H. apply N. right. exact H.
Qed.
End Live.
