(** Datagram clients: how often a request is sent. *)
From Coq Require Import ZArith NArith Bool String Lia Arith List.
From Verif Require Import RouterModel ClientModel ClientSpec.
Import ListNotations.
Local Open Scope Z_scope.

Lemma stream_transient : forall x, stream_retries x = transient_failure true x.
Proof. intros []; reflexivity. Qed.
Lemma datagram_transient : forall x, datagram_retries x = transient_failure false x.
Proof. intros []; reflexivity. Qed.

Section Sends.
Context (max : Z).
(** [k] requests were sent by a call in state [t]. *)
Definition sent_ok (t : dstate) (k : Z) : Prop :=
  match t with
  | DWait n | DSleep n => k = n /\ n < max
  | DSent n => k = n + 1 /\ n < max
  | DDone OMax => k = max
  | DDone _ => 0 <= k <= max
  end.
Definition counts (s : dclient) (k : nat -> nat) : Prop :=
  forall i, if Nat.ltb i (dn s) then sent_ok (dtasks s i) (Z.of_nat (k i)) else k i = 0%nat /\ dtasks s i = DDone ONone.

Definition didle' (t : dstate) : Prop := match t with DSent _ => False | _ => True end.
Lemma sends_app s a b i : sends max s (a ++ b) i = (sends max s a i + sends max (fold_left (dstep max) a s) b i)%nat.
Proof. revert s. induction a as [|e a IH]; intros s; [reflexivity|]. cbn [app sends fold_left]. rewrite IH. lia. Qed.

Definition holds (s : dclient) : Prop := forall j, dheld s = Some j -> exists n, dtasks s j = DSent n.
Lemma holds_step s e k : counts s k -> holds s -> holds (dstep max s e).
Proof.
  intros C H j. specialize (C (dn s)). rewrite Nat.ltb_irrefl in C. destruct C as [_ C].
  destruct s as [h w rs nt m ts]. unfold holds in H. cbn [dheld dn dtasks] in *.
  assert (U : forall i t, didle' (ts i) -> h = Some j -> exists n, fupd ts i t j = DSent n).
  { intros i t D E. destruct (H _ E) as [n N]. exists n. unfold fupd. destruct (Nat.eqb_spec j i) as [->|]; [rewrite N in D; destruct D|exact N]. }
  assert (S1 : forall i n, Some i = Some j -> exists n', fupd ts i (DSent n) j = DSent n').
  { intros i n E. injection E as ->. exists n. unfold fupd. now rewrite Nat.eqb_refl. }
  destruct e as [| |r|r|r|i|i]; cbn [dstep dheld dwait dresponse net dn dtasks].
  - assert (D : didle' (ts m)) by (rewrite C; exact Logic.I).
    destruct (0 <? max); [|cbn [dset dheld dtasks]; now apply U].
    unfold dattempt. cbn [dheld dwait]. destruct h, w; cbn [dsend dset dheld dtasks]; auto.
  - destruct h as [h|]; cbn [dheld dtasks]; [apply H|]. destruct w as [|i w]; cbn [dheld dtasks]; [apply H|].
    destruct (ts i) as [n|n|n|o] eqn:E; cbn [dsend dset dheld dtasks]; auto; discriminate.
  - destruct (take_out r nt) as [rest|]; cbn [dheld dtasks dresponse]; [|apply H].
    destruct rs as [[]|]; cbn [dheld dtasks]; try apply H. destruct h as [i|]; cbn [dset dheld dtasks]; discriminate.
  - destruct (take_out r nt); cbn [dheld dtasks]; apply H.
  - destruct (take_out r nt); cbn [dheld dtasks]; apply H.
  - destruct (i <? m)%nat; cbn [dheld dtasks]; [|apply H].
    destruct (ts i) as [n|n|n|o] eqn:E; cbn [dheld dtasks]; try apply H. destruct (max <=? n + 1); cbn [dset dheld dtasks]; discriminate.
  - destruct (i <? m)%nat; cbn [dheld dtasks]; [|apply H].
    destruct (ts i) as [n|n|n|o] eqn:E; cbn [dheld dtasks]; try apply H.
    assert (D : didle' (ts i)) by (rewrite E; exact Logic.I).
    destruct (n <? max); [|cbn [dset dheld dtasks]; now apply U].
    unfold dattempt. cbn [dheld dwait]. destruct h, w; cbn [dsend dset dheld dtasks]; auto.
Qed.

Lemma counts_step s e k : 0 <= max -> holds s -> counts s k ->
  counts (dstep max s e) (fun i => (k i + put_out (dtasks s i) (dtasks (dstep max s e) i))%nat).
Proof.
  intros Hm HH H i. specialize (H i).
  assert (P : forall t, put_out t t = 0%nat) by (intros [| | |]; reflexivity).
  destruct s as [h w rs nt m ts]. cbn [dn dtasks] in H.
  destruct e as [| |r|r|r|j|j]; cbn [dstep dheld dwait dresponse net dn dtasks].
  - (* DStart *)
    assert (Q : forall t, (t = DWait 0 \/ t = DSent 0) /\ 0 < max \/ t = DDone ONone ->
       (if (i <? S m)%nat then sent_ok (fupd ts m t i) (Z.of_nat (k i + put_out (ts i) (fupd ts m t i)))
        else (k i + put_out (ts i) (fupd ts m t i))%nat = 0%nat /\ fupd ts m t i = DDone ONone)).
    { intros t Ht. unfold fupd. destruct (Nat.eqb_spec i m) as [->|N].
      - rewrite Nat.ltb_irrefl in H. destruct H as [-> ->]. assert ((m <? S m)%nat = true) as -> by (apply Nat.ltb_lt; lia).
        destruct Ht as [[[->| ->] ?]| ->]; cbn; lia.
      - rewrite P, Nat.add_0_r. destruct (Nat.ltb_spec i m); destruct (Nat.ltb_spec i (S m)); try lia; exact H. }
    destruct (Z.ltb_spec 0 max).
    + unfold dattempt. cbn [dheld dwait]. destruct h, w; cbn [dsend dset dn dtasks]; apply Q; auto.
    + cbn [dset dn dtasks]. apply Q. auto.
  - (* DGrant *)
    destruct h as [h|]; cbn [dn dtasks]; [rewrite P, Nat.add_0_r; exact H|]. destruct w as [|j w]; cbn [dn dtasks]; [rewrite P, Nat.add_0_r; exact H|].
    destruct (ts j) as [n|n|n|o] eqn:E; cbn [dsend dset dn dtasks]; try (rewrite P, Nat.add_0_r; exact H).
    unfold fupd. destruct (Nat.eqb_spec i j) as [->|N]; [|rewrite P, Nat.add_0_r; exact H].
    rewrite E in *. destruct (j <? m)%nat; [cbn in *; lia|destruct H; discriminate].
  - destruct (take_out r nt) as [rest|]; cbn [dn dtasks dresponse dheld]; [|rewrite P, Nat.add_0_r; exact H].
    destruct rs as [[]|]; cbn [dn dtasks]; try (rewrite P, Nat.add_0_r; exact H).
    destruct h as [j|]; cbn [dn dtasks dset]; [|rewrite P, Nat.add_0_r; exact H].
    destruct (HH j eq_refl) as [n E]. cbn [dtasks] in E. unfold fupd. destruct (Nat.eqb_spec i j) as [->|N]; [|rewrite P, Nat.add_0_r; exact H].
    rewrite E in *. destruct (Nat.ltb_spec j m); [cbn in *; lia|destruct H; discriminate].
  - destruct (take_out r nt) as [rest|]; cbn [dn dtasks]; rewrite P, Nat.add_0_r; exact H.
  - destruct (take_out r nt) as [rest|]; cbn [dn dtasks]; rewrite P, Nat.add_0_r; exact H.
  - destruct (Nat.ltb_spec j m); cbn [dn dtasks]; [|rewrite P, Nat.add_0_r; exact H].
    destruct (ts j) as [n|n|n|o] eqn:E; cbn [dset dn dtasks]; try (rewrite P, Nat.add_0_r; exact H).
    destruct (Z.leb_spec max (n + 1)); cbn [dset dn dtasks]; unfold fupd; (destruct (Nat.eqb_spec i j) as [->|N]; [|rewrite P, Nat.add_0_r; exact H]);
      rewrite E in *; (destruct (Nat.ltb_spec j m); [cbn in *; lia|lia]).
  - destruct (Nat.ltb_spec j m); cbn [dn dtasks]; [|rewrite P, Nat.add_0_r; exact H].
    destruct (ts j) as [n|n|n|o] eqn:E; cbn [dset dn dtasks]; try (rewrite P, Nat.add_0_r; exact H).
    assert (Q : forall t, t = DWait n \/ t = DSent n -> n < max -> if (i <? m)%nat then sent_ok (fupd ts j t i) (Z.of_nat (k i + put_out (ts i) (fupd ts j t i)))
        else (k i + put_out (ts i) (fupd ts j t i))%nat = 0%nat /\ fupd ts j t i = DDone ONone).
    { intros t Ht Hn. unfold fupd. destruct (Nat.eqb_spec i j) as [->|N]; [|rewrite P, Nat.add_0_r; exact H].
      rewrite E in *. destruct (Nat.ltb_spec j m); [|lia]. destruct Ht as [->| ->]; cbn in *; lia. }
    destruct (Z.ltb_spec n max).
    + unfold dattempt. cbn [dheld dwait]. destruct h, w; cbn [dsend dset dn dtasks]; apply Q; auto.
    + cbn [dset dn dtasks]. unfold fupd. destruct (Nat.eqb_spec i j) as [->|N]; [|rewrite P, Nat.add_0_r; exact H].
      rewrite E in *. destruct (Nat.ltb_spec j m); [cbn in *; lia|lia].
Qed.

Theorem sends_ok evs : 0 <= max -> counts (drun max evs) (sends max dstart evs).
Proof.
  intros Hm. enough (H : counts (drun max evs) (sends max dstart evs) /\ holds (drun max evs)) by apply H.
  unfold drun. induction evs as [|e evs IH] using rev_ind.
  - split; [intros i; cbn; auto|intros j; discriminate].
  - destruct IH as [C H]. rewrite fold_left_app. cbn [fold_left]. split; [|eapply holds_step; eauto].
    intros i. pose proof (counts_step _ e _ Hm H C i) as Q. cbv beta in Q. rewrite sends_app. cbn [sends]. rewrite Nat.add_0_r. exact Q.
Qed.
End Sends.
