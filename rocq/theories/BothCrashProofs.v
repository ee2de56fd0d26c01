(** Proofs about two applications that both crash: the lives of each, and what the connections know. *)
From Coq Require Import List ZArith NArith Bool String Lia Permutation.
From Verif Require Import Base PermTac PQueueModel PQueueSpec PQueueProofs PendingModel PendingSpec PendingProofs
  SenderModel SenderSpec SenderProofs SenderProofs2 SenderProofs3 HandlerModel HandlerSpec HandlerProofs HandlerProofs3 HandlerProofs5
  DeliveryModel DeliverySpec DeliveryProofs DeliveryProofs2 DeliveryProofs3 DeliveryProofs4
  SCrashModel SCrashProofs2 CrashModel CrashProofs CrashProofs2 CrashProofs3 BothCrashModel.
Import ListNotations.
Local Open Scope Z_scope.

Section World.
Context {D MA MB : Type}.
Variables (meta_a : MA) (dto_a truthy_a : D -> bool) (wait : bool) (max_a cmax : Z).
Variables (meta_b : MB) (dto_b truthy_b : D -> bool) (max_b : Z).
Notation world := (world D MA MB). Notation wev := (wev D MB). Notation conn := (conn D). Notation msg := (msg D).
Notation wstep := (@wstep D MA MB meta_a dto_a truthy_a wait max_a cmax meta_b dto_b truthy_b max_b).
Notation sstep := (@sstep D MA meta_a dto_a truthy_a wait max_a).
Notation srun := (@srun D MA meta_a dto_a truthy_a wait max_a).
Notation hstep := (@hstep D MB meta_b dto_b truthy_b max_b).
Notation hrun := (@hrun D MB meta_b dto_b truthy_b max_b).
Notation s_lives := (@s_lives D MA meta_a dto_a truthy_a wait max_a).
Notation s_crash_at := (@s_crash_at D MA meta_a dto_a truthy_a wait max_a).
Notation lives := (@lives D MB meta_b dto_b truthy_b max_b).
Notation crash_at := (@crash_at D MB meta_b dto_b truthy_b max_b).
Notation wlives := (@wlives D MA MB meta_a dto_a truthy_a wait max_a cmax meta_b dto_b truthy_b max_b).
Notation J := (@J D MA MB dto_b).
Implicit Types (w : world).

(** ** A step of both is at most one step of each *)
Lemma wstep_a w ev w' l : wstep w ev = (w', l) ->
  (wa w' = wa w /\ ao w' = ao w) \/ exists e o, sstep (wa w) e = (wa w', o) /\ ao w' = ao w ++ o.
Proof.
  destruct ev as [e|i|i x|i|c|c|e|k d]; cbn [DeliveryModel.wstep]; unfold end_call, set_a, set_b, set_net; intros E;
    repeat match type of E with
    | context [let (_, _) := sstep ?s ?e in _] => destruct (sstep s e) eqn:?
    | context [let (_, _) := hstep ?s ?e in _] => destruct (hstep s e) eqn:?
    | context [match ?x with _ => _ end] => destruct x
    end; injection E as <- <-; cbn [wa ao]; rewrite ?app_nil_r; eauto.
Qed.
Lemma wstep_b w ev w' l : wstep w ev = (w', l) ->
  (wb w' = wb w /\ bo w' = bo w) \/ exists e o, hstep (wb w) e = (wb w', o) /\ bo w' = bo w ++ o.
Proof.
  destruct ev as [e|i|i x|i|c|c|e|k d]; cbn [DeliveryModel.wstep]; unfold end_call, set_a, set_b, set_net; intros E;
    repeat match type of E with
    | context [let (_, _) := sstep ?s ?e in _] => destruct (sstep s e) eqn:?
    | context [let (_, _) := hstep ?s ?e in _] => destruct (hstep s e) eqn:?
    | context [match ?x with _ => _ end] => destruct x
    end; injection E as <- <-; cbn [wb bo]; rewrite ?app_nil_r; eauto.
Qed.

(** ** The lives of each *)
Definition a_life na pa w : Prop := exists outs f evs o, s_lives outs na f /\ 1 <= pa /\
  srun (s_setup (pq_open pa (fst f) (snd f))) evs = (wa w, o) /\ sclosed (wa w) = 0%nat /\ ao w = outs ++ o.
Definition b_life nb pb w : Prop := exists outs f evs o, lives outs nb f /\ 1 <= pb /\
  hrun (setup (pq_open pb (fst f) (snd f))) evs = (wb w, o) /\ closed (wb w) = 0%nat /\ bo w = outs ++ o.

Lemma s_open outs n f m f' : s_lives outs n f -> openings f m f' -> s_lives outs (n + m) f'.
Proof.
  intros L O. induction O as [|f m f' ps f'' O IH P I]; [now rewrite Z.add_0_r|].
  rewrite Z.add_assoc. eapply sl_opening; eauto.
Qed.
Lemma h_open outs n f m f' : lives outs n f -> openings f m f' -> lives outs (n + m) f'.
Proof.
  intros L O. induction O as [|f m f' ps f'' O IH P I]; [now rewrite Z.add_0_r|].
  rewrite Z.add_assoc. eapply lv_opening; eauto.
Qed.

Lemma s_setup_open q : sclosed (s_setup (D:=D) (M:=MA) q) = 0%nat.
Proof.
  unfold s_setup, s_check. repeat match goal with |- context [match ?x with _ => _ end] => destruct x end; reflexivity.
Qed.
Lemma setup_open q : closed (setup (D:=D) (M:=MB) q) = 0%nat.
Proof. unfold setup. repeat (rewrite check_closed; cbn [set_proc closed]). reflexivity. Qed.

Lemma start_a outs na f w p : s_lives outs na f -> 1 <= p -> wa w = s_setup (pq_open p (fst f) (snd f)) -> ao w = outs -> a_life na p w.
Proof.
  intros L P A O. exists outs, f, [], []. rewrite A, O, app_nil_r. split; [auto|]. split; [auto|]. split; [reflexivity|].
  split; [apply s_setup_open|reflexivity].
Qed.
Lemma start_b outs nb f w p : lives outs nb f -> 1 <= p -> wb w = setup (pq_open p (fst f) (snd f)) -> bo w = outs -> b_life nb p w.
Proof.
  intros L P A O. exists outs, f, [], []. rewrite A, O, app_nil_r. split; [auto|]. split; [auto|]. split; [reflexivity|].
  split; [apply setup_open|reflexivity].
Qed.

Lemma same_a na pa w w' : a_life na pa w -> wa w' = wa w -> ao w' = ao w -> a_life na pa w'.
Proof. intros H A B. unfold a_life. rewrite A, B. exact H. Qed.
Lemma same_b na pa w w' : b_life na pa w -> wb w' = wb w -> bo w' = bo w -> b_life na pa w'.
Proof. intros H A B. unfold b_life. rewrite A, B. exact H. Qed.

Lemma step_life_a na pa w ev w' l : a_life na pa w -> wstep w ev = (w', l) -> sclosed (wa w') = 0%nat -> a_life na pa w'.
Proof.
  intros H E C. destruct (wstep_a _ _ _ _ E) as [[A B]|[e [o1 [A B]]]]; [eapply same_a; eauto|].
  destruct H as [outs [f [evs [o [L [P [R [C0 O]]]]]]]]. exists outs, f, (evs ++ [e]), (o ++ o1).
  rewrite srun_app, R, srun_one, A. split; [auto|]. split; [auto|]. split; [auto|]. split; [auto|]. now rewrite B, O, app_assoc.
Qed.
Lemma step_life_b nb pb w ev w' l : b_life nb pb w -> wstep w ev = (w', l) -> closed (wb w') = 0%nat -> b_life nb pb w'.
Proof.
  intros H E C. destruct (wstep_b _ _ _ _ E) as [[A B]|[e [o1 [A B]]]]; [eapply same_b; eauto|].
  destruct H as [outs [f [evs [o [L [P [R [C0 O]]]]]]]]. exists outs, f, (evs ++ [e]), (o ++ o1).
  rewrite hrun_app, R, hrun_one, A. split; [auto|]. split; [auto|]. split; [auto|]. split; [auto|]. now rewrite B, O, app_assoc.
Qed.

Theorem wlives_a na pa nb pb ot w : wlives na pa nb pb ot w -> a_life na pa w /\ b_life nb pb w.
Proof.
  induction 1 as [pa pb Pa Pb|na pa nb pb ot w ev w' l H [Ha Hb] E Ca Cb|na pa nb pb ot w e f o cn n f' p H [Ha Hb] Do Cr Op P
    |na pa nb pb ot w ev w' l n f' p H [Ha Hb] E Ca Cb Op P|na pa nb pb ot w e f o n f' p H [Ha Hb] Cr Op P
    |na pa nb pb ot w ev w' l n f' p H [Ha Hb] E Ca Cb Op P].
  - split; [eapply (start_a [] _ ([], [])); auto; constructor|eapply (start_b [] _ ([], [])); auto; constructor].
  - split; [eapply step_life_a|eapply step_life_b]; eauto.
  - split; [|exact Hb]. destruct Ha as [outs [f0 [evs [o0 [L [P0 [R [C0 O]]]]]]]].
    eapply start_a; [|exact P|reflexivity|reflexivity]. eapply s_open; [|exact Op]. cbn [restart_a ao]. rewrite O, <- app_assoc.
    eapply sl_life; eauto.
  - split; [|eapply (same_b _ _ w'); [eapply step_life_b; eauto|reflexivity|reflexivity]].
    destruct (wstep_a _ _ _ _ E) as [[A B]|[e [o1 [A B]]]]; [destruct Ha as [outs [f0 [evs [o0 [L [P0 [R [C0 O]]]]]]]]; congruence|].
    destruct Ha as [outs [f0 [evs [o0 [L [P0 [R [C0 O]]]]]]]].
    eapply start_a; [|exact P|reflexivity|reflexivity]. eapply s_open; [|exact Op]. cbn [restart_a ao]. rewrite app_nil_r, B, O, <- app_assoc.
    eapply (sl_graceful _ _ _ _ _ outs na f0 pa); eauto.
  - split; [exact Ha|]. destruct Hb as [outs [f0 [evs [o0 [L [P0 [R [C0 O]]]]]]]].
    eapply start_b; [|exact P|reflexivity|reflexivity]. eapply h_open; [|exact Op]. cbn [restart_b bo]. rewrite O, <- app_assoc.
    eapply lv_life; eauto.
  - split; [eapply (same_a _ _ w'); [eapply step_life_a; eauto|reflexivity|reflexivity]|].
    destruct (wstep_b _ _ _ _ E) as [[A B]|[e [o1 [A B]]]]; [destruct Hb as [outs [f0 [evs [o0 [L [P0 [R [C0 O]]]]]]]]; congruence|].
    destruct Hb as [outs [f0 [evs [o0 [L [P0 [R [C0 O]]]]]]]].
    eapply start_b; [|exact P|reflexivity|reflexivity]. eapply h_open; [|exact Op]. cbn [restart_b bo]. rewrite app_nil_r, B, O, <- app_assoc.
    eapply (lv_graceful _ _ _ _ outs nb f0 pb); eauto.
Qed.
End World.
