(** How often a call over UDP goes on. *)
From Coq Require Import String Ascii ZArith NArith Bool List Arith Lia.
From Verif Require Import Base SpanKeyModel RouterModel JsonModel StreamModel ClientModel WireModel AskModel DgModel DgSpec DgProofs DgProofs4 EndSpec.
Import ListNotations.
Local Open Scope Z_scope.

Section Dg.
Context {D V : Type} (utf8 : list N -> bool) (dump : V -> json) (max : Z) (accepted_resp : span_key -> V) (app : nat -> code D V).
Notation gstep := (gstep utf8 dump max accepted_resp app).
Notation Inv := (DgProofs.Inv utf8 dump max accepted_resp app).
Lemma start_other c r i : (i < gn c)%nat -> tasks (fst (cl_step max c (GStart r))) i = tasks c i /\ (i < gn (fst (cl_step max c (GStart r))))%nat.
Proof.
  intros Hi. assert (NE : i <> gn c) by lia. cbn [DgModel.cl_step].
  destruct (0 <? max); [|unfold set_task; cbn [fst gn tasks]; rewrite fupd_ne by exact NE; auto].
  unfold attempt. cbn [ready]. destruct (ready c); [|unfold set_task; cbn [fst gn tasks]; rewrite fupd_ne by exact NE; auto].
  unfold acquire. cbn [lock queue]. destruct (lock c); [|destruct (queue c)]; unfold set_task, transmit; cbn [fst gn tasks]; rewrite fupd_ne by exact NE; auto.
Qed.
Lemma each_bound i es : forall s k, Inv s -> QInv (me s) -> (i < gn (me s))%nat -> moves gstep (fun s => tasks (me s) i) s es k -> Z.of_nat k <= weight max (tasks (me s) i).
Proof.
  assert (ST : forall s e, Inv s -> QInv (me s) -> (i < gn (me s))%nat -> QInv (me (gstep s e)) /\ (i < gn (me (gstep s e)))%nat /\
    (tasks (me (gstep s e)) i = tasks (me s) i \/ weight max (tasks (me (gstep s e)) i) < weight max (tasks (me s) i))).
  { intros s e I Q Hi. assert (NS : ~ starts e -> QInv (me (gstep s e)) /\ (i < gn (me (gstep s e)))%nat /\
      (tasks (me (gstep s e)) i = tasks (me s) i \/ weight max (tasks (me (gstep s e)) i) < weight max (tasks (me s) i))).
    { intros NS. destruct (gstep_moves utf8 dump max accepted_resp app s e (v_c _ _ _ _ _ _ I) Q NS) as [[E [M0|(j & t & Hj & Et & W)]] Q'];
        (split; [exact Q'|]); rewrite E; (split; [exact Hi|]).
      - left. now rewrite M0.
      - rewrite Et. destruct (Nat.eq_dec i j) as [->|Ne]; [right; rewrite fupd_eq; lia|left; now rewrite fupd_ne]. }
    destruct e; try (apply NS; intros []; fail). pose proof (start_q max (me s) r (v_c _ _ _ _ _ _ I) Q) as H. pose proof (start_other (me s) r i Hi) as [A B].
    cbn [DgModel.gstep]. destruct (cl_step max (me s) (GStart r)). cbn [fst me] in *. auto. }
  induction es as [|e es IH]; intros s k I Q Hi Mv; inversion Mv as [|? ? ? ? E Mv'|? ? ? k' E Mv']; subst.
  - apply (weights max app); [apply (v_c _ _ _ _ _ _ I)|exact Hi].
  - destruct (ST s e I Q Hi) as (Q' & Hi' & _). specialize (IH _ _ (gstep_inv _ _ _ _ _ _ _ I) Q' Hi' Mv'). now rewrite E in IH.
  - destruct (ST s e I Q Hi) as (Q' & Hi' & [D0|D0]); [contradiction|]. specialize (IH _ _ (gstep_inv _ _ _ _ _ _ _ I) Q' Hi' Mv'). lia.
Qed.
End Dg.
