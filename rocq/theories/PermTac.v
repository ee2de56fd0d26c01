(** A reflective tactic for permutations of concatenations: [perm] proves [Permutation l r] when both sides consist
    of the same atoms (lists and elements) in some order. *)
From Coq Require Import List Permutation Arith.
Import ListNotations.

Section Perm.
Context {A : Type}.
Inductive pexp := PNil | PAtom (n : nat) | PApp (a b : pexp).
Fixpoint flat (e : pexp) : list nat :=
  match e with PNil => [] | PAtom n => [n] | PApp a b => flat a ++ flat b end.
Fixpoint den (env : list (list A)) (e : pexp) : list A :=
  match e with PNil => [] | PAtom n => nth n env [] | PApp a b => den env a ++ den env b end.
Lemma den_flat env e : den env e = flat_map (fun n => nth n env []) (flat e).
Proof. induction e; cbn; [auto|now rewrite app_nil_r|]. now rewrite flat_map_app, IHe1, IHe2. Qed.
Fixpoint del (n : nat) (l : list nat) : option (list nat) :=
  match l with
  | [] => None
  | m :: r => if Nat.eqb n m then Some r else match del n r with Some r' => Some (m :: r') | None => None end
  end.
Fixpoint same (l r : list nat) : bool :=
  match l with
  | [] => match r with [] => true | _ => false end
  | n :: l' => match del n r with Some r' => same l' r' | None => false end
  end.
Lemma del_ok n l r : del n l = Some r -> Permutation l (n :: r).
Proof.
  revert r. induction l as [|m l IH]; cbn; intros r H; [discriminate|].
  destruct (Nat.eqb_spec n m) as [->|]; [injection H as <-; auto|].
  destruct (del n l) as [r'|]; [|discriminate]. injection H as <-.
  rewrite (IH r' eq_refl). apply perm_swap.
Qed.
Lemma same_ok l : forall r, same l r = true -> Permutation l r.
Proof.
  induction l as [|n l IH]; cbn; intros r H; [destruct r; [auto|discriminate]|].
  destruct (del n r) as [r'|] eqn:E; [|discriminate]. rewrite (del_ok _ _ _ E). auto.
Qed.
Lemma perm_flat_map (f : nat -> list A) l r : Permutation l r -> Permutation (flat_map f l) (flat_map f r).
Proof.
  induction 1; cbn; auto.
  - now apply Permutation_app_head.
  - rewrite !app_assoc. apply Permutation_app_tail, Permutation_app_comm.
  - etransitivity; eauto.
Qed.
Theorem perm_reflect env e1 e2 : same (flat e1) (flat e2) = true -> Permutation (den env e1) (den env e2).
Proof. intros H. rewrite !den_flat. apply perm_flat_map, same_ok, H. Qed.
End Perm.

Ltac pfind x env :=
  lazymatch env with
  | nil => constr:(@None nat)
  | ?y :: ?r => match constr:(tt) with
                | _ => let _ := constr:(eq_refl x : x = y) in constr:(Some 0)
                | _ => lazymatch pfind x r with Some ?n => constr:(Some (S n)) | None => constr:(@None nat) end
                end
  end.
Ltac padd x env := lazymatch pfind x env with Some _ => env | None => constr:(x :: env) end.
Ltac pcollect l env :=
  lazymatch l with
  | nil => env
  | ?a ++ ?b => let env := pcollect a env in pcollect b env
  | ?x :: nil => padd l env
  | ?x :: ?b => let T := type of l in let env := padd constr:(x :: (nil : T)) env in pcollect b env
  | _ => padd l env
  end.
Ltac pidx x env := lazymatch pfind x env with Some ?n => n end.
Ltac preify l env :=
  lazymatch l with
  | nil => constr:(PNil)
  | ?a ++ ?b => let a := preify a env in let b := preify b env in constr:(PApp a b)
  | ?x :: nil => let n := pidx l env in constr:(PAtom n)
  | ?x :: ?b => let T := type of l in let n := pidx constr:(x :: (nil : T)) env in let b := preify b env in constr:(PApp (PAtom n) b)
  | _ => let n := pidx l env in constr:(PAtom n)
  end.
Ltac perm :=
  lazymatch goal with
  | |- @Permutation ?A ?l ?r =>
      let env := pcollect l (@nil (list A)) in
      let env := pcollect r env in
      let e1 := preify l env in
      let e2 := preify r env in
      change (Permutation (den env e1) (den env e2)); apply perm_reflect; vm_compute; reflexivity
  end.

Example perm_example : forall (A : Type) (x y : A) a b c, Permutation (a ++ x :: b ++ [y] ++ c) (y :: c ++ b ++ x :: a).
Proof. intros. perm. Qed.
