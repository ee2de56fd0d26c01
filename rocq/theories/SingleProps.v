(** Property C143: one object of each class of the framework (ekosis/util/singleton.py). *)
From Coq Require Import List Arith String Lia.
From Verif Require Import Base SingleModel SingleSpec SingleProofs.
Import ListNotations.

(** However a class is called, directly or while other objects are made, there is one object of it. *)
Definition C143_one_object : Prop := forall A (init : nat -> nat -> A -> script A) depth l, one_object (snd (calls init depth l empty)).
(** False: the object is noted only after its __init__ has returned, so that a class that is called while its own object is
    made gets a second one.  Here the first __init__ of class 0 calls class 0. *)
Definition selfish (o c : nat) (a : unit) : script unit := match o with O => Make 0 tt (fun _ => Done) | S _ => Done end.
Theorem C143_one_object_refuted : ~ C143_one_object.
Proof. intros H. specialize (H unit selfish 5 [(0, tt)] 0 0 1). discriminate H; cbn; auto. Qed.
Print Assumptions C143_one_object_refuted.

(** True when no class is needed to make its own object: what is returned for a class, ever and anywhere, is one object, of
    no other class, whose __init__ has run to its end exactly once. *)
Theorem C143_one_object_partial : forall A (init : nat -> nat -> A -> script A) height depth l, layered init height ->
  one_object (snd (calls init depth l empty)) /\ own_object (snd (calls init depth l empty)) /\ made_once (snd (calls init depth l empty)).
Proof. intros A init height depth l L. apply inv_spec, (calls_inv init height L depth l empty empty_inv). Qed.
Print Assumptions C143_one_object_partial.

(** So two calls that return give the same object if and only if they are calls of one class, whatever the arguments and
    whatever failed in between. *)
Theorem C143_same_partial : forall A (init : nat -> nat -> A -> script A) height depth l i j c1 c2 a1 a2 o1 o2, layered init height ->
  nth_error l i = Some (c1, a1) -> nth_error l j = Some (c2, a2) ->
  nth_error (fst (calls init depth l empty)) i = Some (Ok o1) -> nth_error (fst (calls init depth l empty)) j = Some (Ok o2) ->
  (o1 = o2 <-> c1 = c2).
Proof.
  intros A init height depth l i j c1 c2 a1 a2 o1 o2 L H1 H2 E1 E2.
  pose proof (C143_one_object_partial A init height depth l L) as (O & W & _).
  destruct (calls init depth l empty) as (xs, w) eqn:E. cbn [fst snd] in *.
  pose proof (calls_returned init height L depth l empty xs w E empty_inv i c1 a1 o1 H1 E1) as R1.
  pose proof (calls_returned init height L depth l empty xs w E empty_inv j c2 a2 o2 H2 E2) as R2.
  split; [intros <-; eapply W; eassumption|intros <-; eapply O; eassumption].
Qed.
Print Assumptions C143_same_partial.

(** Calls return, if no __init__ raises by itself and the interpreter has stack enough for the heights. *)
Theorem C143_returns_partial : forall A (init : nat -> nat -> A -> script A) height depth c a w, layered init height ->
  (forall o c a, fine (init o c a)) -> height c < depth -> exists o w', call init depth c a w = (Ok o, w').
Proof. intros A init height depth c a w L F H. apply (call_returns init height L F depth c a w H). Qed.
Print Assumptions C143_returns_partial.

(** Whatever the classes call: no object is returned whose __init__ has not run to its end. *)
Theorem C143_never_half_made : forall A (init : nat -> nat -> A -> script A) depth l c o,
  In (c, o) (returned (snd (calls init depth l empty))) -> In (c, o) (initialised (snd (calls init depth l empty))).
Proof. intros A init depth l c o. apply (calls_done init depth l empty). split; intros x X; destruct X. Qed.
Print Assumptions C143_never_half_made.

(** Of a class whose __init__ always raises no object is ever returned, by any call and to anybody. *)
Theorem C143_failing : forall A (init : nat -> nat -> A -> script A) depth l c, (forall o a, raises (init o c a)) ->
  forall o, ~ In (c, o) (returned (snd (calls init depth l empty))).
Proof. intros A init depth l c F. apply (calls_without init c F depth l empty). split; [reflexivity|]. intros o X. destruct X. Qed.
Print Assumptions C143_failing.
Example C143_ex_failing : let i := fun (o c a : nat) => match c with 1 => Make 0 0 (fun _ => Fail "OSError") | _ => Done end in
  (forall o a, raises (i o 1 a)) /\ fst (calls i 3 [(1, 0); (0, 0); (1, 0)] empty) = [Raise "OSError"; Ok 1; Raise "OSError"].
Proof. split; [intros o a; constructor; intros r; constructor|reflexivity]. Qed.

(** The classes of the framework: 0 AppConfiguration, 1 StatisticsKeeper, 2 ErrorStateList, 3 MiddlewareManager,
    4 BufferedMiddlewareManager, 5 BufferedHandlerKeeper, 6 BufferedSenderKeeper, 7 RequestRouter, 8 EcoLogger have an __init__
    that calls none of them; 9 is the application, which may call them; others are classes the application adds, here one
    (10) whose __init__ raises the first time. *)
Definition ekosis (o c : nat) (a : nat) : script nat :=
  match c with
  | 9 => Make 0 0 (fun r => match r with Ok _ => Make 1 a (fun _ => Done) | Raise e => Fail e end)
  | 10 => if Nat.eqb o 3 then Fail "FileNotFoundError" else Make 9 0 (fun _ => Done)
  | _ => Done
  end.
Example C143_ex_layered : layered ekosis (fun c => c - 8).
Proof.
  intros o c a. destruct c as [|[|[|[|[|[|[|[|[|[|[|c]]]]]]]]]]]; cbn [ekosis]; try constructor; [cbn; lia| |].
  - intros [x|e]; [constructor; [cbn; lia|intros; constructor]|constructor].
  - destruct (Nat.eqb o 3); constructor; [cbn; lia|intros; constructor].
Qed.
Example C143_ex : fst (calls ekosis 3 [(9, 0); (0, 5); (10, 1); (10, 2); (9, 7); (1, 1); (10, 0); (7, 0)] empty)
  = [Ok 0; Ok 1; Raise "FileNotFoundError"; Ok 4; Ok 0; Ok 2; Ok 4; Ok 5].
Proof. reflexivity. Qed.
Example C143_ex_fine : forall o c a, fine (match c with 10 => Done | _ => ekosis o c a end).
Proof.
  intros o c a. destruct c as [|[|[|[|[|[|[|[|[|[|[|c]]]]]]]]]]]; cbn [ekosis]; try constructor. intros x. constructor. intros y. constructor.
Qed.
