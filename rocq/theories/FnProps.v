(** C138: functions decorated with [sender] and [buffered_sender]. *)
From Coq Require Import List Bool String ZArith.
From Verif Require Import Base FnModel FnSpec FnProofs.
Import ListNotations.
Local Open Scope string_scope.

(** An example: [def f(amount, span_key = 7)]; 0 stands for None. *)
Definition ex_fn : function Z Z := mkFn (mkSig [mkParam "amount" false None; mkParam "span_key" false (Some 7%Z)] [] false false)
  (fun b => match get "amount" (values b) with Some a => Ok (10 * a)%Z | None => Raise "KeyError" end).
Definition ex_truthy (z : Z) : bool := negb (Z.eqb z 0).
Definition ex_client (d k : Z) : res Z := Ok (d + k)%Z.
Definition ex_push (d k : Z) : res unit := Ok tt.

(** The full statement: the message goes out with the span key that the decorated function was given. *)
Definition C138_key_given : Prop := forall (V D R : Type) truthy fresh (client : D -> V -> res R), carries_key truthy (fun f args kw => fst (sender_call truthy fresh client f args kw)).
Definition C138_key_given_buffered : Prop := forall (V D : Type) truthy fresh (push : D -> V -> res unit), carries_key truthy (fun f args kw => fst (buffered_call truthy fresh push f args kw)).

(** Both are false: a key that is given by position (or is the default of the parameter) is seen by the function only. *)
Theorem C138_key_given_refuted : ~ C138_key_given.
Proof.
  intros H. specialize (H Z Z Z ex_truthy 99%Z ex_client ex_fn [1; 5]%Z [] (mkBound [("amount", 1%Z); ("span_key", 5%Z)] [] []) 10%Z 5%Z).
  assert (X : fst (sender_call ex_truthy 99%Z ex_client ex_fn [1; 5]%Z []) = [(10, 5)%Z]); [|vm_compute in X; discriminate X].
  apply H; try reflexivity; [|constructor]. repeat constructor; cbn; intuition discriminate.
Qed.
Print Assumptions C138_key_given_refuted.
Theorem C138_key_given_buffered_refuted : ~ C138_key_given_buffered.
Proof.
  intros H. specialize (H Z Z ex_truthy 99%Z ex_push ex_fn [1]%Z [] (mkBound [("amount", 1%Z); ("span_key", 7%Z)] [] []) 10%Z 7%Z).
  assert (X : fst (buffered_call ex_truthy 99%Z ex_push ex_fn [1]%Z []) = [(10, 7)%Z]); [|vm_compute in X; discriminate X].
  apply H; try reflexivity; [|constructor]. repeat constructor; cbn; intuition discriminate.
Qed.
Print Assumptions C138_key_given_buffered_refuted.

(** What holds: a key given by its name is the one that the function sees and the one that the message carries, whatever else
    the call has; and the caller gets what the client (the queue) makes of that message. *)
Theorem C138_by_name_partial : forall (V D R : Type) truthy fresh (client : D -> V -> res R) f args kw v b d,
  NoDup (map fst kw) -> ~ hidden (fsig f) "span_key" -> In ("span_key", v) kw -> truthy v = true ->
  bind_call (fsig f) args kw = Ok b -> fbody f b = Ok d ->
  seen b = Some v /\ sender_call truthy fresh client f args kw = ([(d, v)], client d v).
Proof.
  intros V D R truthy fresh client f args kw v b d N H I T B F.
  assert (G : get "span_key" kw = Some v).
  { clear - N I. induction kw as [|e r IH]; [destruct I|]. rewrite get_cons. cbn [map] in N. inversion N as [|? ? N1 N2]; subst. destruct I as [->|I]; [cbn [fst snd]; rewrite String.eqb_refl; reflexivity|].
    destruct (String.eqb_spec (fst e) "span_key") as [E|E]; [|apply IH; assumption]. exfalso. apply N1. rewrite E. apply (in_map fst) in I. exact I. }
  split; [eapply seen_keyword; eauto|]. unfold sender_call, apply_fn. rewrite B. cbn [bind]. rewrite F, G. cbn [key_used]. rewrite T. reflexivity.
Qed.
Print Assumptions C138_by_name_partial.
Theorem C138_by_name_buffered_partial : forall (V D : Type) truthy fresh (push : D -> V -> res unit) f args kw v b d,
  NoDup (map fst kw) -> ~ hidden (fsig f) "span_key" -> In ("span_key", v) kw -> truthy v = true ->
  bind_call (fsig f) args kw = Ok b -> fbody f b = Ok d ->
  seen b = Some v /\ buffered_call truthy fresh push f args kw = ([(d, v)], push d v).
Proof. intros V D. exact (C138_by_name_partial V D unit). Qed.
Print Assumptions C138_by_name_buffered_partial.

(** Without the name the message gets a new key, also if the function was given one. *)
Theorem C138_not_by_name : forall (V D R : Type) truthy fresh (client : D -> V -> res R) (push : D -> V -> res unit) f args kw b d,
  ~ In "span_key" (map fst kw) -> bind_call (fsig f) args kw = Ok b -> fbody f b = Ok d ->
  sender_call truthy fresh client f args kw = ([(d, fresh)], client d fresh) /\ buffered_call truthy fresh push f args kw = ([(d, fresh)], push d fresh).
Proof.
  intros V D R truthy fresh client push f args kw b d N B F. apply get_none in N. unfold sender_call, buffered_call, apply_fn. rewrite B. cbn [bind]. rewrite F, N. split; reflexivity.
Qed.
Print Assumptions C138_not_by_name.

(** A function that cannot take the name, or that fails, sends nothing, and the caller gets the exception. *)
Theorem C138_nothing_sent : forall (V D R : Type) truthy fresh (client : D -> V -> res R) (push : D -> V -> res unit) f args kw,
  (In "span_key" (map fst kw) -> takes (fsig f) "span_key" = false -> star_star (fsig f) = false ->
     sender_call truthy fresh client f args kw = ([], Raise "TypeError") /\ buffered_call truthy fresh push f args kw = ([], Raise "TypeError")) /\
  (forall b e, bind_call (fsig f) args kw = Ok b -> fbody f b = Raise e ->
     sender_call truthy fresh client f args kw = ([], Raise e) /\ buffered_call truthy fresh push f args kw = ([], Raise e)).
Proof.
  intros V D R truthy fresh client push f args kw. split.
  - intros I T S. unfold sender_call, buffered_call, apply_fn. rewrite (refused (fsig f) args kw); [split; reflexivity| |exact T|exact S].
    clear - I. induction kw as [|e r IH]; [destruct I|]. rewrite get_cons. destruct (String.eqb_spec (fst e) "span_key"); [discriminate|]. destruct I as [I|I]; [contradiction|auto].
  - intros b e B F. unfold sender_call, buffered_call, apply_fn. rewrite B. cbn [bind]. rewrite F. split; reflexivity.
Qed.
Print Assumptions C138_nothing_sent.

(** One call hands over at most one message, and exactly one if the function returns. *)
Theorem C138_one_message : forall (V D R : Type) truthy fresh (client : D -> V -> res R) (push : D -> V -> res unit) f args kw,
  (forall sent, (fst (sender_call truthy fresh client f args kw) = sent \/ fst (buffered_call truthy fresh push f args kw) = sent) ->
     match bind (bind_call (fsig f) args kw) (fbody f) with Ok d => exists k, sent = [(d, k)] | Raise _ => sent = [] end).
Proof.
  intros V D R truthy fresh client push f args kw sent H. unfold sender_call, buffered_call, apply_fn in H.
  destruct (bind (bind_call (fsig f) args kw) (fbody f)) as [d|e]; cbn [fst] in H; destruct H as [<-|<-]; eauto.
Qed.
Print Assumptions C138_one_message.

Example C138_example : map (fun c => sender_call ex_truthy 99%Z ex_client ex_fn (fst c) (snd c))
  [([1%Z], [("span_key", 5%Z)]); ([], [("span_key", 5%Z); ("amount", 2%Z)]); ([1%Z], [("span_key", 0%Z)]); ([1%Z; 5%Z], []);
   ([1%Z; 5%Z], [("span_key", 6%Z)]); ([1%Z], [("spankey", 5%Z)]); ([], [])]
  = [([(10, 5)], Ok 15); ([(20, 5)], Ok 25); ([(10, 99)], Ok 109); ([(10, 99)], Ok 109); ([], Raise "TypeError"); ([], Raise "TypeError"); ([], Raise "TypeError")]%Z.
Proof. reflexivity. Qed.
(** [def g(amount, **kw)] and [def h(amount)] *)
Definition ex_g : function Z Z := mkFn (mkSig [mkParam "amount" false None] [] false true) (fun b => match seen b with Some k => Ok k | None => Raise "KeyError" end).
Definition ex_h : function Z Z := mkFn (mkSig [mkParam "amount" false None] [] false false) (fun b => Ok 3%Z).
Example C138_example_others : sender_call ex_truthy 99%Z ex_client ex_g [1%Z] [("span_key", 5%Z)] = ([(5, 5)%Z], Ok 10%Z) /\
  sender_call ex_truthy 99%Z ex_client ex_g [1%Z] [] = ([], Raise "KeyError") /\ sender_call ex_truthy 99%Z ex_client ex_h [1%Z] [("span_key", 5%Z)] = ([], Raise "TypeError").
Proof. repeat split. Qed.
