(** Specification for the functions made by the decorators [sender] and [buffered_sender]. *)
From Coq Require Import List Bool String.
From Verif Require Import Base FnModel.
Import ListNotations.
Local Open Scope string_scope.

Section Spec.
Context {V D : Type}.
(** What the decorated function finds under the name span_key: its parameter, or an entry of its [**kw]. *)
Definition seen (b : bound V) : option V := get "span_key" (values b ++ other b).
(** The names of a [def] are distinct. *)
Definition proper_def (s : signature V) : Prop := NoDup (map pname (ordered s ++ by_keyword s)).
(** [n] is a parameter that may only be given by position. *)
Definition hidden (s : signature V) (n : string) : Prop := exists p, In p (ordered s) /\ pname p = n /\ positional_only p = true.
(** Whatever the function is called with, its message goes out with the key that the function sees. *)
Definition carries_key (truthy : V -> bool) (sent : function V D -> list V -> list (string * V) -> list (D * V)) : Prop :=
  forall f args kw b d v, proper_def (fsig f) -> NoDup (map fst kw) ->
    bind_call (fsig f) args kw = Ok b -> fbody f b = Ok d -> seen b = Some v -> truthy v = true -> sent f args kw = [(d, v)].
End Spec.
