(** Specification of a queue of span keys: a list of pairs of a span key and a value. *)
From Coq Require Import List ZArith NArith Bool String.
From Verif Require Import SpanKeyModel KQueueModel.
Import ListNotations.
Local Open Scope Z_scope.

(** A 128-bit trace id and a 64-bit span id, as a test. *)
Definition usable (k : span_key) : bool :=
  (0 <=? trace_id k) && (trace_id k <? 2 ^ 128) && (0 <=? span_id k) && (span_id k <? 2 ^ 64).
Definition same_key (a b : span_key) : bool := (trace_id a =? trace_id b) && (span_id a =? span_id b).

Section Spec.
Context {V : Type}.
Definition key_of (o : kop V) : option span_key := match o with KPush k _ | KInspect k | KPopKey k => Some k | _ => None end.
Definition find_key (k : span_key) (l : list (span_key * V)) : option V := option_map snd (find (fun e => same_key (fst e) k) l).
(** A call with a key that is not usable fails and changes nothing; the others see and change the list. *)
Definition kspec_step (l : list (span_key * V)) (o : kop V) : list (span_key * V) * kout V :=
  if match key_of o with Some k => usable k | None => true end then
    match o with
    | KPush k v => (match find_key k l with Some _ => l | None => l ++ [(k, v)] end, KKey k)
    | KPop => match l with [] => ([], KEntry None) | e :: r => (r, KEntry (Some e)) end
    | KInspect k => (l, KVal (find_key k l))
    | KPopKey k => (filter (fun e => negb (same_key (fst e) k)) l, KVal (find_key k l))
    | KSize => (l, KNum (Z.of_nat (List.length l)))
    | KIsEmpty => (l, KBool (match l with [] => true | _ => false end))
    | KClear => ([], KUnit)
    end
  else (l, KExn "OverflowError").
Fixpoint kspec_run (l : list (span_key * V)) (ops : list (kop V)) : list (kout V) :=
  match ops with [] => [] | o :: r => let '(l', x) := kspec_step l o in x :: kspec_run l' r end.
End Spec.
(** The list after a sequence of calls. *)
Definition kheld {V} (l : list (span_key * V)) (ops : list (kop V)) : list (span_key * V) := fold_left (fun l o => fst (kspec_step l o)) ops l.
(** The order after a restart with pages of [n] entries: the first page, the middle, and the last (at most [n]) reversed (compare C05). *)
Definition order_after {A} (n : nat) (l : list A) : list A :=
  let rest := skipn n l in let m := (List.length rest - n)%nat in firstn n l ++ firstn m rest ++ rev (skipn m rest).
