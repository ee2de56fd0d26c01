(** Specification of error states: counts from the history. *)
From Coq Require Import String ZArith Bool Lia List.
From Verif Require Import ErrStateModel.
Import ListNotations.
Local Open Scope Z_scope.

Section Spec.
Context (upper : string -> string).
Definition about (o : op) : string := match o with Raise_ i _ | ClearSome i _ | ClearAll i | ClearEndpoint i _ => i end.
(** Two spellings of the same id. *)
Definition same_id (i j : string) : bool := String.eqb (upper i) (upper j).
(** The count of error [i], nothing before it is first raised: one more per raise; a clear takes off what it asks for, as
    far as there is something, and does nothing to an error never raised. *)
Definition count1 (i : string) (c : option Z) (o : op) : option Z :=
  if same_id (about o) i then
    match o, c with
    | Raise_ _ _, None => Some 1
    | Raise_ _ _, Some c => Some (c + 1)
    | _, None => None
    | ClearSome _ n, Some c => Some (Z.max 0 (c - n))
    | ClearAll _, Some _ => Some 0
    | ClearEndpoint _ n, Some c => Some (if Z.eqb n 0 then 0 else Z.max 0 (c - n))
    end
  else c.
Definition count_opt (i : string) (ops : list op) : option Z := fold_left (count1 i) ops None.
Definition count (i : string) (ops : list op) : Z := match count_opt i ops with Some c => c | None => 0 end.
(** The ids raised, in the order of their first raise, with the description given then. *)
Fixpoint raised_acc (acc : list (string * string)) (ops : list op) : list (string * string) :=
  match ops with
  | [] => acc
  | Raise_ i d :: r => raised_acc (if existsb (fun p => String.eqb (upper i) (fst p)) acc then acc else acc ++ [(upper i, d)]) r
  | _ :: r => raised_acc acc r
  end.
Definition raised (ops : list op) : list (string * string) := raised_acc [] ops.
(** The number of raises of [i]. *)
Definition raises (i : string) (ops : list op) : Z :=
  Z.of_nat (List.length (filter (fun o => match o with Raise_ j _ => same_id j i | _ => false end) ops)).
Definition asks_nothing_negative (o : op) : bool := match o with ClearSome _ n | ClearEndpoint _ n => Z.leb 0 n | _ => true end.
End Spec.
