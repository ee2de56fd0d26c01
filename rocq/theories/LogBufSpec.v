(** Specification of the log files. *)
From Coq Require Import ZArith Bool Lia List Arith.
From Verif Require Import LogBufModel.
Import ListNotations.

Section Spec.
Context {R Sp : Type} (formats : R -> bool) (setting_size size_set : Z -> R).

(** What a reader of the log sees: the backups from the oldest (the highest number) to number 1, then the log file. *)
Definition content (o : option (list (line R Sp))) : list (line R Sp) := match o with Some l => l | None => [] end.
Definition text (backups : nat) (d : disk R Sp) : list (line R Sp) :=
  flat_map (fun i => content (bak d i)) (rev (seq 1 backups)) ++ base d.

(** The records that are to be logged, each with the span key of the code that logs it. A record is logged if its level is
    at least the level set; the endpoint for the buffer size logs two at level INFO. *)
Fixpoint logged (lvl : Z) (es : list (event R Sp)) : list (R * option Sp) :=
  match es with
  | [] => []
  | Log now lv r :: es => if Z.leb lvl lv then (r, now) :: logged lvl es else logged lvl es
  | Flush _ :: es => logged lvl es
  | SetLevel lv :: es => logged lv es
  | SetSize now n :: es =>
      if Z.leb lvl 20 then (setting_size n, now) :: (size_set n, now) :: logged lvl es else logged lvl es
  end.
(** Only these can be written. *)
Definition writable (l : list R) : list R := filter formats l.
Definition records (l : list (R * option Sp)) : list R := map fst l.

(** The records that can be written, with the span keys they were logged under. *)
Definition own_lines (l : list (R * option Sp)) : list (line R Sp) := filter (fun x => formats (fst x)) l.
(** The span keys of the code that uses the logger. *)
Definition spans (es : list (event R Sp)) : list (option Sp) :=
  flat_map (fun e => match e with Log now _ _ | Flush now | SetSize now _ => [now] | SetLevel _ => [] end) es.

(** The size last set. *)
Fixpoint size_now (size : Z) (es : list (event R Sp)) : Z :=
  match es with [] => size | SetSize _ n :: es => size_now n es | _ :: es => size_now size es end.
(** The level never goes above INFO. *)
Definition info_shown (es : list (event R Sp)) : Prop := forall lv, In (SetLevel lv) es -> (lv <= 20)%Z.
End Spec.
