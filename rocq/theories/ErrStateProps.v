(** C40: error state counts. *)
From Coq Require Import String Ascii ZArith Bool Lia List.
From Verif Require Import ErrStateModel ErrStateSpec ErrStateProofs.
Import ListNotations.
Local Open Scope Z_scope.
Local Open Scope string_scope.

(** What the error endpoints report, for every sequence of raises and clears: the errors ever raised whose count is
    positive, in the order of their first raise, with the description given at that raise and the count. *)
Theorem C40_report : forall (upper : string -> string) (upper_idem : forall s, upper (upper s) = upper s) ops,
  build_errors_response (run upper ops) =
  filter (fun t => Z.ltb 0 (snd t)) (map (fun p => (fst p, snd p, count upper (fst p) ops)) (raised upper ops)).
Proof. exact (@report_expected). Qed.
Print Assumptions C40_report.

(** The count does not depend on the spelling of the id. *)
Theorem C40_case : forall (upper : string -> string) ops i j, upper i = upper j -> count upper i ops = count upper j ops.
Proof. exact (@count_same). Qed.
Print Assumptions C40_case.

(** No count is ever negative, whatever is asked. *)
Theorem C40_never_negative : forall (upper : string -> string) ops i k, In (i, k) (run upper ops) -> 0 <= kcount k.
Proof. exact (@never_negative). Qed.
Print Assumptions C40_never_negative.

(** A state is never counted more often than it was raised. *)
Definition C40_at_most_raised : Prop := forall (upper : string -> string) ops i, count upper i ops <= raises upper i ops.
(** ASCII upper-casing, for the examples. *)
Definition up1 (c : ascii) : ascii := let n := nat_of_ascii c in if (Nat.leb 97 n && Nat.leb n 122)%bool then ascii_of_nat (n - 32) else c.
Fixpoint ascii_upper (s : string) : string := match s with EmptyString => EmptyString | String c r => String (up1 c) (ascii_upper r) end.
Lemma ascii_upper_idem : forall s, ascii_upper (ascii_upper s) = ascii_upper s.
Proof.
  induction s as [|c s IH]; [reflexivity|]. cbn [ascii_upper]. rewrite IH. f_equal.
  destruct c as [[] [] [] [] [] [] [] []]; reflexivity.
Qed.
(** False of the code: asking to clear minus five adds five, through the endpoint as well. *)
Theorem C40_at_most_raised_refuted : ~ C40_at_most_raised.
Proof. intros H. specialize (H ascii_upper [Raise_ "e" "d"; ClearEndpoint "E" (-5)] "e"). vm_compute in H. auto. Qed.
Print Assumptions C40_at_most_raised_refuted.
(** It holds when no clear asks for a negative number. *)
Theorem C40_at_most_raised_partial : forall (upper : string -> string) ops i,
  Forall (fun o => asks_nothing_negative o = true) ops -> 0 <= count upper i ops <= raises upper i ops.
Proof. exact (@count_bounds). Qed.
Print Assumptions C40_at_most_raised_partial.

Definition ex_ops : list op :=
  [ClearAll "net"; Raise_ "net" "network down"; Raise_ "disk" "disk full"; Raise_ "NET" "other text"; Raise_ "cpu" "hot";
   ClearSome "Net" 1; ClearEndpoint "disk" 0; ClearSome "cpu" 5; Raise_ "cpu" "x"; ClearEndpoint "nope" 3].
Example C40_ex :
  build_errors_response (run ascii_upper ex_ops) = [("NET", "network down", 1); ("CPU", "hot", 1)] /\
  Forall (fun o => asks_nothing_negative o = true) ex_ops /\ raises ascii_upper "net" ex_ops = 2.
Proof. vm_compute. repeat split. repeat constructor. Qed.
