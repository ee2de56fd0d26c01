(** Vocabulary for the statements about clients. *)
From Coq Require Import List ZArith NArith Bool String Lia Arith.
From Verif Require Import RouterModel ClientModel.
Import ListNotations.
Local Open Scope Z_scope.

(** The exceptions documented for the statuses (requests/status.py and exceptions/response.py). *)
Definition documented (status : Z) (m : string) : cexn :=
  match status with
  | 100 => CProtocol m | 200 => CDenied m | 300 => CValidation m | 400 => CUnknownRoute m
  | 500 => CBusy m | 600 => CProcessing m | 999 => CUnhandled m | s => CUnknownStatus s m
  end.

(** What a caller may rely on about a call of send_message that made the attempts [log]. *)
Section Retry.
Context {R : Type}.
Definition failed_retryably (retries : texn -> bool) (a : attempt R) : Prop :=
  exists x, a = AFail x /\ retries x = true /\ x <> XCancel.
Definition in_attempt (st : tstate R) : nat := match st with TAttempt _ => 1%nat | _ => 0%nat end.
Record reliable (max : Z) (retries : texn -> bool) (st : tstate R) (log : list (attempt R)) : Prop := {
  (* never more than max_retries attempts *)
  at_most : Z.of_nat (List.length log + in_attempt st) <= max;
  (* another attempt only after a retryable failure *)
  only_after_retryable : forall l a l', log = l ++ a :: l' -> l' <> [] \/ in_attempt st = 1%nat -> failed_retryably retries a;
  (* the text returned is the one the last attempt got *)
  got : forall r, st = TDone (OText r) -> exists l, log = l ++ [AGot r];
  (* max retries reached exactly when all attempts were used up by retryable failures *)
  gave_up : st = TDone OMax <-> (Z.of_nat (List.length log) = max /\ Forall (failed_retryably retries) log);
  (* any other failure is raised at once *)
  not_retried : forall x, st = TDone (ONonRetry x) -> retries x = false /\ exists l, log = l ++ [AFail x];
  at_once : forall l x, log = l ++ [AFail x] -> retries x = false -> x <> XCancel -> st = TDone (ONonRetry x);
  (* nothing but a cancellation escapes *)
  raw : forall x, st = TDone (ORaw x) -> x = XCancel }.
End Retry.

(** The failures that are worth another attempt: those a later attempt may not meet. *)
Definition transient_failure (stream : bool) (x : texn) : bool :=
  match x with
  | XTimeout => true
  | XReset | XAborted | XPipe => stream
  | XRefused | XEmpty | XMisc _ | XCancel => false
  end.

(** How often call [i] of a datagram client put its request on the network. *)
Definition put_out (before after : dstate) : nat :=
  match before, after with DSent _, _ => 0%nat | _, DSent _ => 1%nat | _, _ => 0%nat end.
Fixpoint sends (max : Z) (s : dclient) (evs : list dev) (i : nat) : nat :=
  match evs with
  | [] => 0%nat
  | e :: r => (put_out (dtasks s i) (dtasks (dstep max s e) i) + sends max (dstep max s e) r i)%nat
  end.
