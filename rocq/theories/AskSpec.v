(** Vocabulary for the statements about a request and its answer. *)
From Coq Require Import String ZArith NArith Bool List Arith.
From Verif Require Import SpanKeyModel RouterModel JsonModel ClientModel ClientSpec WireModel AskModel.
Import ListNotations.

Section Spec.
Context {D V R : Type} (dump : V -> json) (accepted_resp : span_key -> V) (app : nat -> code D V)
        (str_of : json -> string) (build : list (string * json) -> option R).
(** The text of the request of call [i]. *)
Definition asks (s : net D V) (i : nat) : string := request_text (rroute (asked s i)) (rspan (asked s i)) (rdata (asked s i)).
(** The application handled this very request, once, on connection [c], which call [i] opened; it answered [resp], having
    called the code [h]. *)
Definition carried (s : net D V) (i c : nat) (resp : response span_key V) (h : list (RouterModel.call span_key D V)) : Prop :=
  (c < nlinks s)%nat /\ l_call (links s c) = i /\ l_ran (links s c) = [(asks s i, h)] /\
  serve accepted_resp app c (asks s i) = (Ret resp, h).
(** What a response means for the caller: the value, or the exception documented for the status (for status 200 the code has
    another one, C29). *)
Definition told (status : Z) (data : json) : result R :=
  match status with
  | 0%Z => match data with
           | JObj fields => match build fields with Some x => Returned x | None => Raised CPydantic end
           | _ => Raised CType
           end
  | 200%Z => Raised CAttribute
  | _ => Raised (documented status (str_of data))
  end.
Definition data_of (resp : response span_key V) : json := match pdata resp with RVal v => dump v | RText m => JStr m end.
Definition genuine (s : net D V) (i : nat) (o : result R) : Prop :=
  exists c resp h, carried s i c resp h /\ o = told (pstatus resp) (data_of resp).

(** The connections opened by call [i]; how often the application handled its request to the end. *)
Definition opened_by (s : net D V) (i : nat) : list nat := filter (fun c => Nat.eqb (l_call (links s c)) i) (seq 0 (nlinks s)).
Definition handled_times (s : net D V) (i : nat) : nat := list_sum (map (fun c => List.length (l_ran (links s c))) (opened_by s i)).
End Spec.
