(** Model of a paged queue as it is used: with span keys instead of the numbers that stand for them in PQueueModel.v.
    ekosis/queues/paginated_queue.py with json_protocol.py 33-48 (the bytes, equality and hash of SpanKey).

    Every operation that is given a key first asks whether a page has it ([has_entry], lines 83-84, from 259-261, 286, 300), which
    hashes the key and so takes its bytes; what that raises leaves the operation before anything is changed. *)
From Coq Require Import List ZArith NArith Bool String.
From Verif Require Import Base SpanKeyModel PQueueModel.
Import ListNotations.
Local Open Scope Z_scope.

(** json_protocol.py 33-35, 47-48: a key is found in a dictionary, and in the column span_key, by its bytes *)
Definition queue_key (k : span_key) : res N := bind (key_bytes k) (fun b => Ok (Z.to_N (from_be b))).
(** paginated_queue.py 174, 186: SpanKey.from_bytes *)
Definition key_of_number (n : N) : res span_key := bind (to_bytes 24 (Z.of_N n)) key_of_bytes.

Section Model.
Context {V : Type}.
Inductive kop := KPush (k : span_key) (v : V) | KPop | KInspect (k : span_key) | KPopKey (k : span_key) | KSize | KIsEmpty | KClear.
Inductive kout := KKey (k : span_key) | KEntry (e : option (span_key * V)) | KVal (v : option V) | KNum (n : Z) | KBool (b : bool) | KUnit | KExn (e : string).

(** The call on numbers. *)
Definition op_of (o : kop) : res (op V) :=
  match o with
  | KPush k v => bind (queue_key k) (fun n => Ok (Push n v))
  | KPop => Ok Pop
  | KInspect k => bind (queue_key k) (fun n => Ok (Inspect n))
  | KPopKey k => bind (queue_key k) (fun n => Ok (PopKey n))
  | KSize => Ok Size | KIsEmpty => Ok IsEmpty | KClear => Ok Clear
  end.
(** Its result, with keys. *)
Definition kout_of (x : out V) : res kout :=
  match x with
  | OKey n => bind (key_of_number n) (fun k => Ok (KKey k))
  | OEntry None => Ok (KEntry None)
  | OEntry (Some (n, v)) => bind (key_of_number n) (fun k => Ok (KEntry (Some (k, v))))
  | OVal v => Ok (KVal v) | ONum n => Ok (KNum n) | OBool b => Ok (KBool b) | OUnit => Ok KUnit | OExn e => Ok (KExn e)
  end.
(** The caller gets the exception; the queue stays as it is. *)
Definition kstep (q : queue V) (o : kop) : queue V * kout :=
  match bind (op_of o) (fun o' => bind (step q o') (fun '(q', x) => bind (kout_of x) (fun y => Ok (q', y)))) with
  | Ok r => r
  | Raise e => (q, KExn e)
  end.
Fixpoint krun (q : queue V) (ops : list kop) : list kout :=
  match ops with [] => [] | o :: r => let '(q', x) := kstep q o in x :: krun q' r end.
End Model.
Arguments kop : clear implicits. Arguments kout : clear implicits.
(** The queue after a sequence of calls. *)
Definition kafter {V} (q : queue V) (ops : list (kop V)) : queue V := fold_left (fun q o => fst (kstep q o)) ops q.
