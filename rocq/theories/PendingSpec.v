(** Specification of the pair of queues: two plain lists. *)
From Coq Require Import List ZArith NArith Bool String.
From Verif Require Import Base PQueueModel PQueueSpec PendingModel.
Import ListNotations.

Section Spec.
Context {D M : Type}.

(** The pending and the error queue behave, for all future calls, as these two lists. *)
Definition holds (q : pqueue D M) (lp : list (N * pentry D M)) (le : list (N * eentry D M)) : Prop :=
  behaves_as (pend q) lp /\ behaves_as (errq q) le.

(** An error entry as it is put back: same key, data and metadata, no retries yet. *)
Definition retried (e : N * eentry D M) : N * pentry D M :=
  (fst e, mkP (fst e) 0%Z (ee_data (snd e)) (ee_meta (snd e))).

(** The page size is usable (see C09: with 0 the queue cannot be read). *)
Definition usable (q : pqueue D M) : Prop := psz (pend q) <> 0%Z /\ psz (errq q) <> 0%Z.

End Spec.
