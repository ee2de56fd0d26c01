(** Model of ekosis/queues/pending_queue.py: a pending queue and an error queue, each a PaginatedQueue.

    - [D] is the type of request data (JSON values), [M] that of metadata dictionaries, [no_meta] is [{}].
    - As for PaginatedQueue, no function here has a suspension point: each is atomic. *)
From Coq Require Import List ZArith NArith Bool String.
From Verif Require Import Base PQueueModel.
Import ListNotations.
Local Open Scope Z_scope.

Section Model.
Context {D M : Type}.
Variable no_meta : M.

(** pending_queue.py:11-15 *)
Record pentry := mkP { pe_key : N; pe_retries : Z; pe_data : D; pe_meta : M }.
(** pending_queue.py:18-22 *)
Record eentry := mkE { ee_key : N; ee_data : D; ee_reason : string; ee_meta : M }.

(** pending_queue.py:25-36 *)
Record pqueue := mkPQ { pend : queue pentry; errq : queue eentry }.
Definition set_pend (q : pqueue) (x : queue pentry) : pqueue := mkPQ x (errq q).
Definition set_err (q : pqueue) (x : queue eentry) : pqueue := mkPQ (pend q) x.

(** pending_queue.py:29-36 and 132-137 ([__init__]): both queues get the same page size *)
Definition pq_open (ps : Z) (tp : table pentry) (te : table eentry) : pqueue :=
  mkPQ (open_queue ps tp) (open_queue ps te).

(** pending_queue.py:39-41 ([shut_down]) *)
Definition pq_shut_down (q : pqueue) : res pqueue :=
  bind (q_shut_down (pend q)) (fun p =>
  bind (q_shut_down (errq q)) (fun e => Ok (mkPQ p e))).

(** pending_queue.py:44-51 *)
Definition has_pending (q : pqueue) : bool := negb (q_is_empty (pend q)).
Definition pending_size (q : pqueue) : Z := q_size (pend q).
Definition error_size (q : pqueue) : Z := q_size (errq q).

(** [metadata or {}] (112, 123): None and the empty dictionary both give the empty dictionary *)
Definition or_empty (m : option M) : M := match m with Some x => x | None => no_meta end.

(** pending_queue.py:107-114 ([push_pending]) *)
Definition push_pending (q : pqueue) (k : N) (d : D) (retries : Z) (m : option M) : res pqueue :=
  bind (q_push (pend q) k (mkP k retries d (or_empty m))) (fun '(p, _) => Ok (set_pend q p)).

(** pending_queue.py:117-125 ([push_error]) *)
Definition push_error (q : pqueue) (k : N) (d : D) (reason : string) (m : option M) : res pqueue :=
  bind (q_push (errq q) k (mkE k d reason (or_empty m))) (fun '(e, _) => Ok (set_err q e)).

(** pending_queue.py:128-129 ([pop]) *)
Definition pop_pending (q : pqueue) : res (pqueue * option pentry) :=
  bind (q_pop (pend q)) (fun '(p, o) => Ok (set_pend q p, option_map snd o)).

(** pending_queue.py:60-63 ([move_all_error_to_pending]): one iteration of the while loop per unit of fuel.
    [popped_error_entry.span_key] of None raises AttributeError. *)
Fixpoint move_all_loop (fuel : nat) (q : pqueue) : res pqueue :=
  if 0 <? error_size q then
    match fuel with
    | O => Raise "OutOfFuel"
    | S n =>
        bind (q_pop (errq q)) (fun '(e, o) =>
          match o with
          | None => Raise "AttributeError"
          | Some (_, x) =>
              bind (push_pending (set_err q e) (ee_key x) (ee_data x) 0 (Some (ee_meta x))) (move_all_loop n)
          end)
    end
  else Ok q.

(** Enough fuel: every iteration removes one entry (PendingProofs.move_all_ok shows it never runs out). *)
Definition move_all (q : pqueue) : res pqueue := move_all_loop (Z.to_nat (error_size q)) q.

(** pending_queue.py:65-70 ([move_one_error_to_pending]); a pydantic object is always true in an [if] *)
Definition move_one (q : pqueue) (k : N) : res (pqueue * option D) :=
  bind (q_pop_key (errq q) k) (fun '(e, o) =>
    match o with
    | Some x => bind (push_pending (set_err q e) k (ee_data x) 0 (Some (ee_meta x)))
                     (fun q' => Ok (q', Some (ee_data x)))
    | None => Ok (set_err q e, None)
    end).

(** pending_queue.py:72-73 *)
Definition clear_error (q : pqueue) : pqueue := set_err q (q_clear (errq q)).

(** pending_queue.py:75-76 *)
Definition first_x_error (q : pqueue) (n : Z) : list N := q_first_x (errq q) n.

(** pending_queue.py:80-90 ([_pop_using_span_key], [pop_error_q_span_key], [pop_pending_q_span_key]) *)
Definition pop_error_key (q : pqueue) (k : N) : res (pqueue * option D) :=
  bind (q_pop_key (errq q) k) (fun '(e, o) => Ok (set_err q e, option_map ee_data o)).
Definition pop_pending_key (q : pqueue) (k : N) : res (pqueue * option D) :=
  bind (q_pop_key (pend q) k) (fun '(p, o) => Ok (set_pend q p, option_map pe_data o)).

(** pending_queue.py:94-104 *)
Definition inspect_error_key (q : pqueue) (k : N) : res (option D) :=
  bind (q_inspect (errq q) k) (fun o => Ok (option_map ee_data o)).
Definition inspect_pending_key (q : pqueue) (k : N) : res (option D) :=
  bind (q_inspect (pend q) k) (fun o => Ok (option_map pe_data o)).

(** ** Calls and histories *)
Inductive pcall :=
| PushPending (k : N) (d : D) (retries : Z) (m : option M) | PushError (k : N) (d : D) (reason : string) (m : option M)
| PopPending | MoveAll | MoveOne (k : N) | PopErrorKey (k : N) | PopPendingKey (k : N) | ClearError.

Definition pstep (q : pqueue) (c : pcall) : res pqueue :=
  match c with
  | PushPending k d r m => push_pending q k d r m
  | PushError k d r m => push_error q k d r m
  | PopPending => bind (pop_pending q) (fun '(q', _) => Ok q')
  | MoveAll => move_all q
  | MoveOne k => bind (move_one q k) (fun '(q', _) => Ok q')
  | PopErrorKey k => bind (pop_error_key q k) (fun '(q', _) => Ok q')
  | PopPendingKey k => bind (pop_pending_key q k) (fun '(q', _) => Ok q')
  | ClearError => Ok (clear_error q)
  end.

(** Graceful restart, and what a kill between two calls leaves. *)
Definition pq_reopen (ps : Z) (q : pqueue) : res pqueue :=
  bind (pq_shut_down q) (fun q' => Ok (pq_open ps (db (pend q')) (db (errq q')))).
Definition pq_crash (ps : Z) (q : pqueue) : pqueue := pq_open ps (db (pend q)) (db (errq q)).

(** ** Crash points: the contents of the two files if the process dies during a call *)
Definition files : Type := table pentry * table eentry.
Definition files_of (q : pqueue) : files := (db (pend q), db (errq q)).

(** During [move_all_error_to_pending]: before each iteration, after its pop and after its push; with the entries moved
    so far. *)
Fixpoint move_all_points (fuel : nat) (q : pqueue) : list (files * list (N * eentry)) :=
  (files_of q, []) ::
  if 0 <? error_size q then
    match fuel with
    | O => []
    | S n =>
        match q_pop (errq q) with
        | Ok (e, Some (k, x)) =>
            ((db (pend q), db e), []) ::
            match push_pending (set_err q e) (ee_key x) (ee_data x) 0 (Some (ee_meta x)) with
            | Ok q' => map (fun p => (fst p, (k, x) :: snd p)) (move_all_points n q')
            | Raise _ => []
            end
        | _ => []
        end
    end
  else [].

(** Every call but the two that move entries commits at most once. *)
Definition crash_files_call (q : pqueue) (c : pcall) : list files :=
  files_of q ::
  match c with
  | MoveAll => map fst (move_all_points (Z.to_nat (error_size q)) q)
  | MoveOne k => match q_pop_key (errq q) k with Ok (e, _) => [(db (pend q), db e)] | Raise _ => [] end
  | _ => []
  end ++ match pstep q c with Ok q' => [files_of q'] | Raise _ => [] end.

(** During [shut_down] and during [__init__]: the pending queue first. *)
Definition crash_files_shut (q : pqueue) : list files :=
  map (fun t => (t, db (errq q))) (crash_tables_shut_down (pend q)) ++
  match q_shut_down (pend q) with
  | Ok p => map (fun t => (db p, t)) (crash_tables_shut_down (errq q))
  | Raise _ => []
  end.
Definition crash_files_open (ps : Z) (f : files) : list files :=
  map (fun t => (t, snd f)) (crash_tables_open ps (fst f)) ++
  map (fun t => (db (open_queue ps (fst f)), t)) (crash_tables_open ps (snd f)).

(** Queues that some history can produce, and the files it can leave: any page sizes, calls, graceful restarts, and
    crashes at any commit of a call, a shut-down or a start-up. *)
Inductive preachable : pqueue -> Prop :=
| preach_open ps f : pfiles f -> preachable (pq_open ps (fst f) (snd f))
| preach_step q c q' : preachable q -> pstep q c = Ok q' -> preachable q'
with pfiles : files -> Prop :=
| pf_fresh : pfiles ([], [])
| pf_call q c f : preachable q -> In f (crash_files_call q c) -> pfiles f
| pf_shut q f : preachable q -> In f (crash_files_shut q) -> pfiles f
| pf_open ps f f' : pfiles f -> In f' (crash_files_open ps f) -> pfiles f'.

Lemma preach_fresh ps : preachable (pq_open ps [] []).
Proof. exact (preach_open ps ([], []) pf_fresh). Qed.
Lemma preach_crash q ps : preachable q -> preachable (pq_crash ps q).
Proof. intros H. apply (preach_open ps (files_of q)). apply (pf_call q ClearError); [exact H|]. now left. Qed.
Lemma preach_reopen q ps q' : preachable q -> pq_reopen ps q = Ok q' -> preachable q'.
Proof.
  intros H E. unfold pq_reopen, pq_shut_down in E. destruct (q_shut_down (pend q)) as [p|] eqn:Ep; [|discriminate].
  destruct (q_shut_down (errq q)) as [e|] eqn:Ee; [|discriminate]. cbn in E. injection E as <-.
  apply (preach_open ps (db p, db e)). apply (pf_shut q); [exact H|]. unfold crash_files_shut. rewrite Ep.
  apply in_or_app. right. apply (in_map (fun t => (db p, t))). unfold crash_tables_shut_down. rewrite Ee.
  right. apply in_or_app. right. now left.
Qed.

Fixpoint psteps (q : pqueue) (cs : list pcall) : res pqueue :=
  match cs with
  | [] => Ok q
  | c :: r => bind (pstep q c) (fun q' => psteps q' r)
  end.

End Model.

Arguments pentry : clear implicits.
Arguments eentry : clear implicits.
Arguments pqueue : clear implicits.
Arguments pcall : clear implicits.
