(** Crashes of the process of a buffered sender (sending/buffered_sender_base.py on queues/pending_queue.py). *)
From Coq Require Import List ZArith NArith Bool String.
From Verif Require Import Base PQueueModel PQueueSpec PendingModel SenderModel.
Import ListNotations.
Local Open Scope Z_scope.

Section Model.
Context {D M : Type}.
Variable no_meta : M.
Variables dto_ok truthy : D -> bool.
Variable wait : bool.
Variable max_retries : Z.
Notation sout := (sout D). Notation sev := (sev D). Notation sstate := (sstate D M).
Notation files := (files (D:=D) (M:=M)).

(** buffered_sender_base.py:157-161: what "reprocess all" has done when it has moved [moved] into a pending queue that
    held [lp] at its beginning (see [sstep], SReprocessAll). *)
Definition s_moved_outs (lp : list (N * pentry D M)) (moved : list (N * eentry D M)) : list sout :=
  flat_map (fun e => OReprocessed (fst e) ::
              [if has (fst e) lp then ODropped (msg_e (snd e)) else OQueued (fst e)]) moved.

(** [s_crash_at s ev f o]: the process dies while it executes event [ev] in state [s]; [f] is what is on disk, [o] what
    the event had done before. One case per commit, as in [crash_at] of CrashModel.v. The caller of [enqueue] dies with
    the process, so that a crash inside [enqueue] after its commit is a crash after it. *)
Inductive s_crash_at (s : sstate) : sev -> files -> list sout -> Prop :=
| sc_before ev : s_crash_at s ev (files_of (sq s)) []
(* 97-104, then the loop head 88-91: the attempt has been settled, the next entry is not yet popped *)
| sc_settled i r e s1 o1 : nth_error (stasks s) i = Some (SSending e) ->
    s_settle no_meta max_retries s e r = (s1, o1) -> s_crash_at s (STask i r) (files_of (sq s1)) o1
(* 164-171, pending_queue.py:move_one_error_to_pending: popped from the error queue, not yet pushed *)
| sc_moving_one k e x : q_pop_key (errq (sq s)) k = Ok (e, x) ->
    s_crash_at s (SReprocessOne k) (db (pend (sq s)), db e) []
(* 157-161, pending_queue.py:move_all_error_to_pending: between any two of its pops and pushes *)
| sc_moving_all f moved : In (f, moved) (move_all_points no_meta (Z.to_nat (error_size (sq s))) (sq s)) ->
    s_crash_at s SReprocessAll f (s_moved_outs (all_entries (pend (sq s))) moved)
(* 67-79 with nothing running: shut_down writes the pages *)
| sc_shut_down f : srunning s = false -> In f (crash_files_shut (sq s)) -> s_crash_at s SShutDown f []
(* 111-113 after shut_down was requested: the sending task ends, then the pages are written. [sstep] with the
   request taken back is the same step without the writing. *)
| sc_closing ev s1 o f : sshut s = true ->
    sstep no_meta dto_ok truthy wait max_retries (set_sshut s false) ev = (s1, o) -> srunning s1 = false ->
    In f (crash_files_shut (sq s1)) -> s_crash_at s ev f o.

(** [s_lives outs n f]: from an empty directory, some number of lives of the process, each with its own page size, any
    events and any end; together they did [outs] and left the files [f]. [n] adds up the most that was only in memory:
    for a crash two pages of each queue, the message being sent and the error entry being moved; for a crash during
    start-up four pages; for a graceful end nothing. *)
Inductive s_lives : list sout -> Z -> files -> Prop :=
| sl_none : s_lives [] 0 ([], [])
| sl_life outs n f ps evs s o ev f' o' : s_lives outs n f -> 1 <= ps ->
    srun no_meta dto_ok truthy wait max_retries (s_setup (pq_open ps (fst f) (snd f))) evs = (s, o) -> sclosed s = 0%nat ->
    s_crash_at s ev f' o' -> s_lives (outs ++ o ++ o') (n + (4 * ps + 2)) f'
| sl_graceful outs n f ps evs s o ev s' o' : s_lives outs n f -> 1 <= ps ->
    srun no_meta dto_ok truthy wait max_retries (s_setup (pq_open ps (fst f) (snd f))) evs = (s, o) -> sclosed s = 0%nat ->
    sstep no_meta dto_ok truthy wait max_retries s ev = (s', o') -> sclosed s' <> 0%nat ->
    s_lives (outs ++ o ++ o') n (files_of (sq s'))
| sl_opening outs n f ps f' : s_lives outs n f -> 1 <= ps -> In f' (crash_files_open ps f) ->
    s_lives outs (n + 4 * ps) f'.

End Model.
