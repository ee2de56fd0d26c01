(** A buffered endpoint whose process dies at any moment and is started again on the files it left.

    buffered_handler_base.py:83-230 (the endpoint, see HandlerModel.v), paginated_queue.py:90-340 and pending_queue.py
    (the files, see PendingModel.v). *)
From Coq Require Import List ZArith NArith Bool String.
From Verif Require Import Base PQueueModel PQueueSpec PendingModel HandlerModel.
Import ListNotations.
Local Open Scope Z_scope.

Section Model.
Context {D M : Type}.
Variable no_meta : M.
Variables dto_ok truthy : D -> bool.
Variable max_retries : Z.
Notation hout := (hout D M). Notation hev := (hev D M). Notation hstate := (hstate D M).
Notation files := (files (D:=D) (M:=M)).

(** buffered_handler_base.py:106-110: what an operator's "reprocess all" has done when it has moved [moved] into a
    pending queue that held [lp] at its beginning (see [hstep], EReprocessAll). *)
Definition moved_outs (lp : list (N * pentry D M)) (moved : list (N * eentry D M)) : list hout :=
  flat_map (fun e => HReprocessed (fst e) ::
              [if has (fst e) lp then HDropped (item_e (snd e)) else HQueued (fst e)]) moved.

(** [crash_at s ev f o]: the process dies while it executes event [ev] in state [s]; [f] is what is on disk, [o] what the
    event had done before. Between two commits nothing on disk changes, so there is one case per commit. A crash after the
    last commit of an event is a crash before the next one ([ca_before] of a longer run). *)
Inductive crash_at (s : hstate) : hev -> files -> list hout -> Prop :=
| ca_before ev : crash_at s ev (files_of (hq s)) []
(* 190-196, then the loop head 179-183: the attempt has been settled, the next entry is not yet popped *)
| ca_settled i r e b s1 o1 : nth_error (tasks s) i = Some (TAfter e b) -> r <> RExn ->
    settle no_meta max_retries s e b = (s1, o1) -> crash_at s (ETask i r) (files_of (hq s1)) o1
(* 113-120, pending_queue.py:move_one_error_to_pending: popped from the error queue, not yet pushed *)
| ca_moving_one k e x : q_pop_key (errq (hq s)) k = Ok (e, x) ->
    crash_at s (EReprocessOne k) (db (pend (hq s)), db e) []
(* 106-110, pending_queue.py:move_all_error_to_pending: between any two of its pops and pushes *)
| ca_moving_all f moved : In (f, moved) (move_all_points no_meta (Z.to_nat (error_size (hq s))) (hq s)) ->
    crash_at s EReprocessAll f (moved_outs (entries (pend (hq s))) moved)
(* 158-162 with nothing running: shut_down writes the pages; the last of these points is the graceful end *)
| ca_shut_down f : running s = false -> In f (crash_files_shut (hq s)) -> crash_at s EShutDown f []
(* 205-207 after shut_down was requested: the processing task ends, then the pages are written. [hstep] with the
   request taken back is the same step without the writing. *)
| ca_closing ev s1 o f : shut s = true ->
    hstep no_meta dto_ok truthy max_retries (set_shut s false) ev = (s1, o) -> running s1 = false ->
    In f (crash_files_shut (hq s1)) -> crash_at s ev f o.

(** [lives outs n f]: from an empty directory, some number of lives of the process, each with its own page size, any
    events and any end; together they did [outs] and left the files [f]. A life can end by a crash, by closing the queues,
    or while it opens its files. [n] adds up the most that was only in memory: for a crash two pages of each queue, the
    request being processed, the error entry being moved and the accepted requests whose push task has not run; for a
    graceful end only the latter. *)
Inductive lives : list hout -> Z -> files -> Prop :=
| lv_none : lives [] 0 ([], [])
| lv_life outs n f ps evs s o ev f' o' : lives outs n f -> 1 <= ps ->
    hrun no_meta dto_ok truthy max_retries (setup (pq_open ps (fst f) (snd f))) evs = (s, o) -> closed s = 0%nat ->
    crash_at s ev f' o' ->
    lives (outs ++ o ++ o') (n + (4 * ps + 2 + Z.of_nat (List.length (pushing s)))) f'
| lv_graceful outs n f ps evs s o ev s' o' : lives outs n f -> 1 <= ps ->
    hrun no_meta dto_ok truthy max_retries (setup (pq_open ps (fst f) (snd f))) evs = (s, o) -> closed s = 0%nat ->
    hstep no_meta dto_ok truthy max_retries s ev = (s', o') -> closed s' <> 0%nat ->
    lives (outs ++ o ++ o') (n + Z.of_nat (List.length (pushing s'))) (files_of (hq s'))
| lv_opening outs n f ps f' : lives outs n f -> 1 <= ps -> In f' (crash_files_open ps f) ->
    lives outs (n + 4 * ps) f'.

End Model.
