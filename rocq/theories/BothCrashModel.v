(** Messages from a buffered sender of one application to a buffered endpoint of another (DeliveryModel.v) when both
    processes die at any moments and are started again on the files they left.

    buffered_sender_base.py, stream_client_base.py, client_base.py, buffered_handler_base.py, paginated_queue.py and
    pending_queue.py, as in DeliveryModel.v, SCrashModel.v and CrashModel.v.

    A process that is down does nothing; so does a process that has been started again and whose tasks are not run. The
    model starts a process again at once, with any time until its first event. What the other process notices of the time
    in between are attempts that fail, which [WFail] allows at any time. *)
From Coq Require Import List ZArith NArith Bool String.
From Verif Require Import Base PQueueModel PQueueSpec PendingModel SenderModel HandlerModel SCrashModel CrashModel DeliveryModel.
Import ListNotations.
Local Open Scope Z_scope.

Section Model.
Context {D MA MB : Type}.
Variables (meta_a : MA) (dto_a truthy_a : D -> bool) (wait : bool) (max_a cmax : Z).
Variables (meta_b : MB) (dto_b truthy_b : D -> bool) (max_b : Z).
Notation world := (world D MA MB). Notation wev := (wev D MB). Notation conn := (conn D). Notation msg := (msg D).
Notation sout := (sout D). Notation sev := (sev D). Notation hout := (hout D MB).
Notation wstep := (@wstep D MA MB meta_a dto_a truthy_a wait max_a cmax meta_b dto_b truthy_b max_b).

(** The process of the sender is started again, with page size [p] on files [f] (buffered_sender_base.py 190-205,
    paginated_queue.py 118-145). The calls of its client are gone; the requests it sent may still arrive. [cn]: the
    connections when it died; [o]: what the event in which it died had done. *)
Definition restart_a (w : world) (cn : list conn) (o : list sout) (p : Z) (f : files (D:=D) (M:=MA)) : world :=
  mkW (s_setup (pq_open p (fst f) (snd f))) (ao w ++ o) (wb w) (bo w) cn (collectors w) (fun _ => (0, None)).

(** The process of the endpoint is started again (buffered_handler_base.py 123-155). The calls of [run] that were
    collecting metadata are gone, their connections get no answer; answers already given may still be read, and requests
    on their way may still arrive. *)
Definition restart_b (w : world) (o : list hout) (p : Z) (f : files (D:=D) (M:=MB)) : world :=
  mkW (wa w) (ao w) (setup (pq_open p (fst f) (snd f))) (bo w ++ o) (conns w) [] (wcalls w).

(** [a_does w e o cn]: event [e] can happen in the sender, and if it has done [o] when the process dies, then the
    connections are [cn]: the end of send_data without an exception needs an answer with status 0 that the client has
    read by then (stream_client_base.py 38-45, client_base.py 78-85). An answer of another status that was read before
    the crash is left as it was: no client is there to read it again. *)
Inductive a_does (w : world) : sev -> list sout -> list conn -> Prop :=
| ad_own e o : match e with STask i _ => sending w i = None | _ => True end -> a_does w e o (conns w)
| ad_fails i r o : r <> SenderModel.ROk -> a_does w (STask i r) o (conns w)
| ad_unread i : a_does w (STask i SenderModel.ROk) [] (conns w)
| ad_read i o e m c n : o <> [] -> sending w i = Some e -> wcalls w i = (m, Some c) -> nth_error (conns w) c = Some n ->
    c_state n = CAnswered AAccepted -> a_does w (STask i SenderModel.ROk) o (set_conn (conns w) c (CRead AAccepted)).

(** [openings f n f']: some starts of a process on files [f] die while they open them and leave [f'] (paginated_queue.py
    118-145); [n] adds up four pages for each. *)
Inductive openings {M} : files (D:=D) (M:=M) -> Z -> files (D:=D) (M:=M) -> Prop :=
| op_none f : openings f 0 f
| op_more f n f' ps f'' : openings f n f' -> 1 <= ps -> In f'' (crash_files_open ps f') -> openings f (n + 4 * ps) f''.

(** [wlives na pa nb pb others w]: both applications were started first with empty directories, ran together and were
    each ended and started again any number of times, and now are as in [w], whose outputs [ao] and [bo] are those of all
    lives. [pa] and [pb] are the page sizes of the present lives, [na] and [nb] add up the most that was only in memory when
    a life ended, as in [s_lives] and [lives]; [others]: the requests of other clients to the endpoint. *)
Inductive wlives : Z -> Z -> Z -> Z -> list msg -> world -> Prop :=
| wl_start pa pb : 1 <= pa -> 1 <= pb -> wlives 0 pa 0 pb [] (wstart (pq_open pa [] []) (pq_open pb [] []))
| wl_step na pa nb pb ot w ev w' l : wlives na pa nb pb ot w -> wstep w ev = (w', l) ->
    sclosed (wa w') = 0%nat -> closed (wb w') = 0%nat ->
    wlives na pa nb pb (ot ++ match ev with WOther k d => [(k, d)] | _ => [] end) w'
(* the sender dies *)
| wl_crash_a na pa nb pb ot w e f o cn n f' p : wlives na pa nb pb ot w ->
    a_does w e o cn -> s_crash_at meta_a dto_a truthy_a wait max_a (wa w) e f o -> openings f n f' -> 1 <= p ->
    wlives (na + (4 * pa + 2) + n) p nb pb ot (restart_a w cn o p f')
(* the sender closes its queues, and its process ends *)
| wl_stop_a na pa nb pb ot w ev w' l n f' p : wlives na pa nb pb ot w -> wstep w ev = (w', l) ->
    sclosed (wa w') <> 0%nat -> closed (wb w') = 0%nat -> openings (files_of (sq (wa w'))) n f' -> 1 <= p ->
    wlives (na + n) p nb pb ot (restart_a w' (conns w') [] p f')
(* the endpoint dies *)
| wl_crash_b na pa nb pb ot w e f o n f' p : wlives na pa nb pb ot w ->
    crash_at meta_b dto_b truthy_b max_b (wb w) e f o -> openings f n f' -> 1 <= p ->
    wlives na pa (nb + (4 * pb + 2 + Z.of_nat (List.length (pushing (wb w)))) + n) p ot (restart_b w o p f')
(* the endpoint closes its queues, and its process ends *)
| wl_stop_b na pa nb pb ot w ev w' l n f' p : wlives na pa nb pb ot w -> wstep w ev = (w', l) ->
    sclosed (wa w') = 0%nat -> closed (wb w') <> 0%nat -> openings (files_of (hq (wb w'))) n f' -> 1 <= p ->
    wlives na pa (nb + Z.of_nat (List.length (pushing (wb w'))) + n) p ot (restart_b w' [] p f').

End Model.
