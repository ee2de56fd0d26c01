(** The loop that gathers statistics: ekosis/state_keepers/statistics_keeper.py 29-30, 131-139, 152-166 (set_gather_period,
    __aenter__, __aexit__, gather_statistics), started by application_base.py 231-233.
    What a gathering does is StatsModel.v; here it happens at a time, or raises.  Times are milliseconds. *)
From Coq Require Import List ZArith Bool String.
Import ListNotations.
Local Open Scope Z_scope.

(** Where the loop is: in [asyncio.sleep(1)] since some time with this [sleep_count], returned or cancelled, ended by an
    exception of a gathering, or gathering again and again without ever waiting. *)
Inductive place := Asleep (count since : Z) | Ended | Failed (e : string) | Spinning.
Record keeper := mkKeeper { running : bool; period : Z; loop : place; gathered : list Z (* times, the latest first *) }.

(** 153-156: from the head of the outer loop to the next suspension.  The gatherings themselves await only coroutines that do
    not suspend (35-49, 55-71, 148-150), so that without a sleep nothing else runs: if none of them raises, for ever. *)
Definition head (k : keeper) (t : Z) (o : option string) : keeper :=
  if running k then
    if 0 <? period k then mkKeeper (running k) (period k) (Asleep 0 t) (gathered k)
    else match o with
         | Some e => mkKeeper (running k) (period k) (Failed e) (gathered k)
         | None => mkKeeper (running k) (period k) Spinning (t :: gathered k)
         end
  else mkKeeper (running k) (period k) Ended (gathered k).

(** 131-134 and 152: entered at time [t] *)
Definition start (p t : Z) (o : option string) : keeper := head (mkKeeper true p Ended []) t o.

(** 156-166: the sleep ends at time [t]; [o] is the exception of the gathering, if there is one and it raises *)
Definition woken (k : keeper) (count t : Z) (o : option string) : keeper :=
  let c := count + 1 in
  if running k && (c <? period k) then mkKeeper (running k) (period k) (Asleep c t) (gathered k)
  else if running k then
    match o with
    | Some e => mkKeeper (running k) (period k) (Failed e) (gathered k)
    | None => head (mkKeeper (running k) (period k) (loop k) (t :: gathered k)) t o
    end
  else mkKeeper (running k) (period k) Ended (gathered k).

Inductive ev :=
| Woken (t : Z) (o : option string)
| SetPeriod (p : Z)              (* 29-30 *)
| Leave                          (* 136-138: __aexit__ *)
| Cancel                         (* the task is cancelled; __aexit__ runs on the way out *)
| Other.                         (* any other code of the application gets to run *)

(** One event; false if it cannot happen because the loop does not give up control. *)
Definition step (k : keeper) (x : ev) : keeper * bool :=
  match loop k with
  | Spinning => (k, false)
  | _ =>
    match x with
    | Woken t o => match loop k with Asleep c _ => (woken k c t o, true) | _ => (k, true) end
    | SetPeriod p => (mkKeeper (running k) p (loop k) (gathered k), true)
    | Leave => (mkKeeper false (period k) (loop k) (gathered k), true)
    | Cancel => (mkKeeper false (period k) (match loop k with Asleep _ _ => Ended | l => l end) (gathered k), true)
    | Other => (k, true)
    end
  end.
Fixpoint run (k : keeper) (xs : list ev) : keeper * list bool :=
  match xs with
  | [] => (k, [])
  | x :: r => let (k1, b) := step k x in let (k2, bs) := run k1 r in (k2, b :: bs)
  end.
