(** Model of ekosis/state_keepers/error_state_keeper.py and error_state_list.py, and of the endpoints of
    ekosis/standard_endpoints/errors.py. *)
From Coq Require Import String ZArith Bool Lia List.
Import ListNotations.
Local Open Scope Z_scope.

Section ErrState.
(** str.upper() *)
Context (upper : string -> string).

(** error_state_keeper.py 4-8 *)
Record keeper := mkKeeper { kid : string; kdescr : string; kcount : Z }.
(** error_state_keeper.py 23-24 *)
Definition k_increment (k : keeper) : keeper := mkKeeper (kid k) (kdescr k) (kcount k + 1).
(** error_state_keeper.py 26-30 *)
Definition k_clear_some (how_many : Z) (k : keeper) : keeper :=
  mkKeeper (kid k) (kdescr k) (if Z.leb how_many (kcount k) then kcount k - how_many else 0).
(** error_state_keeper.py 32-33 *)
Definition k_clear_all (k : keeper) : keeper := mkKeeper (kid k) (kdescr k) 0.
(** error_state_keeper.py 38-39 *)
Definition k_is_set (k : keeper) : bool := Z.ltb 0 (kcount k).

(** error_state_list.py 11: a dict, in order of insertion. *)
Definition emap := list (string * keeper).
Fixpoint mget (i : string) (m : emap) : option keeper :=
  match m with [] => None | (j, k) :: r => if String.eqb i j then Some k else mget i r end.
Fixpoint mupdate (i : string) (f : keeper -> keeper) (m : emap) : emap :=
  match m with [] => [] | (j, k) :: r => if String.eqb i j then (j, f k) :: r else (j, k) :: mupdate i f r end.

(** error_state_list.py 19-21 *)
Definition has_error_id (i : string) (m : emap) : bool := match mget (upper i) m with Some _ => true | None => false end.
(** error_state_list.py 30-35 *)
Definition increment (i d : string) (m : emap) : emap :=
  let u := upper i in
  let m := if has_error_id i m then m else m ++ [(u, mkKeeper u d 0)] in
  mupdate u k_increment m.
(** error_state_list.py 37-40 *)
Definition clear_some (i : string) (n : Z) (m : emap) : emap := if has_error_id i m then mupdate (upper i) (k_clear_some n) m else m.
(** error_state_list.py 42-45 *)
Definition clear_all (i : string) (m : emap) : emap := if has_error_id i m then mupdate (upper i) k_clear_all m else m.
(** error_state_list.py 47-52 *)
Definition get_error_states (m : emap) : list keeper := filter k_is_set (map snd m).
(** standard_endpoints/errors.py 9-15; the entries' to_dict(). *)
Definition build_errors_response (m : emap) : list (string * string * Z) :=
  map (fun k => (kid k, kdescr k, kcount k)) (filter k_is_set (get_error_states m)).
(** standard_endpoints/errors.py 24-31 *)
Definition eco_error_states_clear (i : string) (count : Z) (m : emap) : emap * list (string * string * Z) :=
  let m := if has_error_id i m then if Z.eqb count 0 then clear_all i m else clear_some i count m else m in
  (m, build_errors_response m).

Inductive op := Raise_ (i d : string) | ClearSome (i : string) (n : Z) | ClearAll (i : string) | ClearEndpoint (i : string) (n : Z).
Definition step (m : emap) (o : op) : emap :=
  match o with
  | Raise_ i d => increment i d m
  | ClearSome i n => clear_some i n m
  | ClearAll i => clear_all i m
  | ClearEndpoint i n => fst (eco_error_states_clear i n m)
  end.
Definition run (ops : list op) : emap := fold_left step ops [].
End ErrState.
