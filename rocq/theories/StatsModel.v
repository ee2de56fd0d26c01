(** Model of ekosis/state_keepers/statistics_keeper.py and of the endpoint of ekosis/standard_endpoints/statistics.py.
    Numbers are abstract here ([num], with the addition and subtraction Python uses for them, rounding included): what is
    proved about the tree of statistics holds for integers and floats alike. *)
From Coq Require Import String Ascii ZArith QArith Bool Lia List.
From Verif Require Import Base RouterModel.
Import ListNotations.
Local Open Scope string_scope.

(** str.split('.') *)
Fixpoint split_dot (s : string) : string * list string :=
  match s with
  | EmptyString => (EmptyString, [])
  | String c r =>
      let (w, ws) := split_dot r in
      if Ascii.eqb c "."%char then (EmptyString, w :: ws) else (String c w, ws)
  end.

Section Stats.
Context (num : Type) (zero one : num) (add sub : num -> num -> num).
(** lines 38-47: p95 and p99 of the durations of one endpoint; [percentiles] below over rationals. *)
Context (pct : list num -> num * num).
(** AppConfiguration().name and .instance *)
Context (app_name app_instance : string).

(** A value in the dictionary of statistics. *)
Inductive tree := Num (n : num) | Str (s : string) | Node (d : list (string * tree)).
Definition dict := list (string * tree).

(** lines 89-96; None is never stored, so it means absence. *)
Fixpoint deep_get (t : tree) (keys : list string) : option tree :=
  match keys with
  | [] => Some t
  | k :: r =>
      match t with
      | Node d => match sget k d with Some t' => deep_get t' r | None => None end
      | _ => None
      end
  end.
(** lines 98-102, for keys [k :: ks]. setdefault on something that is not a dict raises AttributeError, item assignment
    TypeError; no dictionary has been created by then, because what is on the way to a leaf exists already. *)
Fixpoint deep_set (d : dict) (k : string) (ks : list string) (v : tree) : res dict :=
  match ks with
  | [] => Ok (sset k v d)
  | k2 :: ks2 =>
      match sget k d with
      | None => bind (deep_set [] k2 ks2 v) (fun d' => Ok (sset k (Node d') d))
      | Some (Node d1) => bind (deep_set d1 k2 ks2 v) (fun d' => Ok (sset k (Node d') d))
      | Some _ => Raise (match ks2 with [] => "TypeError" | _ => "AttributeError" end)
      end
  end.

Record state := mkS {
  gather_period : num; (** line 18 *)
  history_length : Z; (** line 19 *)
  start_time : num; (** line 20 *)
  current : dict; (** line 21 *)
  hist : list dict; (** line 22 *)
  queues : list string; (** line 23: the names of the persisted queues, in order; their sizes come from the environment *)
  durations : list (string * list num) (** line 24 *)
}.
Definition set_current (s : state) (d : dict) : state :=
  mkS (gather_period s) (history_length s) (start_time s) d (hist s) (queues s) (durations s).
Definition set_hist (s : state) (h : list dict) : state :=
  mkS (gather_period s) (history_length s) (start_time s) (current s) h (queues s) (durations s).
Definition set_queues (s : state) (q : list string) : state :=
  mkS (gather_period s) (history_length s) (start_time s) (current s) (hist s) q (durations s).
Definition set_durations (s : state) (d : list (string * list num)) : state :=
  mkS (gather_period s) (history_length s) (start_time s) (current s) (hist s) (queues s) d.

(** lines 85-87 *)
Definition set_statistic_value (d : dict) (key : string) (v : num) : res dict :=
  let (k, ks) := split_dot key in deep_set d k ks (Num v).
(** lines 111-119, with lines 104-109: [f] is the addition or subtraction; a name with a dictionary or a string under it
    cannot be added to. *)
Definition change (f : num -> num -> num) (d : dict) (key : string) (v : num) : res dict :=
  let (k, ks) := split_dot key in
  match deep_get (Node d) (k :: ks) with
  | None => deep_set d k ks (Num (f zero v))
  | Some (Num n) => deep_set d k ks (Num (f n v))
  | Some _ => Raise "TypeError"
  end.
(** lines 141-146 *)
Fixpoint reset (t : tree) : tree :=
  match t with
  | Node d => Node (map (fun p => (fst p, reset (snd p))) d)
  | _ => Num zero
  end.
Definition reset_dict (d : dict) : dict := map (fun p => (fst p, reset (snd p))) d.

(** What a moment provides: the time and the sizes of the persisted queues. *)
Record env := mkEnv { now : num; sizes : string -> num }.
(** A series of set_statistic_value calls, ended by the first that raises. *)
Fixpoint set_all (d : dict) (l : list (string * num)) : dict * option string :=
  match l with
  | [] => (d, None)
  | (k, v) :: r => match set_statistic_value d k v with Ok d' => set_all d' r | Raise e => (d, Some e) end
  end.
Definition endpoint_name (key what : string) : string := "endpoint_data." ++ key ++ "." ++ what.
(** lines 54-70 *)
Definition update_current (s : state) (e : env) : state * option string :=
  let d := sset "timestamp" (Num (now e)) (current s) in
  let d := sset "uptime" (Num (sub (now e) (start_time s))) d in
  let d := sset "gather_period" (Num (gather_period s)) d in
  let d := sset "application" (Node [("name", Str app_name); ("instance", Str app_instance)]) d in
  let '(d, x) := set_all d
    (flat_map (fun p => [(endpoint_name (fst p) "p95", fst (pct (snd p))); (endpoint_name (fst p) "p99", snd (pct (snd p)))])
       (durations s)) in
  match x with
  | Some _ => (set_current s d, x)
  | None =>
      let '(d, x) := set_all d (map (fun k => (k, sizes e k)) (queues s)) in (set_current s d, x)
  end.
(** lines 50-52 and 148-150 *)
Definition reset_current (s : state) : state :=
  set_current (set_durations s (map (fun p => (fst p, [])) (durations s))) (reset_dict (current s)).
(** lines 160-166, one turn of the loop; the awaits in it never suspend. *)
Definition gather (s : state) (e : env) : state * option string :=
  let '(s, x) := update_current s e in
  match x with
  | Some _ => (s, x)
  | None =>
      let h := current s :: hist s in
      let h := if Z.ltb (history_length s) (Z.of_nat (List.length h)) then removelast h else h in
      (reset_current (set_hist s h), None)
  end.

Inductive op :=
| Increment (key : string) (v : num)
| Decrement (key : string) (v : num)
| SetValue (key : string) (v : num)
| AddQueue (key : string)
| Track (key : string)
| AddEndpoint (key : string) (duration : num)
| Query (e : env)
| Gather (e : env)
| SetHistoryLength (n : Z)
| SetGatherPeriod (n : num)
| Start (t : num).
Definition lift (s : state) (r : res dict) : state * option string :=
  match r with Ok d => (set_current s d, None) | Raise e => (s, Some e) end.
Definition step (s : state) (o : op) : state * option string :=
  match o with
  | Increment k v => lift s (change add (current s) k v) (** 111-114 *)
  | Decrement k v => lift s (change sub (current s) k v) (** 116-119 *)
  | SetValue k v => lift s (set_statistic_value (current s) k v) (** 85-87 *)
  | AddQueue k => (set_queues s (if existsb (String.eqb k) (queues s) then queues s else (queues s ++ [k])%list), None) (** 121-122 *)
  | Track k => (** 124-126 *)
      match change add (current s) (endpoint_name k "call_count") zero with
      | Ok d => (set_durations (set_current s d) (sset k [] (durations s)), None)
      | Raise e => (s, Some e)
      end
  | AddEndpoint k v => (** 128-130 *)
      match change add (current s) (endpoint_name k "call_count") one with
      | Ok d =>
          match sget k (durations s) with
          | Some l => (set_durations (set_current s d) (sset k (l ++ [v])%list (durations s)), None)
          | None => (set_current s d, Some "KeyError")
          end
      | Raise e => (s, Some e)
      end
  | Query e => update_current s e (** 72-74 *)
  | Gather e => gather s e (** 152-166 *)
  | SetHistoryLength n => (** 32-33 *)
      (mkS (gather_period s) n (start_time s) (current s) (hist s) (queues s) (durations s), None)
  | SetGatherPeriod n => (** 29-30 *)
      (mkS n (history_length s) (start_time s) (current s) (hist s) (queues s) (durations s), None)
  | Start t => (** 132-135 *)
      (mkS (gather_period s) (history_length s) t (current s) (hist s) (queues s) (durations s), None)
  end.
(** A run: the final state and what the calls raised, oldest first. *)
Definition run (s : state) (ops : list op) : state * list (option string) :=
  fold_left (fun a o => let '(s', x) := step (fst a) o in (s', (snd a ++ [x])%list)) ops (s, []).
(** lines 15-27, 32-33 *)
Definition init (period0 start0 : num) : state := mkS period0 12 start0 [] [] [] [].

(** standard_endpoints/statistics.py: "current", "full", anything else the last gathered. *)
Definition eco_statistics_get (type : string) (e : env) (s : state) : list dict + dict :=
  if String.eqb type "current" then inr (current (fst (update_current s e)))
  else if String.eqb type "full" then inl (hist s)
  else inr (match hist s with d :: _ => d | [] => [] end).
End Stats.

(** sorted(data), over rationals: the rounding of floats is not modelled. *)
Fixpoint insert_q (x : Q) (l : list Q) : list Q :=
  match l with [] => [x] | y :: r => if Qle_bool x y then x :: l else y :: insert_q x r end.
Definition sort_q (l : list Q) : list Q := fold_right insert_q [] l.
(** Cut point [i] of [statistics.quantiles(data, n=100)] of the standard library (exclusive method) for sorted [data]:
    [m = ld + 1; j = i * m // n, clamped to 1 .. ld - 1; delta = i * m - j * n;
     (data[j - 1] * (n - delta) + data[j] * delta) / n]. *)
Definition cut_point (data : list Q) (i : Z) : Q :=
  let ld := Z.of_nat (List.length data) in
  let m := (ld + 1)%Z in
  let j := (i * m / 100)%Z in
  let j := (if j <? 1 then 1 else if ld - 1 <? j then ld - 1 else j)%Z in
  let delta := (i * m - j * 100)%Z in
  ((nth (Z.to_nat (j - 1)) data 0 * inject_Z (100 - delta) + nth (Z.to_nat j) data 0 * inject_Z delta) / 100)%Q.
(** statistics_keeper.py 38-47 *)
Definition percentiles (l : list Q) : Q * Q :=
  match l with
  | [] => (-1 # 1, -1 # 1)%Q
  | [d] => (d, d)
  | _ => (cut_point (sort_q l) 95, cut_point (sort_q l) 99)
  end.
