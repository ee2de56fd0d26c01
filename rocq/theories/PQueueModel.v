(** Model of ekosis/queues/paginated_queue.py.

    Simplifications, valid for the whole file:
    - A span key is the number [N] denoted by its 24 bytes (see SpanKeyModel for the codec and its injectivity).
    - An entry's JSON text ([object_string]) is represented by the queued value of type [V] itself, so
      [model_dump_json] / [json.loads] + constructor are the identity (trusted base).
    - The [async] functions of PaginatedQueue contain no suspension point and are therefore atomic. *)
From Coq Require Import List ZArith NArith Bool String.
From Verif Require Import Base.
Import ListNotations.
Local Open Scope Z_scope.

Section Model.
Context {V : Type}.

(** ** QueuePage (paginated_queue.py:30-114) *)

(** paginated_queue.py:31-34: a list of entries and a dictionary from span key to entry. *)
Record page := mkPage { plist : list (N * V); pdict : list (N * V) }.

(** paginated_queue.py:31-34 ([QueuePage.__init__]) *)
Definition new_page : page := mkPage [] [].

(** paginated_queue.py:36-38 ([__append_entry]), reached from push_with_str (54-60) and push_back (65-68) *)
Definition page_append (p : page) (k : N) (v : V) : page :=
  mkPage (plist p ++ [(k, v)]) (dset k v (pdict p)).

(** paginated_queue.py:77-78 ([size]) *)
Definition page_size_of (p : page) : Z := Z.of_nat (List.length (plist p)).

(** paginated_queue.py:83-84 ([has_entry]) *)
Definition page_has (p : page) (k : N) : bool := dmem k (pdict p).

(** paginated_queue.py:70-75 ([pop_front], called by [pop] 62-63).
    [dict.pop] of a missing key raises KeyError. *)
Definition page_pop_front (p : page) : res (page * option (N * V)) :=
  match plist p with
  | [] => Ok (p, None)
  | (k, v) :: r =>
      if dmem k (pdict p) then Ok (mkPage r (ddel k (pdict p)), Some (k, v))
      else Raise "KeyError"
  end.

(** paginated_queue.py:86-90 ([inspect_entry]) *)
Definition page_inspect (p : page) (k : N) : option V := dget k (pdict p).

(** paginated_queue.py:97-100: the loop remembers the LAST index whose entry has the key; -1 if there is none. *)
Fixpoint last_index_from (i : Z) (k : N) (l : list (N * V)) (found : Z) : Z :=
  match l with
  | [] => found
  | (k', _) :: r => last_index_from (i + 1) k r (if N.eqb k k' then i else found)
  end.

(** Python [list.pop(i)]: for i = -1 the last element is removed; IndexError is not reachable here
    because the list is scanned for the index, except for pop(-1) from an empty list. *)
Definition list_pop_at (i : Z) (l : list (N * V)) : res (list (N * V)) :=
  match l with
  | [] => Raise "IndexError"
  | _ => if i <? 0 then Ok (removelast l)
         else Ok (firstn (Z.to_nat i) l ++ skipn (S (Z.to_nat i)) l)
  end.

(** paginated_queue.py:92-102 ([pop_entry]) *)
Definition page_pop_entry (p : page) (k : N) : res (page * option V) :=
  match dget k (pdict p) with
  | None => Ok (p, None)
  | Some v =>
      bind (list_pop_at (last_index_from 0 k (plist p) (-1)) (plist p))
           (fun l => Ok (mkPage l (ddel k (pdict p)), Some v))
  end.

(** paginated_queue.py:104-114 ([get_first_x_span_keys]); [range(how_many)] of a negative number is empty.
    The keys are returned as themselves instead of as strings. *)
Definition page_first_x (p : page) (how_many : Z) : list N :=
  if 0 <? page_size_of p then
    if page_size_of p <? how_many then map fst (plist p)
    else map fst (firstn (Z.to_nat how_many) (plist p))
  else [].

(** ** The SQLite table (paginated_queue.py:18-22)
    A table is the list of its records in ascending order of the primary key [record_id]. *)
Record rec := mkRec { rid : Z; rkey : N; rval : V }.
Definition table := list rec.

(** SQL INSERT: PRIMARY KEY on record_id (line 20), UNIQUE on span_key (line 21). *)
Definition rid_used (i : Z) (t : table) : bool := existsb (fun r => Z.eqb i (rid r)) t.
Definition key_used (k : N) (t : table) : bool := existsb (fun r => N.eqb k (rkey r)) t.

Fixpoint ins_by_rid (x : rec) (t : table) : table :=
  match t with
  | [] => [x]
  | r :: rest => if rid x <? rid r then x :: r :: rest else r :: ins_by_rid x rest
  end.

Definition sql_insert (x : rec) (t : table) : res table :=
  if rid_used (rid x) t || key_used (rkey x) t then Raise "IntegrityError" else Ok (ins_by_rid x t).

(** [bulk_save_objects] + [commit]: all the inserts or none. *)
Fixpoint bulk_save (xs : list rec) (t : table) : res table :=
  match xs with
  | [] => Ok t
  | x :: r => bind (sql_insert x t) (bulk_save r)
  end.

(** SQL LIMIT: a negative limit means no limit in SQLite. *)
Definition sql_limit (n : Z) (t : list rec) : list rec :=
  if n <? 0 then t else firstn (Z.to_nat n) t.

(** DELETE ... WHERE record_id IN ids (paginated_queue.py:159-164) *)
Definition sql_delete_ids (ids : list Z) (t : table) : table :=
  filter (fun r => negb (existsb (Z.eqb (rid r)) ids)) t.

(** ** PaginatedQueue (paginated_queue.py:117-348)
    [back = None] means that [self.back_page is self.front_page]. *)
Record queue := mkQueue { psz : Z; front : page; back : option page; db : table }.

Definition set_front (q : queue) (p : page) : queue := mkQueue (psz q) p (back q) (db q).
Definition set_db (q : queue) (t : table) : queue := mkQueue (psz q) (front q) (back q) t.

(** The object [self.back_page]. *)
Definition back_page (q : queue) : page :=
  match back q with Some p => p | None => front q end.

(** Mutation of the object [self.back_page] in place: the same object as the front page when aliased. *)
Definition update_back (q : queue) (p : page) : queue :=
  match back q with
  | Some _ => mkQueue (psz q) (front q) (Some p) (db q)
  | None   => mkQueue (psz q) p None (db q)
  end.

(** paginated_queue.py:223-224 *)
Definition db_size (q : queue) : Z := Z.of_nat (List.length (db q)).

(** paginated_queue.py:147-150 *)
Definition max_record_id (q : queue) : Z :=
  match db q with
  | [] => 0
  | r :: rest => fold_left (fun m x => Z.max m (rid x)) rest (rid r)
  end.

(** paginated_queue.py:153-156 *)
Definition min_record_id (q : queue) : Z :=
  match db q with
  | [] => 0
  | r :: rest => fold_left (fun m x => Z.min m (rid x)) rest (rid r)
  end.

(** [for record in records: page.push_with_str(...)] (173-174, 185-186) *)
Definition page_append_recs (p : page) (rs : list rec) : page :=
  fold_left (fun p r => page_append p (rkey r) (rval r)) rs p.

(** paginated_queue.py:167-176 ([__load_front_page]) *)
Definition load_front_page (q : queue) : queue :=
  let records := sql_limit (psz q) (db q) in
  let q1 := set_front q (page_append_recs (front q) records) in
  set_db q1 (sql_delete_ids (map rid records) (db q1)).

(** paginated_queue.py:179-188 ([__load_back_page]): records in DESCENDING order. *)
Definition load_back_page (q : queue) : queue :=
  let records := sql_limit (psz q) (rev (db q)) in
  let q1 := update_back q (page_append_recs (back_page q) records) in
  set_db q1 (sql_delete_ids (map rid records) (db q1)).

(** The loop bodies of 195-201 and 211-217: consecutive record ids, step [d] from [i]. *)
Fixpoint number_entries (i d : Z) (l : list (N * V)) : list rec :=
  match l with
  | [] => []
  | (k, v) :: r => mkRec i k v :: number_entries (i + d) d r
  end.

(** paginated_queue.py:191-204 ([__write_front_page]).
    Afterwards [self.front_page] is a new page; [self.back_page] is the object it was. *)
Definition write_front_page (q : queue) : res queue :=
  bind (bulk_save (number_entries (min_record_id q - 1) (-1) (rev (plist (front q)))) (db q))
       (fun t => Ok (mkQueue (psz q) new_page (Some (back_page q)) t)).

(** paginated_queue.py:207-220 ([__write_back_page]) *)
Definition write_back_page (q : queue) : res queue :=
  bind (bulk_save (number_entries (max_record_id q + 1) 1 (plist (back_page q))) (db q))
       (fun t => Ok (mkQueue (psz q) (front q) (Some new_page) t)).

(** paginated_queue.py:138-144 ([__do_initial_load]) *)
Definition initial_load (q : queue) : queue :=
  let q1 := if 0 <? db_size q then load_front_page q else q in
  if 0 <? db_size q1
  then load_back_page (mkQueue (psz q1) (front q1) (Some new_page) (db q1))
  else q1.

(** paginated_queue.py:118-135 ([__init__]) on a file whose table is [t]. *)
Definition open_queue (ps : Z) (t : table) : queue :=
  initial_load (mkQueue ps new_page None t).

(** paginated_queue.py:244-255 ([pop]); the entry is returned with its key. *)
Definition q_pop (q : queue) : res (queue * option (N * V)) :=
  let from_front q :=
    bind (page_pop_front (front q)) (fun '(p, e) => Ok (set_front q p, e)) in
  if 0 <? page_size_of (front q) then from_front q
  else if 0 <? db_size q then from_front (load_front_page q)
  else if 0 <? page_size_of (back_page q) then
    from_front (mkQueue (psz q) (back_page q) None (db q))
  else Ok (mkQueue (psz q) (back_page q) None (db q), None).

(** paginated_queue.py:238-241 ([__check_record_exists]) *)
Definition db_has (q : queue) (k : N) : bool := key_used k (db q).

(** paginated_queue.py:258-271 ([push]) *)
Definition q_push (q : queue) (k : N) (v : V) : res (queue * N) :=
  if page_has (back_page q) k || page_has (front q) k || db_has q k then Ok (q, k)
  else if page_size_of (back_page q) <? psz q then
    Ok (update_back q (page_append (back_page q) k v), k)
  else match back q with
       | None => Ok (mkQueue (psz q) (front q) (Some (page_append new_page k v)) (db q), k)
       | Some _ =>
           bind (write_back_page q)
                (fun q' => Ok (update_back q' (page_append (back_page q') k v), k))
       end.

(** paginated_queue.py:274-282 ([size]) *)
Definition q_size (q : queue) : Z :=
  match back q with
  | None => db_size q + page_size_of (front q)
  | Some b => db_size q + (page_size_of (front q) + page_size_of b)
  end.

(** paginated_queue.py:315-316 ([is_empty]) *)
Definition q_is_empty (q : queue) : bool := q_size q =? 0.

(** paginated_queue.py:227-235 ([__get_record_by_span_key]);
    [.one()] raises MultipleResultsFound on more than one row, which is not caught. *)
Definition get_record (q : queue) (k : N) : res (option rec) :=
  match filter (fun r => N.eqb (rkey r) k) (db q) with
  | [] => Ok None
  | [r] => Ok (Some r)
  | _ => Raise "MultipleResultsFound"
  end.

(** paginated_queue.py:285-296 ([inspect_span_key]) *)
Definition q_inspect (q : queue) (k : N) : res (option V) :=
  if page_has (front q) k then Ok (page_inspect (front q) k)
  else if page_has (back_page q) k then Ok (page_inspect (back_page q) k)
  else bind (get_record q k) (fun o => Ok (option_map rval o)).

(** paginated_queue.py:299-312 ([pop_span_key]); [session.delete(record)] deletes by primary key. *)
Definition q_pop_key (q : queue) (k : N) : res (queue * option V) :=
  if page_has (front q) k then
    bind (page_pop_entry (front q) k) (fun '(p, o) => Ok (set_front q p, o))
  else if page_has (back_page q) k then
    bind (page_pop_entry (back_page q) k) (fun '(p, o) => Ok (update_back q p, o))
  else bind (get_record q k) (fun o =>
         match o with
         | None => Ok (q, None)
         | Some r => Ok (set_db q (sql_delete_ids [rid r] (db q)), Some (rval r))
         end).

(** paginated_queue.py:323-324 ([get_first_x_span_keys]) *)
Definition q_first_x (q : queue) (n : Z) : list N := page_first_x (front q) n.

(** paginated_queue.py:327-335 ([clear]): three deletes by sign of the record id, one commit. *)
Definition q_clear (q : queue) : queue :=
  let t1 := filter (fun r => negb (0 <? rid r)) (db q) in
  let t2 := filter (fun r => negb (rid r <? 0)) t1 in
  let t3 := filter (fun r => negb (rid r =? 0)) t2 in
  mkQueue (psz q) new_page None t3.

(** paginated_queue.py:338-348 ([shut_down]) *)
Definition q_shut_down (q : queue) : res queue :=
  match back q with
  | None => if 0 <? page_size_of (front q) then write_front_page q else Ok q
  | Some _ =>
      bind (if 0 <? page_size_of (front q) then write_front_page q else Ok q)
           (fun q1 => if 0 <? page_size_of (back_page q1) then write_back_page q1 else Ok q1)
  end.

(** ** Operations and histories *)
Inductive op :=
| Push (k : N) (v : V) | Pop | Inspect (k : N) | PopKey (k : N)
| Size | IsEmpty | Clear.

Inductive out :=
| OKey (k : N) | OEntry (e : option (N * V)) | OVal (v : option V)
| ONum (n : Z) | OBool (b : bool) | OUnit | OExn (e : string).

Definition step (q : queue) (o : op) : res (queue * out) :=
  match o with
  | Push k v => bind (q_push q k v) (fun '(q', k') => Ok (q', OKey k'))
  | Pop => bind (q_pop q) (fun '(q', e) => Ok (q', OEntry e))
  | Inspect k => bind (q_inspect q k) (fun v => Ok (q, OVal v))
  | PopKey k => bind (q_pop_key q k) (fun '(q', v) => Ok (q', OVal v))
  | Size => Ok (q, ONum (q_size q))
  | IsEmpty => Ok (q, OBool (q_is_empty q))
  | Clear => Ok (q_clear q, OUnit)
  end.

(** The observable results of a sequence of calls; an exception ends it. *)
Fixpoint run (q : queue) (ops : list op) : list out :=
  match ops with
  | [] => []
  | o :: r => match step q o with
              | Ok (q', x) => x :: run q' r
              | Raise e => [OExn e]
              end
  end.

(** [shut_down] followed by a new [PaginatedQueue] on the same file. *)
Definition reopen (ps : Z) (q : queue) : res queue :=
  bind (q_shut_down q) (fun q' => Ok (open_queue ps (db q'))).

(** ** Crash points: the tables that can be on disk if the process dies during a call.
    Commits: lines 164, 203, 219, 311, 333. Everything between two commits is one transaction. *)
Definition crash_tables_open (ps : Z) (t : table) : list table :=
  let q := mkQueue ps new_page None t in
  let q1 := if 0 <? db_size q then load_front_page q else q in
  [t; db q1; db (open_queue ps t)].

Definition crash_tables_op (q : queue) (o : op) : list table :=
  db q :: match step q o with Ok (q', _) => [db q'] | Raise _ => [] end.

Definition crash_tables_shut_down (q : queue) : list table :=
  db q ::
  (if 0 <? page_size_of (front q)
   then match write_front_page q with Ok q1 => [db q1] | Raise _ => [] end else []) ++
  match q_shut_down q with Ok q2 => [db q2] | Raise _ => [] end.

(** Queues that some history of the program can produce, and the tables it can leave on disk: any page
    sizes, operations, graceful restarts, and crashes at any commit point of an operation, a shut-down or a
    start-up (also a start-up that itself follows a crash). *)
Inductive reachable : queue -> Prop :=
| reach_open ps t : on_disk t -> reachable (open_queue ps t)
| reach_step q o q' x : reachable q -> step q o = Ok (q', x) -> reachable q'
with on_disk : table -> Prop :=
| disk_fresh : on_disk []
| disk_shut q q2 : reachable q -> q_shut_down q = Ok q2 -> on_disk (db q2)
| disk_crash_op q o t : reachable q -> In t (crash_tables_op q o) -> on_disk t
| disk_crash_shut q t : reachable q -> In t (crash_tables_shut_down q) -> on_disk t
| disk_crash_open t ps t' : on_disk t -> In t' (crash_tables_open ps t) -> on_disk t'.

End Model.

Arguments page : clear implicits.
Arguments rec : clear implicits.
Arguments table : clear implicits.
Arguments queue : clear implicits.
Arguments op : clear implicits.
Arguments out : clear implicits.
