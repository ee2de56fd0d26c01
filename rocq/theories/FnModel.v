(** Model of the functions that the decorators [sender] and [buffered_sender] return:
    ekosis/sending/sender.py, ekosis/sending/buffered_sender.py, ekosis/sending/buffered_sender_class.py, with the way Python binds the arguments of a call
    to the parameters of the decorated function. The decorated function, the client and the queue are parameters. *)
From Coq Require Import List Bool String.
From Verif Require Import Base.
Import ListNotations.
Local Open Scope string_scope.

Section Binding.
Context {V : Type}.
(** ** Calling a Python function (language reference, 6.3.4 Calls) *)
Record param := mkParam { pname : string; positional_only : bool; pdefault : option V }.
(** [def f (a, /, b, * args, c, ** kw)]: [a] and [b] are [ordered], [c] is [by_keyword]. *)
Record signature := mkSig { ordered : list param; by_keyword : list param; star : bool; star_star : bool }.
Record bound := mkBound { values : list (string * V); rest : list V; other : list (string * V) }.

Definition get (n : string) (l : list (string * V)) : option V := option_map snd (find (fun e => String.eqb (fst e) n) l).
(** The arguments without a name, from left to right. *)
Fixpoint bind_positional (ps : list param) (args : list V) : list (string * V) * list V :=
  match ps, args with
  | p :: ps', a :: args' => let '(v, r) := bind_positional ps' args' in ((pname p, a) :: v, r)
  | _, _ => ([], args)
  end.
(** Is there a parameter that may be given as [n = ...]? *)
Definition takes (s : signature) (n : string) : bool :=
  existsb (fun p => String.eqb (pname p) n && negb (positional_only p)) (ordered s) || existsb (fun p => String.eqb (pname p) n) (by_keyword s).
(** One argument with a name. *)
Definition bind_keyword (s : signature) (b : bound) (e : string * V) : res bound :=
  if takes s (fst e) then
    match get (fst e) (values b) with
    | Some _ => Raise "TypeError"
    | None => Ok (mkBound (values b ++ [e]) (rest b) (other b))
    end
  else if star_star s then Ok (mkBound (values b) (rest b) (other b ++ [e])) else Raise "TypeError".
Fixpoint bind_keywords (s : signature) (b : bound) (kw : list (string * V)) : res bound :=
  match kw with [] => Ok b | e :: r => bind (bind_keyword s b e) (fun b' => bind_keywords s b' r) end.
(** Parameters that got nothing. *)
Fixpoint bind_defaults (b : bound) (ps : list param) : res bound :=
  match ps with
  | [] => Ok b
  | p :: r => match get (pname p) (values b), pdefault p with
              | Some _, _ => bind_defaults b r
              | None, Some d => bind_defaults (mkBound (values b ++ [(pname p, d)]) (rest b) (other b)) r
              | None, None => Raise "TypeError"
              end
  end.
Definition bind_call (s : signature) (args : list V) (kw : list (string * V)) : res bound :=
  let '(v, r) := bind_positional (ordered s) args in
  if negb (star s) && negb (match r with [] => true | _ => false end) then Raise "TypeError"
  else bind (bind_keywords s (mkBound v r []) kw) (fun b => bind_defaults b (ordered s ++ by_keyword s)).
End Binding.
Arguments param : clear implicits. Arguments signature : clear implicits. Arguments bound : clear implicits.

Section Senders.
Context {V D R : Type}.
Variable truthy : V -> bool.          (** the truth value of an argument *)
Variable fresh : V.                   (** SpanKey.generate() *)
(** client_base.py 72, buffered_sender_base.py 56: [span_key if span_key else SpanKey.generate()] *)
Definition key_used (k : option V) : V := match k with Some v => if truthy v then v else fresh | None => fresh end.
(** A decorated function: its signature and what it does with its arguments. *)
Record function := mkFn { fsig : signature V; fbody : bound V -> res D }.
(** sender.py 18-21, buffered_sender.py 39-42: [await function( *args, **kwargs)] *)
Definition apply_fn (f : function) (args : list V) (kw : list (string * V)) : res D := bind (bind_call (fsig f) args kw) (fbody f).
(** sender.py 15-23: the messages handed to the client, each with its key, and what the caller gets *)
Definition sender_call (client : D -> V -> res R) (f : function) (args : list V) (kw : list (string * V)) : list (D * V) * res R :=
  let k := get "span_key" kw in
  match apply_fn f args kw with
  | Raise e => ([], Raise e)
  | Ok d => ([(d, key_used k)], client d (key_used k))
  end.
(** buffered_sender.py 37-42, buffered_sender_class.py 34-35, buffered_sender_base.py 55-59: the messages put into the queue *)
Definition buffered_call (push : D -> V -> res unit) (f : function) (args : list V) (kw : list (string * V)) : list (D * V) * res unit :=
  let k := get "span_key" kw in
  match apply_fn f args kw with
  | Raise e => ([], Raise e)
  | Ok d => ([(d, key_used k)], push d (key_used k))
  end.
End Senders.
Arguments function : clear implicits.
