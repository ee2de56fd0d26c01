(** Vocabulary for the statements about routing, independent of the functions of RouterModel.v. *)
From Coq Require Import List ZArith NArith Bool String Lia.
From Verif Require Import RouterModel.
Import ListNotations.
Local Open Scope string_scope.
Local Open Scope Z_scope.

(** The association found first under a key. *)
Definition finds {V} (k : string) (v : V) (d : list (string * V)) : Prop :=
  exists a b, d = (a ++ (k, v) :: b)%list /\ ~ In k (map fst a).
Definition missing {V} (k : string) (d : list (string * V)) : Prop := ~ In k (map fst d).

(** The statuses of ekosis/requests/status.py, by what went wrong first. *)
Definition status_of (x : exn) : Z :=
  match x with
  | XDecode _ => 100 | XValidation _ => 300 | XRouting s _ => s | XApp _ => 600
  | XPaused _ | XOther _ | XBase _ => 999
  end.
(** The text of the answer to a request for [route], by what went wrong: the message of the exception, quoted with the
    route if it is the handler's own ApplicationProcessingException. *)
Definition unknown_route_text (route : string) : string := "status: [400] message: [Unknown route key '" ++ route ++ "']".
Definition failure_text (route : string) (x : exn) : string :=
  match x with
  | XApp m => "status: [600] message: [Processing Failure '" ++ route ++ "', message: '" ++ m ++ "']"
  | XDecode m | XValidation m | XRouting _ m | XPaused m | XOther m | XBase m => m
  end.
(** A BaseException that is not an Exception (a cancellation): nothing in the server catches it. *)
Definition is_base (x : exn) : Prop := exists m, x = XBase m.

Section Spec.
Context {K D V : Type}.

(** A JSON object that describes a request. *)
Definition describes (span_of : json -> option K) (d : list (string * json)) (r : request K) : Prop :=
  exists sk, finds "route_key" (JStr (rroute r)) d /\ finds "span_key" sk d /\ span_of sk = Some (rspan r) /\
    finds "data" (rdata r) d.

(** What the code called in [c] answers after the history [h], if it is an exception. *)
Definition exn_of {A} (o : outc A) : option exn := match o with Ret _ => None | Exc x => Some x end.
Definition raised (mws : list (middleware K D V)) (bms : list (bmiddleware K D V)) (stats : list (call K D V) -> string -> option string)
  (hd : handler K D V) (h : list (call K D V)) (c : call K D V) : option exn :=
  match c with
  | CBefore i k p => match nth_error mws i with Some m => exn_of (m_before m h k p) | None => None end
  | CDto _ data => exn_of (h_dto hd h data)
  | CFun _ args => match h_kind hd with Standard _ f => exn_of (f h args) | Buffered _ => None end
  | CBeforePush i k d => match nth_error bms i with Some m => exn_of (m_push m h k d) | None => None end
  | CPush _ _ _ _ => None
  | CAfter i k p v => match nth_error mws i with Some m => exn_of (m_after m h k p v) | None => None end
  | CStats route => match stats h route with Some m => Some (XOther m) | None => None end
  end.

(** Which piece of code a call reaches. *)
Inductive stage := Before (i : nat) | MakeDto | Handle | PushMeta (i : nat) | Push | After (i : nat) | Count.
Definition stage_of (c : call K D V) : stage :=
  match c with
  | CBefore i _ _ => Before i | CDto _ _ => MakeDto | CFun _ _ => Handle | CBeforePush i _ _ => PushMeta i
  | CPush _ _ _ _ => Push | CAfter i _ _ _ => After i | CStats _ => Count
  end.
(** All stages of a request, in order, with [n] middlewares and [b] buffered ones. *)
Definition all_stages (n b : nat) (hd : handler K D V) : list stage :=
  (map Before (seq 0 n) ++ [MakeDto] ++
   match h_kind hd with Standard _ _ => [Handle] | Buffered _ => map PushMeta (seq 0 b) ++ [Push] end ++
   map After (seq 0 n) ++ [Count])%list.
Definition prefix {A} (l m : list A) : Prop := exists r, m = (l ++ r)%list.

(** Enumerated calls. *)
Fixpoint number {A B} (f : nat -> A -> B) (i : nat) (l : list A) : list B :=
  match l with [] => [] | a :: r => f i a :: number f (S i) r end.

(** A function declares an ordinary (keyword-capable) parameter. *)
Definition declares (sig : list param) (n : string) : bool :=
  existsb (fun p => String.eqb n (pname p) && match pk p with Normal | KwOnly => true | _ => false end) sig.
(** A function with a ** parameter. *)
Definition open_ended (sig : list param) : Prop := exists p, In p sig /\ pk p = VarKw.
(** Every parameter without a default is offered. *)
Definition satisfied {A} (sig : list param) (kw : list (string * A)) : Prop :=
  forall p, In p sig -> pdefault p = false -> (pk p = Normal \/ pk p = KwOnly \/ pk p = PosOnly) -> In (pname p) (map fst kw).
(** Python's own rule: parameter names are distinct. *)
Definition proper (sig : list param) : Prop := NoDup (map pname sig).
(** No positional-only, * or ** parameter. *)
Definition plain (sig : list param) : Prop := forall p, In p sig -> pk p = Normal \/ pk p = KwOnly.

(** The offered arguments whose name is one of the function's parameters. *)
Definition named_in {A} (sig : list param) (kw : list (string * A)) : list (string * A) :=
  filter (fun x => existsb (fun p => String.eqb (fst x) (pname p)) sig) kw.

(** A dictionary that holds, under each key, what the last supplier of that key supplied. *)
Definition merged (ms : list (option (list (string * json)))) (meta : list (string * json)) : Prop :=
  NoDup (map fst meta) /\
  ((forall e, In (Some e) ms -> NoDup (map fst e)) ->
   forall key v, In (key, v) meta <->
     exists earlier e later, ms = (earlier ++ Some e :: later)%list /\ In (key, v) e /\
       forall e', In (Some e') later -> missing key e').

(** What a handler does with a valid DTO, [h] being the calls so far and [mid] those it makes, when it answers [v]. *)
Definition handled (accepted_resp : K -> V) (bms : list (bmiddleware K D V)) (hd : handler K D V) (k : K) (d : D)
  (h mid : list (call K D V)) (v : V) : Prop :=
  match h_kind hd with
  | Standard sig f => exists args, mid = [CFun (h_route hd) args] /\ f h args = Ret v /\
      args = named_in sig [("span_key", ASpan k); ("dto", ADto d)]
  | Buffered paused => paused = false /\ v = accepted_resp k /\
      exists ms meta, List.length ms = List.length bms /\
        mid = (map (fun i => CBeforePush i k d) (seq 0 (List.length bms)) ++ [CPush (h_route hd) k d meta])%list /\
        merged ms meta /\
        forall j m b, nth_error bms j = Some m -> nth_error ms j = Some b -> m_push m (h ++ firstn j mid)%list k d = Ret b
  end.

(** Registering handlers one after the other, starting from no routes. *)
Definition register_all (track : string -> bool) (hds : list (handler K D V)) : table K D V :=
  fold_left (fun t hd => fst (register_handler track t hd)) hds [].
Definition by_route (hds : list (handler K D V)) : list (string * handler K D V) := map (fun hd => (h_route hd, hd)) hds.

End Spec.
