(** Model of what an application sets up when it starts and of the names of its files: requests/buffered_endpoint.py, endpoint.py,
    request_router.py 40-56, sending/buffered_sender.py, state_keepers/buffered_sender_keeper.py 16-21,
    requests/buffered_handler_base.py 123-160, sending/buffered_sender_base.py 174-205, queues/pending_queue.py 29-36,
    application_base.py 147-216.

    - The objects that the decorators make are numbered in the order in which the modules declare them.
    - The names are texts; directories, links and the case of letters are left to the file system. *)
From Coq Require Import List ZArith Bool String Ascii.
From Verif Require Import Base RouterModel.
Import ListNotations.
Local Open Scope string_scope.

(** @endpoint(r), @buffered_endpoint(r), @buffered_sender(client, r) *)
Inductive decl := Endpoint (r : string) | BufferedEndpoint (r : string) | BufferedSender (r : string).
(** The routing table (route key, number, whether the handler is a buffered one) and the senders' keeper. *)
Record loaded := mkLoaded { table : list (string * (nat * bool)); keeper : list (string * nat) }.
(** request_router.py 40-45 *)
Definition register_handler (w : loaded) (r : string) (n : nat) (b : bool) : res loaded :=
  if shas r (table w) then Raise "Exception" else Ok (mkLoaded (table w ++ [(r, (n, b))]) (keeper w)).
(** buffered_sender_keeper.py 20-21 *)
Definition add_buffered_sender (w : loaded) (r : string) (n : nat) : loaded := mkLoaded (table w) (sset r n (keeper w)).
Definition declare (w : loaded) (n : nat) (d : decl) : res loaded :=
  match d with
  | Endpoint r => register_handler w r n false
  | BufferedEndpoint r => register_handler w r n true
  | BufferedSender r => Ok (add_buffered_sender w r n)
  end.
(** The import of the modules. *)
Fixpoint declare_all (w : loaded) (n : nat) (ds : list decl) : res loaded :=
  match ds with [] => Ok w | d :: ds => bind (declare w n d) (fun w => declare_all w (S n) ds) end.
Definition load (ds : list decl) : res loaded := declare_all (mkLoaded [] []) 0 ds.

(** config_models.py 285-294 *)
Record config := mkConfig { buffer_directory : string; name : string; instance : string }.
(** pending_queue.py 29-36 *)
Definition pending_file (dir base : string) : string := dir ++ "/" ++ base ++ "-pending.sqlite".
Definition error_file (dir base : string) : string := dir ++ "/" ++ base ++ "-error.sqlite".
(** buffered_handler_base.py 123-133, buffered_sender_base.py 174-184 *)
Definition endpoint_base (c : config) (r : string) : string := name c ++ "-" ++ instance c ++ "-" ++ r ++ "-endpoint".
Definition sender_base (c : config) (r : string) : string := name c ++ "-" ++ instance c ++ "-" ++ r ++ "-sender".
(** application_base.py 186-204: the objects that are set up, in this order, with their pending and error queue's files *)
Definition setup_buffered_handlers (c : config) (w : loaded) : list (nat * (string * string)) :=
  map (fun e => (fst (snd e), (pending_file (buffer_directory c) (endpoint_base c (fst e)), error_file (buffer_directory c) (endpoint_base c (fst e)))))
      (filter (fun e => snd (snd e)) (table w)).
Definition setup_buffered_senders (c : config) (w : loaded) : list (nat * (string * string)) :=
  map (fun e => (snd e, (pending_file (buffer_directory c) (sender_base c (fst e)), error_file (buffer_directory c) (sender_base c (fst e))))) (keeper w).
Definition start (c : config) (ds : list decl) : res (list (nat * (string * string))) :=
  bind (load ds) (fun w => Ok (setup_buffered_handlers c w ++ setup_buffered_senders c w)%list).
(** application_base.py 207-216: the objects that are shut down *)
Definition shut_down (ds : list decl) : res (list nat) :=
  bind (load ds) (fun w => Ok (map (fun e => fst (snd e)) (filter (fun e => snd (snd e)) (table w)) ++ map snd (keeper w))%list).
(** enqueue (buffered_sender_base.py 56-60): self.queue is None until setup; the file that takes the message *)
Fixpoint lookup (n : nat) (l : list (nat * (string * string))) : option (string * string) :=
  match l with [] => None | (m, f) :: l => if Nat.eqb n m then Some f else lookup n l end.
Definition push_message (started : list (nat * (string * string))) (n : nat) : res string :=
  match lookup n started with Some f => Ok (fst f) | None => Raise "AttributeError" end.

(** application_base.py 148-149 and logs/logger.py 79-80 *)
Definition lock_file (c : config) : string := name c ++ "-" ++ instance c ++ ".lock".
Definition log_file (c : config) : string := name c ++ "-" ++ instance c ++ ".log".
(** application_base.py 171-172 *)
Definition socket_file (c : config) : string := name c ++ "_" ++ instance c ++ ".uds.sock".
