(** Model of the servers' connection handling: ekosis/servers/stream_server_base.py (TCP and UDS) and the datagram
    protocol of ekosis/servers/json/udp.py.

    Of asyncio's StreamReader the model has the buffer, the end-of-file flag, the exception set when the connection is
    lost, and readline/readuntil with the length limit (CPython 3.11, Lib/asyncio/streams.py 529-668); flow control is
    left out.  Events are the arrivals from the network and the completion of the request being handled; between events
    the connection's task runs until it has to wait. *)
From Coq Require Import List NArith Bool Arith Lia String.
Import ListNotations.

Section Stream.
Context {T : Type}.
(** bytes.decode(): [None] is UnicodeDecodeError. *)
Context (decode : list N -> option T).
(** The text of the response to a request, given the requests of this connection before it (_route_request and
    model_dump_json; RouterModel.v); [None] when an exception escapes them. *)
Context (answer : list T -> T -> option (list N)).
(** StreamReader's limit, 64 KiB by default. *)
Context (limit : nat).

(** stream_server_base.py 10-13 *)
Definition ENQ : N := 5%N.
Definition ACK : N := 6%N.
Definition LF : N := 10%N.
Definition ACK_response : list N := [ACK; LF].

(** Where the connection's task is. *)
Inductive cstate :=
| Reading (offset : nat)       (* in readuntil, [offset] bytes known to have no separator *)
| Handling (t : T)             (* in _route_request *)
| Closed                       (* left the loop: writer.close() *)
| Died (e : string).           (* an exception left _handle_request *)
Record conn := mkConn {
  cbuf : list N; ceof : bool; cexc : bool; cst : cstate; cprev : list T; cout : list (list N) }.

Definition set_st (c : conn) (s : cstate) : conn := mkConn (cbuf c) (ceof c) (cexc c) s (cprev c) (cout c).
Definition set_buf (c : conn) (b : list N) : conn := mkConn b (ceof c) (cexc c) (cst c) (cprev c) (cout c).
(** stream_server_base.py 16-18: write and drain; nothing is sent any more once the connection is lost. *)
Definition write_data (c : conn) (d : list N) : conn :=
  mkConn (cbuf c) (ceof c) (cexc c) (cst c) (cprev c) (if cexc c then cout c else cout c ++ [d]).

(** bytes.find(b"\n", offset): index of the first separator at or after [offset]. *)
Fixpoint index (i : nat) (l : list N) : option nat :=
  match l with [] => None | b :: r => if N.eqb b LF then Some i else index (S i) r end.
Definition find_sep (buf : list N) (offset : nat) : option nat := index offset (skipn offset buf).

(** stream_server_base.py 25-45: the loop, until the task has to wait.  [offset] belongs to the readuntil in progress. *)
Fixpoint read_loop (fuel : nat) (offset : nat) (c : conn) : conn :=
  match fuel with
  | O => c
  | S fuel =>
      if cexc c then set_st c Closed                       (* ConnectionResetError: break *)
      else match find_sep (cbuf c) offset with
      | None =>
          if Nat.ltb limit (List.length (cbuf c)) then set_st c (Died "ValueError")
          else if ceof c then set_st (set_buf c []) Closed (* nothing read, or a last line without LF: break *)
          else set_st c (Reading (List.length (cbuf c)))
      | Some i =>
          if Nat.ltb limit i then set_st c (Died "ValueError")
          else let line := firstn (S i) (cbuf c) in let c := set_buf c (skipn (S i) (cbuf c)) in
            if N.eqb (hd 0%N line) ENQ then read_loop fuel 0 (write_data c ACK_response)
            else match decode line with
              | None => set_st c (Died "UnicodeDecodeError")
              | Some t => set_st c (Handling t)
              end
      end
  end.
Definition resume (offset : nat) (c : conn) : conn := read_loop (S (List.length (cbuf c))) offset c.

(** stream_server_base.py 22-24: a connection accepted while the server is running. *)
Definition accept : conn := mkConn [] false false (Reading 0) [] [].

Inductive cev :=
| EFeed (chunk : list N)   (* StreamReader.feed_data *)
| EEof                     (* StreamReader.feed_eof *)
| EReset                   (* connection_lost with ConnectionResetError *)
| EDone.                   (* _route_request returns *)

Definition wake (c : conn) : conn := match cst c with Reading offset => resume offset c | _ => c end.
Definition cstep (c : conn) (e : cev) : conn :=
  match e with
  | EFeed chunk => if ceof c then c else wake (set_buf c (cbuf c ++ chunk))
  | EEof => wake (mkConn (cbuf c) true (cexc c) (cst c) (cprev c) (cout c))
  | EReset => wake (mkConn (cbuf c) (ceof c) true (cst c) (cprev c) (cout c))
  | EDone =>
      match cst c with
      | Handling t =>
          match answer (cprev c) t with
          | None => set_st c (Died "Exception")
          | Some r => let c := mkConn (cbuf c) (ceof c) (cexc c) (cst c) (cprev c ++ [t]) (cout c) in
              if cexc c then set_st c Closed else resume 0 (write_data c (r ++ [LF]))
          end
      | _ => c
      end
  end.
Definition crun (evs : list cev) : conn := fold_left cstep evs accept.

End Stream.
Arguments conn : clear implicits.
Arguments cstate : clear implicits.

(** ** ekosis/servers/json/udp.py 12-42 *)
Section Datagram.
Context {T A : Type}.
Context (decode : list N -> option T).
(** build_response_function and response.encode(), given the requests answered before; [None] when it raises. *)
Context (answer : list T -> T -> option (list N)).

(** Tasks running do_response: those waiting for the write lock (asyncio.Lock serves its waiters in order, and tasks
    first run in the order of their creation), and the one that holds it. *)
Record udp := mkUdp { uwait : list (T * A); uheld : option (T * A); uprev : list T; usent : list (list N * A); ufailed : nat }.
Inductive uev := UDatagram (d : list N) (addr : A) | UDone.

(** The next waiter gets the lock: udp.py 27-28. *)
Definition grant (u : udp) : udp :=
  match uheld u, uwait u with
  | None, w :: r => mkUdp r (Some w) (uprev u) (usent u) (ufailed u)
  | _, _ => u
  end.
Definition ustep (u : udp) (e : uev) : udp :=
  match e with
  | UDatagram d addr =>   (* udp.py 34-42 *)
      match d with
      | [] => u
      | b :: _ =>
          if N.eqb (last d 0%N) LF then
            if N.eqb b ACK then mkUdp (uwait u) (uheld u) (uprev u) (usent u ++ [(ACK_response, addr)]) (ufailed u)
            else match decode d with
              | None => u   (* UnicodeDecodeError in a protocol callback: logged by the event loop *)
              | Some t => grant (mkUdp (uwait u ++ [(t, addr)]) (uheld u) (uprev u) (usent u) (ufailed u))
              end
          else u
      end
  | UDone =>              (* udp.py 28-30 *)
      match uheld u with
      | None => u
      | Some (t, addr) =>
          grant (match answer (uprev u) t with
                 | Some r => mkUdp (uwait u) None (uprev u ++ [t]) (usent u ++ [(r, addr)]) (ufailed u)
                 | None => mkUdp (uwait u) None (uprev u ++ [t]) (usent u) (S (ufailed u))
                 end)
      end
  end.
Definition urun (evs : list uev) : udp := fold_left ustep evs (mkUdp [] None [] [] 0).
End Datagram.
Arguments udp : clear implicits.
Arguments uev : clear implicits.
