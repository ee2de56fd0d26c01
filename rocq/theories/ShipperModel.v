(** Model of the log shipper: ekosis_log_shipper/src/tracked_file.cpp, state_store.cpp and the loop of main.cpp, for one watched
    path, next to the writer of the log (logging.handlers.RotatingFileHandler) and the operating system.

    Every system call that sees the file system is a step of its own; the reads up to the end of file are one step, at the
    time of the last one. Files have an identity (their number, in order of creation) and an inode number, which the operating
    system may use again when a file is neither linked nor open. Inotify only wakes the loop up: steps may happen at any time. *)
From Coq Require Import Bool Lia List Arith Ascii.
Import ListNotations.

Definition byte := ascii.
Definition newline : byte := "010"%char.
Definition line := list byte.
(** tracked_file.cpp 66-74 and 77: the complete lines of [b], and what remains; [cur] is the line so far, backwards. *)
Fixpoint split_lines (cur : line) (b : list byte) : list line * line :=
  match b with
  | [] => ([], rev cur)
  | c :: r => if Ascii.eqb c newline then let '(ls, p) := split_lines [] r in (rev cur :: ls, p) else split_lines (c :: cur) r
  end.

Section Shipper.
(** [good l]: otlp_envelope.cpp 35-64 and 70-99 convert line [l] without an exception. *)
Context (good : line -> bool).

(** tracked_file.hpp 42-46: the file behind the descriptor and its position, inode, offset and pending bytes; main.cpp 40-43. *)
Record tracked := mkT { fd : nat; pos : nat; inode : nat; offset : nat; pending : line }.
Inductive pc :=
| Down                                             (* no process *)
| Attach (i o : nat)                               (* before stat in the resuming constructor, tracked_file.cpp 20 *)
| Open0 (o : nat)                                  (* before open in a constructor, line 36 *)
| Idle (t : tracked) (und : list line)             (* main.cpp 101, at the top for this file *)
| Drain (t : tracked)                              (* rotation seen, before line 93 *)
| Reopen (t : tracked) (ls : list line)            (* before lines 94-96 *)
| Read (t : tracked) (ls : list line)              (* before line 99 *)
| Post (t : tracked) (und : list line)             (* main.cpp 112 *)
| Save (t : tracked) (und : list line).            (* posted successfully, before main.cpp 114 *)
(** [path]: the file that has the watched name. [saved]: the row of the state store. [arrived]: the batches the endpoint has
    received. [saved_file] is a ghost: the file the row speaks of; no step reads it. *)
Record sys := mkS {
  nfiles : nat; content : nat -> list byte; ino : nat -> nat; linked : nat -> bool; path : option nat;
  ship : pc; saved : option (nat * nat); saved_file : option nat; arrived : list (list line) }.
Definition upd {A} (f : nat -> A) (i : nat) (x : A) : nat -> A := fun j => if Nat.eqb j i then x else f j.
Definition with_ship (s : sys) (p : pc) : sys :=
  mkS (nfiles s) (content s) (ino s) (linked s) (path s) p (saved s) (saved_file s) (arrived s).
Definition with_saved (s : sys) (p : pc) (r : option (nat * nat)) (f : option nat) : sys :=
  mkS (nfiles s) (content s) (ino s) (linked s) (path s) p r f (arrived s).
Definition with_arrived (s : sys) (p : pc) (a : list (list line)) : sys :=
  mkS (nfiles s) (content s) (ino s) (linked s) (path s) p (saved s) (saved_file s) a.

(** The file the shipper holds open. *)
Definition held (p : pc) : option nat :=
  match p with
  | Idle t _ | Drain t | Reopen t _ | Read t _ | Post t _ | Save t _ => Some (fd t)
  | _ => None
  end.
(** tracked_file.cpp 35-56 *)
Definition open_at (s : sys) (f o : nat) : tracked := mkT f o (ino s f) o [].
(** lines 59-79: to the end of the file *)
Definition read_lines (s : sys) (t : tracked) : tracked * list line :=
  let b := pending t ++ skipn (pos t) (content s (fd t)) in
  let '(ls, p) := split_lines [] b in
  (mkT (fd t) (Nat.max (pos t) (length (content s (fd t)))) (inode t) (offset t + (length b - length p)) p, ls).
(** main.cpp 104-112: nothing to do, or build the payload; an exception ends the process *)
Definition deliver (t : tracked) (und : list line) : pc :=
  match und with
  | [] => Idle t []
  | _ => if forallb good und then Post t und else Down
  end.

Inductive event :=
(* the writer *)
| Append (b : list byte)       (* to the file that has the watched name *)
| Rename                       (* doRollover: the file gets another name *)
| Create (n : nat)             (* and a new one is made, with inode number [n] *)
| Delete (i : nat)             (* a file without the watched name is removed *)
(* the shipper *)
| Boot                         (* the process starts and attaches the file: main.cpp 66-77 *)
| Kill                         (* it ends *)
| Step                         (* its next system call, other than the following *)
| Reply (came ok : bool).      (* the end of a post: whether it reached the endpoint, and whether a 2xx response came back *)
Definition free_ino (s : sys) (n : nat) : bool :=
  forallb (fun i => negb (Nat.eqb (ino s i) n && (linked s i || match held (ship s) with Some j => Nat.eqb i j | None => false end))) (seq 0 (nfiles s)).
Definition ship_step (s : sys) : sys :=
  match ship s with
  | Attach i o =>              (* lines 20-24 *)
      with_ship s (Open0 (match path s with Some f => if Nat.eqb (ino s f) i then o else 0 | None => 0 end))
  | Open0 o => match path s with Some f => with_ship s (Idle (open_at s f o) []) | None => with_ship s Down end
  | Idle t [] =>               (* main.cpp 101-103, tracked_file.cpp 85-88 *)
      with_ship s (match path s with Some f => if Nat.eqb (ino s f) (inode t) then Read t [] else Drain t | None => Read t [] end)
  | Idle t und => with_ship s (deliver t und)
  | Drain t => let '(t', ls) := read_lines s t in with_ship s (Reopen t' ls)
  | Reopen t ls => match path s with Some f => with_ship s (Read (open_at s f 0) ls) | None => with_ship s Down end
  | Read t ls => let '(t', ls') := read_lines s t in with_ship s (deliver t' (ls ++ ls'))
  | Save t und => with_saved s (Idle t []) (Some (inode t, offset t)) (Some (fd t))
  | Down | Post _ _ => s
  end.
Definition step (s : sys) (e : event) : sys :=
  match e with
  | Append b => match path s with
                | Some f => mkS (nfiles s) (upd (content s) f (content s f ++ b)) (ino s) (linked s) (path s) (ship s) (saved s) (saved_file s) (arrived s)
                | None => s
                end
  | Rename => mkS (nfiles s) (content s) (ino s) (linked s) None (ship s) (saved s) (saved_file s) (arrived s)
  | Create n => match path s with
                | Some _ => s
                | None => if free_ino s n
                          then mkS (S (nfiles s)) (upd (content s) (nfiles s) []) (upd (ino s) (nfiles s) n) (upd (linked s) (nfiles s) true)
                                 (Some (nfiles s)) (ship s) (saved s) (saved_file s) (arrived s)
                          else s
                end
  | Delete i => match path s with
                | Some f => if Nat.eqb i f then s else mkS (nfiles s) (content s) (ino s) (upd (linked s) i false) (path s) (ship s) (saved s) (saved_file s) (arrived s)
                | None => mkS (nfiles s) (content s) (ino s) (upd (linked s) i false) (path s) (ship s) (saved s) (saved_file s) (arrived s)
                end
  | Boot => match ship s with
            | Down => match path s with (* a file without the name is not listed, main.cpp 25-38 *)
                      | None => s
                      | Some _ => with_ship s (match saved s with Some (i, o) => Attach i o | None => Open0 0 end)
                      end
            | _ => s
            end
  | Kill => with_ship s Down
  | Step => ship_step s
  | Reply came ok =>
      match ship s with
      | Post t und =>
          let a := if came || ok then arrived s ++ [und] else arrived s in
          with_arrived s (if ok then Save t und else Idle t und) a
      | _ => s
      end
  end.
Definition run (s : sys) (es : list event) : sys := fold_left step es s.
(** Before anything is written. *)
Definition fresh : sys := mkS 0 (fun _ => []) (fun _ => 0) (fun _ => false) None Down None None [].
End Shipper.
