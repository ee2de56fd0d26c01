(** Model of the lock file of an application instance: ekosis/application_base.py 131-156, and the processes that use it.

    Processes run in any order; every system call of the check is a step of its own. All processes may read, write and remove
    the lock file. What the operating system provides: process ids are unique among the processes alive, os.kill(pid, 0)
    raises an OSError when there is no such process or when the caller may not send it signals. *)
From Coq Require Import Bool Lia List Arith.
Import ListNotations.

(** [may u v]: a process of user [u] may send signals to one of user [v]. *)
Section Lock.
Context (may : nat -> nat -> bool).

(** Where a process is. *)
Inductive pst :=
| PExists                (* before os.path.exists, line 150 *)
| PRead                  (* before open and readline, lines 151-152 *)
| PKill (p : nat)        (* before os.kill, lines 153 and 133-138 *)
| PRemove                (* before os.remove, line 155 *)
| PCreate                (* before open for writing, line 143 *)
| PWrite (f : nat)       (* file [f] is open and empty; the process id is written when it is closed, lines 143-144 *)
| PRunning               (* the check is over *)
| PRefused (p : nat)     (* InstanceAlreadyRunningException *)
| PFailed                (* another exception leaves the check *)
| PForeign               (* a process that has nothing to do with this application *)
| PDead.
Record proc := mkProc { pid : nat; user : nat; st : pst }.
(** The lock file (which file has its name), the files there ever were ([None]: empty, else a process id), the processes
    there ever were. *)
Record os := mkOs { lock : option nat; nfiles : nat; cont : nat -> option nat; nprocs : nat; procs : nat -> proc }.
Definition upd {A} (f : nat -> A) (i : nat) (x : A) : nat -> A := fun j => if Nat.eqb j i then x else f j.
Definition alive (p : proc) : bool := match st p with PDead => false | _ => true end.
Definition with_st (p : proc) (x : pst) : proc := mkProc (pid p) (user p) x.
Definition set_st (s : os) (i : nat) (x : pst) : os :=
  mkOs (lock s) (nfiles s) (cont s) (nprocs s) (upd (procs s) i (with_st (procs s i) x)).
(** Some process with this id is alive / is alive and may be sent signals. *)
Definition pid_alive (s : os) (p : nat) : bool :=
  existsb (fun i => alive (procs s i) && Nat.eqb (pid (procs s i)) p) (seq 0 (nprocs s)).
Definition kill_ok (s : os) (u p : nat) : bool :=
  existsb (fun i => alive (procs s i) && Nat.eqb (pid (procs s i)) p && may u (user (procs s i))) (seq 0 (nprocs s)).

(** lines 147-156: one step of process [i] *)
Definition advance (s : os) (i : nat) : os :=
  let p := procs s i in
  match st p with
  | PExists => set_st s i (match lock s with Some _ => PRead | None => PCreate end)
  | PRead => set_st s i (match lock s with
                         | None => PFailed                        (* FileNotFoundError *)
                         | Some f => match cont s f with Some q => PKill q | None => PFailed (* int(''): ValueError *) end
                         end)
  | PKill q => set_st s i (if kill_ok s (user p) q then PRefused q else PRemove)
  | PRemove => match lock s with
               | None => set_st s i PFailed                       (* FileNotFoundError *)
               | Some _ => set_st (mkOs None (nfiles s) (cont s) (nprocs s) (procs s)) i PCreate
               end
  | PCreate => match lock s with
               | Some f => set_st (mkOs (lock s) (nfiles s) (upd (cont s) f None) (nprocs s) (procs s)) i (PWrite f)
               | None => set_st (mkOs (Some (nfiles s)) (S (nfiles s)) (upd (cont s) (nfiles s) None) (nprocs s) (procs s)) i (PWrite (nfiles s))
               end
  | PWrite f => set_st (mkOs (lock s) (nfiles s) (upd (cont s) f (Some (pid p))) (nprocs s) (procs s)) i PRunning
  | _ => s
  end.
Inductive event :=
| Start (u p : nat)      (* a process of the application is started by user [u] and gets process id [p] *)
| Spawn (u p : nat)      (* any other process *)
| Step (i : nat)
| Exit (i : nat)         (* a running instance shuts down, lines 106-129 *)
| Kill (i : nat).        (* a process ends, wherever it is *)
Definition add_proc (s : os) (p : proc) : os :=
  if pid_alive s (pid p) then s else mkOs (lock s) (nfiles s) (cont s) (S (nprocs s)) (upd (procs s) (nprocs s) p).
Definition step (s : os) (e : event) : os :=
  match e with
  | Start u p => add_proc s (mkProc p u PExists)
  | Spawn u p => add_proc s (mkProc p u PForeign)
  | Step i => if Nat.ltb i (nprocs s) then advance s i else s
  | Exit i => if Nat.ltb i (nprocs s) then match st (procs s i) with PRunning => set_st s i PDead | _ => s end else s
  | Kill i => if Nat.ltb i (nprocs s) then set_st s i PDead else s
  end.
Definition run (s : os) (es : list event) : os := fold_left step es s.
Definition boot : os := mkOs None 0 (fun _ => None) 0 (fun _ => mkProc 0 0 PDead).
End Lock.
