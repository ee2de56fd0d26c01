(** Model of ekosis/logs/buffered_rotating_file_handler.py, of the logger around it (logs/logger.py), of
    logs/otlp_formatter.py and of the endpoints of standard_endpoints/log_manager.py.

    From Python's library: logging.Handler's level test, BufferingHandler.emit and RotatingFileHandler.emit (Lib/logging/
    handlers.py). A file is the list of its lines. Nobody else touches the log files. The handlers are used by one thread
    (the console handler is left out). *)
From Coq Require Import ZArith Bool Lia List Arith.
Import ListNotations.

Section LogBuf.
(** [R] is a log record (message, arguments, time, ...), [Sp] the span key of a request, [Lv] is not needed: levels are
    Python's integers. *)
Context {R Sp : Type}.
(** Formatting a record can raise, e.g. when the arguments do not fit the message. *)
Context (formats : R -> bool).
(** The two records the buffer-size endpoint writes: logger.py 72, log_manager.py 28. *)
Context (setting_size size_set : Z -> R).
(** A line: the record, and the span key it is stamped with. *)
Definition line : Type := R * option Sp.
(** RotatingFileHandler.shouldRollover: depends on the size of the current file and of the new line (and on the version of
    Python, for an empty file). *)
Context (roll : list line -> line -> bool).
(** backupCount *)
Context (backups : nat).

(** The log file and its numbered backups. *)
Record disk := mkDisk { base : list line; bak : nat -> option (list line) }.
Definition upd {A} (f : nat -> A) (i : nat) (x : A) : nat -> A := fun j => if Nat.eqb j i then x else f j.
(** RotatingFileHandler.doRollover: [for i in range(backupCount - 1, 0, -1)]: if file i exists it replaces file i + 1 *)
Fixpoint shift (n : nat) (b : nat -> option (list line)) : nat -> option (list line) :=
  match n with
  | O => b
  | S m => shift m (match b n with Some f => upd (upd b (S n) (Some f)) n None | None => b end)
  end.
(** doRollover: then the current file becomes file 1. Without backups the file is just opened again, for appending. *)
Definition do_rollover (d : disk) : disk :=
  match backups with
  | O => d
  | S m => mkDisk [] (upd (shift m (bak d)) 1 (Some (base d)))
  end.
(** RotatingFileHandler.emit with OtlpFormatter.format (otlp_formatter.py 10-39): the span key is the one current *now*. An
    exception in it is passed to handleError, which prints it. *)
Definition file_emit (now : option Sp) (d : disk) (r : R) : disk :=
  if formats r then
    let l := (r, now) in
    let d := if roll (base d) l then do_rollover d else d in
    mkDisk (base d ++ [l]) (bak d)
  else d.

(** The handler: capacity, buffer, files; and the level set in logger and handler. *)
Record log := mkLog { level : Z; capacity : Z; buffer : list R; files : disk }.
(** buffered_rotating_file_handler.py 32-35 *)
Definition flush (now : option Sp) (s : log) : log :=
  mkLog (level s) (capacity s) [] (fold_left (file_emit now) (buffer s) (files s)).
(** BufferingHandler.emit *)
Definition emit (now : option Sp) (s : log) (r : R) : log :=
  let s := mkLog (level s) (capacity s) (buffer s ++ [r]) (files s) in
  if Z.leb (capacity s) (Z.of_nat (length (buffer s))) then flush now s else s.
(** Logger.isEnabledFor and Handler.handle *)
Definition log_record (now : option Sp) (lv : Z) (s : log) (r : R) : log := if Z.leb (level s) lv then emit now s r else s.
(** buffered_rotating_file_handler.py 26-27 *)
Definition set_capacity (n : Z) (s : log) : log := mkLog (level s) n (buffer s) (files s).
(** logging.INFO *)
Definition INFO : Z := 20%Z.

Inductive event :=
| Log (now : option Sp) (lv : Z) (r : R) (** a record is logged by code running with this span key *)
| Flush (now : option Sp) (** logger.py 95-100; also Handler.close (lines 37-39: the file handler, closed first, opens the file again) *)
| SetLevel (lv : Z) (** logger.py 46-68, log_manager.py 19-22 *)
| SetSize (now : option Sp) (n : Z). (** logger.py 71-74, log_manager.py 25-29 *)
Definition step (s : log) (e : event) : log :=
  match e with
  | Log now lv r => log_record now lv s r
  | Flush now => flush now s
  | SetLevel lv => mkLog lv (capacity s) (buffer s) (files s)
  | SetSize now n => log_record now INFO (set_capacity n (log_record now INFO s (setting_size n))) (size_set n)
  end.
Definition run (s : log) (es : list event) : log := fold_left step es s.
(** buffered_rotating_file_handler.py 5-24, logger.py 77-92: the level is DEBUG. *)
Definition start (size : Z) (d : disk) : log := mkLog 10 size [] d.

(** A signal (SIGTERM, SIGINT, SIGHUP) makes Python raise TerminationSignalException wherever the main thread is
    (application_base.py 90-97). In [flush] that is between two records, or inside the writing of one. *)
Inductive moment := Between (k : nat) | Inside (k : nat).
(** Between: the exception leaves flush after [k] records, the buffer is as before; [true]: the exception goes on.
    Inside the writing of record [k] it is an Exception like any other: RotatingFileHandler.emit hands it to handleError, which
    prints it, and the loop goes on. *)
Definition flush_signalled (now : option Sp) (m : moment) (s : log) : log * bool :=
  match m with
  | Between k => (mkLog (level s) (capacity s) (buffer s) (fold_left (file_emit now) (firstn k (buffer s)) (files s)), true)
  | Inside k => (mkLog (level s) (capacity s) [] (fold_left (file_emit now) (firstn k (buffer s) ++ skipn (S k) (buffer s)) (files s)), false)
  end.
End LogBuf.
Arguments disk : clear implicits.
Arguments log : clear implicits.
Arguments event : clear implicits.
Arguments line : clear implicits.
