(** Model of the whole log shipper: the loop of ekosis_log_shipper/src/main.cpp over all log files of the watched directory, in
    one process. Each file has the state and the steps of ShipperModel.v; the names of log files are numbered in the order of
    the map [watched] (main.cpp 66), there are [np] of them.

    Simplified: files of different names share neither files nor inode numbers (rotation renames to a name without the suffix
    .log); a row of the state store is read when the directory is listed, not when the file's turn to be attached comes (only
    this loop writes it, and not in between). *)
From Coq Require Import Bool List Arith.
From Verif Require Import ShipperModel.
Import ListNotations.

Section Fleet.
Context (good : line -> bool) (np : nat).
(** Where the process is. *)
Inductive loop :=
| Off                                          (* no process *)
| Attaching (todo : list nat) (starting : bool) (* main.cpp 81-83, or 97-99 in the loop *)
| Top                                          (* line 96: before the listing in the loop *)
| Pass (todo : list nat).                      (* line 101, with the files still to be visited *)
Record fleet := mkF { file : nat -> sys; at_ : loop }.

Definition present (s : fleet) (p : nat) : bool := match path (file s p) with Some _ => true | None => false end.
(** main.cpp 25-41: the names that exist, in the order [order] of the directory. *)
Definition listing (s : fleet) (order : list nat) : list nat :=
  filter (present s) (nodup Nat.eq_dec (filter (fun p => Nat.ltb p np) order ++ seq 0 np)).
Definition down (x : sys) : bool := match ship x with Down => true | _ => false end.
(** The keys of the map, in order. *)
Definition watched (s : fleet) : list nat := filter (fun p => negb (down (file s p))) (seq 0 np).
(** main.cpp 68-79 for all names listed, up to the constructors' system calls; nothing for those that are watched *)
Definition list_files (s : fleet) (order : list nat) (starting : bool) : fleet :=
  let ps := listing s order in
  mkF (fun p => if existsb (Nat.eqb p) ps then step good (file s p) Boot else file s p) (Attaching ps starting).
(** The process ends: an exception that nothing catches, or from outside. *)
Definition die (f : nat -> sys) : fleet := mkF (fun p => step good (f p) Kill) Off.
(** File [p] makes the step [e]. *)
Definition act (s : fleet) (p : nat) (e : ShipperModel.event) (stay next : loop) : fleet :=
  let f := upd (file s) p (step good (file s p) e) in
  match ship (f p) with
  | Down => die f
  | Idle _ _ => mkF f next
  | _ => mkF f stay
  end.

Inductive event :=
| FWrite (p : nat) (e : ShipperModel.event) (* the writer of file [p] *)
| FStart (order : list nat)                 (* the process starts; the order of the directory it sees *)
| FKill
| FStep (order : list nat)                  (* the next system call; the same, if it lists the directory *)
| FReply (came ok : bool).
Definition writes (e : ShipperModel.event) : bool := match e with Append _ | Rename | Create _ | Delete _ => true | _ => false end.
Definition fstep (s : fleet) (e : event) : fleet :=
  match e with
  | FWrite p e => if Nat.ltb p np && writes e then mkF (upd (file s) p (step good (file s p) e)) (at_ s) else s
  | FStart order => match at_ s with Off => list_files s order true | _ => s end
  | FKill => die (file s)
  | FStep order =>
      match at_ s with
      | Off => s
      | Top => list_files s order false
      | Attaching [] true => mkF (file s) Top
      | Attaching [] false => mkF (file s) (Pass (watched s))
      | Attaching (p :: r) b =>
          match ship (file s p) with
          | Attach _ _ | Open0 _ => act s p Step (Attaching (p :: r) b) (Attaching r b)
          | _ => mkF (file s) (Attaching r b)
          end
      | Pass [] => mkF (file s) Top   (* lines 125-133 *)
      | Pass (p :: r) => match ship (file s p) with Post _ _ => s | _ => act s p Step (Pass (p :: r)) (Pass r) end
      end
  | FReply came ok =>   (* lines 112-121 *)
      match at_ s with
      | Pass (p :: r) => match ship (file s p) with Post _ _ => act s p (Reply came ok) (Pass (p :: r)) (Pass r) | _ => s end
      | _ => s
      end
  end.
Definition frun (s : fleet) (es : list event) : fleet := fold_left fstep es s.
Definition ffresh : fleet := mkF (fun _ => fresh) Off.
End Fleet.
