(** Vocabulary for the properties of the utility functions: host names, ports, paths in nested dictionaries, names of
    scripts.  Independent of the model's functions. *)
From Coq Require Import List NArith Bool String Ascii.
From Verif Require Import UtilModel.
Import ListNotations.
Local Open Scope N_scope.

(** Code points of an ASCII text, for examples. *)
Definition u (s : string) : text := map N_of_ascii (list_ascii_of_string s).

Definition letter (c : N) : Prop := 65 <= c <= 90 \/ 97 <= c <= 122.
Definition digit (c : N) : Prop := 48 <= c <= 57.
Definition ascii_text (s : text) : Prop := forall c, In c s -> c < 128.

(** RFC 1123: labels of 1 to 63 letters, digits and hyphens that neither begin nor end with a hyphen, separated by dots. *)
Definition label (x : text) : Prop :=
  (1 <= List.length x <= 63)%nat /\ (forall c, In c x -> letter c \/ digit c \/ c = 45) /\
  hd 0 x <> 45 /\ last x 0 <> 45.
Fixpoint dotted (ls : list text) : text :=
  match ls with [] => [] | [x] => x | x :: r => x ++ 46 :: dotted r end.
Definition hostname (s : text) : Prop :=
  (List.length s <= 255)%nat /\ exists ls, ls <> [] /\ Forall label ls /\ (s = dotted ls \/ s = dotted ls ++ [46]).

(** What the code takes for a label: a label, or a label followed by a newline. *)
Definition label_nl (x : text) : Prop := label x \/ exists y, label y /\ x = y ++ [10].
Definition hostname_nl (s : text) : Prop :=
  (List.length s <= 255)%nat /\ exists ls, ls <> [] /\ Forall label_nl ls /\ (s = dotted ls \/ s = dotted ls ++ [46]).

(** Decimal texts; IPv4 addresses. *)
Definition dec (n : N) : text :=
  if n <? 10 then [48 + n] else if n <? 100 then [48 + n / 10; 48 + n mod 10]
  else [48 + n / 100; 48 + n / 10 mod 10; 48 + n mod 10].
Definition ipv4 (s : text) : Prop := exists a b c d, a <= 255 /\ b <= 255 /\ c <= 255 /\ d <= 255 /\ s = dotted [dec a; dec b; dec c; dec d].

(** The number a text of digits stands for. *)
Inductive reads : text -> N -> Prop :=
| reads_one c : digit c -> reads [c] (c - 48)
| reads_more s n c : reads s n -> digit c -> reads (s ++ [c]) (10 * n + (c - 48)).
Definition port (s : text) : Prop := exists n, reads s n /\ n <= 65535.

(** Entries of nested dictionaries that are not dictionaries, with the keys that lead to them, in order. *)
Section Dicts.
Context {A : Type}.
Fixpoint entries (v : dval A) : list (list text * A) :=
  match v with
  | Leaf x => [([], x)]
  | Dict items =>
      (fix go (items : list (text * dval A)) : list (list text * A) :=
         match items with
         | [] => []
         | (k, w) :: r => map (fun px => (k :: fst px, snd px)) (entries w) ++ go r
         end) items
  end.
(** Each dictionary has each key once. *)
Fixpoint proper (v : dval A) : Prop :=
  match v with
  | Leaf _ => True
  | Dict items => NoDup (map fst items) /\
      (fix go (items : list (text * dval A)) : Prop := match items with [] => True | (_, w) :: r => proper w /\ go r end) items
  end.
(** A property of all keys. *)
Fixpoint all_keys (P : text -> Prop) (v : dval A) : Prop :=
  match v with
  | Leaf _ => True
  | Dict items =>
      (fix go (items : list (text * dval A)) : Prop := match items with [] => True | (k, w) :: r => P k /\ all_keys P w /\ go r end) items
  end.
(** The text of a path: its keys joined by dots, without leading empty keys. *)
Fixpoint path_text (p : list text) : text := match p with [] :: r => path_text r | _ => dotted p end.
(** An entry, and no later entry with the same text. *)
Definition last_entry (d : list (text * dval A)) (k : text) (x : A) : Prop :=
  exists before p after, entries (Dict d) = before ++ (p, x) :: after /\ path_text p = k /\
    forall q y, In (q, y) after -> path_text q <> k.
(** Not empty and without dots. *)
Definition plain_key (k : text) : Prop := k <> [] /\ ~ In 46 k.
End Dicts.

(** Names of scripts: in snake case (no capital letters), and in camel case (a capital letter first, no underscores).  No dots. *)
Definition capital (c : N) : Prop := 65 <= c <= 90.
Definition file_name (s : text) : Prop := ~ In 46 s /\ ~ In 47 s.
Definition snake (s : text) : Prop := file_name s /\ forall c, In c s -> ~ capital c.
Definition camel (s : text) : Prop := file_name s /\ ~ In 95 s /\ exists c r, s = c :: r /\ capital c.
Definition script (s : text) : text := s ++ u ".py".
