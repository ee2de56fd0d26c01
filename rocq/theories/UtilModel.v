(** Model of ekosis/util/utility_functions.py: application names, host names, ports, flattened dictionaries.
    Texts are lists of code points.  Not modelled: string_to_uuid, get_machine_hostname, is_valid_url. *)
From Coq Require Import List NArith Bool String.
From Verif Require Import Base.
Import ListNotations.
Local Open Scope N_scope.

Definition text := list N.
Definition dot : N := 46. Definition dash : N := 45. Definition slash : N := 47. Definition newline : N := 10. Definition underscore : N := 95.

(** [s.split(c)] for a single character (language semantics) *)
Fixpoint split_on (c : N) (s : text) : list text :=
  match s with
  | [] => [[]]
  | x :: r => if x =? c then [] :: split_on c r
              else match split_on c r with [] => [[x]] | w :: ws => (x :: w) :: ws end
  end.

Section Chars.
(** [str.isdigit] of a character, and the regular expression class \d (for Unicode: tables of the interpreter). *)
Variables (is_digit re_digit : N -> bool).

(** utility_functions.py 10-17.  [isupper] and [lower] for ASCII; other characters are taken for neither case. *)
Definition is_upper (c : N) : bool := (65 <=? c) && (c <=? 90).
Definition lower (c : N) : N := if is_upper c then c + 32 else c.
Fixpoint camel_rest (s : text) : text :=
  match s with
  | [] => []
  | c :: r => (if is_upper c then [underscore; lower c] else [lower c]) ++ camel_rest r
  end.
Definition camel_to_snake (s : text) : text := match s with [] => [] | c :: r => lower c :: camel_rest r end.

(** [os.path.basename(s)] on POSIX: what follows the last slash (library semantics) *)
Definition basename (s : text) : text := last (split_on slash s) [].
(** [s.replace('.py', '')] (language semantics: all occurrences, from the left) *)
Fixpoint drop_py (s : text) : text :=
  match s with
  | [] => []
  | 46 :: 112 :: 121 :: r => drop_py r
  | c :: r => c :: drop_py r
  end.
(** configuration/config_models.py 26: the application's name, from [sys.argv[0]] *)
Definition application_name (argv0 : text) : text := camel_to_snake (drop_py (basename argv0)).

(** utility_functions.py 27-32: [ipaddress.IPv4Address] accepts a text (library semantics: four decimal numbers of ASCII
    digits, at most three digits and 255, without leading zeros) *)
Definition ascii_digit (c : N) : bool := (48 <=? c) && (c <=? 57).
Definition value (s : text) : N := fold_left (fun n c => n * 10 + (c - 48)) s 0.
Definition octet_ok (s : text) : bool :=
  negb (Nat.eqb (List.length s) 0) && forallb ascii_digit s && Nat.leb (List.length s) 3 &&
  match s with c :: _ :: _ => negb (c =? 48) | _ => true end && (value s <=? 255).
Definition is_valid_ipv4_address (s : text) : bool :=
  negb (existsb (N.eqb slash) s) && Nat.eqb (List.length (split_on dot s)) 4 && forallb octet_ok (split_on dot s).

(** The class [[A-Z\d-]] with IGNORECASE; for Unicode texts this includes U+0130, U+0131, U+017F and U+212A, whose case
    variants are i, s and k. *)
Definition re_letter (c : N) : bool :=
  ((65 <=? c) && (c <=? 90)) || ((97 <=? c) && (c <=? 122)) || (c =? 304) || (c =? 305) || (c =? 383) || (c =? 8490).
Definition re_class (c : N) : bool := re_letter c || re_digit c || (c =? dash).
(** [$]: at the end, or before a newline at the end *)
Definition at_end (s : text) : bool := match s with [] => true | [c] => c =? newline | _ => false end.
(** [re.compile(r"(?!-)[A-Z\d-]{1,63}(?<!-)$", re.IGNORECASE).match(x)] (utility_functions.py 41-42) *)
Definition label_matches (x : text) : bool :=
  match x with c :: _ => negb (c =? dash) | [] => true end &&
  existsb (fun n => Nat.leb n (List.length x) && forallb re_class (firstn n x) && negb (last (firstn n x) 0 =? dash) && at_end (skipn n x))
          (seq 1 63).

(** utility_functions.py 36-42 *)
Definition is_possible_valid_ietf_hostname (hostname : text) : res bool :=
  if Nat.ltb 255 (List.length hostname) then Ok false
  else match hostname with
       | [] => Raise "IndexError"                                            (* hostname[-1] *)
       | _ => let h := if last hostname 0 =? dot then removelast hostname else hostname in
              Ok (forallb label_matches (split_on dot h))
       end.
(** utility_functions.py 45-48 *)
Definition is_valid_hostname (hostname : text) : res bool :=
  if is_valid_ipv4_address hostname then Ok true else is_possible_valid_ietf_hostname hostname.
(** utility_functions.py 51-52 *)
Definition is_valid_port_number (s : text) : bool := negb (Nat.eqb (List.length s) 0) && forallb is_digit s.
End Chars.

(** ** Flattening (utility_functions.py 55-63) *)
Section Flatten.
Context {A : Type}.
(** A dictionary value: a dictionary with its items in order, or anything else. *)
Inductive dval := Leaf (x : A) | Dict (items : list (text * dval)).

Fixpoint teqb (s t : text) : bool :=
  match s, t with [], [] => true | a :: s', b :: t' => (a =? b) && teqb s' t' | _, _ => false end.
(** [d[k] = x] and [d.update(e)] (language semantics) *)
Fixpoint put (d : list (text * A)) (k : text) (x : A) : list (text * A) :=
  match d with [] => [(k, x)] | (k', y) :: r => if teqb k k' then (k', x) :: r else (k', y) :: put r k x end.
Definition update (d e : list (text * A)) : list (text * A) := fold_left (fun d kx => put d (fst kx) (snd kx)) e d.

Definition new_key (current key : text) : text := match current with [] => key | _ => current ++ dot :: key end.
Fixpoint flatten (v : dval) (current : text) {struct v} : list (text * A) :=
  match v with
  | Leaf _ => []                                             (* not called so *)
  | Dict items =>
      (fix go (items : list (text * dval)) (acc : list (text * A)) {struct items} : list (text * A) :=
         match items with
         | [] => acc
         | (k, w) :: r => go r (match w with
                                | Dict _ => update acc (flatten w (new_key current k))
                                | Leaf x => put acc (new_key current k) x
                                end)
         end) items []
  end.
Definition flatten_dictionary (d : list (text * dval)) : list (text * A) := flatten (Dict d) [].
End Flatten.
Arguments dval : clear implicits.
