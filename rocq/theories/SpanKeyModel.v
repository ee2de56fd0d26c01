(** Model of ekosis/data_transfer_objects/span_id.py and of SpanKey in
    ekosis/data_transfer_objects/json_protocol.py, with the parts of CPython's [int(s, 16)],
    [int.to_bytes], [int.from_bytes], [uuid.UUID] and string formatting they use.
    Text is a list of ASCII characters (non-ASCII characters, some of which Python also accepts as digits
    or white space, are not modelled). *)
From Coq Require Import List ZArith Bool Ascii String.
From Verif Require Import Base.
Import ListNotations.
Local Open Scope Z_scope.

Definition text := list ascii.
Definition lit (s : string) : text := list_ascii_of_string s.

(** ** CPython integers *)

(** int.to_bytes(len, 'big') of a number known to fit *)
Fixpoint be_bytes (len : nat) (n : Z) : list Z :=
  match len with
  | O => []
  | S m => (n / 256 ^ Z.of_nat m) mod 256 :: be_bytes m n
  end.

(** int.to_bytes(len, 'big'): OverflowError when negative or too big *)
Definition to_bytes (len : nat) (n : Z) : res (list Z) :=
  if (0 <=? n) && (n <? 256 ^ Z.of_nat len) then Ok (be_bytes len n) else Raise "OverflowError".

(** int.from_bytes(b, 'big') *)
Definition from_be (b : list Z) : Z := fold_left (fun a x => 256 * a + x) b 0.

(** The value of a hexadecimal digit *)
Definition hex_digit (c : ascii) : option Z :=
  let n := Z.of_N (N_of_ascii c) in
  if (48 <=? n) && (n <=? 57) then Some (n - 48)
  else if (97 <=? n) && (n <=? 102) then Some (n - 87)
  else if (65 <=? n) && (n <=? 70) then Some (n - 55)
  else None.

Definition is_space (c : ascii) : bool :=
  let n := Z.of_N (N_of_ascii c) in (n =? 32) || ((9 <=? n) && (n <=? 13)).

Definition ch (s : string) : ascii := match s with String c _ => c | EmptyString => zero end.

Fixpoint drop_while (p : ascii -> bool) (s : text) : text :=
  match s with
  | [] => []
  | c :: r => if p c then drop_while p r else s
  end.
Definition strip (p : ascii -> bool) (s : text) : text := rev (drop_while p (rev (drop_while p s))).

(** Digits with single underscores between them; [us] tells that an underscore may not come now
    (at the start, or after an underscore). *)
Fixpoint int_digits (s : text) (acc : Z) (us : bool) : option Z :=
  match s with
  | [] => if us then None else Some acc
  | c :: r =>
      if Ascii.eqb c (ch "_") then (if us then None else int_digits r acc true)
      else match hex_digit c with
           | Some d => int_digits r (16 * acc + d) false
           | None => None
           end
  end.

(** The sign of a numeral and what follows it *)
Definition split_sign (s : text) : Z * text :=
  match s with
  | c :: r => if Ascii.eqb c (ch "-") then (-1, r) else if Ascii.eqb c (ch "+") then (1, r) else (1, s)
  | [] => (1, s)
  end.

(** An optional 0x / 0X, with one optional underscore after it, is skipped *)
Definition skip_0x (s : text) : text :=
  match s with
  | z :: x :: r =>
      if Ascii.eqb z (ch "0") && (Ascii.eqb x (ch "x") || Ascii.eqb x (ch "X"))
      then match r with u :: r' => if Ascii.eqb u (ch "_") then r' else r | [] => r end
      else s
  | _ => s
  end.

(** int(s, 16): white space, sign, prefix, digits *)
Definition py_int16 (s : text) : res Z :=
  let (sign, s2) := split_sign (strip is_space s) in
  match int_digits (skip_0x s2) 0 true with
  | Some v => Ok (sign * v)
  | None => Raise "ValueError"
  end.

(** One hexadecimal digit, lower case *)
Definition hex_char (d : Z) : ascii :=
  ascii_of_N (Z.to_N (if d <? 10 then d + 48 else d + 87)).

(** The [w] low-order hexadecimal digits of n, most significant first *)
Fixpoint hex_fixed (w : nat) (n : Z) : text :=
  match w with
  | O => []
  | S m => hex_char ((n / 16 ^ Z.of_nat m) mod 16) :: hex_fixed m n
  end.

(** f"{n:0<w>x}" for -16^(w-1) < n < 16^w (wider numbers do not occur: see SpanKeyProofs.span_text_range) *)
Definition format_0x (w : nat) (n : Z) : text :=
  if n <? 0 then ch "-" :: hex_fixed (w - 1) (- n) else hex_fixed w n.

(** ** SpanId (span_id.py) *)

(** span_id.py:12-14: SpanId(int_ = n) *)
Definition span_id_of_int (n : Z) : res Z :=
  if (0 <=? n) && (n <? 2 ^ 64) then Ok n else Raise "ValueError".

(** span_id.py:16-20: SpanId(bytes_ = b) *)
Definition span_id_of_bytes (b : list Z) : res Z :=
  if Nat.eqb (List.length b) 8 then Ok (from_be b) else Raise "ValueError".

(** span_id.py:22-25: SpanId(hex_ = s); there is no range check after the conversion *)
Definition span_id_of_hex (s : text) : res Z :=
  if Nat.eqb (List.length s) 16 then py_int16 s else Raise "ValueError".

(** span_id.py:58-60 ([hex]); also __str__ (78-79) *)
Definition span_id_hex (v : Z) : text := format_0x 16 v.

(** span_id.py:62-64 ([bytes]) *)
Definition span_id_bytes (v : Z) : res (list Z) := to_bytes 8 v.

(** ** uuid.UUID (CPython Lib/uuid.py) *)

Fixpoint is_prefix (p s : text) : bool :=
  match p, s with
  | [], _ => true
  | a :: p', b :: s' => Ascii.eqb a b && is_prefix p' s'
  | _, [] => false
  end.

(** s.replace(pat, ''): [skip] characters of a match still to drop *)
Fixpoint remove_all (pat : text) (skip : nat) (s : text) : text :=
  match s with
  | [] => []
  | c :: r => match skip with
              | S k => remove_all pat k r
              | O => if is_prefix pat s then remove_all pat (List.length pat - 1) r
                     else c :: remove_all pat 0 r
              end
  end.

Definition is_brace (c : ascii) : bool := Ascii.eqb c (ch "{") || Ascii.eqb c (ch "}").
Definition is_dash (c : ascii) : bool := Ascii.eqb c (ch "-").

(** UUID(hex = s): drop 'urn:' and 'uuid:', strip braces, drop dashes, 32 digits, range check *)
Definition uuid_of_hex (s : text) : res Z :=
  let h := filter (fun c => negb (is_dash c))
             (strip is_brace (remove_all (lit "uuid:") 0 (remove_all (lit "urn:") 0 s))) in
  if Nat.eqb (List.length h) 32 then
    bind (py_int16 h) (fun v => if (0 <=? v) && (v <? 2 ^ 128) then Ok v else Raise "ValueError")
  else Raise "ValueError".

(** UUID(bytes = b) *)
Definition uuid_of_bytes (b : list Z) : res Z :=
  if Nat.eqb (List.length b) 16 then Ok (from_be b) else Raise "ValueError".

(** str(UUID): 8-4-4-4-12 digits of '%032x' *)
Definition uuid_str (v : Z) : text :=
  let h := format_0x 32 v in
  firstn 8 h ++ [ch "-"] ++ firstn 4 (skipn 8 h) ++ [ch "-"] ++ firstn 4 (skipn 12 h) ++ [ch "-"] ++
  firstn 4 (skipn 16 h) ++ [ch "-"] ++ skipn 20 h.

(** ** SpanKey (json_protocol.py:8-54) *)

(** json_protocol.py:8-10 *)
Record span_key := mkKey { trace_id : Z; span_id : Z }.

(** json_protocol.py:33-35 ([bytes]) *)
Definition key_bytes (k : span_key) : res (list Z) :=
  bind (to_bytes 16 (trace_id k)) (fun a => bind (span_id_bytes (span_id k)) (fun b => Ok (a ++ b))).

(** json_protocol.py:16-21 ([from_bytes]) *)
Definition key_of_bytes (d : list Z) : res span_key :=
  bind (uuid_of_bytes (firstn 16 d)) (fun t =>
  bind (span_id_of_bytes (skipn 16 d)) (fun s => Ok (mkKey t s))).

(** str.find(':') *)
Fixpoint find_colon (s : text) (i : Z) : Z :=
  match s with
  | [] => -1
  | c :: r => if Ascii.eqb c (ch ":") then i else find_colon r (i + 1)
  end.

(** json_protocol.py:23-31 ([from_hex]); for index -1, [data[:-1]] and [data[0:]] *)
Definition key_of_text (s : text) : res span_key :=
  let e := find_colon s 0 in
  let trace := if e <? 0 then removelast s else firstn (Z.to_nat e) s in
  let span := skipn (Z.to_nat (e + 1)) s in
  bind (uuid_of_hex trace) (fun t => bind (span_id_of_hex span) (fun v => Ok (mkKey t v))).

(** json_protocol.py:53-54 ([__str__]) *)
Definition key_str (k : span_key) : text := uuid_str (trace_id k) ++ [ch ":"] ++ span_id_hex (span_id k).

(** json_protocol.py:40-42 ([__eq__] of two keys); None when [.bytes] raises *)
Definition key_eq (a b : span_key) : res bool :=
  bind (key_bytes a) (fun x => bind (key_bytes b) (fun y => Ok (if list_eq_dec Z.eq_dec x y then true else false))).

(** json_protocol.py:43-44 ([__eq__] of a key with a string) *)
Definition key_eq_text (a : span_key) (s : text) : res bool :=
  bind (key_of_text s) (fun b => key_eq a b).
