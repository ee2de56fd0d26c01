(** Model of the text form of the messages: pydantic's model_dump_json, as used in clients/client_base.py 76,
    servers/stream_server_base.py 38-41, servers/json/udp.py and logs/otlp_formatter.py 39; and of json.loads as used in
    clients/client_base.py 78 and servers/server_base.py 35, and of nlohmann's json::parse in
    ekosis_log_shipper/src/otlp_envelope.cpp 76 and 95.

    Texts are byte strings (UTF-8); the printer copies bytes from 128 up, the parsers read them. Floating point numbers are left
    out: type [json] has none, and the parser rejects a number with a fraction or an exponent, as it rejects the escapes of
    surrogates and the words NaN and Infinity, none of which the printer writes. *)
From Coq Require Import String Ascii ZArith Bool Lia List Arith.
From Verif Require Import RouterModel.
Import ListNotations.
Local Open Scope Z_scope.

Definition chr (c : ascii) : string := String c EmptyString.
(** ** Decimal numbers *)
Definition digit (d : Z) : ascii := ascii_of_nat (48 + Z.to_nat d).
Definition digit_of (c : ascii) : option Z :=
  let n := Z.of_nat (nat_of_ascii c) in if (48 <=? n) && (n <=? 57) then Some (n - 48) else None.
(** str(n) for n >= 0 *)
Fixpoint dec_fuel (fuel : nat) (n : Z) : string :=
  match fuel with
  | O => EmptyString
  | S k => if n <? 10 then chr (digit n) else (dec_fuel k (n / 10) ++ chr (digit (n mod 10)))%string
  end.
Definition dec (n : Z) : string := dec_fuel (S (Z.to_nat (Z.log2 n))) n.
Definition dec_int (n : Z) : string := if n <? 0 then String "-" (dec (- n)) else dec n.
(** The digits at the front of a text: their value, and the rest. *)
Fixpoint digits (acc : Z) (s : string) : Z * string :=
  match s with
  | EmptyString => (acc, s)
  | String c r => match digit_of c with Some d => digits (acc * 10 + d) r | None => (acc, s) end
  end.

(** ** Printing *)
Definition hexd (n : nat) : ascii := nth n ["0"; "1"; "2"; "3"; "4"; "5"; "6"; "7"; "8"; "9"; "a"; "b"; "c"; "d"; "e"; "f"]%char "0"%char.
Definition backslash : ascii := "092"%char.
Definition quote : ascii := "034"%char.
(** serde_json's escapes *)
Definition escape (c : ascii) : string :=
  let n := nat_of_ascii c in
  if Ascii.eqb c quote then String backslash (chr quote)
  else if Ascii.eqb c backslash then String backslash (chr backslash)
  else if Nat.eqb n 8 then String backslash "b"
  else if Nat.eqb n 9 then String backslash "t"
  else if Nat.eqb n 10 then String backslash "n"
  else if Nat.eqb n 12 then String backslash "f"
  else if Nat.eqb n 13 then String backslash "r"
  else if Nat.ltb n 32 then String backslash ("u00" ++ String (hexd (n / 16)) (chr (hexd (n mod 16))))
  else chr c.
Fixpoint escaped (s : string) : string := match s with EmptyString => EmptyString | String c r => (escape c ++ escaped r)%string end.
Definition print_string (s : string) : string := String quote (escaped s ++ chr quote).
(** The compact form, without white space. *)
Fixpoint print (j : json) : string :=
  match j with
  | JNull => "null"
  | JBool true => "true"
  | JBool false => "false"
  | JNum z => dec_int z
  | JStr s => print_string s
  | JArr l =>
      String "[" ((fix go (first : bool) (l : list json) : string :=
                     match l with [] => "]" | x :: r => (if first then "" else ",") ++ print x ++ go false r end) true l)
  | JObj d =>
      String "{" ((fix go (first : bool) (d : list (string * json)) : string :=
                     match d with
                     | [] => "}"
                     | (k, x) :: r => (if first then "" else ",") ++ print_string k ++ String ":" (print x) ++ go false r
                     end) true d)
  end%string.

(** ** Parsing *)
Definition is_ws (c : ascii) : bool := existsb (Ascii.eqb c) [" "; "009"; "010"; "013"]%char.
Fixpoint skip_ws (s : string) : string :=
  match s with String c r => if is_ws c then skip_ws r else s | EmptyString => s end.
Fixpoint strip_prefix (p s : string) : option string :=
  match p, s with
  | EmptyString, _ => Some s
  | String a p, String b s => if Ascii.eqb a b then strip_prefix p s else None
  | _, EmptyString => None
  end.
Definition hex_val (c : ascii) : option nat :=
  let n := nat_of_ascii c in
  if Nat.leb 48 n && Nat.leb n 57 then Some (n - 48)%nat
  else if Nat.leb 97 n && Nat.leb n 102 then Some (n - 87)%nat
  else if Nat.leb 65 n && Nat.leb n 70 then Some (n - 55)%nat else None.
(** The character with code point [n], in UTF-8; surrogates are left out. *)
Definition utf8 (n : N) : option string :=
  let b k := ascii_of_N k in
  if N.ltb n 128 then Some (chr (b n))
  else if N.ltb n 2048 then Some (String (b (192 + n / 64)) (chr (b (128 + n mod 64))))%N
  else if N.leb 55296 n && N.leb n 57343 then None
  else Some (String (b (224 + n / 4096)) (String (b (128 + (n / 64) mod 64)) (chr (b (128 + n mod 64)))))%N.
Definition unescape (c : ascii) : option ascii :=
  if Ascii.eqb c quote then Some quote else if Ascii.eqb c backslash then Some backslash else if Ascii.eqb c "/" then Some "/"%char
  else if Ascii.eqb c "b" then Some "008"%char else if Ascii.eqb c "f" then Some "012"%char else if Ascii.eqb c "n" then Some "010"%char
  else if Ascii.eqb c "r" then Some "013"%char else if Ascii.eqb c "t" then Some "009"%char else None.
(** After the opening quote. *)
Fixpoint parse_string (s : string) : option (string * string) :=
  match s with
  | EmptyString => None
  | String c r =>
      if Ascii.eqb c quote then Some (EmptyString, r)
      else if Ascii.eqb c backslash then
        match r with
        | String "u" (String h1 (String h2 (String h3 (String h4 r')))) =>
            match hex_val h1, hex_val h2, hex_val h3, hex_val h4 with
            | Some a, Some b, Some c, Some d =>
                match utf8 (N.of_nat (((a * 16 + b) * 16 + c) * 16 + d)), parse_string r' with
                | Some x, Some (y, rest) => Some (x ++ y, rest)%string
                | _, _ => None
                end
            | _, _, _, _ => None
            end
        | String e r' =>
            match unescape e, parse_string r' with
            | Some x, Some (y, rest) => Some (String x y, rest)
            | _, _ => None
            end
        | EmptyString => None
        end
      else if Nat.ltb (nat_of_ascii c) 32 then None
      else match parse_string r with Some (y, rest) => Some (String c y, rest) | None => None end
  end.
(** -?(0|[1-9][0-9]* ), not followed by a fraction or an exponent *)
Definition after_number (r : string) : bool :=
  match r with String c _ => negb (existsb (Ascii.eqb c) ["."; "e"; "E"]%char) | EmptyString => true end.
Definition parse_nat (s : string) : option (Z * string) :=
  match s with
  | String c r =>
      match digit_of c with
      | None => None
      | Some d => let '(n, r) := if d =? 0 then (0, r) else digits 0 s in if after_number r then Some (n, r) else None
      end
  | EmptyString => None
  end.
Definition parse_number (s : string) : option (Z * string) :=
  match s with
  | String c r => if Ascii.eqb c "-" then match parse_nat r with Some (n, r') => Some (- n, r') | None => None end else parse_nat s
  | EmptyString => None
  end.
(** A key and the colon behind it. *)
Definition parse_key (s : string) : option (string * string) :=
  match skip_ws s with
  | String c r => if Ascii.eqb c quote then
                    match parse_string r with
                    | Some (k, r) => match skip_ws r with String c r => if Ascii.eqb c ":" then Some (k, r) else None | EmptyString => None end
                    | None => None
                    end
                  else None
  | EmptyString => None
  end.
(** [fuel] bounds the depth of the recursion; the length of the text is always enough. *)
Fixpoint parse_value (fuel : nat) (s : string) : option (json * string) :=
  match fuel with
  | O => None
  | S k =>
      match skip_ws s with
      | EmptyString => None
      | String c r =>
          if Ascii.eqb c quote then match parse_string r with Some (x, r) => Some (JStr x, r) | None => None end
          else if Ascii.eqb c "[" then
            match skip_ws r with
            | String c r' =>
                if Ascii.eqb c "]" then Some (JArr [], r')
                else match parse_elements k r with Some (l, r) => Some (JArr l, r) | None => None end
            | EmptyString => None
            end
          else if Ascii.eqb c "{" then
            match skip_ws r with
            | String c r' =>
                if Ascii.eqb c "}" then Some (JObj [], r')
                else match parse_members k r with Some (d, r) => Some (JObj (supdate [] d), r) | None => None end
            | EmptyString => None
            end
          else if Ascii.eqb c "n" then match strip_prefix "ull" r with Some r => Some (JNull, r) | None => None end
          else if Ascii.eqb c "t" then match strip_prefix "rue" r with Some r => Some (JBool true, r) | None => None end
          else if Ascii.eqb c "f" then match strip_prefix "alse" r with Some r => Some (JBool false, r) | None => None end
          else match parse_number (String c r) with Some (z, r) => Some (JNum z, r) | None => None end
      end
  end
with parse_elements (fuel : nat) (s : string) : option (list json * string) :=
  match fuel with
  | O => None
  | S k =>
      match parse_value k s with
      | None => None
      | Some (x, r) =>
          match skip_ws r with
          | String c r =>
              if Ascii.eqb c "]" then Some ([x], r)
              else if Ascii.eqb c "," then match parse_elements k r with Some (l, r) => Some (x :: l, r) | None => None end
              else None
          | EmptyString => None
          end
      end
  end
with parse_members (fuel : nat) (s : string) : option (list (string * json) * string) :=
  match fuel with
  | O => None
  | S k =>
      match parse_key s with
      | None => None
      | Some (key, r) =>
          match parse_value k r with
          | None => None
          | Some (x, r) =>
              match skip_ws r with
              | String c r =>
                  if Ascii.eqb c "}" then Some ([(key, x)], r)
                  else if Ascii.eqb c "," then match parse_members k r with Some (l, r) => Some ((key, x) :: l, r) | None => None end
                  else None
              | EmptyString => None
              end
          end
      end
  end.
(** json.loads: white space around the value is allowed, nothing else. *)
Definition parse (s : string) : option json :=
  match parse_value (S (String.length s)) s with
  | Some (j, r) => match skip_ws r with EmptyString => Some j | _ => None end
  | None => None
  end.
