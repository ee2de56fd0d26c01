(** Model of Unicode text on its way through a message: a Python str is a list of code points, and
    - pydantic's model_dump_json writes it (clients/client_base.py 76, servers/stream_server_base.py 41, servers/json/udp.py 70,
      queues/paginated_queue.py 44),
    - str.encode() makes bytes of the text (clients/stream_client_base.py 36, clients/persistent_stream_client_base.py 110,
      clients/datagram_client_base.py 34, servers/stream_server_base.py 41, servers/json/udp.py 31),
    - bytes.decode() makes a text of the bytes (clients/stream_client_base.py 42, clients/persistent_stream_client_base.py 118,
      clients/datagram_client_base.py 27, servers/stream_server_base.py 38, servers/json/udp.py 39),
    - json.loads reads it (clients/client_base.py 78, servers/server_base.py 35, queues/paginated_queue.py 48, 295, 309).
    Here only the strings; the values around them are those of JsonModel.v, whose characters are bytes. *)
From Coq Require Import List NArith Bool.
Import ListNotations.
Local Open Scope N_scope.

(** The code points that are no characters but halves of one in UTF-16. *)
Definition high (c : N) : bool := (0xD800 <=? c) && (c <=? 0xDBFF).
Definition low (c : N) : bool := (0xDC00 <=? c) && (c <=? 0xDFFF).
(** What UTF-8 can express. *)
Definition scalar (c : N) : bool := (c <? 0x110000) && negb (high c || low c).

(** ** str.encode(): None stands for UnicodeEncodeError *)
Definition encode1 (c : N) : option (list N) :=
  if c <? 0x80 then Some [c]
  else if c <? 0x800 then Some [0xC0 + c / 64; 0x80 + c mod 64]
  else if high c || low c then None
  else if c <? 0x10000 then Some [0xE0 + c / 4096; 0x80 + (c / 64) mod 64; 0x80 + c mod 64]
  else if c <? 0x110000 then Some [0xF0 + c / 262144; 0x80 + (c / 4096) mod 64; 0x80 + (c / 64) mod 64; 0x80 + c mod 64]
  else None.
Fixpoint encode (s : list N) : option (list N) :=
  match s with
  | [] => Some []
  | c :: r => match encode1 c, encode r with Some a, Some b => Some (a ++ b) | _, _ => None end
  end.

(** ** bytes.decode(): None stands for UnicodeDecodeError. CPython checks the second byte against a table; that excludes the same
    sequences as comparing the decoded number: those that are longer than needed, the surrogates and what is beyond 0x10FFFF. *)
Definition cont (b : N) : bool := (0x80 <=? b) && (b <? 0xC0).
Definition more (c : N) (o : option (list N)) : option (list N) := match o with Some s => Some (c :: s) | None => None end.
Fixpoint decode (b : list N) : option (list N) :=
  match b with
  | [] => Some []
  | b0 :: r =>
      if b0 <? 0x80 then more b0 (decode r)
      else if b0 <? 0xC2 then None
      else if b0 <? 0xE0 then
        match r with
        | b1 :: r1 => if cont b1 then more ((b0 - 0xC0) * 64 + (b1 - 0x80)) (decode r1) else None
        | _ => None
        end
      else if b0 <? 0xF0 then
        match r with
        | b1 :: b2 :: r2 =>
            let c := (b0 - 0xE0) * 4096 + (b1 - 0x80) * 64 + (b2 - 0x80) in
            if cont b1 && cont b2 && (0x800 <=? c) && negb (high c || low c) then more c (decode r2) else None
        | _ => None
        end
      else if b0 <? 0xF5 then
        match r with
        | b1 :: b2 :: b3 :: r3 =>
            let c := (b0 - 0xF0) * 262144 + (b1 - 0x80) * 4096 + (b2 - 0x80) * 64 + (b3 - 0x80) in
            if cont b1 && cont b2 && cont b3 && (0x10000 <=? c) && (c <? 0x110000) then more c (decode r3) else None
        | _ => None
        end
      else None
  end.

(** ** Writing: serde_json's escapes, as in JsonModel.v *)
Definition hex_digit (n : N) : N := if n <? 10 then 48 + n else 87 + n.
Definition uescape (c : N) : list N :=
  if c =? 34 then [92; 34] else if c =? 92 then [92; 92]
  else if c =? 8 then [92; 98] else if c =? 9 then [92; 116] else if c =? 10 then [92; 110] else if c =? 12 then [92; 102] else if c =? 13 then [92; 114]
  else if c <? 32 then [92; 117; 48; 48; hex_digit (c / 16); hex_digit (c mod 16)]
  else [c].
Definition uprint (s : list N) : list N := 34 :: flat_map uescape s ++ [34].
(** model_dump_json: a string with a surrogate is not written (PydanticSerializationError) *)
Definition udump (s : list N) : option (list N) := if forallb scalar s then Some (uprint s) else None.

(** ** Reading: scanstring of CPython's json module, after the opening quote *)
Definition hex_value (c : N) : option N :=
  if (48 <=? c) && (c <=? 57) then Some (c - 48) else if (97 <=? c) && (c <=? 102) then Some (c - 87) else if (65 <=? c) && (c <=? 70) then Some (c - 55) else None.
Definition hex4 (a b c d : N) : option N :=
  match hex_value a, hex_value b, hex_value c, hex_value d with
  | Some a, Some b, Some c, Some d => Some (((a * 16 + b) * 16 + c) * 16 + d)
  | _, _, _, _ => None
  end.
Definition uunescape (c : N) : option N :=
  if c =? 34 then Some 34 else if c =? 92 then Some 92 else if c =? 47 then Some 47
  else if c =? 98 then Some 8 else if c =? 102 then Some 12 else if c =? 110 then Some 10 else if c =? 114 then Some 13 else if c =? 116 then Some 9 else None.
Definition join (u v : N) : N := 0x10000 + (u - 0xD800) * 1024 + (v - 0xDC00).
Definition add (c : N) (o : option (list N * list N)) : option (list N * list N) := match o with Some (s, r) => Some (c :: s, r) | None => None end.
Fixpoint scan (t : list N) : option (list N * list N) :=
  match t with
  | [] => None
  | c :: r =>
      if c =? 34 then Some ([], r)
      else if c =? 92 then
        match r with
        | [] => None
        | e :: r1 =>
            if e =? 117 then
              match r1 with
              | h1 :: h2 :: h3 :: h4 :: r2 =>
                  match hex4 h1 h2 h3 h4 with
                  | None => None
                  | Some u =>
                      if high u then
                        match r2 with
                        | k1 :: k2 :: g1 :: g2 :: g3 :: g4 :: r3 =>
                            if (k1 =? 92) && (k2 =? 117) then
                              match hex4 g1 g2 g3 g4 with
                              | None => None
                              | Some v => if low v then add (join u v) (scan r3) else add u (scan r2)
                              end
                            else add u (scan r2)
                        | _ => add u (scan r2)
                        end
                      else add u (scan r2)
                  end
              | _ => None
              end
            else match uunescape e with Some x => add x (scan r1) | None => None end
        end
      else if c <? 32 then None
      else add c (scan r)
  end.
(** json.loads of a text that is one string *)
Definition uloads (t : list N) : option (list N) :=
  match t with
  | q :: r => if q =? 34 then match scan r with Some (s, []) => Some s | _ => None end else None
  | [] => None
  end.

(** A string sent and received: written, encoded, cut at line ends by the stream (the line feed behind the message is left out), decoded, read. *)
Definition sent (s : list N) : option (list N) := match udump s with Some t => encode t | None => None end.
Definition received (b : list N) : option (list N) := match decode b with Some t => uloads t | None => None end.
