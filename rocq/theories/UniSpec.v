(** Vocabulary for the statements about Unicode text. *)
From Coq Require Import List NArith.
Import ListNotations.
Local Open Scope N_scope.

(** A Unicode character: every code point up to 0x10FFFF that is not a surrogate. *)
Definition character (c : N) : Prop := c <= 0x10FFFF /\ ~ (0xD800 <= c <= 0xDFFF).
(** No control character: no line feed (10), which ends a message, and no ENQ (5), which is a heartbeat. *)
Definition printable_bytes (b : list N) : Prop := Forall (fun x => 32 <= x < 256) b.
(** The JSON escape of a number below 65536: [\uXXXX] with lower case digits. *)
Definition hex_char (d : N) : N := nth (N.to_nat d) [48; 49; 50; 51; 52; 53; 54; 55; 56; 57; 97; 98; 99; 100; 101; 102] 48.
Definition escaped16 (u : N) : list N := [92; 117; hex_char (u / 4096); hex_char (u / 256 mod 16); hex_char (u / 16 mod 16); hex_char (u mod 16)].
(** UTF-16 (RFC 2781): the two halves of a character beyond 0xFFFF. *)
Definition first_half (c : N) : N := 0xD800 + (c - 0x10000) / 1024.
Definition second_half (c : N) : N := 0xDC00 + (c - 0x10000) mod 1024.
