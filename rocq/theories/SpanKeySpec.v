(** What a span key is, and what its texts mean. *)
From Coq Require Import List ZArith Ascii String.
From Verif Require Import SpanKeyModel.
Import ListNotations.
Local Open Scope Z_scope.

(** A 128-bit trace id and a 64-bit span id. *)
Definition valid_key (k : span_key) : Prop :=
  0 <= trace_id k < 2 ^ 128 /\ 0 <= span_id k < 2 ^ 64.

Definition is_byte (b : Z) : Prop := 0 <= b < 256.

(** The hexadecimal digits. *)
Definition digits : list (ascii * Z) :=
  combine (list_ascii_of_string "0123456789abcdefABCDEF")
          [0; 1; 2; 3; 4; 5; 6; 7; 8; 9; 10; 11; 12; 13; 14; 15; 10; 11; 12; 13; 14; 15].
(** ASCII white space. *)
Definition blanks : list ascii := map ascii_of_nat [9; 10; 11; 12; 13; 32]%nat.

(** [s] consists of hexadecimal digits and denotes [v]. *)
Inductive denotes : text -> Z -> Prop :=
| den_nil : denotes nil 0
| den_snoc s v c d : denotes s v -> In (c, d) digits -> denotes (s ++ c :: nil) (16 * v + d).

(** ** The texts [int(s, 16)] reads *)

(** Hexadecimal digits with at most one underscore between two of them, and their value. *)
Inductive grouped16 : text -> Z -> Prop :=
| g16_one c d : In (c, d) digits -> grouped16 [c] d
| g16_more s v c d : grouped16 s v -> In (c, d) digits -> grouped16 (s ++ [c]) (16 * v + d)
| g16_under s v c d : grouped16 s v -> In (c, d) digits -> grouped16 (s ++ ["_"%char; c]) (16 * v + d).

(** What may stand before the digits, with its effect: nothing, a sign, then perhaps 0x or 0X, perhaps with an underscore. *)
Definition signs : list (text * Z) := [([], 1); (["+"%char], 1); (["-"%char], -1)].
Definition prefixes : list text := map list_ascii_of_string [""; "0x"; "0X"; "0x_"; "0X_"]%string.

(** [s] is a numeral to the base 16, with white space around it, of value [v]. *)
Definition numeral16 (s : text) (v : Z) : Prop :=
  exists before sign f prefix body n after,
    s = before ++ sign ++ prefix ++ body ++ after /\ v = f * n /\
    (forall c, In c before \/ In c after -> In c blanks) /\
    In (sign, f) signs /\ In prefix prefixes /\ grouped16 body n.
