(** Specification of settings from environment variables. *)
From Coq Require Import String Ascii ZArith Bool Lia List.
Import ListNotations.
Local Open Scope string_scope.

(** A variable is set if it exists and is not empty. *)
Definition is_set (env : list (string * string)) (name v : string) : Prop := In (name, v) env /\ v <> "".
Definition unset (env : list (string * string)) (name : string) : Prop := forall v, ~ is_set env name v.
(** Names of the variables for setting [p]. *)
Definition machine_var (p : string) : string := "ECOENV_" ++ p.
Definition app_var (p app : string) : string := "ECOENV_" ++ p ++ "_" ++ app.
Definition instance_var (p app inst : string) : string := "ECOENV_" ++ p ++ "_" ++ app ++ "_" ++ inst.

(** The value a setting should have: the most specific variable that is set. *)
Inductive effective (env : list (string * string)) (app inst p : string) : bool -> option string -> Prop :=
| eff_instance : forall only v, is_set env (instance_var p app inst) v -> effective env app inst p only (Some v)
| eff_app : forall v, unset env (instance_var p app inst) -> is_set env (app_var p app) v -> effective env app inst p false (Some v)
| eff_machine : forall v, unset env (instance_var p app inst) -> unset env (app_var p app) -> is_set env (machine_var p) v ->
    effective env app inst p false (Some v)
| eff_default : unset env (instance_var p app inst) -> unset env (app_var p app) -> unset env (machine_var p) ->
    effective env app inst p false None
| eff_only_default : unset env (instance_var p app inst) -> effective env app inst p true None.

(** Extra settings. *)
Definition begins (p s : string) : Prop := exists r, s = p ++ r.
Definition extra_instance (env : list (string * string)) (app inst k v : string) : Prop :=
  In ("ECOENV_EXTRA_" ++ app ++ "_" ++ inst ++ "_" ++ k, v) env.
Definition extra_app (env : list (string * string)) (app inst k v : string) : Prop :=
  In ("ECOENV_EXTRA_" ++ app ++ "_" ++ k, v) env /\ ~ begins (inst ++ "_") k.
Definition extra_machine (env : list (string * string)) (app k v : string) : Prop :=
  In ("ECOENV_EXTRA_" ++ k, v) env /\ ~ begins (app ++ "_") k.

(** A string of decimal digits and its value. *)
Inductive numeral : string -> Z -> Prop :=
| num_one : forall c, (48 <= nat_of_ascii c <= 57)%nat -> numeral (String c EmptyString) (Z.of_nat (nat_of_ascii c) - 48)
| num_more : forall s n c, numeral s n -> (48 <= nat_of_ascii c <= 57)%nat ->
    numeral (s ++ String c EmptyString) (10 * n + (Z.of_nat (nat_of_ascii c) - 48)).
(** The same with single underscores between digits, as Python writes long numbers. *)
Inductive grouped : string -> Z -> Prop :=
| grp_one : forall c, (48 <= nat_of_ascii c <= 57)%nat -> grouped (String c EmptyString) (Z.of_nat (nat_of_ascii c) - 48)
| grp_more : forall s n c, grouped s n -> (48 <= nat_of_ascii c <= 57)%nat ->
    grouped (s ++ String c EmptyString) (10 * n + (Z.of_nat (nat_of_ascii c) - 48))
| grp_under : forall s n c, grouped s n -> (48 <= nat_of_ascii c <= 57)%nat ->
    grouped (s ++ String "_" (String c EmptyString)) (10 * n + (Z.of_nat (nat_of_ascii c) - 48)).
(** Nothing but white space: tab to carriage return, and the blank. *)
Definition white (w : string) : Prop :=
  Forall (fun c => (9 <= nat_of_ascii c <= 13 \/ nat_of_ascii c = 32)%nat) (list_ascii_of_string w).
(** The texts of integers: digits, perhaps with a sign before them, and white space around. *)
Inductive integer : string -> Z -> Prop :=
| int_plain : forall w1 w2 s n, white w1 -> white w2 -> grouped s n -> integer (w1 ++ s ++ w2) n
| int_plus : forall w1 w2 s n, white w1 -> white w2 -> grouped s n -> integer (w1 ++ String "+" (s ++ w2)) n
| int_minus : forall w1 w2 s n, white w1 -> white w2 -> grouped s n -> integer (w1 ++ String "-" (s ++ w2)) (- n).
Definition without (c : ascii) (s : string) : Prop := forall a b, s <> a ++ String c b.

(** The settings that exist. *)
Definition postfixes : list string :=
  ["DEFAULT_DIR"; "STAT_GP"; "STAT_HL"; "LOG_DIR"; "LOG_BUF_SIZE"; "LOG_MAX_SIZE"; "LOG_MAX_FILES"; "LOG_LEVEL"; "LOCK_DIR";
   "TCP"; "UDP"; "UDS"; "BUFFER_DIR"].
