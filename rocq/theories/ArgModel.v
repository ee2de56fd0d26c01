(** Model of how argparse (CPython 3.11, argparse.py: parse_known_args, _parse_known_args, _parse_optional, _get_option_tuples,
    _match_argument, _get_values) reads the arguments of the command line tools of ekosis/cli and of an application
    (configuration/argument_parser.py), with everything that CliModel leaves out: abbreviated names, "--name=value", "-nvalue", "--",
    values that begin with "-", and -h. The tools are those of CliModel behind this parser.

    - Parsers without positional arguments and with options that take no or one value, as all of these are. prefix_chars is "-",
      allow_abbrev and add_help are True: the parsers of /repo do not change the defaults.
    - Messages are left out: an error is the end of the program with status 2, help its end with status 0. *)
From Coq Require Import List ZArith NArith Bool String Ascii.
From Verif Require Import Base SpanKeyModel RouterModel WireModel ConfigModel ManageModel CliModel.
Import ListNotations.
Local Open Scope string_scope.

(** _option_string_actions: what every name stands for; -h and --help are added by ArgumentParser itself *)
Inductive action := Help | Opt (o : opt).
Definition names (opts : list opt) : list (string * action) :=
  ("-h", Help) :: ("--help", Help) :: flat_map (fun o => [(short o, Opt o); (long o, Opt o)]) opts.
(** nargs: a flag and help take no value, any other option takes one *)
Definition takes (a : action) : bool := match a with Help => false | Opt o => match kind o with Flag => false | _ => true end end.

(** str.partition("="): [None] if there is no "=" *)
Fixpoint cut (s : string) : option (string * string) :=
  match s with
  | EmptyString => None
  | String c r => if Ascii.eqb c "=" then Some ("", r) else option_map (fun p => (String c (fst p), snd p)) (cut r)
  end.
(** _negative_number_matcher: ^-\d+$|^-\d*\.\d+$ where $ also matches before a last newline *)
Definition digit (c : ascii) : bool := (48 <=? nat_of_ascii c)%nat && (nat_of_ascii c <=? 57)%nat.
Fixpoint digits (s : string) : bool :=
  match s with EmptyString => true | String c r => if Ascii.eqb c "010" && String.eqb r "" then true else digit c && digits r end.
Definition digits1 (s : string) : bool := match s with String c _ => digit c && digits s | EmptyString => false end.
Fixpoint decimal (s : string) : bool :=
  match s with EmptyString => false | String c r => if Ascii.eqb c "." then digits1 r else digit c && decimal r end.
Definition negative_number (s : string) : bool := match s with String c r => Ascii.eqb c "-" && (digits1 r || decimal r) | EmptyString => false end.
Fixpoint has_space (s : string) : bool := match s with EmptyString => false | String c r => Ascii.eqb c " " || has_space r end.

(** What an argument is taken for: a value ("A" in arg_strings_pattern), "--" ("-"), or an option ("O") with the name that it was found
    under, whether a "=" follows (sep) and the value written in the same argument (explicit_arg); no action: an unknown option. *)
Inductive token := Value | Dashes | Wants (a : option action) (name : string) (sep : bool) (explicit : option string).
(** _get_option_tuples *)
Definition matches (opts : list opt) (a : string) : list token :=
  if String.prefix "--" a then
    let '(p, sep, e) := match cut a with Some (p, e) => (p, true, Some e) | None => (a, false, None) end in
    flat_map (fun na => if String.prefix p (fst na) then [Wants (Some (snd na)) (fst na) sep e] else []) (names opts)
  else
    let two := substring 0 2 a in
    let tail := substring 2 (String.length a - 2) a in
    flat_map (fun na => if String.eqb (fst na) two then [Wants (Some (snd na)) (fst na) false (Some tail)]
                        else if String.prefix a (fst na) then [Wants (Some (snd na)) (fst na) false None] else []) (names opts).
(** _parse_optional; [None]: the name is ambiguous, which ends the program *)
Definition parse_optional (opts : list opt) (a : string) : option token :=
  if negb (dashed a) then Some Value else
  match sget a (names opts) with
  | Some act => Some (Wants (Some act) a false None)
  | None =>
      if String.eqb a "-" then Some Value else
      let whole :=
        match matches opts a with
        | [t] => Some t
        | [] => if negative_number a then Some Value else if has_space a then Some Value else Some (Wants None a false None)
        | _ => None
        end in
      match cut a with
      | Some (n, e) => match sget n (names opts) with Some act => Some (Wants (Some act) n true (Some e)) | None => whole end
      | None => whole
      end
  end.
(** _parse_known_args, the first loop: after "--" everything is a value *)
Fixpoint classify (opts : list opt) (args : list string) : option (list (string * token)) :=
  match args with
  | [] => Some []
  | a :: rest =>
      if String.eqb a "--" then Some ((a, Dashes) :: map (fun b => (b, Value)) rest)
      else match parse_optional opts a with
           | None => None
           | Some t => option_map (cons (a, t)) (classify opts rest)
           end
  end.

(** consume_optional: the actions of one argument that are complete, and what comes then: nothing, an unknown rest, or an action that
    looks for its value in the next argument. [None]: the program ends. Flags of one letter can be joined: "-hb5". *)
Inductive tail := Stop | Unknown | Follow (a : action).
Fixpoint joined (opts : list opt) (a : action) (single sep : bool) (e : string) {struct e} : option (list (action * option string) * tail) :=
  if takes a then Some ([(a, Some e)], Stop) else
  match e with
  | EmptyString => None
  | String c r =>
      if negb single || sep || Ascii.eqb c "-" then None else
      match sget (String "-" (String c "")) (names opts) with
      | None => Some ([(a, None)], Unknown)
      | Some b =>
          match match r with
                | EmptyString => Some ([], Follow b)
                | String d r' => if Ascii.eqb d "=" then joined opts b true true r' else joined opts b true false r
                end with
          | Some (l, t) => Some ((a, None) :: l, t)
          | None => None
          end
      end
  end.
Definition one_dash (name : string) : bool := negb (String.prefix "--" name).
Definition actions_of (opts : list opt) (a : action) (name : string) (sep : bool) (explicit : option string) : option (list (action * option string) * tail) :=
  match explicit with None => Some ([], Follow a) | Some e => joined opts a (one_dash name) sep e end.

Definition dict := list (string * value).
(** The state of the parser: the values so far and whether there are arguments that it does not know (extras). *)
Inductive walk := Walked (given : dict) (extras : bool) | Ended (code : Z).
(** take_action of every action of an argument: conversion, options that exclude each other, then the value; help ends the program *)
Fixpoint act (opts : list opt) (given : dict) (l : list (action * option string)) (k : dict -> walk) {struct l} : walk :=
  match l with
  | [] => k given
  | (Help, _) :: _ => Ended 0
  | (Opt o, v) :: r =>
      match kind o, v with
      | Flag, _ => if excluded opts given o then Ended 2 else act opts (sset (dest o) VTrue given) r k
      | kd, Some s => match convert kd s with
                      | Some x => if excluded opts given o then Ended 2 else act opts (sset (dest o) x given) r k
                      | None => Ended 2
                      end
      | _, None => Ended 2
      end
  end.
(** The second loop of _parse_known_args. *)
Fixpoint consume (opts : list opt) (given : dict) (extras : bool) (l : list (string * token)) {struct l} : walk :=
  match l with
  | [] => Walked given extras
  | (_, Wants (Some a) name sep explicit) :: rest =>
      match actions_of opts a name sep explicit with
      | None => Ended 2
      | Some (done, Stop) => act opts given done (fun g => consume opts g extras rest)
      | Some (done, Unknown) => act opts given done (fun g => consume opts g true rest)
      | Some (done, Follow b) =>
          if takes b
          then match rest with
               | (v, Value) :: rest' => act opts given (done ++ [(b, Some v)])%list (fun g => consume opts g extras rest')
               | _ => Ended 2
               end
          else act opts given (done ++ [(b, None)])%list (fun g => consume opts g extras rest)
      end
  | _ :: rest => consume opts given true rest
  end.
(** parse_args(): the Namespace, or the end of the program. Options that are needed are checked before unknown arguments. *)
Inductive reading := Ends (code : Z) | Reads (ns : namespace).
Definition read_args (opts : list opt) (args : list string) : reading :=
  match classify opts args with
  | None => Ends 2
  | Some toks =>
      match consume opts [] false toks with
      | Ended n => Ends n
      | Walked given extras =>
          if forallb (fun o => implb (needed o) (shas (dest o) given)) opts && negb extras
          then Reads (map (fun o => (dest o, match sget (dest o) given with Some v => v | None => default o end)) opts)
          else Ends 2
      end
  end.

(** ** The tools behind this parser (bem.py 95-106, bsm.py 82-93, log.py 31-41, stat.py 22-30) *)
Definition run_tool (opts : list opt) (main : namespace -> outcome) (args : list string) : outcome :=
  match read_args opts args with Ends n => Exit n | Reads ns => main ns end.
Definition bem_line : list string -> outcome := run_tool bem_options (fun ns => queue_main ns (do_endpoint_action ns)).
Definition bsm_line : list string -> outcome := run_tool bsm_options (fun ns => queue_main ns (do_sender_action ns)).
Definition log_line : list string -> outcome := run_tool log_options log_main.
Definition stat_line : list string -> outcome := run_tool stat_options stat_main.
(** configuration/argument_parser.py 5-37 *)
Definition app_options : list opt :=
  [mkOpt "-i" "--instance" "instance" Text true VNone false; mkOpt "-c" "--config_file" "config_file" Text false VNone false;
   flag "-lco" "--log_console_only" "log_console_only"; flag "-lfo" "--log_file_only" "log_file_only"].
Definition app_line (args : list string) : reading := read_args app_options args.
