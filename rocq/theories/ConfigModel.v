(** Model of ekosis/configuration/config_models.py: settings from environment variables. *)
From Coq Require Import String Ascii ZArith Bool Lia List.
From Verif Require Import Base RouterModel.
Import ListNotations.
Local Open Scope string_scope.

(** os.environ: names and values, in order, each name once. *)
Definition environ := list (string * string).

Section Config.
(** lines 27-33: the names in upper case; lines 27-28: as given. *)
Context (env_app_name env_instance : string) (application_name application_instance : string).

(** lines 37-51; [not retval]: absent or empty. The default is any Python value. *)
Definition falsy (v : option string) : bool := match v with None => true | Some s => String.eqb s "" end.
Definition get_eco_env {A} (of_string : string -> A) (env : environ) (postfix : string) (default : A) (instance_level_only : bool) : A :=
  let global_env_name := "ECOENV" ++ "_" ++ postfix in
  let app_level_env_name := global_env_name ++ "_" ++ env_app_name in
  let instance_env_name := app_level_env_name ++ "_" ++ env_instance in
  let retval := sget instance_env_name env in
  if falsy retval then
    if instance_level_only then default
    else
      let retval := sget app_level_env_name env in
      if falsy retval then
        let retval := sget global_env_name env in
        if falsy retval then default else match retval with Some s => of_string s | None => default end
      else match retval with Some s => of_string s | None => default end
  else match retval with Some s => of_string s | None => default end.
(** lines 56-57 *)
Definition get_instance_env (env : environ) (postfix : string) : option string := get_eco_env Some env postfix None true.

(** str.split(":") *)
Fixpoint split_colon (s : string) : string * list string :=
  match s with
  | EmptyString => (EmptyString, [])
  | String c r =>
      let (w, ws) := split_colon r in
      if Ascii.eqb c ":"%char then (EmptyString, w :: ws) else (String c w, ws)
  end.
(** int(str) for ASCII strings: white space around, a sign, digits with single underscores between them; anything else
    raises ValueError. (Digits of other scripts, which int() accepts too, are left out.) *)
Definition space (c : ascii) : bool := let n := nat_of_ascii c in (Nat.leb 9 n && Nat.leb n 13) || Nat.eqb n 32.
Fixpoint lstrip (s : string) : string := match s with EmptyString => EmptyString | String c r => if space c then lstrip r else s end.
Fixpoint rstrip (s : string) : string :=
  match s with
  | EmptyString => EmptyString
  | String c r => match rstrip r with EmptyString => if space c then EmptyString else String c EmptyString | t => String c t end
  end.
Fixpoint digits (s : string) (acc : Z) (after_digit : bool) : option Z :=
  match s with
  | EmptyString => if after_digit then Some acc else None
  | String c r => let n := Z.of_nat (nat_of_ascii c) in
                  if (Z.leb 48 n && Z.leb n 57)%bool then digits r (acc * 10 + (n - 48))%Z true
                  else if Ascii.eqb c "_"%char && after_digit then digits r acc false
                  else None
  end.
Definition int (s : string) : res Z :=
  let t := rstrip (lstrip s) in
  match (match t with
         | String c r => if Ascii.eqb c "-"%char then option_map Z.opp (digits r 0 false)
                         else if Ascii.eqb c "+"%char then digits r 0 false else digits t 0 false
         | EmptyString => None
         end) with Some n => Ok n | None => Raise "ValueError" end.
(** lines 158-168 *)
Definition parse_host_port_string (value : string) : res (option (string * Z)) :=
  match split_colon value with
  | (host, [port]) =>
      if String.eqb host "" then Ok None
      else if String.eqb port "" then Ok None
      else bind (int port) (fun n => Ok (Some (host, n)))
  | _ => Raise "ValueError"
  end.
(** lines 170-176 and 178-184, for postfix "TCP" and "UDP" *)
Definition get_app_instance_address (postfix : string) (env : environ) : res (option (string * Z)) :=
  match get_instance_env env postfix with
  | None => Ok None
  | Some s => if String.eqb s "" then Ok None else parse_host_port_string s
  end.

(** os.path.split: the part up to and including the last slash, and the rest. *)
Fixpoint rsplit_slash (s : string) : option (string * string) :=
  match s with
  | EmptyString => None
  | String c r =>
      match rsplit_slash r with
      | Some (h, t) => Some (String c h, t)
      | None => if Ascii.eqb c "/"%char then Some (String c EmptyString, r) else None
      end
  end.
Fixpoint all_slashes (s : string) : bool := match s with EmptyString => true | String c r => Ascii.eqb c "/"%char && all_slashes r end.
Fixpoint rstrip_slashes (s : string) : string :=
  match s with
  | EmptyString => EmptyString
  | String c r => if all_slashes s then EmptyString else String c (rstrip_slashes r)
  end.
Definition dirname (s : string) : string :=
  match rsplit_slash s with None => "" | Some (h, _) => if all_slashes h then h else rstrip_slashes h end.
Definition basename (s : string) : string := match rsplit_slash s with None => s | Some (_, t) => t end.
(** lines 186-198; [isdir] is the file system. *)
Definition get_app_instance_uds (isdir : string -> bool) (env : environ) : option (string * string) :=
  match get_instance_env env "UDS" with
  | None => None
  | Some s =>
      if String.eqb s "" then None
      else
        let directory := dirname s in
        let socket_file_name := basename s in
        if String.eqb directory "" || String.eqb socket_file_name "" then None
        else if negb (isdir directory) then None
        else Some (directory, if String.eqb socket_file_name "DEFAULT"
                              then application_name ++ "_" ++ application_instance ++ ".uds.sock" else socket_file_name)
  end.

(** str.startswith, and k.replace(prefix, "", 1) for a [k] that starts with it *)
Fixpoint strip (p s : string) : option string :=
  match p, s with
  | EmptyString, _ => Some s
  | String a p', String b s' => if Ascii.eqb a b then strip p' s' else None
  | String _ _, EmptyString => None
  end.
Definition starts (p s : string) : bool := match strip p s with Some _ => true | None => false end.
(** lines 206-225 *)
Definition get_app_instance_extra (env : environ) : list (string * string) :=
  let machine_prefix := "ECOENV" ++ "_EXTRA_" in
  let app_prefix := machine_prefix ++ env_app_name ++ "_" in
  let instance_prefix := app_prefix ++ env_instance ++ "_" in
  let pass (keep : string -> bool) (prefix : string) (d : list (string * string)) :=
    fold_left (fun d kv => if starts prefix (fst kv) && keep (fst kv)
                           then match strip prefix (fst kv) with Some r => sset r (snd kv) d | None => d end else d) env d in
  pass (fun _ => true) instance_prefix
    (pass (fun k => negb (starts instance_prefix k)) app_prefix
       (pass (fun k => negb (starts app_prefix k)) machine_prefix [])).
End Config.
