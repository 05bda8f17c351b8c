(** Which docket a command of the CLI works on (/repo/src/docket/cli/__init__.py, the options
    --url and --docket of every command; cli/_support.py:140-153 validate_url).
    No proofs in this file. *)
From Coq Require Import Ascii String List.
From Verif Require Import Base Duration Cli Url.
Import ListNotations.

(** The commands that work on a docket: cli/__init__.py:62, 228, 292, 319, 389, 430, 471, 512, 638,
    884, 915. *)
Inductive command := Worker | Strike | Clear | Restore | TasksTrace | TasksFail | TasksSleep | Snapshot | Watch | WorkersLs | WorkersForTask.

(** envvar of --url: cli/__init__.py:87, 267, 305, 358, 402, 443, 484, 537, 645, 897, 934 *)
Definition url_variable (c : command) : text :=
  match c with Watch => lit "DOCKET_REDIS_URL" | _ => lit "DOCKET_URL" end.
(** envvar of --docket: cli/__init__.py:80, 260, 298, 351, 395, 436, 477, 530, 654, 890, 927 *)
Definition name_variable (c : command) : text := lit "DOCKET_NAME".
(** callback of --url: cli/__init__.py:268, 306, 359, 403, 444, 485, 538, 898, 935; worker (83-89) and
    watch (640-648) have none *)
Definition checks_url (c : command) : bool := match c with Worker | Watch => false | _ => true end.
(** The defaults: cli/__init__.py:82, 89 and the same in every command *)
Definition default_url : text := lit "redis://localhost:6379/0".
Definition default_name : text := lit "docket".

(** The value of an option (cli/__init__.py:75-89): what the command line says, else the
    environment variable (click takes an empty one for unset), else the default. *)
Definition option_value (given : option text) (env : text -> option text) (variable default : text) : text :=
  match given with
  | Some v => v
  | None => match env variable with Some (x :: v) => x :: v | _ => default end
  end.

(** str.startswith, used at cli/_support.py:147 *)
Fixpoint startswith (l p : text) : bool :=
  match p, l with
  | [], _ => true
  | x :: p', y :: l' => Ascii.eqb x y && startswith l' p'
  | _, [] => false
  end.
(** cli/_support.py:140-153 validate_url; false: BadParameter *)
Definition validate_url (url : text) : bool := negb (startswith url (lit "memory://")).

(** The URL and the name of the docket that a command opens, cli/__init__.py:62-206 and the like;
    None: the command ends with an error before it opens one. *)
Definition opens (c : command) (url name : option text) (env : text -> option text) : option (text * text) :=
  let u := option_value url env (url_variable c) default_url in
  if checks_url c && negb (validate_url u) then None
  else Some (u, option_value name env (name_variable c) default_name).

(** _redis.py:722-725 is_memory *)
Definition is_memory (url : text) : bool := teq (u_scheme (parse_url url)) (lit "memory").
