(** The strike and restore commands of the command line
    (/repo/src/docket/cli/_support.py:156-181, /repo/src/docket/cli/__init__.py:228-288,
    319-379).  No proofs in this file.

    [L1] Texts are lists of ASCII characters, as in Duration.v.
    [L2] What importlib.import_module and getattr find is a parameter ([env]); the class
         timedelta, the class bool, and callables that take one text. *)
From Coq Require Import Ascii String List.
From Verif Require Import Base Duration Strike.
Import ListNotations.

(** What a value on the command line can become; [CDelta] in seconds. *)
Inductive cval := CNone | CStr (t : text) | CInt (z : Z) | CBool (b : bool) | CDelta (secs : Z) | COther (type_ v : text).

(** The member found in a module; a call that raises gives None. *)
Inductive member := MTimedelta | MBool | MCall (f : text -> option cval).
Definition env := text -> text -> option member.

(** str.rpartition(c): what precedes and what follows the last [c]; without [c] all of it
    follows. *)
Fixpoint rpartition (c : ascii) (l : text) : text * text :=
  match l with
  | [] => ([], [])
  | x :: r =>
      if existsb (Ascii.eqb c) r then let '(a, b) := rpartition c r in (x :: a, b)
      else if Ascii.eqb x c then ([], r) else ([], l)
  end.

(** str.lower() for ASCII. *)
Definition lower1 (c : ascii) : ascii :=
  if (65 <=? code c) && (code c <=? 90) then ascii_of_nat (nat_of_ascii c + 32) else c.
Definition lower (l : text) : text := map lower1 l.

Definition lit (s : string) : text := list_ascii_of_string s.
Definition teq (a b : text) : bool := list_eqb ascii Ascii.eqb a b.

(** cli/_support.py:156-159 handle_strike_wildcard *)
Definition handle_strike_wildcard (v : text) : option text :=
  if teq v [] || teq v (lit "*") then None else Some v.

(** cli/_support.py:162-181 interpret_python_value; None: an exception. *)
Definition interpret_python_value (e : env) (value : option text) : option cval :=
  match value with
  | None => Some CNone
  | Some value =>
      let '(type_, value) := rpartition ":" value in
      match type_ with
      | [] => Some (CStr value)
      | _ =>
          let '(module_name, member_name) := rpartition "." type_ in
          match e (match module_name with [] => lit "builtins" | _ => module_name end) member_name with
          | None => None
          | Some MTimedelta => match int value with Some n => option_map CDelta (timedelta 0 0 n) | None => None end
          | Some MBool => Some (CBool (teq (lower value) (lit "true")))
          | Some (MCall f) => f value
          end
      end
  end.

(** What a command passes to Docket.strike or Docket.restore. *)
Record order := mkOrder { or_strike : bool; or_fn : option text; or_param : option text; or_op : operator; or_val : cval }.

(** cli/__init__.py:228-288 strike, 319-379 restore; None: BadParameter or an exception. *)
Definition command (e : env) (is_strike : bool) (function parameter : text) (o : operator) (value : option text) : option order :=
  let f := handle_strike_wildcard function in
  let p := handle_strike_wildcard parameter in
  match f, p with
  | None, None => None
  | _, _ => option_map (mkOrder is_strike f p o) (interpret_python_value e value)
  end.

(** The values Strike.v represents. *)
Definition pv_of (v : cval) : option pv :=
  match v with CStr t => Some (PStr (string_of_list_ascii t)) | CInt z => Some (PInt z) | _ => None end.

(** docket.py:779-828 strike, restore: the instruction that is sent. *)
Definition instruction (x : order) : option instr :=
  option_map (mkInstr (or_strike x) (option_map string_of_list_ascii (or_fn x)) (option_map string_of_list_ascii (or_param x)) (or_op x))
    (pv_of (or_val x)).
