(** The description of a call in a worker's log: /repo/src/docket/annotations.py and
    /repo/src/docket/execution.py:628-649 (Execution.call_repr). *)
From Verif Require Import Base.
Local Open Scope string_scope.

(** inspect.Parameter.kind (Python). *)
Inductive kind := PosOnly | PosOrKw | VarPos | KwOnly | VarKw.

(** One item of [param.annotation.__metadata__] (annotations.py:26-35): a Logged instance
    with its [length_only], the class Logged itself, or anything else. *)
Inductive meta := MLogged (length_only : bool) | MLoggedClass | MOther.

(** inspect.Parameter: name, kind, and the metadata of its annotation (empty when there is
    none, annotations.py:22-29). *)
Record param := mkParam { p_name : string; p_kind : kind; p_meta : list meta }.

(** An argument as the log sees it: its repr() and how len() applies to it
    (annotations.py:72-81). *)
Inductive shape := DictOrSet (n : Z) | Tuple (n : Z) | Sized (n : Z) | Unsized.
Record value := mkValue { v_repr : string; v_shape : shape }.

(** annotations.py:31-35: the last mark among the metadata wins; the result is the
    [length_only] of the mark. *)
Definition mark_of (l : list meta) : option bool :=
  fold_left (fun acc x => match x with MLogged b => Some b | MLoggedClass => Some false | MOther => acc end) l None.

(** annotations.py:14-38 annotated_parameters, looked up by name (parameter names are
    unique in Python; the cache is a memo of the same answer). *)
Definition logged (sig : list param) (name : string) : option bool :=
  match find (fun p => String.eqb (p_name p) name) sig with Some p => mark_of (p_meta p) | None => None end.

(** annotations.py:72-81 Logged.format; [num] is the decimal numeral of a length. *)
Definition format (num : Z -> string) (length_only : bool) (v : value) : string :=
  if length_only then
    match v_shape v with
    | DictOrSet n => "{len " ++ num n ++ "}"
    | Tuple n => "(len " ++ num n ++ ")"
    | Sized n => "[len " ++ num n ++ "]"
    | Unsized => v_repr v
    end
  else v_repr v.

(** execution.py:634-640: positional arguments, paired with the names of the parameters in
    the order of the signature; arguments beyond the last parameter are left out. *)
Fixpoint show_args (num : Z -> string) (sig : list param) (names : list string) (args : list value) : list string :=
  match names, args with
  | n :: names, v :: args =>
      match logged sig n with Some b => format num b v | None => "..." end :: show_args num sig names args
  | _, _ => []
  end.

(** execution.py:643-646: keyword arguments. *)
Definition show_kwarg (num : Z -> string) (sig : list param) (a : string * value) : string :=
  match logged sig (fst a) with
  | Some b => fst a ++ "=" ++ format num b (snd a)
  | None => fst a ++ "=..."
  end.

Definition pieces (num : Z -> string) (sig : list param) (args : list value) (kwargs : list (string * value)) : list string :=
  show_args num sig (map p_name sig) args ++ map (show_kwarg num sig) kwargs.

(** execution.py:628-649 call_repr *)
Definition call_repr (num : Z -> string) (fn key : string) (sig : list param) (args : list value) (kwargs : list (string * value)) : string :=
  fn ++ "(" ++ String.concat ", " (pieces num sig args kwargs) ++ "){" ++ key ++ "}".
