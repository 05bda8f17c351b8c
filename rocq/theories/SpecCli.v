(** Vocabulary of the property about strikes from the command line. *)
From Coq Require Import Ascii String List.
From Verif Require Import Base Duration Strike SpecStrike PropsDuration Cli.
Import ListNotations.

(** Python as installed: the four types are where they belong. *)
Definition ordinary_python (e : env) : Prop :=
  e (lit "builtins") (lit "str") = Some (MCall (fun t => Some (CStr t))) /\
  e (lit "builtins") (lit "int") = Some (MCall (fun t => option_map CInt (int t))) /\
  e (lit "builtins") (lit "bool") = Some MBool /\
  e (lit "datetime") (lit "timedelta") = Some MTimedelta.

(** The same letter, or its capital. *)
Definition either_case (c d : ascii) : Prop := c = d \/ (65 <= code c <= 90 /\ code c + 32 = code d).
Definition builtin (n : string) (l : text) : Prop := l = lit n \/ l = lit ("builtins." ++ n).

(** How values are written: texts as they are, the others behind their type
    (tests/cli/test_striking.py:180-196). *)
Inductive written : cval -> text -> Prop :=
| w_plain s : ~ In ":"%char s -> written (CStr s) s
| w_str ty s : builtin "str" ty -> ~ In ":"%char s -> written (CStr s) (ty ++ ":"%char :: s)
| w_int ty l n : builtin "int" ty -> numeral l n -> written (CInt n) (ty ++ ":"%char :: l)
| w_neg ty l n : builtin "int" ty -> numeral l n -> written (CInt (- n)) (ty ++ ":"%char :: "-"%char :: l)
| w_bool ty l (b : bool) : builtin "bool" ty -> Forall2 either_case l (lit (if b then "true" else "false")) -> written (CBool b) (ty ++ ":"%char :: l)
| w_delta l n : numeral l n -> n < day_limit -> written (CDelta n) (lit "datetime.timedelta:" ++ l).

(** "" and "*" stand for everything. *)
Definition anything (l : text) : Prop := l = [] \/ l = lit "*".
(** The function is the one named, if one is named. *)
Definition meant (l : text) (f : string) : Prop := anything l \/ f = string_of_list_ascii l.

(** An argument compared with a number; only [!=] holds of values of other kinds. *)
Definition hits (o : operator) (v : pv) (n : Z) : Prop :=
  match v, o with
  | PInt a, OpEq => a = n | PInt a, OpNe => a <> n
  | PInt a, OpGt => a > n | PInt a, OpGe => a >= n
  | PInt a, OpLt => a < n | PInt a, OpLe => a <= n
  | PInt _, OpBetween => False
  | _, o => o = OpNe
  end.

(** An argument compared with a text, in Python's order of texts.  [between] takes a text
    for its letters: of two, the first is the lower and the second the upper end. *)
Definition hits_text (o : operator) (v : pv) (s : string) : Prop :=
  match o with
  | OpEq => v = PStr s | OpNe => v <> PStr s
  | OpGt => before (PStr s) v | OpGe => v = PStr s \/ before (PStr s) v
  | OpLt => before v (PStr s) | OpLe => v = PStr s \/ before v (PStr s)
  | OpBetween => exists a b, s = String a (String b EmptyString) /\
      let lo := PStr (String a EmptyString) in let hi := PStr (String b EmptyString) in (v = lo \/ before lo v) /\ (v = hi \/ before v hi)
  end.
