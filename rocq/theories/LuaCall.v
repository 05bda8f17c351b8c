(** Calls of Lua scripts (src/docket/_lua.py).  Floats are not modelled; byte strings
    are texts. *)
From Verif Require Import Base Text.

(** Python values passed to scripts; VOther is any value of another type (None, ...). *)
Inductive scalar := VStr (s : string) | VInt (z : Z) | VBool (b : bool) | VOther.
Inductive value := One (v : scalar) | Seq (l : list scalar) | Dict (l : list (scalar * scalar)).
Inductive ty := TStr | TInt | TBool.
Inductive kind := PKey | PArg (t : ty) | PArgs.
(** Parameters of a declaration, in order, without the client. *)
Definition decl := list (string * kind).

(** _lua.py:116-136 _encode_scalar; None: TypeError. *)
Definition encode_scalar (v : scalar) : option string :=
  match v with
  | VBool b => Some (if b then "1" else "0")%string
  | VInt z => Some (dec z)
  | VStr s => Some s
  | VOther => None
  end.

Fixpoint encode_all (l : list scalar) : option (list string) :=
  match l with
  | [] => Some []
  | v :: l => match encode_scalar v, encode_all l with Some s, Some r => Some (s :: r) | _, _ => None end
  end.
(** _lua.py:139-153 _expand_args. *)
Definition flatten (v : value) : list scalar :=
  match v with One v => [v] | Seq l => l | Dict l => flat_map (fun e => [fst e; snd e]) l end.
Definition expand_args (v : value) : option (list string) := encode_all (flatten v).

Definition is_key (p : string * kind) : bool := match snd p with PKey => true | _ => false end.
Definition key_params (d : decl) : list string := map fst (filter is_key d).
Definition arg_params (d : decl) : decl := filter (fun p => negb (is_key p)) d.

(** _lua.py:252-275: at least one key, and nothing after a variadic parameter. *)
Fixpoint args_last (l : decl) : bool :=
  match l with [] => true | (_, PArgs) :: l => match l with [] => true | _ => false end | _ :: l => args_last l end.
Definition accepted (d : decl) : bool :=
  match key_params d with [] => false | _ => args_last (arg_params d) end.

(** Right-hand sides of the generated locals. *)
Inductive expr := EKey (i : nat) | EArg (i : nat) | ENum (i : nat) | EIsOne (i : nat) | EConst (i : nat).
(** _lua.py:174-186 _decode_for. *)
Definition decode_for (t : ty) (i : nat) : expr :=
  match t with TBool => EIsOne i | TInt => ENum i | TStr => EArg i end.

(** _lua.py:189-212 _generate_preamble. *)
Fixpoint key_locals (i : nat) (l : list string) : list (string * expr) :=
  match l with [] => [] | n :: l => (n, EKey i) :: key_locals (S i) l end.
Fixpoint arg_locals (i : nat) (l : decl) : list (string * expr) :=
  match l with
  | [] => []
  | (n, PArg t) :: l => (n, decode_for t i) :: arg_locals (S i) l
  | (n, _) :: l => ((n ++ "_start")%string, EConst i) :: arg_locals i l
  end.
Definition preamble (d : decl) : list (string * expr) := key_locals 1 (key_params d) ++ arg_locals 1 (arg_params d).

(** _lua.py:287-301 wrapper: KEYS and ARGV; None: a missing argument or TypeError. *)
Definition scalar_of (v : value) : scalar := match v with One v => v | _ => VOther end.
Fixpoint argv (kw : string -> option value) (l : decl) : option (list string) :=
  match l with
  | [] => Some []
  | (n, k) :: l =>
      match kw n with
      | None => None
      | Some v =>
          match (match k with PArgs => expand_args v | _ => expand_args (One (scalar_of v)) end), argv kw l with
          | Some a, Some r => Some (a ++ r)
          | _, _ => None
          end
      end
  end.
Fixpoint keys (kw : string -> option value) (l : list string) : option (list string) :=
  match l with
  | [] => Some []
  | n :: l => match kw n, keys kw l with Some (One (VStr s)), Some r => Some (s :: r) | _, _ => None end
  end.
Definition call (d : decl) (kw : string -> option value) : option (list string * list string) :=
  match keys kw (key_params d), argv kw (arg_params d) with Some k, Some a => Some (k, a) | _, _ => None end.

(** ** What the script sees *)
Inductive lua := LStr (s : string) | LNum (z : Z) | LBool (b : bool) | LNil.

(** Lua numbers are doubles: an integer is rounded to 53 significant bits, half to
    even. *)
Definition to_double (z : Z) : Z :=
  let a := Z.abs z in
  if a <=? 2 ^ 53 then z
  else let u := 2 ^ (Z.log2 a - 52) in
       let q := a / u in let r := a mod u in
       let q := if (u <? 2 * r) || ((u =? 2 * r) && Z.odd q) then q + 1 else q in
       Z.sgn z * (q * u).
Definition nth1 (i : nat) (l : list string) : option string := match i with O => None | S i => nth_error l i end.
Definition lua_get (i : nat) (l : list string) : lua := match nth1 i l with Some s => LStr s | None => LNil end.
Definition eval (ks av : list string) (e : expr) : lua :=
  match e with
  | EKey i => lua_get i ks
  | EArg i => lua_get i av
  | ENum i => match nth1 i av with Some s => match undec s with Some z => LNum (to_double z) | None => LNil end | None => LNil end
  | EIsOne i => LBool (match nth1 i av with Some s => String.eqb s "1" | None => false end)
  | EConst i => LNum (Z.of_nat i)
  end.
(** A local declared twice: the later one is seen. *)
Fixpoint local (l : list (string * lua)) (n : string) : option lua :=
  match l with
  | [] => None
  | (m, v) :: l => match local l n with Some w => Some w | None => if String.eqb m n then Some v else None end
  end.
Definition locals (d : decl) (ks av : list string) (n : string) : option lua :=
  local (map (fun e => (fst e, eval ks av (snd e))) (preamble d)) n.
