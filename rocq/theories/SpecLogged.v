(** Vocabulary for the log description of a call: which parameter of a Python function
    receives which argument (Python language reference, 6.3.4 Calls). *)
From Verif Require Import Base Logged.

Definition positional (p : param) : bool := match p_kind p with PosOnly | PosOrKw => true | _ => false end.

(** Parameters come in the order Python demands, and their names differ. *)
Definition rank (k : kind) : Z := match k with PosOnly => 0 | PosOrKw => 1 | VarPos => 2 | KwOnly => 3 | VarKw => 4 end.
Record signature (sig : list param) : Prop := {
  sig_names : NoDup (map p_name sig);
  sig_order : ForallOrdPairs (fun p q => rank (p_kind p) < rank (p_kind q) \/
    (p_kind p = p_kind q /\ p_kind p <> VarPos /\ p_kind p <> VarKw)) sig }.

(** The parameter that receives the [i]-th positional argument: the [i]-th positional
    parameter if there is one, or else the starred one. *)
Definition takes_arg (sig : list param) (i : nat) (p : param) : Prop :=
  nth_error (filter positional sig) i = Some p \/
  (nth_error (filter positional sig) i = None /\ In p sig /\ p_kind p = VarPos).
(** The parameter that receives the keyword argument [n]: the one of that name, unless it
    is positional-only or starred, or else the double-starred one. *)
Definition by_name (n : string) (p : param) : Prop := p_name p = n /\ (p_kind p = PosOrKw \/ p_kind p = KwOnly).
Definition takes_kwarg (sig : list param) (n : string) (p : param) : Prop :=
  In p sig /\ (by_name n p \/ ((forall q, In q sig -> ~ by_name n q) /\ p_kind p = VarKw)).

(** How much of its argument a parameter allows to be logged: nothing; everything; only the
    length and the kind of container. *)
Inductive allowed := Nothing | Everything | LengthOnly.
Inductive allows : list meta -> allowed -> Prop :=
| allows_none l : (forall x, In x l -> x = MOther) -> allows l Nothing
| allows_last l x r a : (forall x, In x r -> x = MOther) ->
    match x with MLogged true => a = LengthOnly | MLogged false | MLoggedClass => a = Everything | MOther => False end ->
    allows (l ++ x :: r) a.

(** Two arguments the reader of the log must not be able to tell apart. *)
Definition indistinguishable (a : allowed) (v v' : value) : Prop :=
  match a with Nothing => True | Everything => v_repr v = v_repr v' | LengthOnly => v_shape v = v_shape v' end.

(** The parameter tells the two arguments apart only as far as it allows. *)
Definition alike (p : param) (v v' : value) : Prop := forall a, allows (p_meta p) a -> indistinguishable a v v'.

(** Two calls that differ only in what may not be logged. *)
Record same_to_the_log (sig : list param) (args args' : list value) (kw kw' : list (string * value)) : Prop := {
  same_args : length args = length args';
  same_kw : map fst kw = map fst kw';
  same_arg : forall i p v v', nth_error args i = Some v -> nth_error args' i = Some v' -> takes_arg sig i p -> alike p v v';
  same_kwarg : forall i n p v v', nth_error kw i = Some (n, v) -> nth_error kw' i = Some (n, v') -> takes_kwarg sig n p -> alike p v v' }.

(** Python accepts the call: every argument has a parameter that takes it. *)
Definition accepted (sig : list param) (args : list value) (kw : list (string * value)) : Prop :=
  (forall i, (i < length args)%nat -> exists p, takes_arg sig i p) /\
  (forall n, In n (map fst kw) -> exists p, takes_kwarg sig n p).

(** [b] occurs in [a]. *)
Definition occurs (b a : string) : Prop := exists u v, a = (u ++ b ++ v)%string.

(** Every argument of a length-only parameter has a length. *)
Definition argument_sized (sig : list param) (args : list value) (kw : list (string * value)) : Prop :=
  (forall i p v, nth_error args i = Some v -> takes_arg sig i p -> allows (p_meta p) LengthOnly -> v_shape v <> Unsized) /\
  (forall n p v, In (n, v) kw -> takes_kwarg sig n p -> allows (p_meta p) LengthOnly -> v_shape v <> Unsized).

(** The conditions under which the names the log uses are those of the parameters Python
    binds: at most one argument goes to the starred parameter, or no parameter after it is
    marked; and no keyword argument bears the name of a marked parameter that cannot be passed by
    name. *)
Definition few_args (sig : list param) (args : list value) : Prop :=
  (length args <= S (length (filter positional sig)))%nat \/
  forall p, In p sig -> p_kind p = KwOnly \/ p_kind p = VarKw -> allows (p_meta p) Nothing.
Definition plain_names (sig : list param) (kw : list (string * value)) : Prop :=
  forall p, In p sig -> In (p_name p) (map fst kw) -> p_kind p = PosOrKw \/ p_kind p = KwOnly \/ allows (p_meta p) Nothing.
