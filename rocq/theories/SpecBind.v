(** Vocabulary of the properties about arguments: the rules of a Python call. *)
From Verif Require Import Base Strike Bind.

(** ** Signatures Python takes *)
Definition rank (k : pkind) : nat := match k with POnly => 0 | PEither => 1 | PStar => 2 | KOnly => 3 | KStar => 4 end.
Definition star (k : pkind) : bool := match k with PStar | KStar => true | _ => false end.
(** Kinds in order, at most one parameter of either star; names all different. *)
Definition follows (p q : parm) : Prop :=
  (rank (q_kind p) < rank (q_kind q))%nat \/ (q_kind p = q_kind q /\ star (q_kind p) = false).
Fixpoint in_order (ps : list parm) : Prop :=
  match ps with [] => True | p :: r => Forall (follows p) r /\ in_order r end.
Definition signature (ps : list parm) : Prop := in_order ps /\ NoDup (map q_name ps).

(** ** What the body gets *)
Definition by_position (p : parm) : Prop := q_kind p = POnly \/ q_kind p = PEither.
Definition by_keyword (p : parm) : Prop := q_kind p = PEither \/ q_kind p = KOnly.

(** The keyword [n] names a parameter. *)
Definition taken (ps : list parm) (n : string) : Prop := exists p, In p ps /\ by_keyword p /\ q_name p = n.

(** Python accepts the call. *)
Record accepted (ps : list parm) (args : list pv) (kw : kwargs) : Prop := {
  ac_room : forall i, (i < length args)%nat ->
    (exists p, nth_error ps i = Some p /\ by_position p) \/ (exists p, In p ps /\ q_kind p = PStar);
  ac_once : forall i p, nth_error ps i = Some p -> q_kind p = PEither -> (i < length args)%nat -> ~ In (q_name p) (map fst kw);
  ac_given : forall i p, nth_error ps i = Some p -> q_default p = DNone -> star (q_kind p) = false ->
    (by_position p /\ (i < length args)%nat) \/ (by_keyword p /\ In (q_name p) (map fst kw));
  ac_known : forall n, In n (map fst kw) -> taken ps n \/ exists p, In p ps /\ q_kind p = KStar }.

(** The value of parameter [n] in the body, for parameters that are not stars and not left
    to a dependency. *)
Definition gets (ps : list parm) (args : list pv) (kw : kwargs) (n : string) (v : pv) : Prop :=
  exists i p, nth_error ps i = Some p /\ q_name p = n /\
    ((by_position p /\ nth_error args i = Some v) \/
     (by_keyword p /\ In (n, v) kw) \/
     (star (q_kind p) = false /\ ~ (by_position p /\ (i < length args)%nat) /\ ~ In n (map fst kw) /\ q_default p = DValue v)).
(** An entry of the var-keyword parameter. *)
Definition gets_extra (ps : list parm) (kw : kwargs) (n : string) (v : pv) : Prop :=
  (exists p, In p ps /\ q_kind p = KStar) /\ In (n, v) kw /\ ~ taken ps n.
(** Parameter [n] is left to a dependency. *)
Definition left_to_dependency (ps : list parm) (args : list pv) (kw : kwargs) (n : string) : Prop :=
  exists i p, nth_error ps i = Some p /\ q_name p = n /\ q_default p = DDependency /\ star (q_kind p) = false /\
    ~ (by_position p /\ (i < length args)%nat) /\ ~ In n (map fst kw).

(** No keyword is called like a parameter that cannot be passed by keyword. *)
Definition clear_names (ps : list parm) (kw : kwargs) : Prop :=
  forall p, In p ps -> In (q_name p) (map fst kw) -> by_keyword p.
(** Keywords of a Python call are all different. *)
Definition call_ok (kw : kwargs) : Prop := NoDup (map fst kw).
(** The parameter is no star. *)
Definition no_star (ps : list parm) (n : string) : Prop := forall p, In p ps -> q_name p = n -> star (q_kind p) = false.

(** ** Strikes and calls *)
(** The strike [i] speaks of the call of [f] with these arguments: of the whole function, or
    of an argument the body gets. *)
Definition concerns (i : instr) (f : string) (ps : list parm) (args : list pv) (kw : kwargs) : Prop :=
  match given (in_fn i), given (in_param i) with
  | Some g, None => f = g
  | None, None => False
  | fo, Some p => (fo = None \/ fo = Some f) /\
      exists v, (gets ps args kw p v \/ gets_extra ps kw p v) /\ is_match v (in_op i) (in_val i) = true
  end.
(** Its parameter is none of a star, and not left to a dependency. *)
Definition plain (ps : list parm) (args : list pv) (kw : kwargs) (i : instr) : Prop :=
  forall p, given (in_param i) = Some p -> no_star ps p /\ ~ left_to_dependency ps args kw p.

(** ** Grouping *)
(** The caller passed [v] as the parameter [n]. *)
Definition passed (ps : list parm) (args : list pv) (kw : kwargs) (n : string) (v : pv) : Prop :=
  exists i p, nth_error ps i = Some p /\ q_name p = n /\
    ((by_position p /\ nth_error args i = Some v) \/ (by_keyword p /\ In (n, v) kw)).
(** Two integers, or two texts. *)
Definition same_sort (v w : pv) : Prop :=
  (exists a b, v = PInt a /\ w = PInt b) \/ (exists s t, v = PStr s /\ w = PStr t).

(** A call that is asked to pass a limit: the value passed, its arguments, and the rest the
    limit looks at (times, task key). *)
Record ask (Ev : Type) := mkAsk { a_val : pv; a_args : list pv; a_kw : kwargs; a_deps : kwargs; a_ev : Ev }.
Arguments mkAsk {Ev}. Arguments a_val {Ev}. Arguments a_args {Ev}. Arguments a_kw {Ev}. Arguments a_deps {Ev}. Arguments a_ev {Ev}.
