(** Vocabulary of C92: what the body of a task should get. *)
From Verif Require Import Base Strike Bind SpecBind.

(** The caller's value, or the dependency's where the caller gave none, or the default. *)
Definition should_get (ps : list parm) (args : list pv) (kw : kwargs) (value : string -> pv) (n : string) (v : pv) : Prop :=
  gets ps args kw n v \/ (left_to_dependency ps args kw n /\ v = value n).

(** No argument is given by position for a dependency parameter, and none of them can only
    be given so. *)
Definition dependencies_by_keyword (ps : list parm) (args : list pv) : Prop :=
  forall i p, nth_error ps i = Some p -> q_default p = DDependency ->
    by_keyword p /\ (q_kind p = PEither -> (length args <= i)%nat).

(** No dependency parameter has a name kept for worker dependencies. *)
Definition ordinary_names (ps : list parm) : Prop :=
  forall p s, In p ps -> q_default p = DDependency -> q_name p <> ("__worker_dep__" ++ s)%string.
(** Star parameters have no defaults. *)
Definition plain_stars (ps : list parm) : Prop := forall p, In p ps -> star (q_kind p) = true -> q_default p = DNone.
