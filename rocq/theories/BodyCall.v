(** How a worker calls the body of a task: the submitted arguments, the values of the
    dependency parameters, and Python's own rules.  No proofs in this file. *)
From Verif Require Import Base Text Strike Bind.

(** /repo/src/docket/dependencies/_resolution.py:184-207: the dependency parameters; a
    keyword argument of that name is taken instead.  [value] is what entering the dependency
    gave; failures end the run before the body and are not modelled here (see Execute.v). *)
Definition resolve (ps : list parm) (kw : kwargs) (value : string -> pv) : kwargs :=
  flat_map (fun p =>
    match q_default p with
    | DDependency => [(q_name p, match kget kw (q_name p) with Some v => v | None => value (q_name p) end)]
    | _ => []
    end) ps.

(** /repo/src/docket/worker.py:1094-1098: entries of worker dependencies are told by their
    names and left out; [resolve] makes none, but a parameter may be called so. *)
Fixpoint starts_with (p s : string) : bool :=
  match p, s with
  | EmptyString, _ => true
  | String a p, String b s => Ascii.eqb a b && starts_with p s
  | _, _ => false
  end.
Definition task_dependencies (deps : kwargs) : kwargs :=
  filter (fun e => negb (starts_with "__worker_dep__" (fst e))) deps.

(** /repo/src/docket/worker.py:1099 final_kwargs: the right-hand dict counts. *)
Definition merge (a b : kwargs) : kwargs :=
  map (fun e => (fst e, match kget b (fst e) with Some w => w | None => snd e end)) a ++
  filter (fun e => negb (is_some (kget a (fst e)))) b.

(** The call of the function with the positional [args] and the keywords [kw]: what the parameters are in the body; None: TypeError.  Python's
    call has the rules of Signature.bind, but for keywords called like a positional-only
    parameter, which go to the var-keyword parameter; the theorems leave them out. *)
Definition call (ps : list parm) (args : list pv) (kw : kwargs) : option kwargs :=
  option_map (apply_defaults ps) (bind ps args kw).

(** /repo/src/docket/worker.py:1092-1113 *)
Definition body_call (ps : list parm) (args : list pv) (kw : kwargs) (value : string -> pv) : option kwargs :=
  call ps args (merge kw (task_dependencies (resolve ps kw value))).
