(** Worker-scoped lifecycles of dependency classes (/repo/src/docket/worker.py:570-606,
    736-748, 544-566).  No proofs in this file. *)
From Verif Require Import Base.

(** A dependency: its class, and the dependencies among the parameters of the function it
    wraps (_functional.py:43-49). *)
Inductive dep := mkDep (cls : string) (inner : list dep).
Definition d_cls (d : dep) : string := let 'mkDep c _ := d in c.
Definition d_inner (d : dep) : list dep := let 'mkDep _ i := d in i.
(** A task function: the defaults of its parameters in order, None for one that is not a
    Dependency; then the dependencies of its annotations, by parameter. *)
Record task_fn := mkTaskFn { tf_defaults : list (option dep); tf_annotations : list (list dep) }.

(** worker.py:580-590: [consider] on [seen]/[ordered] (one list: they have the same
    members). *)
Definition consider (has_lifecycle : string -> bool) (ordered : list string) (d : option dep) : list string :=
  match d with
  | None => ordered
  | Some d => if existsb (String.eqb (d_cls d)) ordered || negb (has_lifecycle (d_cls d)) then ordered else ordered ++ [d_cls d]
  end.
(** worker.py:570-606 _dependency_lifecycle_classes *)
Definition lifecycle_classes (has_lifecycle : string -> bool) (tasks : list task_fn) (worker_deps : list dep) : list string :=
  let one := fun ordered t => fold_left (consider has_lifecycle) (tf_defaults t ++ map Some (concat (tf_annotations t))) ordered in
  fold_left (consider has_lifecycle) (map Some worker_deps) (fold_left one tasks []).

Inductive lev := LEnter (c : string) | LFail (c : string) | LExit (c : string).
(** worker.py:745-748 on the AsyncExitStack, and its exit: [fails c]: entering raises.  What
    happens in one call of _worker_loop. *)
Fixpoint entering (fails : string -> bool) (cs done : list string) : list lev * list string :=
  match cs with
  | [] => ([], done)
  | c :: cs => if fails c then ([LFail c], done) else let '(l, d) := entering fails cs (c :: done) in (LEnter c :: l, d)
  end.
Definition session (fails : string -> bool) (cs : list string) : list lev :=
  let '(l, done) := entering fails cs [] in l ++ map LExit done.
(** worker.py:544-566: _worker_loop again after each disconnection, with the functions that
    are registered then. *)
Definition lifetime (has_lifecycle : string -> bool) (worker_deps : list dep) (sessions : list (list task_fn * (string -> bool))) : list lev :=
  concat (map (fun s => session (snd s) (lifecycle_classes has_lifecycle (fst s) worker_deps)) sessions).
