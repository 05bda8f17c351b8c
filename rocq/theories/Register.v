(** Registering tasks on a docket (/repo/src/docket/docket.py:189-191, 284-312,
    worker.py:429-430).  No proofs in this file. *)
From Coq Require Import Ascii String List.
From Verif Require Import Base Duration Cli.
Import ListNotations.

(** A task function: its __name__, which function it is, and whether validate_dependencies
    accepts it (docket.py:291-293). *)
Record pf := mkPf { p_name : text; p_id : nat; p_ok : bool }.

(** Docket.tasks (docket.py:191), and d[name] = f (docket.py:299) *)
Definition tasks := text -> option pf.
Definition set_task (n : text) (f : pf) (g : tasks) : tasks := fun m => if teq n m then Some f else g m.

(** docket.py:284-299 register; [names] = []: None or an empty list.  The flag: it raised. *)
Definition register (f : pf) (names : list text) (g : tasks) : tasks * bool :=
  if p_ok f
  then (fold_left (fun g n => set_task n f g) (match names with [] => [p_name f] | _ => names end) g, false)
  else (g, true).
(** docket.py:191: the tasks of a new docket, docket.tasks.standard_tasks *)
Definition new_docket (standard : list pf) : tasks :=
  fold_left (fun g f => set_task (p_name f) f g) standard (fun _ => None).

(** docket.py:311-312: for function in collection *)
Fixpoint register_each (l : list pf) (g : tasks) : tasks * bool :=
  match l with
  | [] => (g, false)
  | f :: l' => let '(g1, r) := register f [] g in if r then (g1, true) else register_each l' g1
  end.
(** docket.py:301-312 register_collection; [env] says what a module has under a name, None: the
    import or the getattr raises.  import_module("") raises ValueError. *)
Definition register_collection (env : text -> text -> option (list pf)) (path : text) (g : tasks) : tasks * bool :=
  let '(module, member) := rpartition ":" path in
  match module with
  | [] => (g, true)
  | _ => match env module member with Some l => register_each l g | None => (g, true) end
  end.
(** worker.py:429-430 Worker.run: for task_path in tasks *)
Fixpoint register_paths (env : text -> text -> option (list pf)) (paths : list text) (g : tasks) : tasks * bool :=
  match paths with
  | [] => (g, false)
  | p :: ps => let '(g1, r) := register_collection env p g in if r then (g1, true) else register_paths env ps g1
  end.

(** A program that calls register several times (docket.py:284-299), whatever it does about
    exceptions in between. *)
Definition register_all (l : list (pf * list text)) (g : tasks) : tasks :=
  fold_left (fun g c => fst (register (fst c) (snd c) g)) l g.
