(** What a worker logs when it starts (/repo/src/docket/worker.py:544-545, 1237-1240,
    execution.py:1164-1190).  No proofs in this file. *)
From Coq Require Import Ascii String List.
From Verif Require Import Base Duration Cli Url.
Import ListNotations.

(** The annotation of a parameter (execution.py:1175-1179): what getattr(a, "__name__", str(a))
    shows of it, and - if it has an __origin__, as list[int] and Annotated[int, x] have - its
    __args__: None if there is no such attribute (typing.List), else what is shown of each.
    Simplification: str() of an annotation does not raise. *)
Record annot := mkAnnot { a_shown : text; a_origin : option (option (list text)) }.
(** The default of a parameter (execution.py:1169, 1182-1183): none, a Dependency, or a value with
    its repr(); None: __repr__ raises. *)
Inductive default := NoDefault | IsDependency | Value (r : option text).
(** inspect.Parameter, as read at execution.py:1168-1183 *)
Record param := mkParam { pm_name : text; pm_annot : option annot; pm_default : default }.

(** execution.py:1175-1179; None: AttributeError or IndexError *)
Definition type_name (a : annot) : option text :=
  match a_origin a with
  | None => Some (a_shown a)
  | Some (Some (x :: _)) => Some x
  | Some _ => None
  end.
(** execution.py:1173-1183 *)
Definition parameter_definition (p : param) : option text :=
  match (match pm_annot p with
         | None => Some (pm_name p)
         | Some a => option_map (fun t => pm_name p ++ lit ": " ++ t) (type_name a)
         end) with
  | None => None
  | Some d => match pm_default p with
              | Value r => option_map (fun r => d ++ lit " = " ++ r) r
              | _ => Some d
              end
  end.
(** execution.py:1168-1185: the loop; the definitions and the number of dependencies *)
Fixpoint definitions (l : list param) : option (list text * nat) :=
  match l with
  | [] => Some ([], 0%nat)
  | p :: l' =>
      match pm_default p with
      | IsDependency => option_map (fun r => (fst r, S (snd r))) (definitions l')
      | _ => match parameter_definition p with
             | None => None
             | Some d => option_map (fun r => (d :: fst r, snd r)) (definitions l')
             end
      end
  end.
(** ", ".join, execution.py:1190 *)
Fixpoint join (l : list text) : text :=
  match l with
  | [] => []
  | [x] => x
  | x :: l' => x ++ lit ", " ++ join l'
  end.
(** execution.py:1164-1190 compact_signature; None: it raises *)
Definition compact_signature (l : list param) : option text :=
  option_map (fun r => join (fst r ++ match snd r with O => [] | _ => [lit "..."] end)) (definitions l).

(** worker.py:1237-1240 _startup_log over the names and signatures of docket.tasks: the lines
    logged, and whether it raised. *)
Fixpoint startup_log (tasks : list (text * list param)) : list text * bool :=
  match tasks with
  | [] => ([], false)
  | (n, ps) :: l => match compact_signature ps with
                    | None => ([], true)
                    | Some s => let '(ls, r) := startup_log l in ((lit "* " ++ n ++ lit "(" ++ s ++ lit ")") :: ls, r)
                    end
  end.
(** worker.py:544-546 _run: an exception of _startup_log ends it before the loop *)
Definition gets_to_work (tasks : list (text * list param)) : bool := negb (snd (startup_log tasks)).
