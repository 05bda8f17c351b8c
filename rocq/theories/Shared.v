(** Progress reported through the Progress dependency.

    A parameter default such as [progress: Progress = Progress()] is one object per
    worker process, whichever run of the task enters it
    (/repo/src/docket/dependencies/_resolution.py:191-215: the default found in the
    signature is itself entered; _concurrency.py:546-548 says so), and _progress.py:35-38 keeps the progress of the
    run that entered in an attribute of that object.  No proofs in this file.

    [H1] A task function has at most one Progress parameter, given as a default; a
         worker name stands for one process.
    [H2] get_dependency_parameters (package uncalled_for, not in the repository)
         returns the default objects of the signature. *)
From Verif Require Import Base ZSet Model Progress.

(** The docket with progress objects; for each worker and task function, the run
    whose progress the shared object holds (_progress.py:32-33, 37); the runs that
    have entered it. *)
Record ssys := mkSh { sh_p : psys; sh_obj : string -> string -> option Z; sh_in : list Z }.
Definition init_ssys : ssys := mkSh init_psys (fun _ _ => None) [].

(** [SOp]: anything of Progress.v ([PIncr] and the like are then calls on the
    execution's own progress, execution.progress).
    [SEnter]: _progress.py:35-38.  [SIncr], [STotal], [SMessage]: calls of the body
    of run [h] on the dependency (_progress.py:58-70). *)
Inductive sop :=
| SOp (p : pop)
| SEnter (h : Z)
| SIncr (h n t : Z)
| STotal (h n t : Z)
| SMessage (h : Z) (m : option string) (t : Z).

Definition set_obj (f : string -> string -> option Z) (w fn : string) (v : option Z) : string -> string -> option Z :=
  fun w' fn' => if String.eqb w' w && String.eqb fn' fn then v else f w' fn'.

(** As [report] of Progress.v, for an execution that may have ended: the object keeps
    its ExecutionProgress alive (_execution_progress.py:124-205). *)
Definition write_on (q : psys) (h : Z) (ok : bool) (f : prog -> prog) (g : prog -> lprog -> lprog) : psys :=
  let s := p_sys q in
  match get_exec (s_execs s) h with
  | Some x =>
      if ok then
        let k := m_key (x_msg x) in
        let d := write_prog (s_db s) k f in
        let l := g (prog_of d k) (p_local q h) in
        mkP (set_db s d) (set_local (p_local q) h l) (p_events q ++ [event k l])
      else q
  | None => q
  end.

(** _progress.py:58-70: the call of run [h] goes to the progress the object holds.
    The body has the object only after it was entered. *)
Definition through (q : ssys) (h : Z) (ok : bool) (f : prog -> prog) (g : prog -> lprog -> lprog) : ssys :=
  match get_exec (s_execs (p_sys (sh_p q))) h with
  | Some x =>
      if may_report (x_phase x) && existsb (Z.eqb h) (sh_in q) then
        match sh_obj q (x_worker x) (m_fn (x_msg x)) with
        | Some h' => mkSh (write_on (sh_p q) h' ok f g) (sh_obj q) (sh_in q)
        | None => q
        end
      else q
  | None => q
  end.

Definition sstep (c : cfg) (q : ssys) (o : sop) : ssys :=
  match o with
  | SOp (POp (OCrash w)) =>
      mkSh (pstep c (sh_p q) (POp (OCrash w))) (fun w' fn => if String.eqb w' w then None else sh_obj q w' fn) (sh_in q)
  | SOp p => mkSh (pstep c (sh_p q) p) (sh_obj q) (sh_in q)
  | SEnter h =>
      match get_exec (s_execs (p_sys (sh_p q))) h with
      | Some x =>
          match x_phase x with
          | PClaimed => mkSh (sh_p q) (set_obj (sh_obj q) (x_worker x) (m_fn (x_msg x)) (Some h)) (h :: sh_in q)
          | _ => q
          end
      | None => q
      end
  | SIncr h n t =>
      through q h (1 <=? n) (fun p => mkProg (p_current p + n) (p_total p) (p_gen p) (p_message p) (Some t))
        (fun p l => mkL (Some (p_current p)) (l_total l) (l_message l))
  | STotal h n t =>
      through q h (1 <=? n) (fun p => mkProg (p_current p) n (p_gen p) (p_message p) (Some t))
        (fun _ l => mkL (l_current l) n (l_message l))
  | SMessage h m t =>
      through q h true (fun p => mkProg (p_current p) (p_total p) (p_gen p) m (Some t))
        (fun _ l => mkL (l_current l) (l_total l) m)
  end.

Fixpoint sfinal (c : cfg) (q : ssys) (l : list sop) : ssys :=
  match l with [] => q | o :: l => sfinal c (sstep c q o) l end.
