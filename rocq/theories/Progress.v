(** Progress reporting by task bodies, on top of the docket of Model.v (which
    creates the progress hash at the claim and deletes it at the end of a run).
    No proofs in this file.

    [P1] updated_at is the clock of the writing process; times are Z.
    [P2] increment() writes the hash and publishes the event in two round trips
         (_execution_progress.py:167-174); they are one step here, so events of
         increments that one body issues concurrently are not reordered. *)
From Verif Require Import Base ZSet Model.

(** /repo/src/docket/_execution_progress.py:88-98: the attributes of an
    ExecutionProgress object. *)
Record lprog := mkL { l_current : option Z; l_total : Z; l_message : option string }.
Definition new_lprog : lprog := mkL None 1 None.

(** A published progress event: key, current, total, message
    (_execution_progress.py:53-59). *)
Record pevent := mkEv { e_key : key; e_current : Z; e_total : Z; e_message : option string }.

(** The docket, the progress object of each execution, the published events. *)
Record psys := mkP { p_sys : sys; p_local : Z -> lprog; p_events : list pevent }.
Definition init_psys : psys := mkP init_sys (fun _ => new_lprog) [].

Definition set_local (f : Z -> lprog) (h : Z) (l : lprog) : Z -> lprog := fun j => if j =? h then l else f j.

(** HINCRBY / HSET / HDEL on progress:K; a missing hash is created, and reads as
    current 0, total 100 where fields are missing (_execution_progress.py:215-226). *)
Definition prog_of (d : db) (k : key) : prog := default (mkProg 0 100 None None None) (d_prog d k).
Definition write_prog (d : db) (k : key) (f : prog -> prog) : db :=
  set_prog d (upd (d_prog d) k (Some (f (prog_of d k)))).

(** Phases in which the code of the task, or one of its dependencies, holds the
    execution (worker.py:1064-1113). *)
Definition may_report (p : phase) : bool := match p with PClaimed | PBody | PEnded => true | _ => false end.

(** [POp]: anything of Model.v.  [PIncr]: _execution_progress.py:154-174 increment;
    [PTotal]: 124-152 set_total; [PMessage]: 176-205 set_message. *)
Inductive pop :=
| POp (o : op)
| PIncr (h n t : Z)
| PTotal (h n t : Z)
| PMessage (h : Z) (m : option string) (t : Z).

(** _execution_progress.py:130-152, 183-205, 239-248: the event shows the object's
    own attributes, with the new value of the one that is written. *)
Definition event (k : key) (l : lprog) : pevent := mkEv k (default 0 (l_current l)) (l_total l) (l_message l).

(** execution.py:815-819 and 898-905: claim and mark reset the object. *)
Definition local_after (c : cfg) (s : sys) (o : op) (f : Z -> lprog) : Z -> lprog :=
  match o with
  | OClaim h _ => match snd (step c s o) with
                  | OClaimed true => set_local f h (mkL (Some 0) 100 (l_message (f h)))
                  | _ => f end
  | OTerminal h _ _ _ _ => match snd (step c s o) with
                  | ODone => set_local f h (mkL None 100 None)
                  | _ => f end
  | _ => f
  end.

Definition report (q : psys) (h : Z) (ok : bool) (f : prog -> prog) (g : prog -> lprog -> lprog) : psys :=
  let s := p_sys q in
  match get_exec (s_execs s) h with
  | Some x =>
      if may_report (x_phase x) && ok then
        let k := m_key (x_msg x) in
        let d := write_prog (s_db s) k f in
        let l := g (prog_of d k) (p_local q h) in
        mkP (set_db s d) (set_local (p_local q) h l) (p_events q ++ [event k l])
      else q
  | None => q
  end.

Definition pstep (c : cfg) (q : psys) (o : pop) : psys :=
  match o with
  | POp o => mkP (fst (step c (p_sys q) o)) (local_after c (p_sys q) o (p_local q)) (p_events q)
  | PIncr h n t =>
      report q h (1 <=? n) (fun p => mkProg (p_current p + n) (p_total p) (p_gen p) (p_message p) (Some t))
        (fun p l => mkL (Some (p_current p)) (l_total l) (l_message l))
  | PTotal h n t =>
      report q h (1 <=? n) (fun p => mkProg (p_current p) n (p_gen p) (p_message p) (Some t))
        (fun _ l => mkL (l_current l) n (l_message l))
  | PMessage h m t =>
      report q h true (fun p => mkProg (p_current p) (p_total p) (p_gen p) m (Some t))
        (fun _ l => mkL (l_current l) (l_total l) m)
  end.

Fixpoint pfinal (c : cfg) (q : psys) (l : list pop) : psys :=
  match l with [] => q | o :: l => pfinal c (pstep c q o) l end.
