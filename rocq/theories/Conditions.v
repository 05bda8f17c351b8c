(** The conditions of a strike list (/repo/src/docket/strikelist.py:172, 199, 267-275, 345-360)
    and the run_at_most calls that put them there (/repo/src/docket/worker.py:504-542).  The list
    belongs to a Docket object: every worker and every add() that uses the object asks it.

    Not modelled: what the call does in between (RunAtMost.v, C50), conditions added by other
    code, is_stricken of a mapping (C29-C32). *)
From Verif Require Import Base.

(** A condition: _matches_task_or_parameter_strike (strikelist.py:199), or the
    has_reached_max_iterations (worker.py:526-535) of the [i]-th call, made by worker [w] with
    iterations_by_key [lim].  Python compares the functions by identity: that is [i]. *)
Inductive cond := KBase | KLimit (i : nat) (w : string) (lim : string -> option Z).

(** [c_list]: strike_list._conditions; [c_counts w]: worker [w]'s _execution_counts (504). *)
Record conds := mkConds { c_list : list cond; c_counts : string -> string -> option Z; c_calls : nat }.
(** strikelist.py:199, worker.py:311 *)
Definition init_conds : conds := mkConds [KBase] (fun _ _ => None) 0.

(** A call of run_at_most begins, or ends, and worker [w] counts an execution of [k]. *)
Inductive cop := CBegin (w : string) (lim : string -> option Z) | CEnd (i : nat) | CCount (w k : string).

(** strikelist.py:274 list.remove: the first equal element *)
Fixpoint remove_cond (i : nat) (l : list cond) : list cond :=
  match l with
  | [] => []
  | KLimit j w lim :: l => if Nat.eqb j i then l else KLimit j w lim :: remove_cond i l
  | KBase :: l => KBase :: remove_cond i l
  end.
Fixpoint find_cond (i : nat) (l : list cond) : option string :=
  match l with
  | [] => None
  | KLimit j w _ :: l => if Nat.eqb j i then Some w else find_cond i l
  | KBase :: l => find_cond i l
  end.

(** worker.py:524, 537 (begin), 541-542 (end), 1032-1033 (count). *)
Definition cstep (s : conds) (o : cop) : conds :=
  match o with
  | CBegin w lim =>
      mkConds (KLimit (c_calls s) w lim :: c_list s)
        (upd (c_counts s) w (fun k => match lim k with Some _ => Some 0 | None => None end)) (S (c_calls s))
  | CEnd i =>
      match find_cond i (c_list s) with
      | Some w => mkConds (remove_cond i (c_list s)) (upd (c_counts s) w (fun _ => None)) (c_calls s)
      | None => s
      end
  | CCount w k =>
      match c_counts s w k with
      | Some n => mkConds (c_list s) (upd (c_counts s) w (upd (c_counts s w) k (Some (n + 1)))) (c_calls s)
      | None => s
      end
  end.
Definition conds_after (l : list cop) : conds := fold_left cstep l init_conds.

(** One condition for key [k]; [base] is the verdict of the strikes.  None: KeyError
    (worker.py:532). *)
Definition holds_for (s : conds) (base : bool) (k : string) (c : cond) : option bool :=
  match c with
  | KBase => Some base
  | KLimit _ w lim =>
      match lim k with
      | None => Some false
      | Some n => match c_counts s w k with Some m => Some (n <=? m) | None => None end
      end
  end.

(** strikelist.py:360: any(), in order, over what the conditions answer *)
Inductive answer := AVerdict (b : bool) | AKeyError.
Fixpoint any_holds (s : conds) (base : bool) (k : string) (l : list cond) : answer :=
  match l with
  | [] => AVerdict false
  | c :: l => match holds_for s base k c with
              | None => AKeyError
              | Some true => AVerdict true
              | Some false => any_holds s base k l
              end
  end.
Definition is_stricken (s : conds) (base : bool) (k : string) : answer := any_holds s base k (c_list s).
