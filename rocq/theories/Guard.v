(** The safeguard of a task that waits for a concurrency slot
    (/repo/src/docket/dependencies/_concurrency.py:600-624): the worker that has just
    parked a task adds a safeguard task, looks at the record of the parked task and
    cancels the safeguard again when the task was served in the meantime.  These are
    separate calls to Redis, so everybody else's operations may come in between.

    The docket itself is the model of Model.v.  Not modelled: strikes of the safeguard
    (docket.add asks the strike list, C28) and failing connections. *)
From Verif Require Import Base ZSet Model Text.

(** _concurrency.py:604-609: the call of the safeguard task; its two keyword arguments
    stand in the two text fields of the call. *)
Definition safeguard_call (c : cfg) (k : key) (cc : string) (maxc t : Z) : call :=
  mkCall (safeguard_key k) (t + c_redeliver c) "_safeguard_wake" cc (dec maxc).

(** Where a worker is in the lines after the park script: _concurrency.py:605-609 the add,
    617-620 the HGET, 621-622 docket.cancel with its two calls (docket.py:740-777). *)
Inductive gpc := GAdd | GRead | GCancel | GFinish.

(** One worker on its way through these lines (_concurrency.py:596-624): the parked task,
    its line and limit. *)
Record parker := mkParker { q_id : Z; q_worker : string; q_key : key; q_cc : string; q_max : Z; q_pc : gpc }.
Record gsys := mkGsys { g_sys : sys; g_parkers : list parker; g_next : Z }.
Definition init_gsys : gsys := mkGsys init_sys [] 0.

(** An operation of the docket model, or the next call of parker [q] with its clock at [t]. *)
Inductive gop := GOp (o : op) | GGo (q t : Z).

Definition get_parker (ps : list parker) (q : Z) : option parker := find (fun p => q_id p =? q) ps.
Definition del_parker (ps : list parker) (q : Z) : list parker := filter (fun p => negb (q_id p =? q)) ps.
Definition with_pc (pc : gpc) (p : parker) : parker := mkParker (q_id p) (q_worker p) (q_key p) (q_cc p) (q_max p) pc.
Definition set_pc (ps : list parker) (q : Z) (pc : gpc) : list parker := map (fun p => if q_id p =? q then with_pc pc p else p) ps.

(** The parkers after an operation of the docket model: a worker whose park script reports
    that the task is parked (_concurrency.py:577-596) has these lines before it; a worker that
    dies leaves them. *)
Definition after_op (g : gsys) (o : op) (r : out) : list parker * Z :=
  match o, r with
  | OAcquire h cc maxc _, OAcquired false =>
      match get_exec (s_execs (g_sys g)) h with
      | Some x => (g_parkers g ++ [mkParker (g_next g) (x_worker x) (m_key (x_msg x)) cc maxc GAdd], g_next g + 1)
      | None => (g_parkers g, g_next g)
      end
  | OCrash w, _ => (filter (fun p => negb (String.eqb (q_worker p) w)) (g_parkers g), g_next g)
  | _, _ => (g_parkers g, g_next g)
  end.

(** The call to the docket that a parker makes next, if it is one (_concurrency.py:605, 622). *)
Definition parker_call (c : cfg) (p : parker) (t : Z) : option op :=
  match q_pc p with
  | GAdd => Some (OAdd (safeguard_call c (q_key p) (q_cc p) (q_max p) t) t)
  | GRead => None
  | GCancel => Some (OCancel (safeguard_key (q_key p)) t)
  | GFinish => Some (OCancelFinish (safeguard_key (q_key p)))
  end.

(** _concurrency.py:618-622: what comes after each call. *)
Definition parker_next (d : db) (p : parker) : option gpc :=
  match q_pc p with
  | GAdd => Some GRead
  | GRead => match r_state (rget d (q_key p)) with Some SScheduled => None | _ => Some GCancel end
  | GCancel => Some GFinish
  | GFinish => None
  end.

(** One step (_concurrency.py:577-624). *)
Definition gstep (c : cfg) (g : gsys) (o : gop) : gsys * out :=
  match o with
  | GOp o =>
      let '(s, r) := step c (g_sys g) o in
      let '(ps, n) := after_op g o r in (mkGsys s ps n, r)
  | GGo q t =>
      match get_parker (g_parkers g) q with
      | None => (g, ORefused)
      | Some p =>
          let '(s, r) := match parker_call c p t with Some o => step c (g_sys g) o | None => (g_sys g, ODone) end in
          let ps := match parker_next (s_db (g_sys g)) p with
                    | Some pc => set_pc (g_parkers g) q pc
                    | None => del_parker (g_parkers g) q
                    end in
          (mkGsys s ps (g_next g), r)
      end
  end.
Fixpoint gfinal (c : cfg) (g : gsys) (l : list gop) : gsys :=
  match l with [] => g | o :: l => gfinal c (fst (gstep c g o)) l end.
