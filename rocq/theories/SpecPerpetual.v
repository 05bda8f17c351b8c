(** Vocabulary for the properties of perpetual tasks. *)
From Verif Require Import Base ZSet Model Spec Perpetual.

Definition vreachable (e : tasks) (c : cfg) (v : vsys) : Prop := exists l, v = vfinal e c init_vsys l.

Fixpoint valong (e : tasks) (c : cfg) (P : vsys -> vop -> Prop) (v : vsys) (l : list vop) : Prop :=
  match l with [] => True | o :: l => P v o /\ valong e c P (vstep e c v o) l end.

(** What a body decided: arguments, time, and whether to go on. *)
Record choice := mkChoice { ch_args : string; ch_kwargs : string; ch_time : option Z; ch_stop : bool }.

Definition running_body (v : vsys) (h : Z) : bool :=
  match get_exec (s_execs (v_sys v)) h with
  | Some x => match x_phase x with PBody => true | _ => false end
  | None => false
  end.

(** The last decisions of each kind that the body of [h] took during [l]. *)
Fixpoint decided (e : tasks) (c : cfg) (h : Z) (v : vsys) (l : list vop) (ch : choice) : choice :=
  match l with
  | [] => ch
  | o :: l =>
      decided e c h (vstep e c v o) l
        (if running_body v h then
           match o with
           | VPerpetuate h' a kw => if h' =? h then mkChoice a kw (ch_time ch) (ch_stop ch) else ch
           | VAfter h' d t => if h' =? h then mkChoice (ch_args ch) (ch_kwargs ch) (Some (t + d)) (ch_stop ch) else ch
           | VAt h' w => if h' =? h then mkChoice (ch_args ch) (ch_kwargs ch) (Some w) (ch_stop ch) else ch
           | VStop h' => if h' =? h then mkChoice (ch_args ch) (ch_kwargs ch) (ch_time ch) true else ch
           | _ => ch
           end
         else ch)
  end.

(** The time of the next run: the next cron time after the run was entered, or the
    time the body chose, or one interval after the run began, but not in the past. *)
Definition next_run (sp : pspec) (ch : choice) (entered now dur : Z) : Z :=
  match ps_cron sp, ch_time ch with
  | Some next, _ => next entered
  | None, Some w => w
  | None, None => Z.max now (now + ps_every sp - dur)
  end.

(** [h] has been given back to the docket: no step of on_complete of [h]. *)
Definition not_completing (h : Z) (o : vop) : Prop := forall t, o <> VComplete h t.
Definition not_replacing (h : Z) (o : vop) : Prop :=
  (forall now dur t, o <> VReplace h now dur t) /\ o <> VReplaceStruck h.

(** The call a base step makes, and steps of a history as steps of the docket. *)
Definition seeds (o : vop) : Prop :=
  match o with VSeedKnown _ _ | VSeedState _ | VSeedAdd _ _ _ | VSeedStruck _ | VImport _ _ => True | _ => False end.

(** [m] at [p] is the one and only run of [k] that can still start. *)
Definition the_run (k : key) (s : sys) (p : spot) (m : msg) : Prop :=
  m_key m = k /\ stored_at s p m /\ live s m /\ (p = AtFuture -> in_future s m) /\
  forall p' m', stored_at s p' m' -> m_key m' = k -> live s m' -> p' = p /\ m' = m.

(** The body of [h] is over, or was never reached because a dependency failed. *)
Definition ready_to_complete (v : vsys) (h : Z) : Prop :=
  exists x, get_exec (s_execs (v_sys v)) h = Some x /\ (x_phase x = PClaimed \/ x_phase x = PEnded).

(** A run of a perpetual function, claimed and not entered yet. *)
Definition claimed_perpetual (e : tasks) (v : vsys) (h : Z) (m : msg) (sp : pspec) : Prop :=
  (exists x, get_exec (s_execs (v_sys v)) h = Some x /\ x_msg x = m /\ x_phase x = PClaimed) /\ e (m_fn m) = Some sp /\ v_obj v h = None.

(** What the body of [h] decided in [l], starting from its own arguments. *)
Definition choice_of (e : tasks) (c : cfg) (h : Z) (m : msg) (v : vsys) (l : list vop) : choice :=
  decided e c h v l (mkChoice (m_args m) (m_kwargs m) None false).

(** The docket has a schedule or a run of [k]: add() of [k] is refused. *)
Definition taken (k : key) (s : sys) : Prop :=
  exists r, d_runs (s_db s) k = Some r /\ (r_known r <> None \/ r_state r = Some SRunning).

(** No step of the re-seeding by worker [w]. *)
Definition not_seeding (w : string) (o : vop) : Prop :=
  match o with VSeedKnown w' _ | VSeedState w' | VSeedAdd w' _ _ | VSeedStruck w' => w' <> w | _ => True end.

(** The call that a re-seeding makes. *)
Definition seed_call (fn : string) (when : Z) : call := mkCall fn when fn no_args no_kwargs.
