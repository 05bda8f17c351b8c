(** Vocabulary for the safeguards of waiting tasks (C107). *)
From Verif Require Import Base ZSet Model Spec Guard.

(** [P] holds at every step of the history. *)
Fixpoint galong (c : cfg) (P : gsys -> gop -> Prop) (g : gsys) (l : list gop) : Prop :=
  match l with [] => True | o :: l => P g o /\ galong c P (fst (gstep c g o)) l end.

(** The operation of the docket that a step performs, if any. *)
Definition operation (c : cfg) (g : gsys) (o : gop) : option op :=
  match o with
  | GOp o => Some o
  | GGo q t => match get_parker (g_parkers g) q with Some p => parker_call c p t | None => None end
  end.

(** Nothing of key [k] is stored, and no worker holds anything of it. *)
Definition nothing_of (k : key) (s : sys) : Prop := forall m, present s m -> m_key m <> k.

(** No task of key [k] leaves a waiting line in this step. *)
Definition keeps_waiting (c : cfg) (k : key) (s : sys) (o : op) : Prop :=
  forall cc i m, In (cc, (i, m)) (d_wait (s_db s)) -> m_key m = k -> In (cc, (i, m)) (d_wait (s_db (fst (step c s o)))).

(** The clock stays before the expiry that the record of [k] has in [s1], if any. *)
Definition unexpired (c : cfg) (k : key) (s1 s : sys) (o : op) : Prop :=
  forall e, r_expire (rget (s_db s1) k) = Some e -> d_now (s_db (fst (step c s o))) < e.

(** The history that led to [g] kept the record of [k]. *)
Definition gkeeping (c : cfg) (k : key) (g : gsys) : Prop :=
  exists l, galong c (fun g o => forall o', operation c g o = Some o' -> keeps c k (g_sys g) o') init_gsys l /\ g = gfinal c init_gsys l.

(** Nothing happens to the waiting task [k] and to its safeguard, which was added in the step to [s1]
    by parker [q]: the record of [k] and [k]'s places in waiting lines stay; the safeguard's record
    does not expire and no run of it finishes; no superseded run of either reschedules itself or
    joins a line; and nobody but parker [q] calls the docket about either. *)
Definition left_alone (c : cfg) (k : key) (q : Z) (s1 : sys) (g : gsys) (o : gop) : Prop :=
  forall o', operation c g o = Some o' -> let s := g_sys g in
    keeps c k s o' /\ keeps_waiting c k s o' /\ unexpired c (safeguard_key k) s1 s o' /\ ~ finishes (safeguard_key k) s o' /\
    no_stale_resched k s o' /\ no_stale_resched (safeguard_key k) s o' /\
    ((forall t, o <> GGo q t) -> no_calls k o' /\ no_calls (safeguard_key k) o').

(** A task of key [k] leaves a waiting line in this step. *)
Definition leaves_line (c : cfg) (k : key) (s : sys) (o : op) : Prop :=
  exists cc i m, In (cc, (i, m)) (d_wait (s_db s)) /\ m_key m = k /\ ~ In (cc, (i, m)) (d_wait (s_db (fst (step c s o)))).

(** Task [k] waits in line [cc], and there is nothing to bring it back but a release: no safeguard of it
    is stored or under way, and no worker is about to add one. *)
Definition unguarded (k : key) (cc : string) (g : gsys) : Prop :=
  (exists i m, In (cc, (i, m)) (d_wait (s_db (g_sys g))) /\ m_key m = k /\ live (g_sys g) m) /\
  r_state (rget (s_db (g_sys g)) k) = Some SScheduled /\
  nothing_of (safeguard_key k) (g_sys g) /\ forall p, In p (g_parkers g) -> q_key p <> k.

(** A step of somebody else than parker [q] of worker [w], and [w] stays alive. *)
Definition others_step (q : Z) (w : string) (o : gop) : Prop :=
  match o with GGo q' _ => q' <> q | GOp (OCrash w') => w' <> w | GOp _ => True end.
