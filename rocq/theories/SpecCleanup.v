(** Vocabulary for the clean-up after cancellations (C108). *)
From Verif Require Import Base ZSet Model Spec Cleanup.

(** [P] holds at every step of the history. *)
Fixpoint xalong (c : cfg) (P : xsys -> xop -> Prop) (g : xsys) (l : list xop) : Prop :=
  match l with [] => True | o :: l => P g o /\ xalong c P (fst (xstep c g o)) l end.

(** The operation of the docket that a step performs, if any. *)
Definition performed (g : xsys) (o : xop) : option op :=
  match o with
  | XOp (OCancelCleanup _ _ _) => None
  | XOp o => Some o
  | XGo w t => match x_subs g w with Some u => sub_call u t | None => None end
  | _ => None
  end.

(** The states the docket and the subscribers of its workers can be in. *)
Definition xreachable (c : cfg) (g : xsys) : Prop := exists l, g = xfinal c init_xsys l.

(** The subscriber of [w] is busy with the cancellation of [k]. *)
Definition busy_with (g : xsys) (w : string) (k : key) : Prop :=
  exists u, x_subs g w = Some u /\
    match u_pc u with XIdle => False | XHave k' _ _ | XSafe k' | XSafeFinish k' | XSafePublish k' => k' = k end.

(** No subscriber has a cancellation of [k] before it or in hand. *)
Definition unheard (k : key) (g : xsys) : Prop :=
  forall w u, x_subs g w = Some u -> ~ In k (u_inbox u) /\ ~ busy_with g w k.

(** A cancelled task [k]: it waited at place [i] of line [cc], nothing else of it is stored or
    under way, and its record, not yet gone, has the place. *)
Definition cancelled_waiter (k : key) (cc : string) (i : sid) (s : sys) : Prop :=
  r_state (rget (s_db s) k) = Some SCancelled /\ r_wstream (rget (s_db s) k) = Some cc /\ r_wid (rget (s_db s) k) = Some i /\
  (forall p m, stored_at s p m -> m_key m = k -> p = AtLine cc i) /\
  (forall x, In x (s_execs s) -> m_key (x_msg x) = k -> x_phase x = PDone).

(** The subscriber of [w] stays; nobody adds [k] again; the record of [k] is not dropped before
    the clean-up. *)
Definition undisturbed_cleanup (c : cfg) (k : key) (w : string) (g : xsys) (o : xop) : Prop :=
  o <> XEnd w /\ o <> XOp (OCrash w) /\
  forall o', performed g o = Some o' -> no_schedule k o' /\ keeps c k (x_sys g) o'.

(** The history that led to [g] kept the record of [k]. *)
Definition xkeeping (c : cfg) (k : key) (g : xsys) : Prop :=
  exists l, xalong c (fun g o => forall o', performed g o = Some o' -> keeps c k (x_sys g) o') init_xsys l /\ g = xfinal c init_xsys l.

(** Nobody calls the docket about [k], and no cancellation of it is published; no run of it finishes,
    no superseded run of it comes back, its record stays.  The subscribers may do what they do. *)
Definition left_in_peace (c : cfg) (k : key) (g : xsys) (o : xop) : Prop :=
  o <> XPublish k /\ (forall o', o = XOp o' -> no_calls k o') /\
  forall o', performed g o = Some o' -> keeps c k (x_sys g) o' /\ no_stale_resched k (x_sys g) o' /\ ~ finishes k (x_sys g) o'.

(** A step of somebody else than the subscriber of [w], which stays. *)
Definition not_of (w : string) (o : xop) : Prop :=
  match o with XGo w' _ | XEnd w' | XOp (OCrash w') => w' <> w | _ => True end.
