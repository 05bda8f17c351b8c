(** Progress reports of one run that overlap: increment(), set_total() and set_message() of
    one ExecutionProgress object, called from concurrent parts of a task body.  Refines the
    reports of Progress.v (its simplification P2), for one run.  No proofs in this file.

    [N1] Requests to Redis and its replies travel on connections of a pool, so those of
         overlapping calls may arrive in any order.
    [N2] The run is the only one that reports under its key, and no request fails. *)
From Verif Require Import Base.

(** current, total, message: of the progress hash, of the object's attributes
    (_execution_progress.py:88-98), or in an event (_execution_progress.py:53-59). *)
Record view := mkView { v_cur : Z; v_tot : Z; v_msg : option string }.
Definition set_cur (v : view) (n : Z) : view := mkView n (v_tot v) (v_msg v).
Definition set_tot (v : view) (n : Z) : view := mkView (v_cur v) n (v_msg v).
Definition set_msg (v : view) (m : option string) : view := mkView (v_cur v) (v_tot v) m.

(** What claim() leaves in the hash and in the object (execution.py:815-819). *)
Definition fresh : view := mkView 0 100 None.

(** A call: _execution_progress.py:154-174, 124-152, 176-205. *)
Inductive rep := Incr (n : Z) | Total (n : Z) | Message (m : option string).

(** _execution_progress.py:130-131, 160-161: refused amounts and totals. *)
Definition refused (r : rep) : bool := match r with Incr n | Total n => n <? 1 | Message _ => false end.

(** How far a call has come: its request is on its way, with the event the request publishes
    (set_total, set_message); its reply is on its way, with the new value (increment); the
    publication of an increment is on its way. *)
Inductive stage := SSent (r : rep) (ev : view) | SReplied (r : rep) (v : Z) | SPublish (ev : view).

Record asys := mkA { a_stored : view; a_local : view; a_calls : Z -> option stage; a_events : list view }.
Definition init_asys : asys := mkA fresh fresh (fun _ => None) [].

(** The calls with call [i] at another stage. *)
Definition at_stage (f : Z -> option stage) (i : Z) (x : option stage) : Z -> option stage :=
  fun j => if j =? i then x else f j.

(** The event a call prepares before its request (_execution_progress.py:134-142, 186-194);
    increment() prepares none. *)
Definition prepared (r : rep) (l : view) : view :=
  match r with Incr _ => l | Total n => set_tot l n | Message m => set_msg l m end.

(** [ABegin]: the body makes a call.  [AServer]: Redis executes the request of the call that is
    on its way (_execution_progress.py:165-168 the pipeline of increment; 26-48 the script of
    the others, with the event; 238-247 the PUBLISH of an increment).  [AReply]: the caller goes on
    with the reply: the object's attribute is set (151-152, 170-171, 203-204), and increment
    prepares its event at once, from the object's attributes (172-174, 227-237). *)
Inductive aop := ABegin (i : Z) (r : rep) | AServer (i : Z) | AReply (i : Z).

Definition astep (s : asys) (o : aop) : asys :=
  match o with
  | ABegin i r =>
      match a_calls s i with
      | None => if refused r then s
                else mkA (a_stored s) (a_local s) (at_stage (a_calls s) i (Some (SSent r (prepared r (a_local s))))) (a_events s)
      | Some _ => s
      end
  | AServer i =>
      match a_calls s i with
      | Some (SSent (Incr n) _) =>
          let v := v_cur (a_stored s) + n in
          mkA (set_cur (a_stored s) v) (a_local s) (at_stage (a_calls s) i (Some (SReplied (Incr n) v))) (a_events s)
      | Some (SSent (Total n) ev) =>
          mkA (set_tot (a_stored s) n) (a_local s) (at_stage (a_calls s) i (Some (SReplied (Total n) 0))) (a_events s ++ [ev])
      | Some (SSent (Message m) ev) =>
          mkA (set_msg (a_stored s) m) (a_local s) (at_stage (a_calls s) i (Some (SReplied (Message m) 0))) (a_events s ++ [ev])
      | Some (SPublish ev) => mkA (a_stored s) (a_local s) (at_stage (a_calls s) i None) (a_events s ++ [ev])
      | _ => s
      end
  | AReply i =>
      match a_calls s i with
      | Some (SReplied (Incr n) v) =>
          let l := set_cur (a_local s) v in
          mkA (a_stored s) l (at_stage (a_calls s) i (Some (SPublish l))) (a_events s)
      | Some (SReplied (Total n) _) => mkA (a_stored s) (set_tot (a_local s) n) (at_stage (a_calls s) i None) (a_events s)
      | Some (SReplied (Message m) _) => mkA (a_stored s) (set_msg (a_local s) m) (at_stage (a_calls s) i None) (a_events s)
      | _ => s
      end
  end.

Fixpoint afinal (s : asys) (l : list aop) : asys := match l with [] => s | o :: l => afinal (astep s o) l end.
