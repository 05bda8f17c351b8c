(** What the properties of one execution speak about, independent of how Execute.v
    computes it. *)
From Verif Require Import Base Execute.

(** The outcomes a delivered message can be given. *)
Definition outcome (v : ev) : bool :=
  match v with
  | EStruck | ESuperseded | EParked | ECompleted | EFailed | ECancelled | ERetried
  | ERescheduled | EDropped => true
  | _ => false
  end.
Definition outcomes (l : list ev) : list ev := filter outcome l.

(** The dependencies' exits, whatever they are. *)
Definition exit_of (d : dep) (x : option exn -> xres) : Prop :=
  match d with DParam _ _ y | DAnnot y => x = y | DFailed _ => False end.
Definition no_exit_raises (e : env) : Prop :=
  forall d x, In d (e_deps e) -> exit_of d x -> forall o y, x o <> Throw y.
Definition exits_transparent (e : env) : Prop :=
  forall d x, In d (e_deps e) -> exit_of d x -> forall o, x o = Through.
Definition blocks_not_suppressed (e : env) : Prop :=
  forall d x, In d (e_deps e) -> exit_of d x -> forall h r, x (Some (XBlocked h r)) <> Suppress.

(** The handlers of the dependencies answer. *)
Definition handlers_answer (e : env) : Prop :=
  forall fh ch x, In (DParam fh ch x) (e_deps e) ->
    (forall h, fh = Some h -> forall e' y, h e' <> FThrow y)
    /\ (forall h, ch = Some h -> forall o y, h o <> CThrow y).

(** An exception the worker can store. *)
Definition storable (e : env) (x : exn) : Prop := e_ttl e = true -> pickles x = true.
Definition storage_works (e : env) : Prop := e_put e = None.

(** The body neither stops the process nor raises AdmissionBlocked by itself, and what
    it returns or raises can be stored. *)
Definition plain_body (e : env) : Prop :=
  match e_body e with
  | BReturn v => e_ttl e = true -> v <> Some false
  | BRaise XCancelled => True
  | BRaise (XErr n p) => storable e (XErr n p)
  | BRaise _ => False
  end.
(** Entering the dependencies is only left by cancellation. *)
Definition plain_stop (e : env) : Prop := e_stop e = None \/ e_stop e = Some XCancelled.
(** Failures of dependencies are exceptions (_resolution.py:172: "except Exception")
    and can be stored. *)
Definition plain_failures (e : env) : Prop :=
  forall x, In (DFailed x) (e_deps e) -> match x with XBlocked _ _ => True | XErr n p => storable e (XErr n p) | _ => False end.

Definition blocked_dep (d : dep) : bool := match d with DFailed (XBlocked _ _) => true | _ => false end.
(** At most one gate blocks, and none if the entering is cancelled. *)
Definition one_gate (e : env) : Prop :=
  (length (filter blocked_dep (e_deps e)) <= 1)%nat
  /\ (e_stop e <> None -> filter blocked_dep (e_deps e) = []).

(** Counting. *)
Definition total_running (l : list ev) : Z :=
  fold_right (fun v a => match v with KRunning n => n + a | _ => a end) 0 l.
Definition times (p : ev -> bool) (l : list ev) : nat := length (filter p l).
Definition is_started (v : ev) : bool := match v with KStarted => true | _ => false end.
Definition is_finished (v : ev) : bool := match v with KFinished => true | _ => false end.
Definition is_body (v : ev) : bool := match v with EBody => true | _ => false end.

(** The worker that processes a list of finished tasks goes on, or not. *)
Definition survives (e : env) : Prop := snd (whole e) = None.

(** Nothing but the task itself goes wrong. *)
Definition calm (e : env) : Prop :=
  handlers_answer e /\ storage_works e /\ plain_body e /\ plain_stop e /\ plain_failures e.

(** The failure handlers among the dependencies (registration allows one only). *)
Definition handler_of (e : env) (h : exn -> fres) : Prop := exists ch x, In (DParam (Some h) ch x) (e_deps e).

(** What may be raised anywhere without ending the worker: AdmissionBlocked,
    cancellation, and any Exception that can be stored. *)
Definition survivable (e : env) (x : exn) : Prop :=
  match x with XBase => False | XErr n p => storable e (XErr n p) | _ => True end.
