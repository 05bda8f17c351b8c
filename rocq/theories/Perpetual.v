(** Perpetual and Cron tasks and the re-seeding of automatic ones, on top of the
    docket of Model.v.  No proofs in this file.

    [V1] Times and durations are Z microseconds; outcome.duration is given.
    [V2] A Cron expression is a function from a time to the next matching time
         (cronsim is not modelled); the default object of the task's signature is
         per worker process.
    [V3] The lock of _schedule_all_automatic_perpetual_tasks (worker.py:964-968) is
         left out: any number of workers may re-seed at the same time.
    [V4] A task is registered under its own name only, and its stored arguments are
         opaque strings; those of a call without arguments are [no_args], [no_kwargs].
    [V5] Whether a strike matches (docket.py:419-432, 527-544) is chosen by the
         operations VReplaceStruck and VSeedStruck; see Strike.v for strikes. *)
From Verif Require Import Base ZSet Model.

(** _perpetual.py:44-79 and _cron.py:64-95: every, automatic, the cron expression. *)
Record pspec := mkPspec { ps_every : Z; ps_auto : bool; ps_cron : option (Z -> Z) }.

(** The registered functions that declare a Perpetual: docket.tasks with
    get_single_dependency_parameter_of_type (worker.py:969-974). *)
Definition tasks := string -> option pspec.

(** _perpetual.py:44-79: args, kwargs, cancelled, _next_when of the object entered
    for one execution; [po_born]: when it was entered (_cron.py:94, 98: its own
    iterator starts there). *)
Record pobj := mkPobj { po_args : string; po_kwargs : string; po_cancelled : bool; po_next : option Z; po_born : Z }.

(** How far on_complete is (_perpetual.py:101-156): not called; between the two round
    trips of _cancel; found not superseded, before replace; returned. *)
Inductive vpc := VBody | VCancelling | VReplacing | VHandled.

(** Re-seeding of one function by one worker (worker.py:969-998): "known" was
    absent; the state was not running either. *)
Inductive seedpc := SeedNotKnown | SeedGone.

Record vsys := mkV {
  v_sys : sys;
  v_obj : Z -> option (pobj * vpc);
  v_seed : string -> option (string * seedpc);
  v_iter : string -> string -> Z }.
Definition init_vsys : vsys := mkV init_sys (fun _ => None) (fun _ => None) (fun _ _ => 0).

Definition updh {A} (f : Z -> A) (h : Z) (x : A) : Z -> A := fun j => if j =? h then x else f j.
Definition upds {A} (f : string -> A) (w : string) (x : A) : string -> A := fun j => if String.eqb j w then x else f j.

(** execution.py:1077-1095 is_superseded: a missing generation reads as 0. *)
Definition is_superseded (d : db) (k : key) (gen : Z) : bool :=
  if gen =? 0 then false else gen <? default 0 (r_gen (rget d k)).

Definition no_args : string := "()".
Definition no_kwargs : string := "{}".

(** [VOp]: anything of Model.v.
    [VEnter]: __aenter__, _perpetual.py:74-79, _cron.py:94-99.
    [VPerpetuate] 92-94, [VAfter] 96-98, [VAt] 100-102, [VStop] 89-90 (cancel()): calls made by the body.
    [VComplete]: on_complete up to its first round trip with the docket, 104-126, _cron.py:110-117.
    [VCancel2]: the second round trip of _cancel, docket.py:771-777.
    [VReplace]: 128-142; [now] is the clock read for [when], [t] the one read in
    execution.py:695.  [VReplaceStruck]: the same when a strike matches.
    [VMark]: worker.py:1132, 1148, 1229-1231 after on_complete.
    [VImport]: a worker process starts (defaults of signatures are created, _cron.py:94).
    [VSeedKnown], [VSeedState], [VSeedAdd], [VSeedStruck]: worker.py:995-997, 998,
    983-985 for one function. *)
Inductive vop :=
| VOp (o : op)
| VEnter (h t : Z)
| VPerpetuate (h : Z) (a kw : string)
| VAfter (h delay t : Z)
| VAt (h w : Z)
| VStop (h : Z)
| VComplete (h t : Z)
| VCancel2 (h : Z)
| VReplace (h now dur t : Z)
| VReplaceStruck (h : Z)
| VMark (h : Z) (st : state) (t : Z) (err res : option string)
| VImport (w : string) (t : Z)
| VSeedKnown (w fn : string)
| VSeedState (w : string)
| VSeedAdd (w : string) (now t : Z)
| VSeedStruck (w : string).

Definition with_sys (v : vsys) (s : sys) : vsys := mkV s (v_obj v) (v_seed v) (v_iter v).
Definition with_obj (v : vsys) (h : Z) (o : option (pobj * vpc)) : vsys := mkV (v_sys v) (updh (v_obj v) h o) (v_seed v) (v_iter v).
Definition with_seed (v : vsys) (w : string) (p : option (string * seedpc)) : vsys := mkV (v_sys v) (v_obj v) (upds (v_seed v) w p) (v_iter v).

(** The execution and its object while the body runs. *)
Definition body_obj (v : vsys) (h : Z) : option pobj :=
  match get_exec (s_execs (v_sys v)) h, v_obj v h with
  | Some x, Some (p, VBody) => match x_phase x with PBody => Some p | _ => None end
  | _, _ => None
  end.
Definition in_body (v : vsys) (h : Z) (f : pobj -> pobj) : vsys :=
  match body_obj v h with Some p => with_obj v h (Some (f p, VBody)) | None => v end.

(** Phases in which on_complete runs: after the body, or after a dependency failed
    (worker.py:1115-1215). *)
Definition may_complete (p : phase) : bool := match p with PClaimed | PEnded => true | _ => false end.

(** _cron.py:110-117: self.at(self.next_time()) *)
Definition cron_at (sp : pspec) (p : pobj) : pobj :=
  match ps_cron sp with
  | Some next => mkPobj (po_args p) (po_kwargs p) (po_cancelled p) (Some (next (po_born p))) (po_born p)
  | None => p
  end.

(** _perpetual.py:129-138 *)
Definition when_next (sp : pspec) (p : pobj) (now dur : Z) : Z :=
  match po_next p with Some w => w | None => Z.max now (now + ps_every sp - dur) end.

Definition vstep (e : tasks) (c : cfg) (v : vsys) (o : vop) : vsys :=
  let s := v_sys v in
  match o with
  | VOp o => with_sys v (fst (step c s o))
  | VEnter h t =>
      match get_exec (s_execs s) h, v_obj v h with
      | Some x, None =>
          match x_phase x, e (m_fn (x_msg x)) with
          | PClaimed, Some _ => with_obj v h (Some (mkPobj (m_args (x_msg x)) (m_kwargs (x_msg x)) false None t, VBody))
          | _, _ => v
          end
      | _, _ => v
      end
  | VPerpetuate h a kw => in_body v h (fun p => mkPobj a kw (po_cancelled p) (po_next p) (po_born p))
  | VAfter h delay t => in_body v h (fun p => mkPobj (po_args p) (po_kwargs p) (po_cancelled p) (Some (t + delay)) (po_born p))
  | VAt h w => in_body v h (fun p => mkPobj (po_args p) (po_kwargs p) (po_cancelled p) (Some w) (po_born p))
  | VStop h => in_body v h (fun p => mkPobj (po_args p) (po_kwargs p) true (po_next p) (po_born p))
  | VComplete h t =>
      match get_exec (s_execs s) h, v_obj v h with
      | Some x, Some (p, VBody) =>
          match may_complete (x_phase x), e (m_fn (x_msg x)) with
          | true, Some sp =>
              let p := cron_at sp p in
              if po_cancelled p then with_sys (with_obj v h (Some (p, VCancelling))) (fst (step c s (OCancel (m_key (x_msg x)) t)))
              else if is_superseded (s_db s) (m_key (x_msg x)) (m_gen (x_msg x)) then with_obj v h (Some (p, VHandled))
              else with_obj v h (Some (p, VReplacing))
          | _, _ => v
          end
      | _, _ => v
      end
  | VCancel2 h =>
      match get_exec (s_execs s) h, v_obj v h with
      | Some x, Some (p, VCancelling) => with_sys (with_obj v h (Some (p, VHandled))) (fst (step c s (OCancelFinish (m_key (x_msg x)))))
      | _, _ => v
      end
  | VReplace h now dur t =>
      match get_exec (s_execs s) h, v_obj v h with
      | Some x, Some (p, VReplacing) =>
          match may_complete (x_phase x), e (m_fn (x_msg x)) with
          | true, Some sp =>
              with_sys (with_obj v h (Some (p, VHandled)))
                (fst (step c s (OReplace (mkCall (m_key (x_msg x)) (when_next sp p now dur) (m_fn (x_msg x)) (po_args p) (po_kwargs p)) t)))
          | _, _ => v
          end
      | _, _ => v
      end
  | VReplaceStruck h =>
      match v_obj v h with Some (p, VReplacing) => with_obj v h (Some (p, VHandled)) | _ => v end
  | VMark h st t err res =>
      match v_obj v h with Some (p, VHandled) => with_sys v (fst (step c s (OTerminal h st t err res))) | _ => v end
  | VImport w t => mkV s (v_obj v) (v_seed v) (upds (v_iter v) w (fun _ => t))
  | VSeedKnown w fn =>
      match e fn with
      | Some sp => if ps_auto sp then
                     if is_some (r_known (rget (s_db s) fn)) then with_seed v w None else with_seed v w (Some (fn, SeedNotKnown))
                   else v
      | None => v
      end
  | VSeedState w =>
      match v_seed v w with
      | Some (fn, SeedNotKnown) =>
          match r_state (rget (s_db s) fn) with Some SRunning => with_seed v w None | _ => with_seed v w (Some (fn, SeedGone)) end
      | _ => v
      end
  | VSeedAdd w now t =>
      match v_seed v w with
      | Some (fn, SeedGone) =>
          match e fn with
          | Some sp =>
              let '(when, it) := match ps_cron sp with
                                 | Some next => (next (v_iter v w fn), next (v_iter v w fn))
                                 | None => (now, v_iter v w fn)
                                 end in
              mkV (fst (step c s (OAdd (mkCall fn when fn no_args no_kwargs) t)))
                (v_obj v) (upds (v_seed v) w None) (upds (v_iter v) w (upds (v_iter v w) fn it))
          | None => v
          end
      | _ => v
      end
  | VSeedStruck w => match v_seed v w with Some (_, SeedGone) => with_seed v w None | _ => v end
  end.

Fixpoint vfinal (e : tasks) (c : cfg) (v : vsys) (l : list vop) : vsys :=
  match l with [] => v | o :: l => vfinal e c (vstep e c v o) l end.
