(** Names of task functions: what a worker runs for a message, under which name
    (/repo/src/docket/docket.py:284-299, 375-403, 496-513, 779-828, execution.py:457-478,
    567-605, _perpetual.py:129-142), and the loop that seeds automatic tasks
    (worker.py:956-987).  Functions and the registry are those of Agenda.v.
    No proofs in this file.

    [R1] Arguments, times and keys are left out; see Model.v and Wire.v for them.
    [R2] Functions are never removed from docket.tasks (no code of docket does). *)
From Verif Require Import Base Strike Agenda.

(** docket.py:284-299 register *)
Definition register_as (f : func) (names : list string) (g : registry) : registry :=
  fold_left (fun g n => set_task n f g) (match names with [] => [fname f] | _ => names end) g.

(** The Python [or] on names. *)
Definition name_or (n d : string) : string := match n with EmptyString => d | _ => n end.

(** An Execution: its function and function_name (execution.py:457-478). *)
Record job := mkJob { jb_fn : func; jb_name : string }.
(** docket.py:380-403 add, 496-513 replace: the execution that is scheduled and the registry
    afterwards; None: KeyError. *)
Definition submit (g : registry) (w : what) : option (job * registry) :=
  match w with
  | ByName n => match find_task g n with Some f => Some (mkJob f (name_or n (fname f)), g) | None => None end
  | ByFunction f => Some (mkJob f (fname f), register f g)
  end.
(** execution.py:579-606 from_message with the fallback task of the worker; the message
    carries function_name (line 571). *)
Definition received (g : registry) (fallback : func) (n : string) : job :=
  let f := match find_task g n with Some f => f | None => fallback end in mkJob f (name_or n (fname f)).

(** The function that docket.strike and docket.restore name (docket.py:794, 818). *)
Definition strike_name (w : what) : string := match w with ByName n => n | ByFunction f => fname f end.

(** ** Processes *)
(** A scheduled message.  [ms_meant] is a ghost: the function that the caller submitted;
    no step looks at it. *)
Record message := mkMessage { ms_name : string; ms_meant : func; ms_first : string }.
Record world := mkWorld { wo_reg : nat -> registry; wo_msgs : list message }.

(** [WRetry]: the run of message [i] is rescheduled (execution.py:457-478, 567-574: the same
    Execution, hence the same function_name).  [WPerpetuate]: on_complete of a Perpetual
    (_perpetual.py:135-138).  [ms_first] is another ghost, the name in the first message. *)
Inductive wop :=
| WRegister (p : nat) (f : func) (names : list string)
| WSubmit (p : nat) (w : what)
| WRetry (p i : nat)
| WPerpetuate (p i : nat).

Definition set_reg (w : world) (p : nat) (g : registry) : nat -> registry := fun q => if Nat.eqb q p then g else wo_reg w q.
(** The run of message [i] at process [p]. *)
Definition run_of (fallback : func) (w : world) (p i : nat) : option (job * message) :=
  match nth_error (wo_msgs w) i with Some m => Some (received (wo_reg w p) fallback (ms_name m), m) | None => None end.
Definition world_step (fallback : func) (w : world) (o : wop) : world :=
  match o with
  | WRegister p f names => mkWorld (set_reg w p (register_as f names (wo_reg w p))) (wo_msgs w)
  | WSubmit p x =>
      match submit (wo_reg w p) x with
      | Some (j, g) => mkWorld (set_reg w p g) (wo_msgs w ++ [mkMessage (jb_name j) (jb_fn j) (jb_name j)])
      | None => w
      end
  | WRetry p i =>
      match run_of fallback w p i with
      | Some (j, m) => mkWorld (wo_reg w) (wo_msgs w ++ [mkMessage (jb_name j) (ms_meant m) (ms_first m)])
      | None => w
      end
  | WPerpetuate p i =>
      match run_of fallback w p i with
      | Some (j, m) =>
          match submit (wo_reg w p) (ByFunction (jb_fn j)) with
          | Some (j', g) => mkWorld (set_reg w p g) (wo_msgs w ++ [mkMessage (jb_name j') (ms_meant m) (ms_first m)])
          | None => w
          end
      | None => w
      end
  end.
Definition world_init : world := mkWorld (fun _ => []) [].
Definition world_run (fallback : func) (l : list wop) : world := fold_left (world_step fallback) l world_init.

(** ** worker.py:968-987: for task_function in self.docket.tasks.values()
    CPython compares the size of the dict with that at the start on every step, also the
    one that would end the loop.  Entries keep their place, as none is removed. *)
Inductive seed_status := SeedRunning | SeedDone | SeedError.
Record seeding := mkSeeding { sd_reg : registry; sd_size : nat; sd_pos : nat; sd_added : list string; sd_status : seed_status }.
Definition seed_start (g : registry) : seeding := mkSeeding g (length g) 0 [] SeedRunning.
(** [SNext live]: the next function; [live]: what _automatic_perpetual_is_live answers for
    its key.  [SRegister]: some other coroutine of the process registers a function, during
    one of the awaits of the loop. *)
Inductive sop := SNext (live : bool) | SRegister (f : func) (names : list string).
Definition seed_step (auto : func -> bool) (s : seeding) (o : sop) : seeding :=
  match o with
  | SRegister f names => mkSeeding (register_as f names (sd_reg s)) (sd_size s) (sd_pos s) (sd_added s) (sd_status s)
  | SNext live =>
      match sd_status s with
      | SeedRunning =>
          if negb (Nat.eqb (length (sd_reg s)) (sd_size s)) then mkSeeding (sd_reg s) (sd_size s) (sd_pos s) (sd_added s) SeedError
          else match nth_error (sd_reg s) (sd_pos s) with
          | None => mkSeeding (sd_reg s) (sd_size s) (sd_pos s) (sd_added s) SeedDone
          | Some (_, f) =>
              if auto f && negb live
              then mkSeeding (register f (sd_reg s)) (sd_size s) (S (sd_pos s)) (sd_added s ++ [fname f]) SeedRunning
              else mkSeeding (sd_reg s) (sd_size s) (S (sd_pos s)) (sd_added s) SeedRunning
          end
      | _ => s
      end
  end.
Definition seed_run (auto : func -> bool) (s : seeding) (l : list sop) : seeding := fold_left (seed_step auto) l s.
