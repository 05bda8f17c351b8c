(** The docket together with the strike lists of its processes: docket.py strike
    checks in add (414), replace (524), worker.py:1017-1030. *)
From Verif Require Import Base ZSet Model Strike.

(** What the strike list looks at in a call or message (strikelist.py:381-407).
    [bind] stands for inspect.Signature.bind on the registered function and the
    pickled arguments; nothing is assumed about it. *)
Definition binder := string -> string -> string -> option (list (string * pv)).
Definition target_of (bind : binder) (m : msg) : target :=
  mkTarget (m_fn m) (bind (m_fn m) (m_args m) (m_kwargs m)).

(** The store and workers; the strike stream (strikelist.py:298-307); for each
    process the instructions its list was updated with since it started, and how many
    entries its monitor has read; and, for each execution held by a worker, the
    answer of its strike check (worker.py:1017), if it was made.  A worker is its own
    process. *)
Record ssys := mkSS {
  ss_sys : sys; ss_stream : list instr; ss_applied : string -> list instr; ss_pos : string -> nat; ss_verdict : Z -> option bool }.
Definition ss_init : ssys := mkSS init_sys [] (fun _ => []) (fun _ => 0%nat) (fun _ => None).

(** strikelist.py:345-360 is_stricken in process [p]. *)
Definition ss_stricken (bind : binder) (s : ssys) (p : string) (m : msg) : bool :=
  stricken (sl_run sl_empty (ss_applied s p)) (target_of bind m).

Inductive sop :=
| SSend (i : instr)                    (* XADD, strikelist.py:304-305 *)
| SApplyOwn (p : string) (j : nat)     (* update after sending, strikelist.py:307 *)
| SMonitor (p : string)                (* one instruction read, strikelist.py:600-604 *)
| SRestart (p : string)                (* a new process starts from "0-0", strikelist.py:544-565 *)
| SAdd (p : string) (a : call) (t : Z) (* docket.py:355-444 *)
| SReplace (p : string) (a : call) (t : Z)  (* docket.py:476-554 *)
| SCheck (h : Z)                       (* worker.py:1017 *)
| SDo (o : op).                        (* anything else *)

Definition lift (s : ssys) (r : sys * out) : ssys * out :=
  (mkSS (fst r) (ss_stream s) (ss_applied s) (ss_pos s) (ss_verdict s), snd r).

Definition sstep (c : cfg) (bind : binder) (s : ssys) (o : sop) : ssys * out :=
  match o with
  | SSend i => (mkSS (ss_sys s) (ss_stream s ++ [i]) (ss_applied s) (ss_pos s) (ss_verdict s), ODone)
  | SApplyOwn p j =>
      match nth_error (ss_stream s) j with
      | Some i => (mkSS (ss_sys s) (ss_stream s) (upd (ss_applied s) p (ss_applied s p ++ [i])) (ss_pos s) (ss_verdict s), ODone)
      | None => (s, ORefused)
      end
  | SMonitor p =>
      match nth_error (ss_stream s) (ss_pos s p) with
      | Some i => (mkSS (ss_sys s) (ss_stream s) (upd (ss_applied s) p (ss_applied s p ++ [i]))
                     (upd (ss_pos s) p (S (ss_pos s p))) (ss_verdict s), ODone)
      | None => (s, ORefused)
      end
  | SRestart p => (mkSS (ss_sys s) (ss_stream s) (upd (ss_applied s) p []) (upd (ss_pos s) p 0%nat) (ss_verdict s), ODone)
  | SAdd p a t => if ss_stricken bind s p (call_msg a) then (s, ODisp DStruck) else lift s (step c (ss_sys s) (OAdd a t))
  | SReplace p a t => if ss_stricken bind s p (call_msg a) then (s, ODisp DStruck) else lift s (step c (ss_sys s) (OReplace a t))
  | SCheck h =>
      match get_exec (s_execs (ss_sys s)) h, ss_verdict s h with
      | Some x, None => (mkSS (ss_sys s) (ss_stream s) (ss_applied s) (ss_pos s)
                           (fun h' => if h' =? h then Some (ss_stricken bind s (x_worker x) (x_msg x)) else ss_verdict s h'), ODone)
      | _, _ => (s, ORefused)
      end
  | SDo o =>
      match o with
      | OAdd _ _ | OReplace _ _ => (s, ORefused)
      | OClaim h _ => match ss_verdict s h with Some false => lift s (step c (ss_sys s) o) | _ => (s, ORefused) end
      | ODelKnown h => match ss_verdict s h with Some true => lift s (step c (ss_sys s) o) | _ => (s, ORefused) end
      | _ => lift s (step c (ss_sys s) o)
      end
  end.

(** Histories. *)
Fixpoint srun (c : cfg) (bind : binder) (s : ssys) (l : list sop) : ssys :=
  match l with [] => s | o :: l => srun c bind (fst (sstep c bind s o)) l end.
