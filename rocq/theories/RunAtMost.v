(** worker.py:506-542 run_at_most beside the rest of the docket. *)
From Verif Require Import Base ZSet Model.

(** Where an execution of the worker is in _execute (worker.py:1017-1033): not yet
    checked, let through by the strike check, stricken, counted after its claim. *)
Inductive stage := GNew | GPassed | GStruck | GCounted.

(** [ra_count]: self._execution_counts (worker.py:524, 1032-1033). *)
Record ra := mkRA { ra_sys : sys; ra_count : key -> Z; ra_stage : Z -> stage }.
(** worker.py:524, 537: the call begins. *)
Definition ra_begin (s : sys) : ra := mkRA s (fun _ => 0) (fun _ => GNew).

(** worker.py:526-535 has_reached_max_iterations; [limit] is iterations_by_key. *)
Definition reached (limit : key -> option Z) (s : ra) (k : key) : bool :=
  match limit k with None => false | Some n => n <=? ra_count s k end.

Definition set_stage (s : ra) (h : Z) (g : stage) : Z -> stage := fun h' => if h' =? h then g else ra_stage s h'.

Inductive rop :=
| RCheck (h : Z) (other : bool)     (* worker.py:1017; [other]: some other strike matches *)
| RCount (h : Z)                    (* worker.py:1032-1033, when the reply of the claim is read *)
| RAdd (own : bool) (repl : bool) (a : call) (t : Z)  (* docket.py:414, 524: an add or replace; [own]: through the worker's docket object, whose strike list has the condition *)
| RDo (o : op).

(** The execution [h] is one of worker [w]. *)
Definition mine (w : string) (s : ra) (h : Z) : option exec :=
  match get_exec (s_execs (ra_sys s)) h with Some x => if String.eqb (x_worker x) w then Some x else None | None => None end.

Definition rdo (c : cfg) (s : ra) (o : op) : ra * out := let '(s', r) := step c (ra_sys s) o in (mkRA s' (ra_count s) (ra_stage s), r).

Definition rstep (c : cfg) (w : string) (limit : key -> option Z) (s : ra) (o : rop) : ra * out :=
  match o with
  | RCheck h other =>
      match mine w s h with
      | Some x =>
          match x_phase x, ra_stage s h with
          | PDelivered, GNew =>
              (mkRA (ra_sys s) (ra_count s) (set_stage s h (if other || reached limit s (m_key (x_msg x)) then GStruck else GPassed)), ODone)
          | _, _ => (s, ORefused)
          end
      | None => (s, ORefused)
      end
  | RCount h =>
      match mine w s h with
      | Some x =>
          match x_phase x, ra_stage s h with
          | PClaimed, GPassed =>
              let k := m_key (x_msg x) in
              (mkRA (ra_sys s) (match limit k with Some _ => upd (ra_count s) k (ra_count s k + 1) | None => ra_count s end) (set_stage s h GCounted), ODone)
          | _, _ => (s, ORefused)
          end
      | None => (s, ORefused)
      end
  | RAdd own repl a t =>
      if own && reached limit s (a_key a) then (s, ODisp DStruck) else rdo c s (if repl then OReplace a t else OAdd a t)
  | RDo o =>
      match o with
      | OAdd _ _ | OReplace _ _ => (s, ORefused)
      | OClaim h _ => match mine w s h, ra_stage s h with None, _ | Some _, GPassed => rdo c s o | _, _ => (s, ORefused) end
      | ODelKnown h => match mine w s h, ra_stage s h with None, _ | Some _, GStruck => rdo c s o | _, _ => (s, ORefused) end
      | OBodyStart h => match mine w s h, ra_stage s h with None, _ | Some _, GCounted => rdo c s o | _, _ => (s, ORefused) end
      | _ => rdo c s o
      end
  end.

Fixpoint rrun (c : cfg) (w : string) (limit : key -> option Z) (s : ra) (l : list rop) : ra :=
  match l with [] => s | o :: l => rrun c w limit (fst (rstep c w limit s o)) l end.
Fixpoint routs (c : cfg) (w : string) (limit : key -> option Z) (s : ra) (l : list rop) : list out :=
  match l with [] => [] | o :: l => snd (rstep c w limit s o) :: routs c w limit (fst (rstep c w limit s o)) l end.
