(** The strike monitor of a process (/repo/src/docket/strikelist.py:544-619): batches,
    errors, the signal that existing strikes are loaded, and the count of strikes in effect.
    No proofs in this file. *)
From Verif Require Import Base Strike.

(** An entry of the strike stream is None if this process cannot decode it
    (strikelist.py:84-94: cloudpickle.loads of a value whose module is missing here, an
    unknown field). *)
Record mon := mkMon {
  mo_stream : list (option instr);
  mo_last : nat;                (* how many entries precede or are last_id *)
  mo_loaded : bool;             (* initial_load_complete, _strikes_loaded *)
  mo_applied : list instr }.    (* self.update, in order *)
Definition mon_init (l : list (option instr)) : mon := mkMon l 0 false [].

(** Lines 600-604: instructions are applied one by one; one that cannot be decoded raises.
    What was applied, and whether the end was reached. *)
Fixpoint apply_batch (l : list (option instr)) : list instr * bool :=
  match l with
  | [] => ([], true)
  | None :: _ => ([], false)
  | Some i :: l => let '(is_, ok) := apply_batch l in (i :: is_, ok)
  end.

Inductive nop :=
| NSend (e : option instr)    (* XADD by any process *)
| NRead                       (* lines 570-620 with a successful XREAD *)
| NLost.                      (* XREAD raises ConnectionError, lines 557-563 *)

(** XREAD COUNT 100 after last_id.  An exception leaves last_id of _monitor_strikes as it
    was: the new one was not returned (lines 554-556). *)
Definition mon_step (m : mon) (o : nop) : mon :=
  match o with
  | NSend e => mkMon (mo_stream m ++ [e]) (mo_last m) (mo_loaded m) (mo_applied m)
  | NLost => m
  | NRead =>
      match firstn 100 (skipn (mo_last m) (mo_stream m)) with
      | [] => mkMon (mo_stream m) (mo_last m) true (mo_applied m)
      | batch =>
          let '(is_, ok) := apply_batch batch in
          mkMon (mo_stream m) (if ok then (mo_last m + length batch)%nat else mo_last m) (mo_loaded m) (mo_applied m ++ is_)
      end
  end.
Definition mon_run (m : mon) (l : list nop) : mon := fold_left mon_step l m.

(** ** STRIKES_IN_EFFECT (lines 611-617) *)
(** strikelist.py:96-106 labels; the label docket.value is repr(value), for which the value
    itself stands. *)
Definition label := (option string * option (string * operator * pv))%type.
Definition label_of (i : instr) : label :=
  (given (in_fn i), match given (in_param i) with Some p => Some (p, in_op i, in_val i) | None => None end).
Definition label_eqb (a b : label) : bool :=
  match fst a, fst b with Some x, Some y => String.eqb x y | None, None => true | _, _ => false end &&
  match snd a, snd b with
  | Some (p, o, v), Some (q, o', w) => String.eqb p q && op_eqb o o' && pv_eqb v w
  | None, None => true
  | _, _ => false
  end.
Fixpoint gauge_of (l : list instr) (k : label) : Z :=
  match l with
  | [] => 0
  | i :: l => (if label_eqb (label_of i) k then if in_strike i then 1 else -1 else 0) + gauge_of l k
  end.
