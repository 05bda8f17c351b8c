(** Docket.get_execution: rebuilding an Execution from the stored record of a key.
    No proofs in this file.

    [L1] A task function is its [__name__] and an opaque identity; unpickling args
         and kwargs gives back what was pickled ([S2] of Model.v).
    [L2] The time of the record is exact ([S1] of Model.v; the code stores a float
         of seconds).
    [L3] Progress is not part of the handle here (see Progress.v). *)
From Verif Require Import Base ZSet Model.

(** A task function: its __name__ and which function it is. *)
Record pyfun := mkFun { f_name : string; f_id : string }.

(** Docket.tasks, docket.py:284-299: the registered functions by name. *)
Definition registry := string -> option pyfun.

(** docket.py:651-661: the stand-in for a function that is not registered here. *)
Definition placeholder (name : string) : pyfun := mkFun name "placeholder".

(** execution.py:457-509: the fields of an Execution that get_execution fills in.
    [hd_name] is function_name (execution.py:474). *)
Record handle := mkHandle {
  hd_key : key; hd_fun : pyfun; hd_name : string; hd_args : string; hd_kwargs : string;
  hd_when : Z; hd_attempt : Z; hd_gen : Z;
  hd_state : state; hd_worker : option string; hd_started : option Z; hd_completed : option Z;
  hd_error : option string; hd_result : option string }.

(** execution.py:457-509 Execution.__init__ as called at docket.py:676-684: attempt 1,
    no function_name (so the function's own __name__), generation 0, state SCHEDULED. *)
Definition new_handle (k : key) (f : pyfun) (args kwargs : string) (when : Z) : handle :=
  mkHandle k f (f_name f) args kwargs when 1 0 SScheduled None None None None None.

(** execution.py:1032-1075 sync, on the store [d] *)
Definition sync_handle (d : db) (h : handle) : handle :=
  match d_runs d (hd_key h) with
  | Some r => mkHandle (hd_key h) (hd_fun h) (hd_name h) (hd_args h) (hd_kwargs h) (hd_when h)
                (hd_attempt h) (hd_gen h) (default (hd_state h) (r_state r)) (r_worker r)
                (r_started r) (r_completed r) (r_error r) (r_result r)
  | None => mkHandle (hd_key h) (hd_fun h) (hd_name h) (hd_args h) (hd_kwargs h) (hd_when h)
              (hd_attempt h) (hd_gen h) SScheduled None None None None None
  end.

(** docket.py:615-689 get_execution.  The record is read twice (lines 638 and
    execution.py:1040): [d] is the store at the first read and [d'] at the second.
    An empty function name counts as missing (line 648); pickles are never empty. *)
Definition get_execution (reg : registry) (d d' : db) (k : key) : option handle :=
  match d_runs d k with
  | None => None
  | Some r =>
      match r_fn r, r_args r, r_kwargs r with
      | Some fn, Some args, Some kwargs =>
          if String.eqb fn "" then None
          else
            let f := match reg fn with Some f => f | None => placeholder fn end in
            match r_when r with
            | None => None
            | Some w => Some (sync_handle d' (new_handle k f args kwargs w))
            end
      | _, _, _ => None
      end
  end.
