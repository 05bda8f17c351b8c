(** The JSON events published by Lua scripts. *)
From Verif Require Import Base Text.

Definition nl : ascii := "010". Definition cr : ascii := "013". Definition tab : ascii := "009".
Definition quote : ascii := "034". Definition backslash : ascii := "092".

(** Lua s:gsub for a pattern of one plain character. *)
Fixpoint gsub (c : ascii) (r : string) (s : string) : string :=
  match s with
  | EmptyString => EmptyString
  | String a s => if Ascii.eqb a c then (r ++ gsub c r s)%string else String a (gsub c r s)
  end.
Definition esc (c : ascii) : string := String backslash (String c EmptyString).

(** worker.py:171-177, dependencies/_concurrency.py:183-190 json_escape. *)
Definition json_escape (s : string) : string :=
  gsub tab (esc "t") (gsub cr (esc "r") (gsub nl (esc "n") (gsub quote (esc quote) (gsub backslash (esc backslash) s)))).

Definition q (s : string) : string := String quote (s ++ String quote EmptyString).

(** worker.py:213: the event of a task moved to the stream ([when] is an ISO time). *)
Definition due_event (k when : string) : string :=
  ("{" ++ q "type" ++ ":" ++ q "state" ++ "," ++ q "key" ++ ":" ++ q (json_escape k) ++ "," ++
   q "state" ++ ":" ++ q "queued" ++ "," ++ q "when" ++ ":" ++ q when ++ "}")%string.
(** _concurrency.py:252: the event of a woken waiter. *)
Definition wake_event (k : string) : string :=
  ("{" ++ q "type" ++ ":" ++ q "state" ++ "," ++ q "key" ++ ":" ++ q (json_escape k) ++ "," ++
   q "state" ++ ":" ++ q "queued" ++ "}")%string.
