(** Which hash slots of a Redis Cluster the Lua scripts of a docket touch.  No proofs in
    this file.  Redis refuses a script whose keys are not all in one slot (CROSSSLOT). *)
From Verif Require Import Base Text Keys.

(** ** The slot of a key (Redis Cluster specification) *)

(** Split at the first occurrence of [c]. *)
Fixpoint cut (c : ascii) (s : string) : option (string * string) :=
  match s with
  | EmptyString => None
  | String x r =>
      if Ascii.eqb x c then Some (EmptyString, r)
      else match cut c r with Some (a, b) => Some (String x a, b) | None => None end
  end.

(** What is hashed: the text between the first "{" and the first "}" after it, if there is
    any; otherwise the whole key. *)
Definition hashed (key : string) : string :=
  match cut "{" key with
  | Some (_, r) => match cut "}" r with Some (String c t, _) => String c t | _ => key end
  | None => key
  end.

(** CRC16 (XMODEM): polynomial 0x1021, initial value 0. *)
Definition crc_bit (c : Z) : Z :=
  Z.land (if Z.testbit c 15 then Z.lxor (2 * c) 4129 else 2 * c) 65535.
Definition crc_byte (c : Z) (b : Z) : Z :=
  Nat.iter 8 crc_bit (Z.lxor c (b * 256)).
Fixpoint crc16 (c : Z) (s : string) : Z :=
  match s with
  | EmptyString => c
  | String a r => crc16 (crc_byte c (Z.of_nat (nat_of_ascii a))) r
  end.

Definition slot (key : string) : Z := crc16 0 (hashed key) mod 16384.

(** ** The scripts and the keys they touch *)

(** [limit]: what follows the prefix in the name of a concurrency limit
    (dependencies/_concurrency.py:530-543: [scope:]concurrency:...).  [ks]: the tasks a
    script finds in the store and whose records it touches by computed names. *)
Inductive script :=
| SSchedule (k : string)                  (* execution.py:57-79 *)
| SClaim (k : string)                     (* execution.py:244-260 *)
| STerminal (k : string)                  (* execution.py:321-340 *)
| SCancel (k : string)                    (* docket.py:66-80 *)
| SStreamDue (ks : list string)           (* worker.py:155-213 *)
| SAcquire (limit k : string)             (* _concurrency.py:44-63 *)
| SRelease (limit : string) (ks : list string)   (* _concurrency.py:148-163, 217-253 *)
| SScavenge (limit : string) (ks : list string)  (* _concurrency.py:268-282, 336-366 *)
| SCancelCleanup (limit k : string)       (* _concurrency.py:382-394 *)
| SProgress (k : string)                  (* _execution_progress.py:26-40 *)
| SRateLimit (scope rest : string)        (* _ratelimit.py:24-40, 116-122 *)
| SCooldown (scope rest : string)         (* _cooldown.py:51-57 (a single SET) *)
| SDebounce (scope tag : string).         (* _debounce.py:24-39, 113-123 *)

(** docket.py:208-217 key: the prefix, a colon, the rest. *)
Definition dkey (cluster : bool) (name rest : string) : string := (docket_prefix cluster name ++ ":" ++ rest)%string.

(** The records of a task found in the store. *)
Definition found (k : string) : list string := ["runs:" ++ k; "state:" ++ k; k]%string.
Definition woken (k : string) : list string := app (found k) ["__safeguard__:" ++ k; "runs:__safeguard__:" ++ k]%string.

(** The parts after the prefix of the keys of a script (docket.py:691-710 for the names). *)
Definition rests (s : script) : list string :=
  match s with
  | SSchedule k => ["stream"; "known:" ++ k; k; "queue"; "stream-id:" ++ k; "runs:" ++ k; "state:" ++ k]
  | SClaim k => ["runs:" ++ k; "progress:" ++ k; "known:" ++ k; "stream-id:" ++ k; "state:" ++ k; "stream"]
  | STerminal k => ["runs:" ++ k; "state:" ++ k; "progress:" ++ k; "stream"]
  | SCancel k => ["stream"; "known:" ++ k; k; "queue"; "stream-id:" ++ k; "runs:" ++ k; "progress:" ++ k]
  | SStreamDue ks => app ["queue"; "stream"] (flat_map found ks)
  | SAcquire l k => [l; l ++ ":waiters"; "stream"; "runs:" ++ k; "state:" ++ k]
  | SRelease l ks => app [l; l ++ ":waiters"; "stream"; "queue"] (flat_map woken ks)
  | SScavenge l ks => app [l; l ++ ":waiters"; "stream"; "queue"] (flat_map woken ks)
  | SCancelCleanup l k => [l ++ ":waiters"; "progress:" ++ k; "runs:" ++ k]
  | SProgress k => ["progress:" ++ k]
  | _ => []
  end%string.

(** All keys; the last three dependencies name their keys themselves, without the
    prefix. *)
Definition script_keys (cluster : bool) (name : string) (s : script) : list string :=
  match s with
  | SRateLimit scope rest => [(scope ++ ":ratelimit:" ++ rest)%string]
  | SCooldown scope rest => [(scope ++ ":cooldown:" ++ rest)%string]
  | SDebounce scope tag =>
      let base := (scope ++ ":debounce:" ++ tag)%string in
      [base ++ ":{" ++ tag ++ "}:winner"; base ++ ":{" ++ tag ++ "}:last_seen"]%string
  | _ => map (dkey cluster name) (rests s)
  end.
