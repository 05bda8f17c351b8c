(** The key-value store of results in in-memory and cluster mode:
    /repo/src/docket/_result_store.py, class ClusterKeyValueStore.  No proofs in this file.

    [S1] Values are those that json.loads(json.dumps(v)) gives back unchanged (mappings with
         text keys); they are opaque here.
    [S2] Times are integers, in milliseconds; int(float(ttl)) is the integer quotient.
    [S3] Redis GET, MGET, SET, DEL and TTL are atomic and behave as documented; a key is
         gone from its expiry on; SET with EX below 1 is refused and changes nothing. *)
From Verif Require Import Base.

(** What Redis holds: a value and the time it expires. *)
Definition kv (V : Type) := string -> option (V * option Z).

(** _result_store.py:55-58 _make_key; [d]: the default collection. *)
Definition make_key (d : string) (key : string) (c : option string) : string :=
  (match c with Some c => c | None => d end ++ ":" ++ key)%string.

(** Redis: the entry at the time [now]. *)
Definition entry {V} (s : kv V) (now : Z) (k : string) : option (V * option Z) :=
  match s k with
  | Some (v, Some e) => if e <=? now then None else Some (v, Some e)
  | o => o
  end.

(** _result_store.py:64-74 get *)
Definition get {V} (d : string) (s : kv V) (now : Z) (key : string) (c : option string) : option V :=
  option_map fst (entry s now (make_key d key c)).

(** _result_store.py:77-91 ttl: GET, then TTL; [s'] and [now'] are what TTL meets.  TTL
    rounds to whole seconds, and answers below 0 for no expiry and for no key. *)
Definition redis_ttl {V} (s : kv V) (now : Z) (k : string) : Z :=
  match entry s now k with
  | None => -2
  | Some (_, None) => -1
  | Some (_, Some e) => (e - now + 500) / 1000
  end.
Definition ttl {V} (d : string) (s : kv V) (now : Z) (s' : kv V) (now' : Z) (key : string) (c : option string) : option (V * option Z) :=
  let k := make_key d key c in
  match entry s now k with
  | None => None
  | Some (v, _) => Some (v, if 0 <=? redis_ttl s' now' k then Some (redis_ttl s' now' k) else None)
  end.

(** _result_store.py:93-108 put; None: ResponseError. *)
Definition put {V} (d : string) (s : kv V) (now : Z) (key : string) (v : V) (c : option string) (ttl : option Z) : option (kv V) :=
  match ttl with
  | None => Some (upd s (make_key d key c) (Some (v, None)))
  | Some t => let seconds := Z.quot t 1000 in
              if seconds <=? 0 then None else Some (upd s (make_key d key c) (Some (v, Some (now + 1000 * seconds))))
  end.

(** Redis DEL: the keys one after the other, and how many there were. *)
Fixpoint del {V} (s : kv V) (now : Z) (ks : list string) : kv V * Z :=
  match ks with
  | [] => (s, 0)
  | k :: ks => let '(s', n) := del (upd s k None) now ks in (s', n + if is_some (entry s now k) then 1 else 0)
  end.

(** _result_store.py:110-119 delete *)
Definition delete {V} (d : string) (s : kv V) (now : Z) (key : string) (c : option string) : kv V * bool :=
  let '(s', n) := del s now [make_key d key c] in (s', 0 <? n).

(** _result_store.py:121-132 get_many *)
Definition get_many {V} (d : string) (s : kv V) (now : Z) (keys : list string) (c : option string) : list (option V) :=
  match keys with
  | [] => []
  | _ => map (fun k => option_map fst (entry s now k)) (map (fun k => make_key d k c) keys)
  end.

(** _result_store.py:149-161 put_many: zip with strict=True; what is stored, and whether it
    returned (false: it raised). *)
Fixpoint put_all {V} (d : string) (s : kv V) (now : Z) (keys : list string) (vs : list V) (c : option string) (ttl : option Z) : kv V * bool :=
  match keys, vs with
  | [], [] => (s, true)
  | k :: keys, v :: vs => match put d s now k v c ttl with Some s' => put_all d s' now keys vs c ttl | None => (s, false) end
  | _, _ => (s, false)
  end.
Definition put_many {V} (d : string) (s : kv V) (now : Z) (keys : list string) (vs : list V) (c : option string) (ttl : option Z) : kv V * bool :=
  match keys with [] => (s, true) | _ => put_all d s now keys vs c ttl end.

(** _result_store.py:163-173 delete_many *)
Definition delete_many {V} (d : string) (s : kv V) (now : Z) (keys : list string) (c : option string) : kv V * Z :=
  match keys with [] => (s, 0) | _ => del s now (map (fun k => make_key d k c) keys) end.

(** Histories of one store, by any number of clients. *)
Inductive sop (V : Type) :=
| SPut (key : string) (v : V) (c : option string) (ttl : option Z)
| SDelete (key : string) (c : option string)
| SPutMany (keys : list string) (vs : list V) (c : option string) (ttl : option Z)
| SDeleteMany (keys : list string) (c : option string)
| SWait (dt : Z).
Arguments SPut {V}. Arguments SDelete {V}. Arguments SPutMany {V}. Arguments SDeleteMany {V}. Arguments SWait {V}.

Definition sstep {V} (d : string) (x : kv V * Z) (o : sop V) : kv V * Z :=
  let '(s, now) := x in
  match o with
  | SPut k v c t => (match put d s now k v c t with Some s' => s' | None => s end, now)
  | SDelete k c => (fst (delete d s now k c), now)
  | SPutMany ks vs c t => (fst (put_many d s now ks vs c t), now)
  | SDeleteMany ks c => (fst (delete_many d s now ks c), now)
  | SWait dt => (s, now + dt)
  end.
Definition srun {V} (d : string) (h : list (sop V)) : kv V * Z := fold_left (sstep d) h (fun _ => None, 0).
