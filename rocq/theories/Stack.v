(** Entering and leaving a Docket: what its exit stacks open and close
    (contextlib.AsyncExitStack is the environment: callbacks run last in, first out, each of
    them even when an earlier one raised). *)
From Verif Require Import Base.

(** ** What is opened (src/docket/_redis.py:660-689, src/docket/strikelist.py:231-253,
    src/docket/_result_store.py:197-232) *)
Inductive kind := KPool | KCluster | KNode | KMonitor | KClient.
(** The objects with an exit stack of their own: the Docket, its RedisConnection, and -- a new one
    for every entering, src/docket/docket.py:223-227,246 -- StrikeList, the RedisConnection of the
    strike list (strikelist.py:189), and ResultStorage. *)
Inductive obj := ODocket | ORedis | OStrike (g : nat) | OStrikeRedis (g : nat) | OResult (g : nat).
Definition obj_eqb (a b : obj) : bool :=
  match a, b with
  | ODocket, ODocket | ORedis, ORedis => true
  | OStrike g, OStrike h | OStrikeRedis g, OStrikeRedis h | OResult g, OResult h => Nat.eqb g h
  | _, _ => false
  end.
(** Attributes that say that an object is connected (src/docket/_redis.py:627-637;
    strikelist.py:174-175 and _result_store.py:186-187 hold handles that nothing asks about,
    so they are not kept). *)
Inductive attr := APool | ACluster | ANode | AMemory.
Definition attr_eqb (a b : attr) : bool :=
  match a, b with
  | APool, APool | ACluster, ACluster | ANode, ANode | AMemory, AMemory => true
  | _, _ => false
  end.

(** What is pushed on an exit stack: setattr(self, name, None); close_resource (which swallows
    every Exception, src/docket/_redis.py:537-545) or cancel_task (_cancellation.py:44-68) of one
    opened thing; the __aexit__ of a context that was entered. *)
Inductive cb := CUnset (o : obj) (a : attr) | CClose (k : kind) (n : nat) | CExit (o : obj).

(** Every opened thing has a number of its own. *)
Inductive ev := EOpen (k : kind) (n : nat) | EClose (k : kind) (n : nat).

Record st := St {
  st_attr : obj -> attr -> bool;            (* the attribute is not None *)
  st_stack : obj -> option (list cb);       (* self._stack, if the object has one *)
  st_gen : nat;                             (* which strike list and result storage are current *)
  st_next : nat;
  st_log : list ev }.
Definition init_st : st := St (fun _ _ => false) (fun _ => None) 0 0 [].

Inductive mode := Standalone | Cluster | Memory.
(** Result storage: docket's own, or the user's, with a setup method or without. *)
Inductive storage := Own | User (setup : bool).

(** What goes wrong in one entering: the creation of a thing for an object, or the setup of the
    result storage. *)
Record faults := Faults { f_open : obj -> kind -> bool; f_setup : bool }.

Definition set_attr (o : obj) (a : attr) (v : bool) (s : st) : st :=
  St (fun o' a' => if (obj_eqb o o' && attr_eqb a a')%bool then v else st_attr s o' a')
     (st_stack s) (st_gen s) (st_next s) (st_log s).
Definition set_stack (o : obj) (v : option (list cb)) (s : st) : st :=
  St (st_attr s) (fun o' => if obj_eqb o o' then v else st_stack s o') (st_gen s) (st_next s) (st_log s).
Definition note (e : ev) (s : st) : st :=
  St (st_attr s) (st_stack s) (st_gen s) (st_next s) (st_log s ++ [e]).
(** self._stack.callback / push_async_callback / the push of enter_async_context. *)
Definition push (o : obj) (c : cb) (s : st) : st :=
  match st_stack s o with
  | Some cs => set_stack o (Some (c :: cs)) s
  | None => s
  end.
(** A thing is created for [o] and its closing is pushed. *)
Definition make (o : obj) (k : kind) (s : st) : st :=
  let n := st_next s in
  push o (CClose k n)
    (note (EOpen k n) (St (st_attr s) (st_stack s) (st_gen s) (S n) (st_log s))).
(** The same, with an attribute that is set and whose reset is pushed first. *)
Definition make_attr (o : obj) (k : kind) (a : attr) (s : st) : st :=
  make o k (push o (CUnset o a) (set_attr o a true s)).

(** ** RedisConnection.__aenter__ (src/docket/_redis.py:660-689); false: it raised *)
(** is_connected (_redis.py:697-704). *)
Definition connected (o : obj) (s : st) : bool :=
  (st_attr s o APool || st_attr s o ACluster || st_attr s o AMemory)%bool.
Definition redis_enter (m : mode) (f : faults) (o : obj) (s : st) : bool * st :=
  if connected o s then (false, s)                                   (* assert not self.is_connected *)
  else
    let s := set_stack o (Some []) s in
    match m with
    | Cluster =>
        if f_open f o KCluster then (false, s)                       (* _create_cluster_client *)
        else
          let s := make_attr o KCluster ACluster s in
          if f_open f o KNode then (false, s)                        (* _create_node_pool: no primary nodes *)
          else (true, make_attr o KNode ANode s)
    | Memory => (true, push o (CUnset o AMemory) (set_attr o AMemory true s))
    | Standalone =>
        if f_open f o KPool then (false, s) else (true, make_attr o KPool APool s)
    end.
(** AsyncExitStack.enter_async_context: enter, and push the exit if that did not raise. *)
Definition enter_context (o : obj) (o' : obj) (r : bool * st) : bool * st :=
  match r with (true, s) => (true, push o (CExit o') s) | (false, s) => (false, s) end.
Definition bind (r : bool * st) (f : st -> bool * st) : bool * st :=
  match r with (true, s) => f s | (false, s) => (false, s) end.

(** StrikeList.__aenter__ (src/docket/strikelist.py:231-253), of a strike list with a URL. *)
Definition strike_enter (m : mode) (f : faults) (g : nat) (s : st) : bool * st :=
  let s := set_stack (OStrike g) (Some []) s in
  if connected (OStrikeRedis g) s then (false, s)
  else
    bind (enter_context (OStrike g) (OStrikeRedis g) (redis_enter m f (OStrikeRedis g) s))
         (fun s => (true, make (OStrike g) KMonitor s)).

(** ResultStorage.__aenter__ (src/docket/_result_store.py:197-232). *)
Definition result_enter (m : mode) (f : faults) (g : nat) (s : st) : bool * st :=
  let o := OResult g in
  let s := set_stack o (Some []) s in
  let setup s := (negb (f_setup f), s) in                           (* await self._store.setup() *)
  match m with
  | Cluster => if st_attr s ORedis ACluster then setup s else (false, s)
  | Memory => if st_attr s ORedis AMemory then setup s else (false, s)
  | Standalone =>
      if f_open f o KPool then (false, s)
      else setup (make o KClient (make o KPool s))
  end.

(** Docket.__aenter__ (src/docket/docket.py:219-247); [sto] says which result storage it was
    created with. *)
Definition docket_enter (m : mode) (sto : storage) (f : faults) (s : st) : bool * st :=
  let s := set_stack ODocket (Some []) s in
  let g := S (st_gen s) in
  let s := St (st_attr s) (st_stack s) g (st_next s) (st_log s) in   (* a new StrikeList *)
  bind (enter_context ODocket ORedis (redis_enter m f ORedis s)) (fun s =>
  bind (enter_context ODocket (OStrike g) (strike_enter m f g s)) (fun s =>
  match sto with
  | User setup => ((negb (setup && f_setup f))%bool, s)              (* await self.result_storage.setup() *)
  | Own => enter_context ODocket (OResult g) (result_enter m f g s)
  end)).

(** ** Leaving (docket.py:249-258, _redis.py:691-701, strikelist.py:256-265,
    _result_store.py:231-240): run the callbacks, then del self._stack.  Without a _stack it raises
    AttributeError: false.  [n] bounds the nesting of contexts, which is three. *)
Fixpoint run_cbs (exit : obj -> st -> bool * st) (cs : list cb) (s : st) : st :=
  match cs with
  | [] => s
  | CUnset o a :: cs => run_cbs exit cs (set_attr o a false s)
  | CClose k n :: cs => run_cbs exit cs (note (EClose k n) s)
  | CExit o :: cs => run_cbs exit cs (snd (exit o s))
  end.
Fixpoint exit_obj (n : nat) (o : obj) (s : st) : bool * st :=
  match n with
  | O => (false, s)
  | S n =>
      match st_stack s o with
      | None => (false, s)
      | Some cs => (true, set_stack o None (run_cbs (exit_obj n) cs s))
      end
  end.
Definition docket_exit (s : st) : bool * st := exit_obj 3 ODocket s.

(** ** Programs: async with docket, one after another, each with its own faults; whatever the
    block does, __aexit__ runs exactly when __aenter__ returned. *)
Definition use (m : mode) (sto : storage) (s : st) (f : faults) : st :=
  match docket_enter m sto f s with
  | (true, s) => snd (docket_exit s)
  | (false, s) => s
  end.
Definition uses (m : mode) (sto : storage) (l : list faults) : st := fold_left (use m sto) l init_st.
