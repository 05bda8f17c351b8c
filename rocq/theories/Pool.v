(** The connection pool of a Sentinel URL (/repo/src/docket/_redis_sentinel.py:185-211, 243-273).
    No proofs in this file. *)
From Coq Require Import Ascii String List.
From Verif Require Import Base Duration Cli Url.
Import ListNotations.

(** Values of keyword arguments.  [VOption t]: what redis-py's parse_url makes of the text [t] of
    a query option - for the options it knows (max_connections, socket_timeout, ...) a number or a
    truth value, for all others the text itself. *)
Inductive value := VNone | VBool (b : bool) | VInt (z : Z) | VText (t : text) | VOption (t : text) | VKeepalive.

(** A dict, and {**a, **b} of two (_redis_sentinel.py:265-272). *)
Definition dict := text -> option value.
Definition merge (a b : dict) : dict := fun n => match b n with Some v => Some v | None => a n end.
Definition of_list (l : list (string * value)) : dict :=
  fun n => option_map snd (find (fun e => teq (lit (fst e)) n) l).

(** _redis_sentinel.py:185-196: the options go through urlencode and redis-py's parse_url, which
    leaves out blank values (parse_qs), takes the first of several, and unquotes it again. *)
Definition funneled (c : sentinel) : dict := fun n =>
  option_map (fun e => VOption (unquote (snd e)))
    (find (fun e => teq (fst e) n) (filter (fun e => negb (teq (snd e) [])) (s_options c))).
(** _redis_sentinel.py:198-203 *)
Definition login_kwargs (c : sentinel) : dict :=
  of_list ((match s_user c with Some u => [("username"%string, VText u)] | None => [] end) ++
           (match s_password c with Some p => [("password"%string, VText p)] | None => [] end) ++
           (if s_tls c then [("ssl"%string, VBool true)] else [])).
Definition connection_kwargs (c : sentinel) : dict := merge (funneled c) (login_kwargs c).

(** _redis_sentinel.py:261-273 sentinel_connection_pool, its pool_kwargs; None: ValueError.
    Simplification: every option is taken to have a value that redis-py can convert (otherwise
    parse_url raises ValueError).  [timeout]: BLOCKING_READ_SOCKET_TIMEOUT (_redis.py:829-836). *)
Definition pool_defaults (c : sentinel) (decode : bool) (timeout : value) : dict :=
  of_list [("db", VInt (s_db c)); ("decode_responses", VBool decode); ("socket_timeout", timeout);
           ("socket_keepalive", VBool true); ("socket_keepalive_options", VKeepalive)]%string.
Definition sentinel_pool (br : text -> bool) (url : text) (decode : bool) (timeout : value) : option dict :=
  option_map (fun c => merge (pool_defaults c decode timeout) (connection_kwargs c)) (parse_sentinel_url br url).

(** _redis_sentinel.py:171-179 sentinel_kwargs, and 262: the Sentinel daemons and the arguments of
    the clients that talk to them.  The dict is never None, so redis-py's Sentinel adds no socket
    options of its own to it. *)
Definition sentinel_kwargs (c : sentinel) : dict :=
  of_list ((match s_suser c with Some u => [("username"%string, VText u)] | None => [] end) ++
           (match s_spassword c with Some p => [("password"%string, VText p)] | None => [] end) ++
           (if s_tls c then [("ssl"%string, VBool true)] else [])).
Definition sentinel_manager (br : text -> bool) (url : text) :=
  option_map (fun c => (s_members c, sentinel_kwargs c)) (parse_sentinel_url br url).

(** "if x" (used by redis-py for the pool_kwargs of _redis_sentinel.py:265-272): what it does with ssl and decode_responses, which it does not convert. *)
Definition truthy (v : option value) : bool :=
  match v with
  | Some (VBool b) => b
  | Some (VInt z) => negb (z =? 0)
  | Some (VText t) | Some (VOption t) => negb (teq t [])
  | Some VKeepalive => true
  | Some VNone | None => false
  end.

(** ** Closing (_redis_sentinel.py:237-240, _redis.py:537-545)

    How the aclose() of something ends: it returns, raises an Exception, or a BaseException (the
    CancelledError of the task that is closing). *)
Inductive ending := Fine | Error | Cancel.
(** _redis.py:542-545 close_resource: an Exception is logged *)
Definition close_resource (e : ending) : ending := match e with Cancel => Cancel | _ => Fine end.
(** _redis_sentinel.py:239-240: the clients that were asked to close, and how the loop ended; a
    client is its name and what its aclose() will do. *)
Fixpoint close_clients (l : list (nat * ending)) : list nat * ending :=
  match l with
  | [] => ([], Fine)
  | (n, e) :: l' => match close_resource e with
                    | Fine => let '(ns, r) := close_clients l' in (n :: ns, r)
                    | r => ([n], r)
                    end
  end.
(** _redis_sentinel.py:237-240 OwnedSentinelConnectionPool.aclose; [p]: super().aclose() *)
Definition owned_aclose (p : ending) (l : list (nat * ending)) : list nat * ending :=
  match p with Fine => close_clients l | r => ([], r) end.
(** _redis.py:684-687: on leaving, the pool is closed by close_resource *)
Definition leave_pool (p : ending) (l : list (nat * ending)) : list nat * ending :=
  let '(ns, r) := owned_aclose p l in (ns, close_resource r).
