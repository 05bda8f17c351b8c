(** The URLs of Sentinel and cluster deployments (/repo/src/docket/_redis_sentinel.py:67-211;
    /repo/src/docket/_redis.py:754-806).  No proofs in this file.

    [U1] Texts are UTF-8 bytes without control characters; escapes that are not UTF-8 are
         outside the model, and str.lower() changes ASCII letters only.
    [U2] The scheme has no colon.  urlparse is Python's own (urllib/parse.py); which hosts it
         takes between brackets is the parameter [br].
    [U3] Connection options are kept as the pairs of the query: how redis-py converts their
         values is not modelled. *)
From Coq Require Import Ascii String List.
From Verif Require Import Base Duration Cli.
Import ListNotations.

(** ** Python's texts *)

(** str.partition(c): before, whether [c] was found, after. *)
Fixpoint partition (c : ascii) (l : text) : text * bool * text :=
  match l with
  | [] => ([], false, [])
  | x :: r => if Ascii.eqb x c then ([], true, r) else let '(a, f, b) := partition c r in (x :: a, f, b)
  end.
Definition before (c : ascii) (l : text) : text := fst (fst (partition c l)).
Definition after (c : ascii) (l : text) : text := snd (partition c l).
Definition has (c : ascii) (l : text) : bool := existsb (Ascii.eqb c) l.

(** str.split(c) *)
Fixpoint splitc (c : ascii) (l : text) : list text :=
  match l with
  | [] => [[]]
  | x :: r => if Ascii.eqb x c then [] :: splitc c r
              else match splitc c r with p :: ps => (x :: p) :: ps | [] => [[x]] end
  end.

(** urllib.parse.unquote *)
Definition hex (c : ascii) : option Z :=
  let n := code c in
  if (48 <=? n) && (n <=? 57) then Some (n - 48)
  else if (65 <=? n) && (n <=? 70) then Some (n - 55)
  else if (97 <=? n) && (n <=? 102) then Some (n - 87)
  else None.
Definition chr (n : Z) : ascii := ascii_of_nat (Z.to_nat n).
Fixpoint unquote (l : text) : text :=
  match l with
  | [] => []
  | c :: r =>
      if Ascii.eqb c "%" then
        match r with
        | a :: b :: r' => match hex a, hex b with Some x, Some y => chr (16 * x + y) :: unquote r' | _, _ => c :: unquote r end
        | _ => c :: unquote r
        end
      else c :: unquote r
  end.

(** ** urlparse *)
(** scheme, netloc, path, query. *)
Record parsed := mkParsed { u_scheme : text; u_netloc : text; u_path : text; u_query : text; u_fragment : text }.

(** str.partition("://") *)
Fixpoint cut_scheme (l : text) : text * text :=
  match l with
  | [] => ([], [])
  | x :: r =>
      match l with
      | ":"%char :: "/"%char :: "/"%char :: t => ([], t)
      | _ => let '(a, b) := cut_scheme r in (x :: a, b)
      end
  end.
Definition ends_netloc (c : ascii) : bool := Ascii.eqb c "/" || Ascii.eqb c "?" || Ascii.eqb c "#".
Fixpoint carve (l : text) : text * text :=
  match l with
  | [] => ([], [])
  | x :: r => if ends_netloc x then ([], l) else let '(a, b) := carve r in (x :: a, b)
  end.

(** _redis_sentinel.py:67-85 urlparse_multihost; also what urlparse gives for other URLs
    with "://". *)
Definition parse_url (url : text) : parsed :=
  let '(scheme, rest) := cut_scheme url in
  let '(netloc, tail) := carve rest in
  let nofrag := before "#" tail in
  mkParsed (lower scheme) netloc (before "?" nofrag) (after "?" nofrag) (after "#" tail).

(** urllib.parse _userinfo: user name and password. *)
Definition userinfo (netloc : text) : option text * option text :=
  if has "@" netloc then
    let i := fst (rpartition "@" netloc) in
    let '(u, f, p) := partition ":" i in (Some u, if f then Some p else None)
  else (None, None).

(** [hostname] and [port] of urlparse("//" + member); None: ValueError. *)
Definition port_of (p : text) : option (option Z) :=
  match p with
  | [] => Some None
  | _ => if forallb is_digit p
         then match int p with Some n => if n <=? 65535 then Some (Some n) else None | None => None end
         else None
  end.
Definition host_port (br : text -> bool) (member : text) : option (text * option Z) :=
  let m := snd (rpartition "@" (fst (carve member))) in
  if negb (Bool.eqb (has "[" m) (has "]" m)) then None
  else
    let '(h, p) := if has "[" m then let b := after "[" m in (before "]" b, after ":" (after "]" b))
                   else (before ":" m, after ":" m) in
    if has "[" m && negb (br h) then None
    else match h with
         | [] => None
         | _ => let '(n, f, z) := partition "%" h in
                option_map (fun port => (lower n ++ (if f then "%"%char :: z else []), port)) (port_of p)
         end.

(** urllib.parse.parse_qs with keep_blank_values, as pairs. *)
Definition unplus (l : text) : text := map (fun c => if Ascii.eqb c "+" then " "%char else c) l.
Definition query_pairs (q : text) : list (text * text) :=
  map (fun nv => (unquote (unplus (before "=" nv)), unquote (unplus (after "=" nv))))
    (filter (fun nv => negb (teq nv [])) (splitc "&" q)).
(** query.pop(name, [""])[0] *)
Definition first_value (ps : list (text * text)) (n : text) : text :=
  match find (fun e => teq (fst e) n) ps with Some (_, v) => v | None => [] end.
Definition without (ns : list text) (ps : list (text * text)) : list (text * text) :=
  filter (fun e => negb (existsb (teq (fst e)) ns)) ps.

(** ** Sentinel *)
(** _redis_sentinel.py:88-103 SentinelConfiguration. *)
Record sentinel := mkSentinel {
  s_members : list (text * Z); s_service : text; s_db : Z;
  s_user : option text; s_password : option text;             (* of the data nodes *)
  s_suser : option text; s_spassword : option text;           (* of the Sentinels *)
  s_tls : bool; s_options : list (text * text) }.

Definition default_sentinel_port : Z := 26379.
(** if text: *)
Definition nonempty (t : text) : option text := match t with [] => None | _ => Some t end.
Definition all_some {A : Type} (l : list (option A)) : option (list A) :=
  fold_right (fun o acc => match o, acc with Some x, Some xs => Some (x :: xs) | _, _ => None end) (Some []) l.

(** _redis_sentinel.py:106-211 parse_sentinel_url; None: ValueError. *)
Definition parse_sentinel_url (br : text -> bool) (url : text) : option sentinel :=
  let u := parse_url url in
  let hostpart := snd (rpartition "@" (u_netloc u)) in
  let members := filter (fun m => negb (teq m [])) (map strip (splitc "," hostpart)) in
  match all_some (map (host_port br) members) with
  | None | Some [] => None
  | Some hs =>
      let sentinels := map (fun h => (fst h, default default_sentinel_port (snd h))) hs in
      match filter (fun s => negb (teq s [])) (splitc "/" (u_path u)) with
      | [] => None
      | service :: more =>
          match (match more with [] => Some 0 | d :: _ => int d end) with
          | None => None
          | Some db =>
              let q := query_pairs (u_query u) in
              Some (mkSentinel sentinels service db
                (option_map unquote (match fst (userinfo (u_netloc u)) with Some t => nonempty t | None => None end))
                (option_map unquote (match snd (userinfo (u_netloc u)) with Some t => nonempty t | None => None end))
                (nonempty (first_value q (lit "sentinel_username"))) (nonempty (first_value q (lit "sentinel_password")))
                (teq (u_scheme u) (lit "rediss+sentinel"))
                (without [lit "db"; lit "username"; lit "password"] (without [lit "sentinel_username"; lit "sentinel_password"] q)))
          end
      end
  end.

(** ** Cluster *)
(** _redis.py:754-767 _normalized_url: the scheme without "+cluster", the rest put together
    by urlunparse. *)
Definition unparse (u : parsed) : text :=
  u_scheme u ++ lit "://" ++ u_netloc u ++ u_path u ++
  (match u_query u with [] => [] | q => "?"%char :: q end) ++ (match u_fragment u with [] => [] | f => "#"%char :: f end).
Definition is_cluster (u : parsed) : bool := teq (u_scheme u) (lit "redis+cluster") || teq (u_scheme u) (lit "rediss+cluster").
Definition plain_scheme (s : text) : text := if teq s (lit "rediss+cluster") then lit "rediss" else lit "redis".
Definition normalized_url (url : text) : text :=
  let u := parse_url url in
  if is_cluster u then unparse (mkParsed (plain_scheme (u_scheme u)) (u_netloc u) (u_path u) (u_query u) (u_fragment u)) else url.

(** The credentials a connection logs in with, and whether it uses TLS. *)
Record login := mkLogin { l_user : option text; l_password : option text; l_tls : bool }.
(** redis-py's parse_url, as RedisCluster.from_url and ConnectionPool.from_url use it. *)
Definition redis_py_login (url : text) : login :=
  let u := parse_url url in
  mkLogin (option_map unquote (match fst (userinfo (u_netloc u)) with Some t => nonempty t | None => None end))
          (option_map unquote (match snd (userinfo (u_netloc u)) with Some t => nonempty t | None => None end))
          (teq (u_scheme u) (lit "rediss")).
(** _redis.py:769-779 _create_cluster_client: commands and Lua scripts. *)
Definition data_login (url : text) : login := redis_py_login (normalized_url url).
(** _redis.py:781-806 _create_node_pool: pub/sub.  redis-py takes an empty text for None. *)
Definition pubsub_login (url : text) : login :=
  let u := parse_url url in
  mkLogin (match fst (userinfo (u_netloc u)) with Some t => nonempty t | None => None end)
          (match snd (userinfo (u_netloc u)) with Some t => nonempty t | None => None end)
          (teq (u_scheme u) (lit "rediss+cluster")).
