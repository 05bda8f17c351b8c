(** Which argument belongs to which parameter: inspect.Signature.bind as docket uses it to
    look at the arguments of a call (/repo/src/docket/strikelist.py:391-406,
    /repo/src/docket/execution.py:623-626,
    /repo/src/docket/dependencies/_resolution.py:184-213).  No proofs in this file.

    [B1] Signature.bind is Python's own (inspect.py, 3.10 to 3.12: a positional-only
         parameter passed by keyword is a TypeError; from 3.13 it goes to the
         var-keyword parameter).
    [B2] The value of a var-keyword parameter and a Dependency object standing as a default
         are lists here: like them, they equal no hashable value and have no order. *)
From Verif Require Import Base Text Strike.

Inductive pkind := POnly | PEither | PStar | KOnly | KStar.
Inductive dflt := DNone | DValue (v : pv) | DDependency.
Record parm := mkParm { q_name : string; q_kind : pkind; q_default : dflt }.

Definition kwargs := list (string * pv).
Definition kget (kw : kwargs) (n : string) : option pv :=
  option_map snd (find (fun e => String.eqb (fst e) n) kw).
Definition kdel (kw : kwargs) (n : string) : kwargs := filter (fun e => negb (String.eqb (fst e) n)) kw.

Definition has_default (p : parm) : bool := match q_default p with DNone => false | _ => true end.
Definition dict (kw : kwargs) : pv := PList (map (fun e => PTup [PStr (fst e); snd e]) kw).
Definition object : pv := PList [].

(** Signature._bind, first loop: the positional arguments; what is left of the
    parameters. *)
Fixpoint bind_positional (ps : list parm) (args : list pv) (kw : kwargs) {struct ps} : option (kwargs * list parm) :=
  match ps with
  | [] => match args with [] => Some ([], []) | _ => None end
  | p :: r =>
      match args with
      | [] =>
          match q_kind p with
          | PStar => Some ([], r)
          | POnly => if is_some (kget kw (q_name p)) then None else if has_default p then Some ([], ps) else None
          | KStar => Some ([], ps)
          | _ => if is_some (kget kw (q_name p)) || has_default p then Some ([], ps) else None
          end
      | a :: args' =>
          let go := match bind_positional r args' kw with Some (b, rest) => Some ((q_name p, a) :: b, rest) | None => None end in
          match q_kind p with
          | KOnly | KStar => None
          | PStar => Some ([(q_name p, PTup args)], r)
          | PEither => if is_some (kget kw (q_name p)) then None else go
          | POnly => go
          end
      end
  end.

(** Second loop: the keyword arguments; the var-keyword parameter, and the keywords nobody
    took. *)
Fixpoint bind_keywords (ps : list parm) (kw : kwargs) : option (kwargs * option string * kwargs) :=
  match ps with
  | [] => Some ([], None, kw)
  | p :: r =>
      match q_kind p with
      | KStar => match bind_keywords r kw with Some (b, _, rest) => Some (b, Some (q_name p), rest) | None => None end
      | PStar => bind_keywords r kw
      | k =>
          match kget kw (q_name p) with
          | Some v =>
              match k with
              | POnly => None
              | _ => match bind_keywords r (kdel kw (q_name p)) with
                     | Some (b, ks, rest) => Some ((q_name p, v) :: b, ks, rest)
                     | None => None
                     end
              end
          | None => if has_default p then bind_keywords r kw else None
          end
      end
  end.

(** Signature.bind; None: TypeError. *)
Definition bind (ps : list parm) (args : list pv) (kw : kwargs) : option kwargs :=
  match bind_positional ps args kw with
  | None => None
  | Some (b1, rest) =>
      match bind_keywords rest kw with
      | None => None
      | Some (b2, ks, over) =>
          match over, ks with
          | [], _ => Some (b1 ++ b2)
          | _, Some n => Some (b1 ++ b2 ++ [(n, dict over)])
          | _, None => None
          end
      end
  end.

(** BoundArguments.apply_defaults *)
Definition with_default (b : kwargs) (p : parm) : kwargs :=
  match kget b (q_name p) with
  | Some v => [(q_name p, v)]
  | None =>
      match q_kind p, q_default p with
      | PStar, _ => [(q_name p, PTup [])]
      | KStar, _ => [(q_name p, dict [])]
      | _, DValue v => [(q_name p, v)]
      | _, DDependency => [(q_name p, object)]
      | _, DNone => []
      end
  end.
Definition apply_defaults (ps : list parm) (b : kwargs) : kwargs := flat_map (with_default b) ps.

(** strikelist.py:391-406: the arguments a strike is compared with; None: the call is taken
    to be fine. *)
Definition all_arguments (ps : list parm) (args : list pv) (kw : kwargs) : option kwargs :=
  match bind ps args kw with
  | None => None
  | Some b =>
      let b := apply_defaults ps b in
      Some (b ++ filter (fun e => negb (is_some (kget b (fst e)))) kw)
  end.

(** ** Grouping by an argument *)

(** execution.py:623-626 get_argument; None: TypeError or KeyError. *)
Definition get_argument (ps : list parm) (args : list pv) (kw : kwargs) (n : string) : option pv :=
  match bind ps args kw with Some b => kget b n | None => None end.

(** _resolution.py:211-213: the value an Annotated dependency is bound to; [deps] are the
    parameters resolved so far (lines 184-207).  None: None. *)
Definition annotation_value (kw deps : kwargs) (n : string) : option pv :=
  match kget kw n with Some v => Some v | None => kget deps n end.

(** f"{value}" of texts and integers; [rep] of other values. *)
Definition show (rep : pv -> string) (v : pv) : string :=
  match v with PInt z => dec z | PStr s => s | _ => rep v end.
Definition show_opt (rep : pv -> string) (o : option pv) : string :=
  match o with Some v => show rep v | None => "None"%string end.

(** The dependencies that limit runs by the value of the parameter they annotate. *)
Inductive gate := GConcurrency | GCooldown | GRateLimit | GDebounce.

(** The name under which such a run is counted.  [prefix] is docket.prefix, [name]
    docket.name.  ConcurrencyLimit: _concurrency.py:501-541 (None: ValueError, the task
    fails); Cooldown: _cooldown.py:41-57; RateLimit: _ratelimit.py:106-122; Debounce:
    _debounce.py:103-123 (the name of the winner key). *)
Definition group (rep : pv -> string) (prefix name : string) (scope : option string) (g : gate) (p : string)
    (ps : list parm) (args : list pv) (kw deps : kwargs) : option string :=
  let scope' := match given scope with Some s => s | None => name end in
  let tag := (p ++ ":" ++ show_opt rep (annotation_value kw deps p))%string in
  match g with
  | GConcurrency =>
      let scope' := match given scope with Some s => (prefix ++ ":" ++ s)%string | None => prefix end in
      option_map (fun v => (scope' ++ ":concurrency:" ++ p ++ ":" ++ show rep v)%string) (get_argument ps args kw p)
  | GCooldown => Some (scope' ++ ":cooldown:" ++ tag)%string
  | GRateLimit => Some (scope' ++ ":ratelimit:" ++ tag)%string
  | GDebounce => Some (scope' ++ ":debounce:" ++ tag ++ ":{" ++ tag ++ "}:winner")%string
  end.

(** ** TaskArgument *)
(** dependencies/_contextual.py:93-103 _TaskArgument.__aenter__; the parameter is named, or
    inferred from the dependency's own parameter (_functional.py:44-45). *)
Inductive ta_result := TAValue (v : pv) | TANone | TAKeyError | TATypeError.
Definition task_argument (optional : bool) (ps : list parm) (args : list pv) (kw : kwargs) (n : string) : ta_result :=
  match bind ps args kw with
  | None => TATypeError
  | Some b =>
      match kget b n with
      | Some v => TAValue v
      | None => if optional then TANone else TAKeyError
      end
  end.

(** Limits side by side: one state for every name in Redis; the answers in order. *)
Fixpoint side_by_side {St Ev Rep : Type} (stp : St -> Ev -> St * Rep) (m : string -> St) (l : list (string * Ev)) : list (string * (Ev * Rep)) :=
  match l with
  | [] => []
  | (k, e) :: l => (k, (e, snd (stp (m k) e))) :: side_by_side stp (upd m k (fst (stp (m k) e))) l
  end.
(** One limit alone. *)
Fixpoint alone_trace {St Ev Rep : Type} (stp : St -> Ev -> St * Rep) (s : St) (l : list Ev) : list (Ev * Rep) :=
  match l with
  | [] => []
  | e :: l => (e, snd (stp s e)) :: alone_trace stp (fst (stp s e)) l
  end.
