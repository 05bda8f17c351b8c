(** Vocabulary for the properties of progress. *)
From Verif Require Import Base ZSet Model Spec Progress.

Definition preachable (c : cfg) (q : psys) : Prop := exists l, q = pfinal c init_psys l.

Fixpoint palong (c : cfg) (P : psys -> pop -> Prop) (q : psys) (l : list pop) : Prop :=
  match l with
  | [] => True
  | o :: l => P q o /\ palong c P (pstep c q o) l
  end.

(** The step reports progress through execution [h] of key [k], which is in the
    hands of a worker. *)
Definition reports (k : key) (q : psys) (h : Z) : Prop :=
  exists x, get_exec (s_execs (p_sys q)) h = Some x /\ m_key (x_msg x) = k /\
    (x_phase x = PClaimed \/ x_phase x = PBody \/ x_phase x = PEnded).

(** Current value, total and message of [k] after the reports made in [l], starting
    from [v]: increments (of at least 1) add up, the last total and the last message count. *)
Inductive told_progress (c : cfg) (k : key) : psys -> list pop -> Z * Z * option string -> Z * Z * option string -> Prop :=
| tp_nil q v : told_progress c k q [] v v
| tp_incr q h n t l a b m v : reports k q h -> 1 <= n ->
    told_progress c k (pstep c q (PIncr h n t)) l (a + n, b, m) v -> told_progress c k q (PIncr h n t :: l) (a, b, m) v
| tp_total q h n t l a b m v : reports k q h -> 1 <= n ->
    told_progress c k (pstep c q (PTotal h n t)) l (a, n, m) v -> told_progress c k q (PTotal h n t :: l) (a, b, m) v
| tp_message q h m' t l a b m v : reports k q h ->
    told_progress c k (pstep c q (PMessage h m' t)) l (a, b, m') v -> told_progress c k q (PMessage h m' t :: l) (a, b, m) v
| tp_other q o l u v :
    (match o with POp _ => True | PIncr h n _ | PTotal h n _ => n < 1 \/ ~ reports k q h | PMessage h _ _ => ~ reports k q h end) ->
    told_progress c k (pstep c q o) l u v -> told_progress c k q (o :: l) u v.

(** While a run of [k] of generation [g] is executing: nobody cancels [k], no other
    run of [k] is claimed, and the only runs of [k] that end are superseded ones of an
    earlier generation. *)
Definition running_on (c : cfg) (k : key) (g : Z) (q : psys) (o : pop) : Prop :=
  match o with
  | POp (OCancel k' _) | POp (OCancelCleanup k' _ _) => k' <> k
  | POp (OClaim h t) => forall x, get_exec (s_execs (p_sys q)) h = Some x -> m_key (x_msg x) = k ->
                          snd (step c (p_sys q) (OClaim h t)) <> OClaimed true
  | POp (OTerminal h _ _ _ _) => forall x, get_exec (s_execs (p_sys q)) h = Some x -> m_key (x_msg x) = k ->
                          m_gen (x_msg x) < g /\ ~ live (p_sys q) (x_msg x)
  | _ => True
  end.

(** Only execution [h] reports progress of [k]. *)
Definition alone_reporting (k : key) (h : Z) (q : psys) (o : pop) : Prop :=
  match o with PIncr h' _ _ | PTotal h' _ _ | PMessage h' _ _ => h' <> h -> ~ reports k q h' | POp _ => True end.

(** What a reader of the progress hash of [k] sees. *)
Definition seen (k : key) (q : psys) : option (Z * Z * option string) :=
  option_map (fun p => (p_current p, p_total p, p_message p)) (d_prog (s_db (p_sys q)) k).

(** No run of [k] is claimed and none reports. *)
Definition silent (c : cfg) (k : key) (q : psys) (o : pop) : Prop :=
  match o with
  | POp (OClaim h t) => forall x, get_exec (s_execs (p_sys q)) h = Some x -> m_key (x_msg x) = k ->
                          snd (step c (p_sys q) (OClaim h t)) <> OClaimed true
  | POp _ => True
  | PIncr h _ _ | PTotal h _ _ | PMessage h _ _ => ~ reports k q h
  end.
