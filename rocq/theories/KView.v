(** The part of the system that concerns one task key, as a small machine of its
    own, and the proof that every step of the full model acts on it through a
    list of key events (a refinement used by the invariant proofs). *)
From Verif Require Import Base ZSet Model GInv.

(** Everything stored or held for one key. *)
Record ks := mkKs {
  k_next : sid; k_last : sid;
  k_stream : list (sid * msg); k_parked : option msg; k_score : option Z;
  k_runs : option runs; k_prog : option prog; k_wait : list (string * (sid * msg));
  k_execs : list exec }.

Definition has_key (k : key) (e : sid * msg) : bool := String.eqb (m_key (snd e)) k.
Definition whas_key (k : key) (e : string * (sid * msg)) : bool := has_key k (snd e).
Definition xhas_key (k : key) (x : exec) : bool := String.eqb (m_key (x_msg x)) k.

Definition kd (k : key) (d : db) (xs : list exec) : ks :=
  mkKs (d_next d) (d_last d) (filter (has_key k) (d_stream d)) (d_parked d k) (zscore k (d_queue d))
    (d_runs d k) (d_prog d k) (filter (whas_key k) (d_wait d)) (filter (xhas_key k) xs).
Definition kabs (k : key) (s : sys) : ks := kd k (s_db s) (s_execs s).

Definition kset_next (v : ks) x := mkKs x (k_last v) (k_stream v) (k_parked v) (k_score v) (k_runs v) (k_prog v) (k_wait v) (k_execs v).
Definition kset_last (v : ks) x := mkKs (k_next v) x (k_stream v) (k_parked v) (k_score v) (k_runs v) (k_prog v) (k_wait v) (k_execs v).
Definition kset_stream (v : ks) x := mkKs (k_next v) (k_last v) x (k_parked v) (k_score v) (k_runs v) (k_prog v) (k_wait v) (k_execs v).
Definition kset_parked (v : ks) x := mkKs (k_next v) (k_last v) (k_stream v) x (k_score v) (k_runs v) (k_prog v) (k_wait v) (k_execs v).
Definition kset_score (v : ks) x := mkKs (k_next v) (k_last v) (k_stream v) (k_parked v) x (k_runs v) (k_prog v) (k_wait v) (k_execs v).
Definition kset_runs (v : ks) x := mkKs (k_next v) (k_last v) (k_stream v) (k_parked v) (k_score v) x (k_prog v) (k_wait v) (k_execs v).
Definition kset_prog (v : ks) x := mkKs (k_next v) (k_last v) (k_stream v) (k_parked v) (k_score v) (k_runs v) x (k_wait v) (k_execs v).
Definition kset_wait (v : ks) x := mkKs (k_next v) (k_last v) (k_stream v) (k_parked v) (k_score v) (k_runs v) (k_prog v) x (k_execs v).
Definition kset_execs (v : ks) x := mkKs (k_next v) (k_last v) (k_stream v) (k_parked v) (k_score v) (k_runs v) (k_prog v) (k_wait v) x.

Definition kr (v : ks) : runs := default empty_runs (k_runs v).
Definition khset (v : ks) (f : runs -> runs) : ks := kset_runs v (Some (f (kr v))).
Definition khdel (v : ks) (f : runs -> runs) : ks := kset_runs v (option_map f (k_runs v)).
Definition kadd (v : ks) (m : msg) : ks := kset_next (kset_stream v (k_stream v ++ [(k_next v, m)])) (k_next v + 1).
Definition kdel (v : ks) (i : sid) : ks := kset_stream v (del_entry i (k_stream v)).

Definition kplace (v : ks) (when : Z) (imm clr : bool) (m : msg) : ks :=
  let g := default 0 (r_gen (kr v)) + 1 in
  let v := khset v (rset_gen g) in
  let m := with_gen m g in
  if imm then let i := k_next v in khset (kadd v m) (rset_queued when i m)
  else
    let v := khset (kset_score (kset_parked v (Some m)) (Some when)) (rset_scheduled when m) in
    if clr then khdel v rdel_sid else v.

Definition kexists (v : ks) : bool :=
  if is_some (r_known (kr v)) then true
  else match r_state (kr v) with Some SRunning => true | _ => false end.

Definition kreplace_existing (v : ks) : ks :=
  let v := match r_sid (kr v) with Some i => kdel v i | None => v end in
  kset_score (kset_parked v None) None.

Definition ksched (v : ks) (repl imm : bool) (a : call) : ks :=
  if negb repl && kexists v then v
  else kplace (if repl then kreplace_existing v else v) (a_when a) imm false (call_msg a).

Definition kresched (v : ks) (mid : sid) (when : Z) (imm : bool) (m : msg) : ks :=
  khdel (kplace (kdel v mid) when imm true m) rdel_worker.

Definition ksuper (v : ks) (gen : Z) : bool :=
  (0 <? gen) && match r_gen (kr v) with None => true | Some c => gen <? c end.

Definition kclaim (v : ks) (w : string) (t gen : Z) (mid : sid) : ks :=
  if ksuper v gen then kdel v mid
  else khdel (kset_prog (khset v (rset_running w t)) (Some (mkProg 0 100 (Some gen) None None))) rdel_known.

Definition kprog_mine (v : ks) (gen : Z) : bool :=
  match k_prog v with
  | None => true
  | Some p => match p_gen p with None => true | Some g => g <=? gen end
  end.

Definition kexpire (v : ks) (now ttl : Z) : ks :=
  if 0 <? ttl then khdel v (rset_expire (Some (now + ttl * 1000000))) else kset_runs v None.

Definition kterminal (v : ks) (gen : Z) (s : state) (t now ttl : Z) (err res : option string) (mid : sid) : ks :=
  if ksuper v gen then kdel (if kprog_mine v gen then kset_prog v None else v) mid
  else kdel (kset_prog (kexpire (khset v (rset_terminal s t err res)) now ttl) None) mid.

Definition kcancel (v : ks) (t : Z) : ks :=
  let v := kset_prog (kreplace_existing v) None in
  let v := khdel v rdel_known in
  match r_state (kr v) with
  | Some SCompleted | Some SFailed | Some SCancelled => v
  | _ => khset v (rset_cancelled t)
  end.

Definition kmove (v : ks) : ks :=
  match k_parked v with
  | None => v
  | Some m => khset (kset_parked (kadd v m) None) (rset_state SQueued)
  end.

Definition kpark (v : ks) (c : string) (mid : sid) (m : msg) : ks :=
  let v := kdel v mid in
  let g := default 0 (r_gen (kr v)) + 1 in
  let v := khset v (rset_gen g) in
  let m := with_gen m g in
  let i := k_next v in
  let v := kset_next (kset_wait v (k_wait v ++ [(c, (i, m))])) (i + 1) in
  khdel (khset v (rset_parked c i m)) rdel_sid.

Definition kdel_waiter (c : string) (i : sid) (v : ks) : ks :=
  kset_wait v (filter (fun e => negb (String.eqb (fst e) c && (fst (snd e) =? i))) (k_wait v)).

Definition kwake (v : ks) (c : string) (wid : sid) (m : msg) : ks :=
  match r_state (kr v) with
  | Some SScheduled =>
      let g := default 0 (r_gen (kr v)) + 1 in
      let v := khset v (rset_gen g) in
      let i := k_next v in
      khset (kdel_waiter c wid (kadd v (with_gen m g))) (rset_woken i)
  | _ => kdel_waiter c wid v
  end.

Definition kcleanup (v : ks) (c : string) (i : sid) : ks :=
  khdel (kset_prog (kdel_waiter c i v) None) rdel_waiter.

Definition kphase (v : ks) (h : Z) (f : exec -> exec) : ks := kset_execs v (upd_exec (k_execs v) h f).

(** Events of one key. *)
Inductive kev :=
| KIdle (n l : Z)                      (* other keys' activity: ids advance *)
| KForget                              (* the record is deleted or expires *)
| KSetExpire (t : Z)
| KDropStream | KDropQueue | KDropParked  (* clear *)
| KDropScore                           (* scheduler, after moving *)
| KSched (repl imm : bool) (a : call)
| KCancel (t : Z)
| KMove (t : Z)
| KDeliver (x : exec) (l : Z)
| KCrash (w : string)
| KClaim (x : exec) (t : Z)
| KPhase (x : exec) (p : phase)
| KSlot (x : exec) (o : option (string * Z))
| KStruck (x : exec)
| KFinish (x : exec) (s : state) (t now : Z) (err res : option string)
| KResched (x : exec) (when : Z) (bump imm : bool)
| KPark (x : exec) (c : string)
| KWake (c : string) (wid : sid) (m : msg)
| KCleanup (c : string) (i : sid)
| KUnpark.                             (* a safeguard is dropped, with its record *)

Definition kapply (c : cfg) (v : ks) (e : kev) : ks :=
  match e with
  | KIdle n l => kset_last (kset_next v n) l
  | KForget => kset_runs v None
  | KSetExpire t => khdel v (rset_expire (Some t))
  | KDropStream => kset_stream v []
  | KDropScore | KDropQueue => kset_score v None
  | KDropParked => kset_parked v None
  | KSched repl imm a => ksched v repl imm a
  | KCancel t => kcancel v t
  | KMove _ => kmove v
  | KDeliver x l => kset_last (kset_execs v (k_execs v ++ [x])) l
  | KCrash w => kset_execs v (filter (fun x => negb (String.eqb (x_worker x) w)) (k_execs v))
  | KClaim x t =>
      let v' := kclaim v (x_worker x) t (m_gen (x_msg x)) (x_mid x) in
      kphase v' (x_id x) (with_phase (if ksuper v (m_gen (x_msg x)) then PDone else PClaimed))
  | KPhase x p => kphase v (x_id x) (with_phase p)
  | KSlot x o => kphase v (x_id x) (with_slot o)
  | KStruck x => kphase (khdel v rdel_known) (x_id x) (with_phase PStruck)
  | KFinish x s t now err res =>
      kphase (kterminal v (m_gen (x_msg x)) s t now (c_ttl c) err res (x_mid x)) (x_id x) (with_phase PDone)
  | KResched x when bump imm =>
      kphase (kresched v (x_mid x) when imm (resched_msg (x_msg x) when bump)) (x_id x) (with_phase PDone)
  | KPark x cc => kphase (kpark v cc (x_mid x) (x_msg x)) (x_id x) (with_phase PDone)
  | KWake cc wid m => kwake v cc wid m
  | KCleanup cc i => kcleanup v cc i
  | KUnpark => kset_runs (kset_score (kset_parked v None) None) None
  end.

(** When an event can happen. *)
Definition kok (k : key) (v : ks) (e : kev) : Prop :=
  match e with
  | KIdle n l => k_next v <= n /\ k_last v <= l /\ l < n
  | KSched _ _ a => a_key a = k
  | KDropScore => k_parked v = None
  | KMove t => exists w, k_score v = Some w /\ 0 <= w <= t
  | KDeliver x l => In (x_mid x, x_msg x) (k_stream v) /\ m_key (x_msg x) = k /\ x_phase x = PDelivered /\
      x_slot x = None /\ k_last v <= l /\ l < k_next v /\ x_mid x <= l /\
      (x_redel x = false -> k_last v < x_mid x) /\
      (forall y, In y (k_execs v) -> x_id y < x_id x)
  | KClaim x _ | KStruck x => In x (k_execs v) /\ x_phase x = PDelivered
  | KPhase x p => In x (k_execs v) /\
      ((x_phase x = PClaimed /\ (p = PBody \/ p = PEnded)) \/ (x_phase x = PBody /\ p = PEnded))
  | KSlot x o => In x (k_execs v)
  | KFinish x s _ _ _ _ => In x (k_execs v) /\ may_finish (x_phase x) s = true
  | KResched x _ _ _ => In x (k_execs v) /\ may_resched (x_phase x) = true
  | KPark x _ => In x (k_execs v) /\ x_phase x = PClaimed
  | KWake cc wid m => In (cc, (wid, m)) (k_wait v)
  | _ => True
  end.

(** Sequences of events. *)
Inductive kpath (c : cfg) (k : key) : ks -> list kev -> ks -> Prop :=
| kp_nil v : kpath c k v [] v
| kp_cons v e es v' : kok k v e -> kpath c k (kapply c v e) es v' -> kpath c k v (e :: es) v'.

Lemma kpath_app c k v es v' es' v'' :
  kpath c k v es v' -> kpath c k v' es' v'' -> kpath c k v (es ++ es') v''.
Proof. induction 1; simpl; [auto|intros]. constructor; auto. Qed.

Lemma kpath_one c k v e : kok k v e -> kpath c k v [e] (kapply c v e).
Proof. intros H; constructor; [exact H|constructor]. Qed.

(** Which operation causes which events. *)
Definition label (k : key) (o : op) (e : kev) : Prop :=
  match e with
  | KIdle _ _ => True
  | KForget =>
      match o with
      | OTick _ | OClearApply _ => True
      | OCancelFinish k' => k' = k
      | _ => False end
  | KSetExpire _ => match o with OCancelFinish k' => k' = k | OClearApply _ => True | _ => False end
  | KUnpark => match o with ORelease _ _ | OScavenge _ _ _ => exists k', k = safeguard_key k' | _ => False end
  | KDropStream | KDropQueue | KDropParked => exists w, o = OClearApply w
  | KDropScore => exists t, o = OScheduler t
  | KSched r imm a => exists t, o = (if r then OReplace a t else OAdd a t) /\ imm = (a_when a <=? t)
  | KCancel t => o = OCancel k t
  | KMove t => o = OScheduler t
  | KDeliver x _ => if x_redel x then o = OAutoclaim (x_worker x) (x_mid x) else o = ORead (x_worker x)
  | KCrash w => o = OCrash w
  | KClaim x t => o = OClaim (x_id x) t
  | KPhase x p =>
      (o = OBodyStart (x_id x) /\ p = PBody) \/ (o = OBodyEnd (x_id x) /\ p = PEnded) \/
      (exists t, o = ORelease (x_id x) t /\ p = PEnded)
  | KSlot x s => match s with Some (cc, mx) => exists t, o = OAcquire (x_id x) cc mx t
                            | None => exists t, o = ORelease (x_id x) t end
  | KStruck x => o = ODelKnown (x_id x)
  | KFinish x s t _ err res => o = OTerminal (x_id x) s t err res
  | KResched x w b imm => exists t, o = OResched (x_id x) w b t /\ imm = (w <=? t)
  | KPark x cc => exists mx t, o = OAcquire (x_id x) cc mx t
  | KWake cc _ _ => (exists h t, o = ORelease h t) \/ (exists mx t, o = OScavenge cc mx t)
  | KCleanup cc i => o = OCancelCleanup k cc i
  end.
