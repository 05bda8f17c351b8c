(** C103: with one message a worker makes one pass. *)
From Verif Require Import Base Model GInv RecoverProofs WorkerOps SpecExecute.
From Verif Require Execute ExecuteProofs PropsExecute PropsHist.

(** The execution an operation is about. *)
Definition about (o : op) : option Z :=
  match o with
  | OClaim h _ | OBodyStart h | OBodyEnd h | ODelKnown h | OTerminal h _ _ _ _ | OResched h _ _ _
  | OAcquire h _ _ _ | ORelease h _ | ORenewSlot h _ => Some h
  | _ => None
  end.
(** What others may do: anything but act for this execution, or end its worker; the slot is also
    renewed by its own timer. *)
Definition others_do (h : Z) (w : string) (o : op) : Prop :=
  (about o = Some h -> exists t, o = ORenewSlot h t) /\ o <> OCrash w.

(** The own operations of a history, and those among them the docket refuses (a slot that is not held is not given
    back). *)
Fixpoint owns (l : list hop) : list (op * option out) :=
  match l with [] => [] | Own o a :: l => (o, a) :: owns l | Other _ :: l => owns l end.
Definition is_refused (r : out) : bool := match r with ORefused => true | _ => false end.
Definition gives_back (o : op) : bool := match o with ORelease _ _ => true | _ => false end.
Fixpoint refusals (c : cfg) (s : sys) (l : list hop) : list op :=
  match l with
  | [] => []
  | x :: l =>
      let r := snd (step c s (hop_op x)) in
      match x with Own o _ => if is_refused r && negb (gives_back o) then [o] else [] | Other _ => [] end
      ++ refusals c (fst (step c s (hop_op x))) l
  end.
(** The answers are those the worker acted on. *)
Fixpoint answered (c : cfg) (s : sys) (l : list hop) : Prop :=
  match l with
  | [] => True
  | x :: l => match x with Own o (Some a) => snd (step c s o) = a | _ => True end /\ answered c (fst (step c s (hop_op x))) l
  end.
Definition others_ok (h : Z) (w : string) (l : list hop) : Prop := forall o, In (Other o) l -> others_do h w o.
Definition after (c : cfg) (s : sys) (l : list hop) : sys := final c s (map hop_op l).

(** ** One execution through a history *)
Lemma get_filter (f : exec -> bool) l h x : get_exec l h = Some x -> f x = true -> get_exec (filter f l) h = Some x.
Proof.
  unfold get_exec. induction l as [|y l IH]; cbn; [discriminate|]. destruct (x_id y =? h) eqn:E.
  - intros [= ->] F. rewrite F. cbn. now rewrite E.
  - intros H F. destruct (f y); cbn; [rewrite E|]; auto.
Qed.
Lemma other_keeps c s o h w x : others_do h w o -> x_worker x = w -> get_exec (s_execs s) h = Some x ->
  get_exec (s_execs (fst (step c s o))) h = Some x.
Proof.
  intros [O1 O2] W G. destruct o; cbn [step about] in *;
    try (assert (N : h0 <> h) by (intros ->; destruct (O1 eq_refl) as [? H]; discriminate H));
    try (destruct (get_exec (s_execs s) h0) as [y|]; [|exact G]);
    try (destruct (x_phase y); try exact G; cbn [fst set_execs s_execs]; rewrite ?get_upd_other by (auto; intros z; reflexivity); exact G).
  - destruct (0 <=? dt); exact G.
  - destruct (do_schedule _ _ _ _); exact G.
  - destruct (do_schedule _ _ _ _); exact G.
  - exact G.
  - exact G.
  - exact G.
  - exact G.
  - destruct (ready_clear s _); [destruct (clear_apply _ _ _)|]; exact G.
  - destruct (lua_stream_due _ _) as [? [? ?]]; exact G.
  - destruct (read_group _ _) as [d' [[i m]|]]; cbn; [now apply get_exec_app|exact G].
  - destruct (autoclaim _ _ _ _) as [d' [[j m]|]]; cbn; [now apply get_exec_app|exact G].
  - exact G.
  - destruct (x_phase y); try exact G. destruct (lua_claim _ _ _ _ _ _) as [d' []]; cbn [fst set_execs s_execs]; rewrite ?get_upd_other by (auto; intros z; reflexivity); exact G.
  - destruct (may_finish _ _); [|exact G]. destruct (lua_terminal _ _ _ _ _ _ _ _ _) as [d' r]. cbn [fst set_execs s_execs]. rewrite get_upd_other by (auto; intros z; reflexivity); exact G.
  - destruct (may_resched _); [|exact G]. destruct (lua_schedule _ _ _ _ _ _ _) as [d' r]. cbn [fst set_execs s_execs]. rewrite get_upd_other by (auto; intros z; reflexivity); exact G.
  - destruct (x_phase y); try exact G. destruct (x_slot y); [exact G|]. destruct (lua_acquire_or_park _ _ _ _ _ _ _ _ _ _) as [d' []]; cbn [fst set_execs s_execs]; rewrite get_upd_other by (auto; intros z; reflexivity); exact G.
  - destruct (x_slot y) as [[cc mc]|]; [|exact G]. destruct (x_phase y); try exact G; cbn [fst set_execs s_execs]; rewrite get_upd_other by (auto; intros z; unfold unwind, with_slot, with_phase; destruct (x_phase z); reflexivity); exact G.
  - destruct (x_slot y) as [[cc mc]|]; exact G.
  - exact G.
  - exact G.
  - cbn [fst s_execs]. apply get_filter; [exact G|]. apply negb_true_iff, String.eqb_neq. intros E. apply O2. congruence.
Qed.

(** ** The pass, as states of one execution *)
Inductive ast := AStart | AStruck | AClaimed | ABody | AOpen | ADone.
Definition agrees (a : ast) (p : phase) : Prop :=
  match a with
  | AStart => p = PDelivered | AStruck => p = PStruck | AClaimed => p = PClaimed | ABody => p = PBody
  | AOpen => p = PClaimed \/ p = PEnded | ADone => p = PDone
  end.
Definition opacc (h : Z) (a : ast) (q : op * option out) : option ast :=
  match q, a with
  | (OClaim i _, Some (OClaimed true)), AStart => if i =? h then Some AClaimed else None
  | (OClaim i _, Some (OClaimed false)), AStart => if i =? h then Some ADone else None
  | (ODelKnown i, None), AStart => if i =? h then Some AStruck else None
  | (OTerminal i st _ _ _, None), AStruck => if (i =? h) && state_eqb st SCancelled then Some ADone else None
  | (OAcquire i _ _ _, Some (OAcquired true)), AClaimed => if i =? h then Some AClaimed else None
  | (OAcquire i _ _ _, Some (OAcquired false)), AClaimed => if i =? h then Some ADone else None
  | (OBodyStart i, None), AClaimed => if i =? h then Some ABody else None
  | (OBodyEnd i, None), ABody => if i =? h then Some AOpen else None
  | (OTerminal i st _ _ _, None), (AClaimed | AOpen) => if (i =? h) && is_mark st then Some ADone else None
  | (OResched i _ _ _, None), (AClaimed | AOpen) => if i =? h then Some ADone else None
  | (ORelease i _, None), (AClaimed | AOpen) => if i =? h then Some AOpen else None
  | (ORelease i _, None), ADone => if i =? h then Some ADone else None
  | _, _ => None
  end.
Fixpoint opsacc (h : Z) (a : ast) (l : list (op * option out)) : option ast :=
  match l with [] => Some a | q :: l => match opacc h a q with Some a' => opsacc h a' l | None => None end end.

(** One own operation. *)
Lemma own_step c s h w x a o want a' : get_exec (s_execs s) h = Some x -> x_worker x = w -> agrees a (x_phase x) -> opacc h a (o, want) = Some a' ->
  (match want with Some r => snd (step c s o) = r | None => True end) ->
  (is_refused (snd (step c s o)) && negb (gives_back o) = false) /\
  exists x', get_exec (s_execs (fst (step c s o))) h = Some x' /\ x_worker x' = w /\ agrees a' (x_phase x').
Proof.
  intros G W A O N.
  destruct o; destruct a; cbn [opacc] in O; try discriminate O; try (destruct want as [[]|]; discriminate O);
    repeat match type of O with context [match ?r with _ => _ end] => destruct r eqn:?; try discriminate O end;
    repeat match goal with E : (_ =? _) = true |- _ => apply Z.eqb_eq in E | E : (_ =? _) && _ = true |- _ => apply andb_true_iff in E as [E ?]; apply Z.eqb_eq in E end; subst;
    injection O as <-; cbn [agrees] in A; cbn [step] in *; rewrite G in *.
  all: assert (U : forall d f (F : forall y, x_id (f y) = x_id y) (Fw : forall y, x_worker (f y) = x_worker y),
    exists x', get_exec (s_execs (set_execs s d (upd_exec (s_execs s) h f))) h = Some x' /\ x_worker x' = x_worker x /\ x_phase x' = x_phase (f x))
    by (intros d f F Fw; exists (f x); cbn [set_execs s_execs]; repeat split; [now apply get_upd_same|apply Fw]).
  all: try (destruct A as [A|A]); rewrite A in *; cbn [may_finish may_resched] in *.
  all: repeat match goal with E : ?b = true |- context [if ?b then _ else _] => rewrite E end.
  all: try (match goal with |- context [lua_claim ?a ?b ?c ?d ?e ?f] => destruct (lua_claim a b c d e f) as [d' []] eqn:L end).
  all: try (match goal with |- context [lua_terminal ?a ?b ?c ?d ?e ?f ?g ?i ?j] => destruct (lua_terminal a b c d e f g i j) as [d' r'] eqn:L end).
  all: try (match goal with |- context [lua_schedule ?a ?b ?c ?d ?e ?f ?g] => destruct (lua_schedule a b c d e f g) as [d' r'] eqn:L end).
  all: try (match goal with |- context [match x_slot ?z with _ => _ end] => destruct (x_slot z) as [[cc mc]|] eqn:SL end).
  all: try (match goal with |- context [lua_acquire_or_park ?a ?b ?c ?d ?e ?f ?g ?i ?j ?k] => destruct (lua_acquire_or_park a b c d e f g i j k) as [d' b'] eqn:L end).
  all: cbn [fst snd is_refused gives_back negb andb] in *; try discriminate.
  all: split; [reflexivity|].
  all: try (injection N as ->).
  all: try (eexists; split; [exact G|]; split; [reflexivity|]; cbn [agrees]; tauto).
  all: cbn [agrees]; match goal with |- context [set_execs _ ?d (upd_exec _ _ ?f)] => destruct (U d f) as (x' & U1 & U2 & U3); [intros z; unfold unwind, with_slot, with_phase; try destruct (x_phase z); reflexivity..|] end;
    exists x'; split; [exact U1|]; split; [exact U2|]; rewrite U3; unfold unwind, with_slot, with_phase; cbn; rewrite ?A; cbn; auto.
Qed.

(** A whole history. *)
Lemma pass_sound c h w l : forall s a a' x, get_exec (s_execs s) h = Some x -> x_worker x = w -> agrees a (x_phase x) ->
  opsacc h a (owns l) = Some a' -> others_ok h w l -> answered c s l ->
  refusals c s l = [] /\ exists x', get_exec (s_execs (after c s l)) h = Some x' /\ x_worker x' = w /\ agrees a' (x_phase x').
Proof.
  induction l as [|e l IH]; intros s a a' x G W A O T N.
  - cbn in O. injection O as <-. split; [reflexivity|]. exists x. auto.
  - unfold after in *. cbn [map]. unfold final in *. cbn [run refusals]. destruct N as [N1 N2].
    assert (T' : others_ok h w l) by (intros o Ho; apply T; now right).
    destruct e as [o want|o]; cbn [hop_op owns opsacc] in *.
    + destruct (opacc h a (o, want)) as [a1|] eqn:E; [|discriminate O].
      destruct (own_step c s h w x a o want a1 G W A E) as (R & x1 & G1 & W1 & A1).
      { destruct want; [exact N1|exact I]. }
      destruct (IH _ _ _ _ G1 W1 A1 O T' N2) as (R2 & F). rewrite R, R2. split; [reflexivity|].
      destruct (step c s o) as [s1 r1]. cbn [fst] in *. destruct (run c s1 (map hop_op l)) as [s2 r2]. exact F.
    + assert (G1 : get_exec (s_execs (fst (step c s o))) h = Some x) by (eapply other_keeps; [apply T; left; reflexivity|exact W|exact G]).
      destruct (IH _ _ _ _ G1 W A O T' N2) as (R2 & F). rewrite R2. split; [reflexivity|].
      destruct (step c s o) as [s1 r1]. cbn [fst] in *. destruct (run c s1 (map hop_op l)) as [s2 r2]. exact F.
Qed.

(** The pass, on the level of events. *)
Definition evacc (a : ast) (v : Execute.ev) : option ast :=
  match v, a with
  | Execute.EStruck, AStart | Execute.ESuperseded, AStart | Execute.EParked, AClaimed => Some ADone
  | Execute.KStarted, AStart => Some AClaimed
  | Execute.EBody, AClaimed => Some AOpen
  | (Execute.ECompleted | Execute.EFailed | Execute.ECancelled | Execute.ERetried | Execute.ERescheduled | Execute.EDropped), (AClaimed | AOpen) => Some ADone
  | Execute.KFailed, AClaimed => Some AOpen
  | Execute.KRunning n, AClaimed => Some (if n =? -1 then AOpen else AClaimed)
  | (Execute.EPut | Execute.ENext | Execute.KSucceeded | Execute.KFinished), AClaimed => Some a
  | (Execute.EPut | Execute.ENext | Execute.KSucceeded | Execute.KFinished | Execute.KFailed | Execute.KRunning _), (AOpen | ADone) => Some a
  | _, _ => None
  end.
Fixpoint evsacc (a : ast) (l : list Execute.ev) : option ast :=
  match l with [] => Some a | v :: l => match evacc a v with Some a' => evsacc a' l | None => None end end.
Lemma opsacc_app h l1 l2 : forall a, opsacc h a (l1 ++ l2) = match opsacc h a l1 with Some a' => opsacc h a' l2 | None => None end.
Proof. induction l1 as [|q l1 IH]; intros a; cbn; [reflexivity|]. destruct (opacc h a q); [apply IH|reflexivity]. Qed.

Definition ale (a b : ast) : Prop := a = b \/ (a = AClaimed /\ b = AOpen).
Lemma opacc_open h q b : opacc h AOpen q = Some b -> opacc h AClaimed q = Some b.
Proof. destruct q as [o w]. destruct o; destruct w as [[]|]; cbn; intros H; try discriminate H; try exact H; destruct b0; discriminate H. Qed.
Lemma opsacc_le h l : forall a a' b, ale a a' -> opsacc h a' l = Some b -> exists b', opsacc h a l = Some b' /\ ale b' b.
Proof.
  intros a a' b [->|[-> ->]] H; [exists b; split; [exact H|now left]|]. destruct l as [|q l]; cbn in *.
  - injection H as <-. exists AClaimed. split; [reflexivity|now right].
  - destruct (opacc h AOpen q) as [a1|] eqn:E; [|discriminate]. rewrite (opacc_open _ _ _ E). exists b. split; [exact H|now left].
Qed.
Lemma does_acc h v l a a' : does h v l -> evacc a v = Some a' -> exists b, opsacc h a l = Some b /\ ale b a'.
Proof.
  intros D E. destruct D; destruct a; cbn in E; try discriminate E; injection E as <-; cbn; rewrite ?Z.eqb_refl; cbn; subst;
    try (eexists; split; [reflexivity|]; first [now left | now right]).
  all: destruct (n =? -1); eexists; (split; [reflexivity|]); first [now left | now right].
Qed.
Lemma does_all_acc h vs l : does_all h vs l -> forall a a', evsacc a vs = Some a' -> exists b, opsacc h a l = Some b /\ ale b a'.
Proof.
  induction 1 as [|v vs l l' D _ IH]; intros a a' E; cbn in E; [injection E as <-; exists a; split; [reflexivity|now left]|].
  destruct (evacc a v) as [a1|] eqn:E1; [|discriminate]. destruct (does_acc h v l a a1 D E1) as (b1 & B1 & L1).
  destruct (IH a1 a' E) as (b2 & B2 & L2). destruct (opsacc_le h l' b1 a1 b2 L1 B2) as (b3 & B3 & L3).
  exists b3. rewrite opsacc_app, B1. split; [exact B3|]. destruct L2 as [->|[-> ->]], L3 as [->|[-> L3]]; subst; try discriminate; unfold ale; auto.
Qed.

(** What the events of any execution look like. *)
Definition inner (v : Execute.ev) : bool :=
  match v with Execute.EStruck | Execute.ESuperseded | Execute.EParked | Execute.EBody | Execute.KStarted => false | _ => true end.
Definition Shape (l : list Execute.ev) : Prop :=
  l = [Execute.EStruck] \/ l = [Execute.ESuperseded] \/
  exists n (b : bool) r, l = Execute.KStarted :: Execute.KRunning 1 :: repeat Execute.EParked n ++ (if b then [Execute.EBody] else []) ++ r /\
    forallb inner r = true /\ (b = true -> n = 0%nat).
Lemma entering_repeat l : exists n, Execute.entering l = repeat Execute.EParked n /\ (n <> 0%nat -> Execute.dep_failure l <> None).
Proof.
  assert (H : exists n, Execute.entering l = repeat Execute.EParked n /\ (n <> 0%nat -> exists r, In (Execute.XBlocked true r) (Execute.failures l))).
  { induction l as [|d l (n & IH1 & IH2)]; [exists 0%nat; split; [reflexivity|easy]|]. unfold Execute.entering in *. cbn [flat_map Execute.failures]. rewrite IH1.
    destruct d as [fh ch ex|ex|[hd r| | |]]; try (exists n; split; [reflexivity|intros H; destruct (IH2 H) as [r' Hr]; exists r'; cbn; auto]).
    destruct hd; [exists (S n); split; [reflexivity|intros _; exists r; left; reflexivity]|exists n; split; [reflexivity|intros H; destruct (IH2 H) as [r' Hr]; exists r'; cbn; auto]]. }
  destruct H as (n & H1 & H2). exists n. split; [exact H1|]. intros N. destruct (H2 N) as [r Hr]. unfold Execute.dep_failure.
  destruct (find Execute.is_blocked (Execute.failures l)) eqn:F; [discriminate|]. apply find_none with (x := Execute.XBlocked true r) in F; [discriminate|exact Hr].
Qed.
Definition Mid (l : list Execute.ev) : Prop :=
  exists n (b : bool) r, l = repeat Execute.EParked n ++ (if b then [Execute.EBody] else []) ++ r /\ forallb inner r = true /\ (b = true -> n = 0%nat).
Lemma Mid_app l r : Mid l -> forallb inner r = true -> Mid (l ++ r).
Proof.
  intros (n & b & r0 & -> & H & N) R. exists n, b, (r0 ++ r). rewrite <- !app_assoc. repeat split; auto. now rewrite forallb_app, H, R.
Qed.
Lemma returned_inner e v : forallb inner (fst (Execute.returned e v)) = true.
Proof.
  unfold Execute.returned. destruct (Execute.completion_handler _) as [f|]; [destruct (f None); try reflexivity|]; destruct v as [[]|], (Execute.e_ttl e); try reflexivity; destruct (Execute.e_put e); reflexivity.
Qed.
Lemma mark_failed_inner e x : forallb inner (fst (Execute.mark_failed e x)) = true.
Proof. unfold Execute.mark_failed. destruct (Execute.e_ttl e), (Execute.pickles x), (Execute.e_put e); reflexivity. Qed.
Lemma give_up_inner e ds x : forallb inner (fst (Execute.give_up e ds x)) = true.
Proof.
  unfold Execute.give_up. assert (H := mark_failed_inner e x). destruct (Execute.mark_failed e x) as [l o]. cbn [fst] in H.
  destruct (Execute.completion_handler ds) as [f|]; [destruct (f (Some x))|]; cbn; auto.
Qed.
Lemma failed_inner e ds x : forallb inner (fst (Execute.failed e ds x)) = true.
Proof.
  unfold Execute.failed. assert (H := give_up_inner e ds x). destruct (Execute.give_up e ds x) as [l o]. cbn [fst] in H.
  destruct (Execute.failure_handler ds) as [f|]; [destruct (f x)|]; cbn; auto.
Qed.
Lemma attempt_Mid e : Mid (fst (fst (Execute.attempt e))).
Proof.
  unfold Execute.attempt. destruct (entering_repeat (Execute.e_deps e)) as (n & E & N). rewrite E.
  destruct (Execute.e_stop e); [exists n, false, []; cbn; rewrite app_nil_r; repeat split; discriminate|].
  unfold Execute.inside. destruct (Execute.dep_failure (Execute.e_deps e)); [exists n, false, []; repeat split; discriminate|].
  assert (n = 0%nat) as -> by (destruct n; [reflexivity|now elim N]).
  destruct (Execute.e_body e) as [v|x]; [|exists 0%nat, true, []; repeat split].
  assert (H := returned_inner e v). destruct (Execute.returned e v) as [l o]. exists 0%nat, true, (Execute.KSucceeded :: l). repeat split. exact H.
Qed.
Lemma handled_Mid e : Mid (fst (Execute.handled e)).
Proof.
  unfold Execute.handled. assert (H := attempt_Mid e). destruct (Execute.attempt e) as [[l o] ds]. cbn [fst] in H.
  destruct o as [[| | |nm p]|]; cbn [fst]; auto; [now apply Mid_app|].
  assert (F := failed_inner e ds (Execute.XErr nm p)). destruct (Execute.failed e ds (Execute.XErr nm p)) as [l' o']. cbn [fst] in *. now apply Mid_app.
Qed.
Lemma whole_Shape e : Shape (fst (Execute.whole e)).
Proof.
  unfold Execute.whole, Execute.execute. destruct (Execute.e_struck e); [left; reflexivity|]. destruct (Execute.e_claim e); [|right; left; reflexivity]. cbn [negb].
  assert (H := handled_Mid e). destruct (Execute.handled e) as [l o]. cbn [fst] in H.
  enough (K : exists r, fst (Execute.settle (Execute.KStarted :: Execute.KRunning 1 :: l ++ [Execute.KRunning (-1); Execute.KFinished], o)) = Execute.KStarted :: Execute.KRunning 1 :: l ++ r /\ forallb inner r = true).
  { destruct K as (r & -> & R). destruct (Mid_app _ _ H R) as (n & b & r' & E & R' & N). right; right. exists n, b, r'. rewrite E. auto. }
  unfold Execute.settle. destruct o as [[[] []| | |]|]; cbn [fst].
  all: try (exists [Execute.KRunning (-1); Execute.KFinished]; split; reflexivity).
  1,2: eexists; split; [rewrite ?app_comm_cons, <- !app_assoc; cbn [app]; reflexivity|reflexivity].
  destruct (existsb _ _); cbn [fst]; [exists [Execute.KRunning (-1); Execute.KFinished]; split; reflexivity|].
  eexists; split; [rewrite ?app_comm_cons, <- !app_assoc; cbn [app]; reflexivity|reflexivity].
Qed.

(** Any beginning of such a list with at most one outcome is one pass. *)
Definition nout (l : list Execute.ev) : nat := length (outcomes l).
Lemma evsacc_app l1 l2 : forall a, evsacc a (l1 ++ l2) = match evsacc a l1 with Some a' => evsacc a' l2 | None => None end.
Proof. induction l1 as [|v l1 IH]; intros a; cbn; [reflexivity|]. destruct (evacc a v); [apply IH|reflexivity]. Qed.
Lemma evsacc_done r : forallb inner r = true -> nout r = 0%nat -> evsacc ADone r = Some ADone.
Proof.
  induction r as [|v r IH]; [reflexivity|]. unfold nout, outcomes in *. cbn [forallb filter]. intros H N. apply andb_true_iff in H as [H1 H2].
  destruct v; cbn in *; try discriminate; auto.
Qed.
Lemma evsacc_inner r : forall a, a = AClaimed \/ a = AOpen -> forallb inner r = true -> (nout r <= 1)%nat ->
  exists a', evsacc a r = Some a' /\ (nout r = 1%nat -> a' = ADone) /\ (nout r = 0%nat -> a' = AClaimed \/ a' = AOpen).
Proof.
  induction r as [|v r IH]; intros a A H N; [exists a; repeat split; auto; discriminate|].
  unfold nout, outcomes in *. cbn [forallb filter] in *. apply andb_true_iff in H as [H1 H2].
  assert (O : outcome v = true -> evacc a v = Some ADone) by (destruct v; cbn in *; try discriminate; destruct A as [-> | ->]; reflexivity).
  assert (P : outcome v = false -> exists a1, evacc a v = Some a1 /\ (a1 = AClaimed \/ a1 = AOpen)).
  { destruct v; cbn in *; try discriminate; intros _; destruct A as [-> | ->]; cbn; eauto. destruct (n =? -1); eauto. }
  cbn [evsacc]. destruct (outcome v) eqn:E; cbn [length] in *.
  - rewrite (O eq_refl). exists ADone. assert (nout r = 0%nat) by (unfold nout, outcomes; lia). split; [now apply evsacc_done|]. split; [reflexivity|lia].
  - destruct (P eq_refl) as (a1 & E1 & A1). rewrite E1. now apply IH.
Qed.
Lemma Mid_last l v : Mid (l ++ [v]) -> Mid l.
Proof.
  intros (n & b & r & E & R & N). destruct r as [|w r0 _] using rev_ind.
  - rewrite app_nil_r in E. destruct b.
    + rewrite (N eq_refl) in E. cbn in E. destruct l as [|z [|z' l]]; try discriminate E. exists 0%nat, false, []. repeat split.
    + rewrite app_nil_r in E. destruct n as [|n]; [destruct l; discriminate E|]. cbn [repeat] in E. rewrite repeat_cons in E. apply app_inj_tail in E as [-> _].
      exists n, false, []. rewrite !app_nil_r. repeat split. discriminate.
  - rewrite !app_assoc in E. apply app_inj_tail in E as [-> _]. rewrite forallb_app in R. apply andb_true_iff in R as [R _].
    exists n, b, r0. rewrite <- app_assoc. auto.
Qed.
Lemma Mid_prefix l2 : forall l1, Mid (l1 ++ l2) -> Mid l1.
Proof. induction l2 as [|v l2 IH]; intros l1 H; [now rewrite app_nil_r in H|]. apply Mid_last with v. apply IH. now rewrite <- app_assoc. Qed.
Lemma nout_app a b : nout (a ++ b) = (nout a + nout b)%nat.
Proof. unfold nout, outcomes. now rewrite filter_app, app_length. Qed.
Lemma nout_repeat n : nout (repeat Execute.EParked n) = n.
Proof. unfold nout, outcomes. induction n; cbn; auto. Qed.
Lemma Mid_acc l : Mid l -> (nout l <= 1)%nat -> exists a', evsacc AClaimed l = Some a' /\ (nout l = 1%nat -> a' = ADone).
Proof.
  intros (n & b & r & -> & R & N) L. rewrite !nout_app, nout_repeat in *.
  assert (nout (if b then [Execute.EBody] else []) = 0%nat) as E by (destruct b; reflexivity). rewrite E in *.
  destruct n as [|n].
  - assert (H : exists a, evsacc AClaimed (if b then [Execute.EBody] else []) = Some a /\ (a = AClaimed \/ a = AOpen)) by (destruct b; cbn; eauto).
    destruct H as (a & H1 & H2). cbn [repeat app]. rewrite evsacc_app, H1. destruct (evsacc_inner r a H2 R) as (a' & A1 & A2 & _); [lia|]. exists a'. split; [exact A1|]. cbn. auto.
  - assert (n = 0%nat) as -> by lia. destruct b; [discriminate (N eq_refl)|]. cbn [repeat app evsacc evacc]. exists ADone. split; [apply evsacc_done; [exact R|lia]|reflexivity].
Qed.
Lemma prefix_acc l vs rest : Shape l -> l = vs ++ rest -> (nout vs <= 1)%nat -> exists a', evsacc AStart vs = Some a' /\ (nout vs = 1%nat -> a' = ADone).
Proof.
  intros [-> |[-> |(n & b & r & -> & R & N)]] E L.
  - destruct vs as [|v [|]]; try discriminate E; [exists AStart; split; [reflexivity|discriminate]|]. injection E as <- _. exists ADone. auto.
  - destruct vs as [|v [|]]; try discriminate E; [exists AStart; split; [reflexivity|discriminate]|]. injection E as <- _. exists ADone. auto.
  - destruct vs as [|v vs]; [exists AStart; split; [reflexivity|discriminate]|]. injection E as <- E.
    destruct vs as [|v vs]; [exists AClaimed; split; [reflexivity|discriminate]|]. injection E as <- E. cbn [evsacc evacc Z.eqb].
    change (nout (Execute.KStarted :: Execute.KRunning 1 :: vs)) with (nout vs) in *. apply Mid_acc; [|exact L]. apply Mid_prefix with rest. rewrite <- E. exists n, b, r. auto.
Qed.

(** C103.  With one message a worker makes one pass.
    Take everything [_execute] and the loop around it do with a delivered message, whatever the dependencies, the body and
    the storage do, and let anybody else do anything in between.  Up to the first outcome and on to the second, the docket accepts
    every operation, and from the outcome on the execution is over. *)
Theorem C103_until_settled c s h w x e vs rest ops l :
  get_exec (s_execs s) h = Some x -> x_worker x = w -> x_phase x = PDelivered ->
  fst (Execute.whole e) = vs ++ rest -> (length (outcomes vs) <= 1)%nat ->
  does_all h vs ops -> owns l = ops -> others_ok h w l -> answered c s l ->
  refusals c s l = [] /\
  exists x', get_exec (s_execs (after c s l)) h = Some x' /\ x_worker x' = w /\ (outcomes vs <> [] -> x_phase x' = PDone).
Proof.
  intros G W P E L D O T N. destruct (prefix_acc _ vs rest (whole_Shape e) E L) as (a' & A1 & A2).
  destruct (does_all_acc h vs ops D AStart a' A1) as (b & B1 & B2). rewrite <- O in B1.
  destruct (pass_sound c h w l s AStart b x G W P B1 T N) as (R & x' & G' & W' & A'). split; [exact R|]. exists x'. repeat split; auto.
  intros Ne. assert (a' = ADone) as -> by (apply A2; unfold nout; destruct (outcomes vs) as [|? [|]]; cbn in *; [easy|reflexivity|lia]).
  destruct B2 as [->|[_ H]]; [exact A'|discriminate H].
Qed.
Print Assumptions C103_until_settled.

(** The whole of it, where the execution has one outcome: in particular under the conditions of C58. *)
Theorem C103_one_pass_partial c s h w x e ops l :
  get_exec (s_execs s) h = Some x -> x_worker x = w -> x_phase x = PDelivered ->
  calm e -> no_exit_raises e -> blocks_not_suppressed e -> one_gate e ->
  does_all h (fst (Execute.whole e)) ops -> owns l = ops -> others_ok h w l -> answered c s l ->
  refusals c s l = [] /\
  exists x', get_exec (s_execs (after c s l)) h = Some x' /\ x_worker x' = w /\ x_phase x' = PDone.
Proof.
  intros G W P H1 H2 H3 H4 D O T N. destruct (PropsExecute.C58_one_outcome_partial e H1 H2 H3 H4) as (v & V & _).
  destruct (C103_until_settled c s h w x e (fst (Execute.whole e)) [] ops l G W P) as (R & x' & X1 & X2 & X3); auto.
  - now rewrite app_nil_r.
  - rewrite V. cbn. lia.
  - split; [exact R|]. exists x'. repeat split; auto. apply X3. rewrite V. discriminate.
Qed.
Print Assumptions C103_one_pass_partial.

(** A task that has a slot and a Retry fails; meanwhile somebody schedules another task, somebody else's task is run on another worker, and the timer
    renews the slot. *)
Import PropsHist.
Definition ex_delivered : list op := [OAdd (ex_call 0 "f" "one") 0; OAdd (mkCall "other" 0 "g" "" "") 0; ORead "w1"; ORead "w2"].
Definition ex_failing : Execute.env :=
  PropsExecute.ex_env [PropsExecute.retry_dep Execute.FRetry; Execute.DAnnot PropsExecute.through] (Execute.BRaise (Execute.XErr "ValueError" true)).
Definition ex_history : list hop :=
  [Own (OClaim 0 1) (Some (OClaimed true)); Other (OClaim 1 1); Own (OAcquire 0 "c" 1 2) (Some (OAcquired true)); Own (OBodyStart 0) None; Other (OBodyStart 1);
   Other (OAdd (mkCall "third" 9 "h" "" "") 2); Other (ORenewSlot 0 3); Own (OBodyEnd 0) None; Other (OCrash "w2"); Own (ORelease 0 4) None; Own (OResched 0 90 true 5) None].
Example C103_example :
  let s := final ex_cfg init_sys ex_delivered in
  calm ex_failing /\ no_exit_raises ex_failing /\ blocks_not_suppressed ex_failing /\ one_gate ex_failing /\
  option_map x_phase (get_exec (s_execs s) 0) = Some PDelivered /\ option_map x_worker (get_exec (s_execs s) 0) = Some "w1"%string /\
  fst (Execute.whole ex_failing) = [Execute.KStarted; Execute.KRunning 1; Execute.EBody; Execute.KFailed; Execute.ERetried; Execute.KRunning (-1); Execute.KFinished] /\
  does_all 0 (fst (Execute.whole ex_failing)) (owns ex_history) /\ others_ok 0 "w1" ex_history /\ answered ex_cfg s ex_history /\
  refusals ex_cfg s ex_history = [] /\ option_map x_phase (get_exec (s_execs (after ex_cfg s ex_history)) 0) = Some PDone.
Proof.
  intros s. destruct PropsExecute.C58_one_outcome_example as (H1 & H2 & H3 & H4 & _). repeat (split; [assumption|]).
  split; [reflexivity|]. split; [reflexivity|]. split; [reflexivity|]. split.
  { change (fst (Execute.whole ex_failing)) with [Execute.KStarted; Execute.KRunning 1; Execute.EBody; Execute.KFailed; Execute.ERetried; Execute.KRunning (-1); Execute.KFinished].
    refine (da_cons 0 _ _ _ _ (d_started_slot 0 1 "c" 1 2) (da_cons 0 _ _ _ _ (d_running 0 1) (da_cons 0 _ _ _ _ (d_body 0) (da_cons 0 _ _ _ _ (d_kfailed_slot 0 4)
      (da_cons 0 _ _ _ _ (d_retried 0 90 5) (da_cons 0 _ _ _ _ (d_running 0 (-1)) (da_cons 0 _ _ _ _ (d_finished 0) (da_nil 0)))))))). }
  split.
  { intros o H. cbn in H. repeat destruct H as [H|H]; try discriminate H; try contradiction; injection H as <-; (split; [cbn; intros E; try discriminate E; eauto|discriminate]). }
  split; [vm_compute; repeat split|]. split; vm_compute; reflexivity.
Qed.

(** The statement without the conditions fails.  The task has returned and is marked as completed; then the clean-up of a dependency raises, and the Retry
    puts the same message back.  The docket is asked for a second outcome of the same execution.  Model.v refuses it, and so does not follow the code beyond
    this point; the script does not: after it, the completed run is started again. *)
Definition ex_unclean : Execute.env :=
  PropsExecute.ex_env [PropsExecute.retry_dep Execute.FRetry; Execute.DParam None None PropsExecute.cleanup_fails] (Execute.BReturn None).
Definition ex_twice : list hop :=
  [Own (OClaim 0 1) (Some (OClaimed true)); Own (OBodyStart 0) None; Own (OBodyEnd 0) None; Own (OTerminal 0 SCompleted 3 None None) None; Own (OResched 0 90 true 5) None].
Theorem C103_settled_twice_refuted :
  let s := final ex_cfg init_sys ex_delivered in
  let s1 := after ex_cfg s ex_twice in
  let m := mkMsg "k" 0 "f" "one" "" 1 1 in
  let d := fst (lua_schedule (s_db s1) "k" 90 false true (Some 1) (resched_msg m 90 true)) in
  calm ex_unclean /\ blocks_not_suppressed ex_unclean /\ one_gate ex_unclean /\
  get_exec (s_execs s) 0 = Some (mkExec 0 "w1" 1 m false PDelivered None) /\
  does_all 0 (fst (Execute.whole ex_unclean)) (owns ex_twice) /\ others_ok 0 "w1" ex_twice /\ answered ex_cfg s ex_twice /\
  refusals ex_cfg s ex_twice = [OResched 0 90 true 5] /\ r_state (rget (s_db s1) "k") = Some SCompleted /\
  r_state (rget d "k") = Some SScheduled /\
  outs ex_cfg (mkSys d (s_execs s1) (s_nextx s1) (s_clear s1)) [OScheduler 100; ORead "w1"; OClaim 2 101; OBodyStart 2] =
    [OMoved 1 1; ODelivered 2 3 (mkMsg "k" 90 "f" "one" "" 2 2); OClaimed true; OStarted (mkMsg "k" 90 "f" "one" "" 2 2) 3].
Proof.
  intros s s1 m d. split.
  { split; [|split; [reflexivity|split; [discriminate|split; [now left|]]]].
    - intros fh ch x [E|[E|[]]]; inversion E; subst; split; intros h H; inversion H; subst; discriminate.
    - intros x [E|[E|[]]]; discriminate. }
  split; [intros d0 x [<-|[<-|[]]] ->; discriminate|]. split; [split; [cbn; apply Nat.le_0_l|easy]|].
  split; [reflexivity|]. split.
  { change (fst (Execute.whole ex_unclean)) with [Execute.KStarted; Execute.KRunning 1; Execute.EBody; Execute.KSucceeded; Execute.ECompleted; Execute.KFailed; Execute.ERetried; Execute.KRunning (-1); Execute.KFinished].
    refine (da_cons 0 _ _ _ _ (d_started 0 1) (da_cons 0 _ _ _ _ (d_running 0 1) (da_cons 0 _ _ _ _ (d_body 0) (da_cons 0 _ _ _ _ (d_succeeded 0)
      (da_cons 0 _ _ _ _ (d_completed 0 3 None) (da_cons 0 _ _ _ _ (d_kfailed 0) (da_cons 0 _ _ _ _ (d_retried 0 90 5) (da_cons 0 _ _ _ _ (d_running 0 (-1)) (da_cons 0 _ _ _ _ (d_finished 0) (da_nil 0)))))))))). }
  split; [intros o H; cbn in H; repeat destruct H as [H|H]; try discriminate H; contradiction|].
  split; [vm_compute; repeat split|]. repeat split; vm_compute; reflexivity.
Qed.
Print Assumptions C103_settled_twice_refuted.
