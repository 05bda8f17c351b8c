(** Proofs about retries: the attempt numbers of a task are bounded, and each
    attempt number is started at most once per accepted call. *)
From Verif Require Import Base ZSet Model GInv KView KSim Spec KInv KLine Hist Steps Steps2 Steps3 Count Retry SpecRetry.

Section stage.
Variables (p : msg -> bool) (k : key) (j : Z).
Hypothesis Hp : of_payload p.
Hypothesis Hk : forall m, p m = true -> m_key m = k.

(* what may still be started as attempt j *)
Definition upto (m : msg) : bool := p m && (m_attempt m <=? j).
Definition below (ph : phase) (m : msg) : bool :=
  match ph with
  | PDelivered | PClaimed => p m && (m_attempt m <=? j)
  | PBody | PEnded => p m && (m_attempt m <? j)
  | _ => false
  end.
Lemma upto_gen m g : upto (with_gen m g) = upto m.
Proof. unfold upto. rewrite (Hp (with_gen m g) m) by reflexivity. reflexivity. Qed.
Lemma p_resched m w b : p (resched_msg m w b) = p m. Proof. apply Hp; reflexivity. Qed.
Notation T v := (tok upto below v).
Notation TA := (tok_apply upto upto_gen below (fun _ => eq_refl) (fun _ => eq_refl)).

Ltac bz := unfold b2z; repeat match goal with |- context [if ?x then _ else _] => destruct x eqn:? end; lia.

Lemma step_stage c s o G : GInv s -> UInv k (kabs k s) -> single o = true -> 0 <= G ->
  (forall e, kok k (kabs k s) e -> label k o e -> kabs k (fst (step c s o)) = kapply c (kabs k s) e -> gain upto below (kabs k s) e <= G) ->
  T (kabs k (fst (step c s o))) <= T (kabs k s) + G.
Proof.
  intros HG U S G0 H. destruct (sim_step c k s o HG) as (es & P & L & Hs). destruct (Hs S) as [->|[e ->]].
  - apply kpath_nil_inv in P. rewrite P. lia.
  - apply kpath_one_inv in P as [Hok E]. inversion L; subst. specialize (H e Hok H2 E). rewrite E.
    pose proof (TA c k _ e Hok U). lia.
Qed.

Lemma stage_idle v e : kok k v e -> match e with KSched _ _ _ | KDeliver _ _ | KResched _ _ _ _ => False | _ => True end ->
  gain upto below v e <= 0.
Proof.
  intros Hok H. destruct e; try contradiction; cbn [gain]; try lia.
  - destruct (ksuper v _); cbn [below]; destruct (p (x_msg x)); cbn [andb]; bz.
  - destruct Hok as [_ [[E [->| ->]]|[E ->]]]; rewrite E; cbn [below]; destruct (p (x_msg x)); cbn [andb]; bz.
  - cbn [below]. destruct (p (x_msg x)); cbn [andb]; bz.
  - pose proof (b2z_range (below (x_phase x) (x_msg x))); lia.
  - destruct Hok as [_ E]. rewrite E. cbn [below]. unfold upto. lia.
Qed.

Lemma stage_nonneg s o r : 0 <= n_accepted p s o r /\ 0 <= n_redelivered p s o r /\ 0 <= n_readmitted p s o r.
Proof.
  split; [|split].
  - destruct o; simpl; try lia; destruct r as [| |[]| | | | | |]; simpl; try lia; destruct (p _); lia.
  - destruct o; simpl; try lia; destruct r; simpl; try lia; destruct (p _); lia.
  - destruct o; simpl; try lia. destruct bump; [lia|]. destruct (get_exec _ _) as [x|]; [|lia]. destruct (x_phase x); try lia. destruct (p _); lia.
Qed.

Lemma stage_step c s o : GInv s -> UInv k (kabs k s) ->
  let r := snd (step c s o) in
  T (kabs k (fst (step c s o))) + n_starts (on_attempt p j) s o r <= T (kabs k s) + n_accepted p s o r + n_redelivered p s o r + n_readmitted p s o r.
Proof.
  intros HG U r. destruct (stage_nonneg s o r) as (N1 & N2 & N3).
  assert (Q : (forall e, label k o e -> match e with KSched _ _ _ | KDeliver _ _ | KResched _ _ _ _ => False | _ => True end) ->
              n_starts (on_attempt p j) s o r = 0 -> T (kabs k (fst (step c s o))) + n_starts (on_attempt p j) s o r <= T (kabs k s) + n_accepted p s o r + n_redelivered p s o r + n_readmitted p s o r).
  { intros H E. assert (T (kabs k (fst (step c s o))) <= T (kabs k s)); [|lia].
    apply (step_ind c k s o (fun v => T v <= T (kabs k s))); auto; [|lia].
    intros v e Hok L U1 _ _ HT. pose proof (TA c k _ e Hok U1). pose proof (stage_idle v e Hok (H e L)). lia. }
  destruct o.
  all: try (lazymatch goal with |- context [OBodyStart] => fail | _ => idtac end; apply Q; [intros e L; destruct e; cbn [label] in L; try exact I; try (destruct L as (? & L & _)); try (destruct repl in L); try (destruct (x_redel x) in L); discriminate L|]).
  all: try (subst r; reflexivity).
  - subst r. cbn [step]. destruct (0 <=? dt); reflexivity.
  - (* add *)
    assert (E0 : n_starts (on_attempt p j) s (OAdd a t) r = 0) by (subst r; cbn [step]; destruct (do_schedule _ _ _ _); reflexivity).
    rewrite E0. assert (T (kabs k (fst (step c s (OAdd a t)))) <= T (kabs k s) + n_accepted p s (OAdd a t) r); [|lia].
    apply step_stage; auto. intros e Hok L _.
    destruct e; cbn [label] in L; try (pose proof (stage_idle _ _ Hok I); lia); try (destruct L as (? & L & _)); try (destruct (x_redel x) in L); try discriminate L.
    destruct repl; [discriminate L|]. injection L as -> ->. cbn [gain]. cbn [kok] in Hok. subst r. cbn [step]. unfold do_schedule, lua_schedule.
    rewrite Hok.
    rewrite (lua_exists_kexists k (s_db s) (s_execs s)) by apply HG. fold (kabs k s).
    destruct (negb false && kexists (kabs k s)); cbn [snd n_accepted]; [lia|]. unfold upto. destruct (p (call_msg _)); cbn [andb]; bz.
  - (* replace *)
    assert (E0 : n_starts (on_attempt p j) s (OReplace a t) r = 0) by (subst r; cbn [step]; destruct (do_schedule _ _ _ _); reflexivity).
    rewrite E0. assert (T (kabs k (fst (step c s (OReplace a t)))) <= T (kabs k s) + n_accepted p s (OReplace a t) r); [|lia].
    apply step_stage; auto. intros e Hok L _.
    destruct e; cbn [label] in L; try (pose proof (stage_idle _ _ Hok I); lia); try (destruct L as (? & L & _)); try (destruct (x_redel x) in L); try discriminate L.
    destruct repl; [|discriminate L]. injection L as -> ->. cbn [gain negb andb]. subst r. cbn. unfold upto. destruct (p (call_msg _)); cbn [andb]; bz.
  - (* clear *) subst r. cbn [step]. destruct (ready_clear s _); [|reflexivity]. destruct (clear_apply _ _ _); reflexivity.
  - (* read *)
    assert (E0 : n_starts (on_attempt p j) s (ORead w) r = 0) by (subst r; cbn [step]; unfold deliver; destruct (read_group _ _) as [? [[? ?]|]]; reflexivity).
    rewrite E0. assert (T (kabs k (fst (step c s (ORead w)))) <= T (kabs k s) + 0); [|lia]. apply step_stage; auto; try lia. intros e Hok L _.
    destruct e; cbn [label] in L; try (apply (stage_idle _ _ Hok I)); try (destruct L as (? & L & _)); try (destruct repl in L); try discriminate L.
    destruct (x_redel x) eqn:E; [discriminate L|]. cbn [gain]. rewrite E. lia.
  - (* autoclaim *)
    assert (E0 : n_starts (on_attempt p j) s (OAutoclaim w i) r = 0) by (subst r; cbn [step]; unfold deliver; destruct (autoclaim _ _ _ _) as [? [[? ?]|]]; reflexivity).
    rewrite E0. assert (T (kabs k (fst (step c s (OAutoclaim w i)))) <= T (kabs k s) + n_redelivered p s (OAutoclaim w i) r); [|lia].
    apply step_stage; auto. intros e Hok L E.
    destruct e; cbn [label] in L; try (pose proof (stage_idle _ _ Hok I); lia); try (destruct L as (? & L & _)); try (destruct repl in L); try discriminate L.
    cbn [gain]. destruct (x_redel x) eqn:Er; [|discriminate L]. apply (f_equal k_execs) in E. cbn in E.
    subst r. revert E. cbn [step]. unfold deliver. destruct (autoclaim _ _ _ _) as [d [[i' m]|]]; cbn [fst snd s_execs kabs kd k_execs]; intros E.
    + rewrite filter_app' in E. apply app_inv_head in E. cbn [filter] in E. destruct (xhas_key k _); [|discriminate E]. injection E as <-. cbn [below x_msg n_redelivered].
      destruct (p m); cbn [andb]; bz.
    + exfalso. apply (f_equal (@length exec)) in E. rewrite app_length in E. cbn in E. lia.
  - subst r. cbn [step]. destruct (get_exec _ _) as [x|]; [|reflexivity]. destruct (x_phase x); try reflexivity. unfold lua_claim. destruct (superseded _ _ _); reflexivity.
  - (* body start *)
    subst r. cbn [step n_accepted n_redelivered n_readmitted]. destruct (get_exec _ _) as [x|] eqn:Eg; [|cbn; lia]. destruct (x_phase x) eqn:Ep; try (cbn; lia).
    cbn [fst snd n_starts]. destruct (get_exec_spec _ _ _ Eg) as [Hin Eh]. unfold on_attempt. destruct (p (x_msg x)) eqn:Epx.
    + pose proof (Hk _ Epx) as Ek. unfold kabs, set_execs. cbn [s_db s_execs]. rewrite kd_upd_exec by reflexivity. subst h.
      assert (Hx : In x (k_execs (kabs k s))) by (apply kexecs_In; auto).
      pose proof (TA c k (kabs k s) (KPhase x PBody)) as A. cbn [kok kapply gain] in A.
      specialize (A (conj Hx (or_introl (conj Ep (or_introl eq_refl)))) U). rewrite Ep in A.
      change (kabs k s) with (kd k (s_db s) (s_execs s)) in A. cbn [andb].
      assert (B : b2z (below PBody (x_msg x)) - b2z (below PClaimed (x_msg x)) <= - (if m_attempt (x_msg x) =? j then 1 else 0)).
      { cbn [below]. rewrite Epx. cbn [andb]. bz. }
      lia.
    + cbn [andb]. assert (T (kabs k (set_execs s (s_db s) (upd_exec (s_execs s) h (with_phase PBody)))) <= T (kabs k s)); [|lia].
      destruct (string_dec (m_key (x_msg x)) k) as [Ek|Ek].
      * unfold kabs, set_execs. cbn [s_db s_execs]. rewrite kd_upd_exec by reflexivity. subst h.
        assert (Hx : In x (k_execs (kabs k s))) by (apply kexecs_In; auto).
        pose proof (TA c k (kabs k s) (KPhase x PBody)) as A. cbn [kok kapply gain] in A.
        specialize (A (conj Hx (or_introl (conj Ep (or_introl eq_refl)))) U). rewrite Ep in A.
        change (kabs k s) with (kd k (s_db s) (s_execs s)) in A.
        assert (B : b2z (below PBody (x_msg x)) - b2z (below PClaimed (x_msg x)) = 0) by (cbn [below]; rewrite Epx; reflexivity).
        lia.
      * unfold kabs, set_execs. cbn [s_db s_execs]. rewrite (kd_upd_exec_other k s (s_db s) h x); [apply Z.le_refl|apply HG|exact Eg|exact Ek|reflexivity].
  - subst r. cbn [step]. destruct (get_exec _ _) as [x|]; [|reflexivity]. destruct (x_phase x); reflexivity.
  - subst r. cbn [step]. destruct (get_exec _ _) as [x|]; [|reflexivity]. destruct (x_phase x); reflexivity.
  - subst r. cbn [step]. destruct (get_exec _ _) as [x|]; [|reflexivity]. destruct (may_finish _ _); [|reflexivity]. destruct (lua_terminal _ _ _ _ _ _ _ _ _); reflexivity.
  - (* resched *)
    assert (E0 : n_starts (on_attempt p j) s (OResched h when bump t) r = 0).
    { subst r. cbn [step]. destruct (get_exec _ _) as [x|]; [|reflexivity]. destruct (may_resched _); reflexivity. }
    rewrite E0. assert (T (kabs k (fst (step c s (OResched h when bump t)))) <= T (kabs k s) + n_readmitted p s (OResched h when bump t) r); [|lia].
    apply step_stage; auto. intros e Hok L _.
    destruct e; cbn [label] in L; try (pose proof (stage_idle _ _ Hok I); lia); try (destruct L as (? & L & _)); try (destruct repl in L); try (destruct (x_redel x) in L); try discriminate L.
    all: injection L as -> -> -> ->; cbn [gain]; destruct Hok as [H1 H2]; apply kexecs_In in H1 as [H1 _]; cbn [n_readmitted].
    all: rewrite (get_exec_In s x (proj2 HG) H1); unfold upto; rewrite p_resched; cbn [resched_msg m_attempt].
    all: destruct (x_phase x); try discriminate H2; cbn [below]; destruct (p (x_msg x)); cbn [andb].
    all: repeat match goal with |- context [if ?b then _ else _] => is_var b; destruct b end; bz.
  - subst r. cbn [step]. destruct (get_exec _ _) as [x|]; [|reflexivity]. destruct (x_phase x), (x_slot x); try reflexivity. destruct (lua_acquire_or_park _ _ _ _ _ _ _ _ _ _); reflexivity.
  - subst r. cbn [step]. destruct (get_exec _ _) as [x|]; [|reflexivity]. destruct (x_slot x) as [[]|], (x_phase x); reflexivity.
  - subst r. cbn [step]. destruct (get_exec _ _) as [x|]; [|reflexivity]. destruct (x_slot x) as [[]|]; reflexivity.
Qed.

Lemma stage_total c l : forall s, GInv s -> UInv k (kabs k s) ->
  T (kabs k (final c s l)) + total c (n_starts (on_attempt p j)) s l <=
  T (kabs k s) + total c (n_accepted p) s l + total c (n_redelivered p) s l + total c (n_readmitted p) s l.
Proof.
  induction l as [|o l IH]; intros s G U; [cbn; lia|]. rewrite final_cons. cbn [total].
  specialize (IH (fst (step c s o)) (GInv_step c s o G) (UInv_step c k s o G U)). pose proof (stage_step c s o G U) as H. cbv zeta in H. lia.
Qed.

Theorem attempt_starts c l :
  total c (n_starts (on_attempt p j)) init_sys l <=
  total c (n_accepted p) init_sys l + total c (n_redelivered p) init_sys l + total c (n_readmitted p) init_sys l.
Proof.
  pose proof (stage_total c l init_sys GInv_init (UInv_init k)) as H. rewrite tok_init in H.
  pose proof (tok_nonneg upto below (kabs k (final c init_sys l))). lia.
Qed.
End stage.

(** ** Attempt numbers *)
Section attempts.
Variables (p : msg -> bool) (k : key) (n : Z).
Hypothesis Hp : of_payload p.
Hypothesis Hk : forall m, p m = true -> m_key m = k.

Definition within (v : ks) : Prop := forall m, held v m -> p m = true -> 1 <= m_attempt m <= Z.max 1 n.

Lemma within_step c s o : GInv s -> UInv k (kabs k s) -> retries_up_to p n s o -> within (kabs k s) -> within (kabs k (fst (step c s o))).
Proof.
  intros G U R W. apply (step_ind c k s o within); auto. clear W.
  intros v e Hok L U1 _ Hs W m Hm P.
  apply (held_apply c k v e m Hok) in Hm as [Hm|(m0 & lo & E & _ & ->)]; [auto|].
  rewrite (Hp (with_gen m0 (kgen v + 1)) m0) in P by reflexivity. cbn [with_gen m_attempt].
  destruct e; cbn [origin] in E; try discriminate E; injection E as <-; simpl in L.
  - cbn. lia.
  - destruct L as (t & -> & _). specialize (Hs eq_refl). subst v. destruct Hok as [H1 H2].
    rewrite (Hp (resched_msg (x_msg x) when bump) (x_msg x)) in P by reflexivity.
    assert (Hh : held (kabs k s) (x_msg x)) by (right; right; right; eauto). specialize (W _ Hh P).
    apply kexecs_In in H1 as [H1 _]. pose proof (get_exec_In s x (proj2 G) H1) as Eg. cbn [retries_up_to] in R.
    cbn [resched_msg m_attempt]. destruct bump; [|exact W]. destruct (R x Eg P) as (d & now & E).
    unfold handle_failure in E. cbn [rt_attempts] in E. destruct (Z.leb_spec n (m_attempt (x_msg x))); [discriminate E|lia].
  - apply W; [right; right; right; exists x; split; [apply Hok|reflexivity]|exact P].
  - apply W; [right; right; left; simpl in Hok; eauto|exact P].
Qed.

Lemma within_starts c l : forall s, GInv s -> UInv k (kabs k s) -> within (kabs k s) -> along c (retries_up_to p n) s l ->
  forall f, (forall m, p m = true -> 1 <= m_attempt m <= Z.max 1 n -> f m = true) -> (forall m, f m = true -> p m = true) ->
  total c (n_starts p) s l = total c (n_starts f) s l.
Proof.
  induction l as [|o l IH]; intros s G U W A f F1 F2; [reflexivity|]. destruct A as [A1 A2]. cbn [total].
  rewrite (IH (fst (step c s o)) (GInv_step c s o G) (UInv_step c k s o G U) (within_step c s o G U A1 W) A2 f F1 F2). f_equal.
  unfold n_starts. destruct (snd (step c s o)) as [| | | | | | |m i|] eqn:E; try reflexivity.
  destruct (p m) eqn:P.
  - assert (S : starts c s o m i) by exact E. apply starts_inv in S as (h & x & -> & Hx & Hph & Em & _). apply get_exec_spec in Hx as [Hin _].
    rewrite F1; [reflexivity|exact P|]. apply W; [|exact P]. right; right; right. exists x. split; [|congruence]. apply kexecs_In. split; [exact Hin|]. rewrite Em. apply Hk, P.
  - destruct (f m) eqn:F; [|reflexivity]. rewrite (F2 m F) in P. discriminate P.
Qed.

Lemma total_split c f g h l : (forall m, b2z (f m) = b2z (g m) + b2z (h m)) -> forall s, total c (n_starts f) s l = total c (n_starts g) s l + total c (n_starts h) s l.
Proof.
  intros H. induction l as [|o l IH]; intros s; [reflexivity|]. cbn [total]. rewrite IH. unfold n_starts. destruct (snd (step c s o)); try lia.
  specialize (H m). unfold b2z in H. destruct (f m), (g m), (h m); lia.
Qed.

Lemma starts_upto c l B (N : nat) : (forall j, total c (n_starts (on_attempt p j)) init_sys l <= B) ->
  total c (n_starts (fun m => p m && ((1 <=? m_attempt m) && (m_attempt m <=? Z.of_nat N)))) init_sys l <= Z.of_nat N * B.
Proof.
  intros H. induction N as [|N IH].
  - rewrite (total_split c _ (fun _ => false) (fun _ => false)); [|intros m; destruct (p m), (Z.leb_spec 1 (m_attempt m)), (Z.leb_spec (m_attempt m) (Z.of_nat 0)); cbn; try reflexivity; lia].
    assert (Z0 : forall s, total c (n_starts (fun _ => false)) s l = 0). { clear. induction l as [|o l IH]; intros s; [reflexivity|]. cbn [total]. rewrite IH. unfold n_starts. destruct (snd (step c s o)); reflexivity. }
    rewrite Z0. lia.
  - rewrite (total_split c _ (fun m => p m && ((1 <=? m_attempt m) && (m_attempt m <=? Z.of_nat N))) (on_attempt p (Z.of_nat (S N)))).
    + specialize (H (Z.of_nat (S N))). lia.
    + intros m. unfold on_attempt. destruct (p m); cbn [andb]; [|reflexivity].
      destruct (Z.leb_spec 1 (m_attempt m)), (Z.leb_spec (m_attempt m) (Z.of_nat (S N))), (Z.leb_spec (m_attempt m) (Z.of_nat N)), (Z.eqb_spec (m_attempt m) (Z.of_nat (S N))); cbn; lia.
Qed.

Lemma within_init : within (kabs k init_sys).
Proof. intros m0 [[i []]|[X|[(cc & i & [])|(x & [] & _)]]]. discriminate X. Qed.

Theorem retry_limit c l : along c (retries_up_to p n) init_sys l ->
  total c (n_starts p) init_sys l <=
  Z.max 1 n * (total c (n_accepted p) init_sys l + total c (n_redelivered p) init_sys l + total c (n_readmitted p) init_sys l).
Proof.
  intros A. set (N := Z.to_nat (Z.max 1 n)). assert (EN : Z.of_nat N = Z.max 1 n) by (unfold N; lia).
  rewrite (within_starts c l init_sys GInv_init (UInv_init k) within_init A (fun m => p m && ((1 <=? m_attempt m) && (m_attempt m <=? Z.of_nat N)))).
  - rewrite <- EN. apply starts_upto. intros j. apply (attempt_starts p k j Hp Hk).
  - intros m P R. rewrite P. cbn [andb]. rewrite EN. destruct (Z.leb_spec 1 (m_attempt m)), (Z.leb_spec (m_attempt m) (Z.max 1 n)); cbn; lia.
  - intros m H. now apply andb_prop in H as [H _].
Qed.

(** The attempt numbers themselves. *)
Theorem retry_numbers c l o m i : along c (retries_up_to p n) init_sys l -> p m = true ->
  starts c (final c init_sys l) o m i -> 1 <= m_attempt m <= Z.max 1 n.
Proof.
  intros A P S. assert (W : forall l s, GInv s -> UInv k (kabs k s) -> within (kabs k s) -> along c (retries_up_to p n) s l -> within (kabs k (final c s l))).
  { clear - Hp Hk. induction l as [|o l IH]; intros s G U W A; [exact W|]. destruct A as [A1 A2]. rewrite final_cons.
    apply IH; auto; [now apply GInv_step|now apply UInv_step|now apply within_step]. }
  apply starts_inv in S as (h & x & -> & Hx & Hph & Em & _). apply get_exec_spec in Hx as [Hin _].
  apply (W l init_sys GInv_init (UInv_init k) within_init A); [|exact P]. right; right; right. exists x. split; [|congruence]. apply kexecs_In. split; [exact Hin|]. rewrite Em. apply Hk, P.
Qed.
End attempts.

(** ** One failure *)

Lemma resched_stored c s h x w t : reachable c s -> get_exec (s_execs s) h = Some x -> may_resched (x_phase x) = true ->
  let s' := fst (step c s (OResched h w true t)) in
  retry_stored s' (x_msg x) w /\ state_of s' (m_key (x_msg x)) = Some (if w <=? t then SQueued else SScheduled) /\
  (forall m, ~ on_stream s' (x_mid x) m).
Proof.
  intros R Hx Hp s'. set (k := m_key (x_msg x)).
  pose proof (reachable_UInv c k s R) as U. pose proof (kabs_resched c k s h x w true t Hx eq_refl Hp) as E. fold s' in E.
  set (m' := with_gen (resched_msg (x_msg x) w true) (kgen (kabs k s) + 1)).
  cbn [kapply] in E. set (v1 := kresched _ _ _ _ _) in E.
  assert (E1 : forall g, r_gen (kr (kphase v1 (x_id x) (with_phase PDone))) = Some g -> g = kgen (kabs k s) + 1).
  { intros g. change (kr (kphase v1 (x_id x) (with_phase PDone))) with (kr v1). unfold v1, kresched. rewrite khdel_gen by reflexivity. rewrite kplace_gen. intros X; injection X as <-. reflexivity. }
  assert (Eg : r_gen (kr v1) = Some (kgen (kabs k s) + 1)).
  { unfold v1, kresched. rewrite khdel_gen by reflexivity. rewrite kplace_gen. reflexivity. }
  assert (Hl : live s' m').
  { unfold live. change (superseded (s_db s') (m_key m') (m_gen m')) with (superseded (s_db s') k (m_gen m')).
    change (ksuper (kabs k s') (m_gen m') = false). rewrite E. unfold ksuper. change (kr (kphase v1 (x_id x) (with_phase PDone))) with (kr v1). rewrite Eg.
    cbn [m' with_gen m_gen]. rewrite Z.ltb_irrefl. apply andb_false_r. }
  assert (St : In (k_next (kabs k s), m') (k_stream (kabs k s')) /\ (w <=? t) = true \/ k_parked (kabs k s') = Some m' /\ k_score (kabs k s') = Some w /\ (w <=? t) = false).
  { rewrite E. unfold v1, kresched, kplace. cbv zeta. destruct (w <=? t).
    - left. split; [|reflexivity]. cbn. apply in_app_iff. right. left. reflexivity.
    - right. repeat split. }
  split; [|split].
  - exists m'. split; [|repeat split; exact Hl].
    destruct St as [[St _]|(St1 & St2 & _)]; [left; eexists; apply (kstream_In k) in St; apply St|right; split; [exact St1|exact St2]].
  - unfold state_of. change (r_state (kr (kabs k s')) = Some (if w <=? t then SQueued else SScheduled)). rewrite E.
    unfold v1, kresched, kplace. cbv zeta. destruct (w <=? t); reflexivity.
  - intros m. assert (Hlt : x_mid x < d_next (s_db s)).
    { destruct (ui_exec _ _ U x) as (_ & X & _); [apply kexecs_In; split; [now apply get_exec_spec in Hx|reflexivity]|].
      pose proof (ui_last _ _ U) as Y. cbn in X, Y. unfold sid in *. lia. }
    unfold s', on_stream. cbn [step]. rewrite Hx, Hp. cbn [lua_schedule fst].
    unfold set_execs, lua_reschedule, place, hincr_gen. cbv zeta. cbn [m_key resched_msg]. fold k.
    destruct (w <=? t); cbn; intros H.
    + apply in_app_iff in H as [H|[H|[]]]; [apply del_entry_In in H as [_ H]; now apply H|]. injection H as H _. unfold sid in *. lia.
    + apply del_entry_In in H as [_ H]. now apply H.
Qed.

Theorem failure_is_retried c s r h x now t err res : reachable c s -> get_exec (s_execs s) h = Some x -> may_resched (x_phase x) = true ->
  rt_attempts r = None \/ (exists n, rt_attempts r = Some n /\ m_attempt (x_msg x) < n) ->
  let w := now + rt_delay r in
  let s' := fst (step c s (after_failure r x now t err res)) in
  retry_stored s' (x_msg x) w /\ state_of s' (m_key (x_msg x)) = Some (if w <=? t then SQueued else SScheduled) /\
  (forall m, ~ on_stream s' (x_mid x) m).
Proof.
  intros R Hx Hp Hr w s'. assert (E : after_failure r x now t err res = OResched h w true t).
  { unfold after_failure, handle_failure. destruct (get_exec_spec _ _ _ Hx) as [_ ->].
    destruct Hr as [->|(n & -> & Hn)]; [reflexivity|]. destruct (Z.leb_spec n (m_attempt (x_msg x))); [lia|reflexivity]. }
  unfold s'. rewrite E. now apply resched_stored.
Qed.

Theorem last_failure_is_final c s r n h x now t err res : get_exec (s_execs s) h = Some x -> may_resched (x_phase x) = true ->
  rt_attempts r = Some n -> n <= m_attempt (x_msg x) -> 0 < c_ttl c -> live s (x_msg x) ->
  let s' := fst (step c s (after_failure r x now t err res)) in
  state_of s' (m_key (x_msg x)) = Some SFailed /\ (forall p m, stored_at s' p m -> stored_at s p m).
Proof.
  intros Hx Hp Hr Hn Ht Hl s'. assert (E : after_failure r x now t err res = OTerminal h SFailed t err res).
  { unfold after_failure, handle_failure. destruct (get_exec_spec _ _ _ Hx) as [_ ->]. rewrite Hr. destruct (Z.leb_spec n (m_attempt (x_msg x))); [reflexivity|lia]. }
  assert (Hf : may_finish (x_phase x) SFailed = true) by (destruct (x_phase x); try discriminate Hp; reflexivity).
  unfold s'. rewrite E. cbn [step]. rewrite Hx, Hf. unfold lua_terminal. unfold live in Hl. rewrite Hl.
  replace (0 <? c_ttl c) with true by (symmetry; now apply Z.ltb_lt). cbn [fst set_execs s_db]. split.
  - unfold state_of, rget. cbn. rewrite ?upd_eq. cbn. rewrite ?upd_eq. reflexivity.
  - intros p m. destruct p; cbn; auto. unfold on_stream. cbn. intros H. apply (del_entry_In) in H. tauto.
Qed.

(** ** Exponential delays *)

Lemma pow2_pos a : 0 < 2 ^ a \/ a < 0.
Proof. destruct (Z_lt_le_dec a 0); [right; lia|left; apply Z.pow_pos_nonneg; lia]. Qed.

Lemma exp_delay_value mn mx a d : 1 <= a -> mn <= mx -> 0 <= mn -> exp_delay mn mx a = Some d -> d = Z.min (mn * 2 ^ (a - 1)) mx.
Proof.
  intros Ha Hm H0. unfold exp_delay. destruct (Z.ltb_spec 1 a).
  - unfold td_mul. destruct (td_ok _); [|discriminate]. intros E; injection E as <-. destruct (Z.ltb_spec mx (mn * 2 ^ (a - 1))); lia.
  - intros E; injection E as <-. replace (a - 1) with 0 by lia. rewrite Z.pow_0_r. lia.
Qed.

Theorem exponential_doubles mn mx a d d' : 0 <= mn <= mx -> 1 <= a -> exp_delay mn mx a = Some d -> exp_delay mn mx (a + 1) = Some d' ->
  mn <= d <= mx /\ (a = 1 -> d = mn) /\ d' = Z.min (2 * d) mx.
Proof.
  intros Hm Ha E E'. apply exp_delay_value in E; try lia. apply exp_delay_value in E'; try lia. subst.
  replace (a + 1 - 1) with (Z.succ (a - 1)) by lia. rewrite Z.pow_succ_r by lia. set (q := 2 ^ (a - 1)).
  assert (1 <= q) by (unfold q; pose proof (Z.pow_pos_nonneg 2 (a - 1)); lia). split; [nia|split; [|nia]]. intros ->. unfold q. cbn. lia.
Qed.

Theorem exponential_defined mn mx a : 0 <= mn -> 1 <= a -> (a = 1 \/ mn * 2 ^ (a - 1) <= td_max) -> exp_delay mn mx a <> None.
Proof.
  intros H0 Ha H. unfold exp_delay. destruct (Z.ltb_spec 1 a); [|discriminate]. destruct H as [H|H]; [lia|].
  unfold td_mul, td_ok. assert (0 <= mn * 2 ^ (a - 1)) by (apply Z.mul_nonneg_nonneg; [lia|apply Z.pow_nonneg; lia]).
  replace (td_min <=? mn * 2 ^ (a - 1)) with true by (symmetry; apply Z.leb_le; unfold td_min, day; lia).
  replace (mn * 2 ^ (a - 1) <=? td_max) with true by (symmetry; apply Z.leb_le; lia). discriminate.
Qed.

Theorem exponential_overflows mn mx : 0 < mn -> forall a, 69 <= a -> exp_delay mn mx a = None.
Proof.
  intros H0 a Ha. unfold exp_delay. destruct (Z.ltb_spec 1 a); [|lia]. unfold td_mul, td_ok.
  assert (2 ^ 68 <= 2 ^ (a - 1)) by (apply Z.pow_le_mono_r; lia).
  assert (td_max < 2 ^ 68) by reflexivity.
  assert (2 ^ (a - 1) <= mn * 2 ^ (a - 1)) by nia.
  replace (mn * 2 ^ (a - 1) <=? td_max) with false by (symmetry; apply Z.leb_gt; lia). rewrite andb_false_r. reflexivity.
Qed.

Theorem retry_at_not_early r now1 at_ attempt now2 w a : now1 <= now2 ->
  handle_failure (retry_at r now1 at_) attempt now2 = Some (w, a) -> at_ <= w.
Proof.
  intros H. unfold handle_failure, retry_at, retry_after; cbn [rt_attempts rt_delay].
  destruct (rt_attempts r) as [n|]; [destruct (n <=? attempt); [discriminate|]|]; intros E; injection E as <- _; destruct (Z.leb_spec 0 (at_ - now1)); lia.
Qed.
