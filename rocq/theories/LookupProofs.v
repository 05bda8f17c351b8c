(** The record of a key describes its current run. *)
From Verif Require Import Base ZSet Model GInv KView KSim Spec KInv KLine Hist Steps Steps3 Lookup SpecLookup.

Definition defines (r : runs) (m : msg) : Prop :=
  r_fn r = Some (m_fn m) /\ r_args r = Some (m_args m) /\ r_kwargs r = Some (m_kwargs m) /\ r_when r = Some (m_when m).

Definition same_def (r r' : runs) : Prop :=
  r_fn r' = r_fn r /\ r_args r' = r_args r /\ r_kwargs r' = r_kwargs r /\ r_when r' = r_when r.

Lemma same_def_refl r : same_def r r. Proof. repeat split. Qed.
Lemma defines_same r r' m : same_def r r' -> defines r m -> defines r' m.
Proof. unfold same_def, defines. intros (A & B & C & D). now rewrite A, B, C, D. Qed.
Lemma defines_gen r m g : defines r m -> defines r (with_gen m g).
Proof. exact (fun H => H). Qed.

Lemma khdel_def v f : (forall r, same_def r (f r)) -> same_def (kr v) (kr (khdel v f)).
Proof. intros Hf. unfold kr; simpl. destruct (k_runs v); simpl; [apply Hf|apply same_def_refl]. Qed.
Lemma same_def_trans a b c : same_def a b -> same_def b c -> same_def a c.
Proof. unfold same_def. intros (A1 & A2 & A3 & A4) (B1 & B2 & B3 & B4). repeat split; congruence. Qed.

Lemma kplace_def v w imm clr m : m_when m = w -> defines (kr (kplace v w imm clr m)) m.
Proof. intros <-. unfold kplace; cbv zeta. destruct imm; [repeat split|]. destruct clr; repeat split. Qed.

(** Events other than scheduling, rescheduling and parking leave the definition. *)
Definition writes (v : ks) (e : kev) : bool :=
  match e with
  | KSched repl _ _ => negb (negb repl && kexists v)
  | KResched _ _ _ _ | KPark _ _ => true
  | _ => false
  end.

Lemma def_apply c k v e : kok k v e -> UInv k v -> (k_runs v <> None -> k_runs (kapply c v e) <> None) ->
  writes v e = false -> same_def (kr v) (kr (kapply c v e)).
Proof.
  intros Hok U K W. destruct e; cbn [kapply writes] in *; try apply same_def_refl; try discriminate W.
  - cbn [kset_runs k_runs] in K. unfold kr; cbn [kset_runs k_runs]. destruct (k_runs v); [exfalso; apply K; congruence|apply same_def_refl].
  - apply khdel_def. intros r; repeat split.
  - unfold ksched. destruct (negb repl && kexists v); [apply same_def_refl|discriminate W].
  - unfold kcancel; cbv zeta.
    assert (E : same_def (kr v) (kr (khdel (kset_prog (kreplace_existing v) None) rdel_known))).
    { eapply same_def_trans; [|apply khdel_def; intros r; repeat split].
      change (kr (kset_prog (kreplace_existing v) None)) with (kr (kreplace_existing v)). rewrite kr_kreplace. apply same_def_refl. }
    destruct (r_state _) as [[]|]; try exact E; (eapply same_def_trans; [exact E|repeat split]).
  - unfold kmove. destruct (k_parked v); repeat split.
  - cbv zeta. unfold kclaim. destruct (ksuper v _); repeat split.
  - apply khdel_def. intros r; repeat split.
  - destruct Hok as [Hin _]. unfold kterminal in *. destruct (ksuper v (m_gen (x_msg x))) eqn:S.
    + destruct (kprog_mine v _); repeat split.
    + unfold kexpire in *. destruct (0 <? c_ttl c); [repeat split|].
      destruct (k_runs v) eqn:E; [exfalso; apply K; [congruence|reflexivity]|].
      rewrite (ksuper_none k v x U E Hin) in S. discriminate.
  - unfold kwake. destruct (r_state (kr v)) as [[]|]; repeat split.
  - unfold kcleanup. apply (khdel_def (kset_prog (kdel_waiter c0 i v) None)). intros r; repeat split.
  - cbn [kset_runs k_runs] in K. unfold kr; cbn [kset_runs k_runs]. destruct (k_runs v); [exfalso; apply K; congruence|apply same_def_refl].
Qed.

Record LInv (v : ks) : Prop := mkLInv {
  li_cur : forall m, held v m -> m_gen m = kgen v -> defines (kr v) m;
  li_wait : forall cc i m, In (cc, (i, m)) (k_wait v) -> defines (kr v) m }.

Lemma LInv_apply c k v e : kok k v e -> UInv k v -> (k_runs v <> None -> k_runs (kapply c v e) <> None) ->
  BInv v -> LInv v -> (writes v e = true -> k_wait v = []) ->
  (forall x cc, e = KPark x cc -> m_gen (x_msg x) = kgen v) -> LInv (kapply c v e).
Proof.
  intros Hok U K B [L1 L2] W P. pose proof (kgen_apply c k v e Hok U K) as G.
  destruct (writes v e) eqn:Ew.
  - (* a new definition is written; nobody waits *)
    specialize (W eq_refl).
    assert (Def : forall m0, origin e = Some m0 -> defines (kr (kapply c v e)) m0).
    { intros m0 E. destruct e; cbn [origin writes] in *; try discriminate; injection E as <-.
      - cbn [kapply]. unfold ksched. apply negb_true_iff in Ew. rewrite Ew. apply kplace_def. reflexivity.
      - cbn [kapply]. change (defines (kr (kresched v (x_mid x) when imm (resched_msg (x_msg x) when bump))) (resched_msg (x_msg x) when bump)).
        unfold kresched. eapply defines_same; [apply khdel_def; intros r; repeat split|]. apply kplace_def. reflexivity.
      - assert (D : defines (kr v) (x_msg x)).
        { apply L1; [right; right; right; exists x; split; [apply Hok|reflexivity]|now apply (P x c0)]. }
        destruct D as (D1 & D2 & D3 & D4). cbn [kapply]. repeat split. exact D4. }
    assert (N : newcopy v e <> None).
    { destruct e; cbn [newcopy writes] in *; try discriminate. apply negb_true_iff in Ew. rewrite Ew. discriminate. }
    destruct (newcopy v e) as [l|] eqn:En; [clear N|congruence].
    split.
    + intros m Hm E. rewrite G in E. apply (held_apply c k) in Hm as [Hm|(m0 & l0 & Eo & _ & ->)]; [|apply defines_gen; now apply Def|exact Hok].
      apply held_holds in Hm as [l' Hl]. apply (bi_le _ B) in Hl. lia.
    + intros cc i m Hm. apply (wait_apply c k) in Hm as [Hm|(x & -> & ->)]; [rewrite W in Hm; destruct Hm| |exact Hok].
      apply defines_gen. apply Def. reflexivity.
  - pose proof (def_apply c k v e Hok U K Ew) as S. split.
    + intros m Hm E. apply (held_apply c k) in Hm as [Hm|(m0 & l0 & Eo & N & ->)]; [| |exact Hok].
      * eapply defines_same; [exact S|]. apply L1; [exact Hm|]. rewrite G in E. destruct (newcopy v e); [|exact E].
        apply held_holds in Hm as [l' Hl]. apply (bi_le _ B) in Hl. lia.
      * eapply defines_same; [exact S|]. apply defines_gen. destruct e; cbn [origin newcopy writes] in *; try discriminate.
        -- apply negb_false_iff in Ew. rewrite Ew in N. discriminate.
        -- injection Eo as <-. simpl in Hok. eapply L2; eauto.
    + intros cc i m Hm. eapply defines_same; [exact S|]. apply (wait_apply c k) in Hm as [Hm|(x & -> & ->)]; [eauto|discriminate|exact Hok].
Qed.

Lemma LInv_init k : LInv (kabs k init_sys).
Proof.
  split; [|intros cc i m []]. intros m [[i []]|[H|[(cc & i & [])|(x & [] & _)]]]. discriminate.
Qed.

Lemma not_waiting_nil k s : not_waiting k s -> k_wait (kabs k s) = [].
Proof.
  intros H. unfold kabs, kd; simpl. destruct (filter (whas_key k) (d_wait (s_db s))) as [|[cc [i m]] l] eqn:E; [reflexivity|].
  assert (I : In (cc, (i, m)) (filter (whas_key k) (d_wait (s_db s)))) by (rewrite E; left; reflexivity).
  apply filter_In in I as [I1 I2]. exfalso. apply (H cc i m I1). unfold whas_key, has_key in I2; simpl in I2. now apply String.eqb_eq.
Qed.

Lemma kexec_get k s h x : GInv s -> In x (k_execs (kabs k s)) -> x_id x = h -> get_exec (s_execs s) h = Some x.
Proof.
  intros G H E. unfold kabs, kd in H; simpl in H. apply filter_In in H as [H _].
  destruct (get_exec (s_execs s) h) as [y|] eqn:Ey.
  - unfold get_exec in Ey. apply find_some in Ey as [Iy Ey]. apply Z.eqb_eq in Ey. f_equal.
    eapply nodup_id_inj; eauto; [apply G|congruence].
  - exfalso. unfold get_exec in Ey. eapply find_none in Ey; [|exact H]. apply Z.eqb_neq in Ey. congruence.
Qed.

Lemma writes_line k s o v e : GInv s -> kok k v e -> label k o e -> (single o = true -> v = kabs k s) ->
  one_line k s o -> (writes v e = true -> k_wait v = []) /\ (forall x cc, e = KPark x cc -> BInv v -> UInv k v -> m_gen (x_msg x) = kgen v).
Proof.
  intros G Hok L V O. destruct e; try (split; [discriminate|intros ? ? E; discriminate]); simpl in L.
  - split; [|intros ? ? E; discriminate]. intros _. destruct L as (t & -> & _). simpl in Hok.
    assert (v = kabs k s) as -> by (apply V; destruct repl; reflexivity).
    apply not_waiting_nil. destruct repl; exact (O Hok).
  - split; [|intros ? ? E; discriminate]. intros _. destruct L as (t & -> & _). destruct Hok as [Hin _].
    assert (v = kabs k s) as -> by (apply V; reflexivity). apply not_waiting_nil.
    apply (O x); [eapply kexec_get; eauto|]. unfold kabs, kd in Hin; simpl in Hin. apply filter_In in Hin as [_ Hk].
    now apply String.eqb_eq.
  - destruct L as (mx & t & ->). destruct Hok as [Hin _].
    assert (v = kabs k s) as -> by (apply V; reflexivity).
    assert (Hg : get_exec (s_execs s) (x_id x) = Some x) by (eapply kexec_get; eauto).
    assert (Hk : m_key (x_msg x) = k).
    { unfold kabs, kd in Hin; simpl in Hin. apply filter_In in Hin as [_ Hk]. now apply String.eqb_eq. }
    destruct O as [O1 O2]. split.
    + intros _. apply not_waiting_nil. eauto.
    + intros y cc [= <- <-] B U. specialize (O1 x Hg Hk).
      change (ksuper (kabs k s) (m_gen (x_msg x)) = false) in O1.
      destruct (ui_exec _ _ U x Hin) as (_ & _ & Hge). destruct (ksuper_false _ _ O1 Hge) as (g & Eg & Le).
      assert (holds (kabs k s) (m_gen (x_msg x)) (LS (x_mid x))) as Hh by (right; eauto).
      apply (bi_le _ B) in Hh. unfold kgen in *. rewrite Eg in *. simpl in *. lia.
Qed.

Lemma LInv_step c k s o : GInv s -> UInv k (kabs k s) -> keeps c k s o -> one_line k s o ->
  BInv (kabs k s) /\ LInv (kabs k s) -> BInv (kabs k (fst (step c s o))) /\ LInv (kabs k (fst (step c s o))).
Proof.
  intros G U K O. apply (kept_ind c k s o (fun v => BInv v /\ LInv v) G U K).
  intros v e Hok L U1 _ K1 V [B1 L1]. split; [eapply BInv_apply; eauto|].
  destruct (writes_line k s o v e G Hok L V O) as [W P]. eapply LInv_apply; eauto.
Qed.

Lemma LInv_final c k l : forall s, GInv s -> UInv k (kabs k s) -> along c (fun s o => keeps c k s o /\ one_line k s o) s l ->
  BInv (kabs k s) /\ LInv (kabs k s) -> BInv (kabs k (final c s l)) /\ LInv (kabs k (final c s l)).
Proof.
  induction l as [|o l IH]; intros s G U A B; [exact B|]. destruct A as [[K O] A]. rewrite final_cons.
  apply IH; auto; [now apply GInv_step|now apply UInv_step|now apply LInv_step].
Qed.

(** Every record has a state. *)
Definition Stated (v : ks) : Prop := forall r, k_runs v = Some r -> r_state r <> None.

Lemma Stated_apply c k v e : kok k v e -> Stated v -> Stated (kapply c v e).
Proof.
  intros Hok S.
  assert (D : forall v f, Stated v -> (forall r, r_state (f r) = r_state r) -> Stated (khdel v f)).
  { intros v0 f S0 Hf r. simpl. destruct (k_runs v0) as [r0|] eqn:E; simpl; [|discriminate]. intros [= <-]. rewrite Hf. now apply S0. }
  assert (X : forall v i, Stated v -> Stated (kdel v i)) by (intros v0 i S0 r E; exact (S0 r E)).
  assert (R : Stated (kreplace_existing v)) by (intros r; rewrite kreplace_runs; apply S).
  assert (P : forall v w imm clr m, Stated (kplace v w imm clr m)).
  { intros v0 w imm clr m r. unfold kplace; cbv zeta. destruct imm; simpl; [intros [= <-]; discriminate|].
    destruct clr; simpl; intros [= <-]; discriminate. }
  destruct e; cbn [kapply]; try exact S; try (intros r; exact (S r)).
  - intros r; discriminate.
  - apply D; auto.
  - unfold ksched. destruct (negb repl && kexists v); [exact S|apply P].
  - unfold kcancel; cbv zeta. assert (Q : Stated (khdel (kset_prog (kreplace_existing v) None) rdel_known)) by (apply D; auto).
    destruct (r_state _) as [[]|]; try exact Q; intros r [= <-]; discriminate.
  - unfold kmove. destruct (k_parked v); [intros r [= <-]; discriminate|exact S].
  - cbv zeta. unfold kclaim. destruct (ksuper v _); [exact S|]. intros r [= <-]; discriminate.
  - apply (D v rdel_known); auto.
  - unfold kterminal. destruct (ksuper v _); [destruct (kprog_mine v _); exact S|]. unfold kexpire.
    destruct (0 <? c_ttl c); intros r; simpl; [intros [= <-]; discriminate|discriminate].
  - apply (D (kplace (kdel v (x_mid x)) when imm true (resched_msg (x_msg x) when bump)) rdel_worker); auto.
  - intros r [= <-]; discriminate.
  - unfold kwake. destruct (r_state (kr v)) as [[]|]; try exact S. intros r [= <-]; discriminate.
  - apply (D (kset_prog (kdel_waiter c0 i v) None) rdel_waiter); auto.
  - intros r; discriminate.
Qed.

Lemma Stated_reachable c k s : reachable c s -> Stated (kabs k s).
Proof.
  intros (l & ->). assert (X : forall s, GInv s -> UInv k (kabs k s) -> Stated (kabs k s) -> Stated (kabs k (final c s l))).
  { induction l as [|o l IH]; intros s G U S; [exact S|]. rewrite final_cons. apply IH; [now apply GInv_step|now apply UInv_step|].
    apply (step_ind c k s o Stated G U); [|exact S]. intros v e Hok _ _ _ _. now apply (Stated_apply c k). }
  apply X; [apply GInv_init|apply UInv_init|]. intros r; discriminate.
Qed.

(** ** Where the definition comes from *)

Definition FromCall (l : list op) (k : key) (r : runs) : Prop :=
  (r_fn r = None /\ r_args r = None /\ r_kwargs r = None) \/
  exists a t, (In (OAdd a t) l \/ In (OReplace a t) l) /\ a_key a = k /\
    r_fn r = Some (a_fn a) /\ r_args r = Some (a_args a) /\ r_kwargs r = Some (a_kwargs a).

Lemma came_call l m : came_from l m -> exists a t, (In (OAdd a t) l \/ In (OReplace a t) l) /\ a_key a = m_key m /\
  a_fn a = m_fn m /\ a_args a = m_args m /\ a_kwargs a = m_kwargs m.
Proof.
  induction 1 as [a t m Ha Hf|m0 h w b t m _ (a & t' & Ha & E) _ E1 E2 E3 E4 _ _].
  - exists a, t. unfold first_attempt, carries in Hf. intuition congruence.
  - exists a, t'. rewrite E1, E2, E3, E4. auto.
Qed.

Lemma FromCall_same l k r r' : same_def r r' -> FromCall l k r -> FromCall l k r'.
Proof. unfold same_def, FromCall. intros (A & B & C & _). now rewrite A, B, C. Qed.

Lemma FromCall_mono l l' k r : incl l l' -> FromCall l k r -> FromCall l' k r.
Proof. intros I [H|(a & t & Ha & H)]; [now left|right; exists a, t]. split; [destruct Ha; [left|right]; auto|exact H]. Qed.

Lemma FromCall_apply c k v e o l : kok k v e -> label k o e -> UInv k v -> In o l ->
  (forall m, held v m -> came_from l m) -> FromCall l k (kr v) -> FromCall l k (kr (kapply c v e)).
Proof.
  intros Hok L U I C F. destruct (writes v e) eqn:W.
  - destruct e; cbn [writes] in W; try discriminate; simpl in L.
    + destruct L as (t & -> & _). apply negb_true_iff in W. cbn [kapply]. unfold ksched. rewrite W.
      destruct (kplace_def (if repl then kreplace_existing v else v) (a_when a) imm false (call_msg a) eq_refl) as (D1 & D2 & D3 & _).
      right. exists a, t. split; [destruct repl; auto|]. auto.
    + destruct L as (t & -> & _). destruct Hok as [Hin _].
      assert (Hc : came_from l (x_msg x)) by (apply C; right; right; right; eauto).
      apply came_call in Hc as (a & t' & Ha & E1 & E2 & E3 & E4).
      cbn [kapply]. eapply FromCall_same; [apply (khdel_def (kplace (kdel v (x_mid x)) when imm true (resched_msg (x_msg x) when bump)) rdel_worker); intros r; repeat split|].
      destruct (kplace_def (kdel v (x_mid x)) when imm true (resched_msg (x_msg x) when bump) eq_refl) as (D1 & D2 & D3 & _).
      right. exists a, t'. split; [exact Ha|]. rewrite D1, D2, D3. simpl. rewrite E1, E2, E3, E4.
      split; [apply (ui_exec _ _ U x Hin)|auto].
    + destruct Hok as [Hin _].
      assert (Hc : came_from l (x_msg x)) by (apply C; right; right; right; eauto).
      apply came_call in Hc as (a & t' & Ha & E1 & E2 & E3 & E4).
      right. exists a, t'. split; [exact Ha|]. rewrite E1, E2, E3, E4. split; [apply (ui_exec _ _ U x Hin)|]. repeat split.
  - assert (D : same_def (kr v) (kr (kapply c v e)) \/ k_runs (kapply c v e) = None).
    { destruct (k_runs (kapply c v e)) eqn:E; [left|now right]. eapply def_apply; eauto. congruence. }
    destruct D as [D|D]; [eapply FromCall_same; eauto|]. left. unfold kr. rewrite D. repeat split.
Qed.

Lemma FromCall_final c k l2 : forall l1 s, GInv s -> UInv k (kabs k s) ->
  (forall m, held (kabs k s) m -> came_from l1 m) -> FromCall l1 k (kr (kabs k s)) ->
  FromCall (l1 ++ l2) k (kr (kabs k (final c s l2))).
Proof.
  induction l2 as [|o l2 IH]; intros l1 s G U C F; [now rewrite app_nil_r|]. rewrite final_cons.
  replace (l1 ++ o :: l2) with ((l1 ++ [o]) ++ l2) by (rewrite <- app_assoc; reflexivity).
  apply IH; [now apply GInv_step|now apply UInv_step| |].
  - intros m Hm. apply (came_final c k [o] l1 s G C m). rewrite final_cons. exact Hm.
  - assert (I : incl l1 (l1 ++ [o])) by (intros y Hy; apply in_app_iff; auto).
    assert (Io : In o (l1 ++ [o])) by (apply in_app_iff; simpl; auto).
    apply (step_ind c k s o (fun v => (forall m, held v m -> came_from (l1 ++ [o]) m) /\ FromCall (l1 ++ [o]) k (kr v)) G U).
    + intros v e Hok L U1 _ _ [C1 F1]. split; [|eapply FromCall_apply; eauto].
      intros m Hm. assert (X : came_from ((l1 ++ [o]) ++ [o]) m) by (eapply came_apply; eauto).
      eapply came_from_mono; [|exact X]. intros y Hy. apply in_app_iff in Hy as [Hy|[<-|[]]]; auto.
    + split; [intros m Hm; eapply came_from_mono; [exact I|auto]|eapply FromCall_mono; eauto].
Qed.

Lemma FromCall_reachable c k l : FromCall l k (kr (kabs k (final c init_sys l))).
Proof.
  apply (FromCall_final c k l [] init_sys (GInv_init) (UInv_init k)).
  - intros m [[i []]|[X|[(cc & i & [])|(x & [] & _)]]]. discriminate X.
  - left. repeat split.
Qed.

(** ** A scheduled task is found *)

Definition Complete (r : runs) : Prop := r_fn r <> None /\ r_args r <> None /\ r_kwargs r <> None /\ r_when r <> None.

Lemma Complete_same r r' : same_def r r' -> Complete r -> Complete r'.
Proof. unfold same_def, Complete. intros (A & B & C & D). now rewrite A, B, C, D. Qed.

Lemma defines_complete r m : defines r m -> Complete r.
Proof. intros (A & B & C & D). unfold Complete. rewrite A, B, C, D. repeat split; discriminate. Qed.

Lemma Complete_apply c k v e : kok k v e -> UInv k v -> (k_runs v <> None -> k_runs (kapply c v e) <> None) ->
  Complete (kr v) -> Complete (kr (kapply c v e)).
Proof.
  intros Hok U K C. destruct (writes v e) eqn:W; [|eapply Complete_same; [eapply def_apply; eauto|exact C]].
  destruct e; cbn [writes] in W; try discriminate.
  - apply negb_true_iff in W. cbn [kapply]. unfold ksched. rewrite W. eapply defines_complete, kplace_def. reflexivity.
  - cbn [kapply]. eapply Complete_same; [apply (khdel_def (kplace (kdel v (x_mid x)) when imm true (resched_msg (x_msg x) when bump)) rdel_worker); intros r; repeat split|].
    eapply defines_complete, kplace_def. reflexivity.
  - destruct C as (_ & _ & _ & C). cbn [kapply]. repeat split; try discriminate. exact C.
Qed.

Lemma Complete_final c k l : forall s, GInv s -> UInv k (kabs k s) -> along c (keeps c k) s l ->
  Complete (kr (kabs k s)) -> Complete (kr (kabs k (final c s l))).
Proof.
  induction l as [|o l IH]; intros s G U A B; [exact B|]. destruct A as [K A]. rewrite final_cons.
  apply IH; auto; [now apply GInv_step|now apply UInv_step|].
  apply (kept_ind c k s o (fun v => Complete (kr v)) G U K); [|exact B].
  intros v e Hok _ U1 _ K1 _ C. eapply Complete_apply; eauto.
Qed.

(** ** The theorems *)

Lemma get_execution_some reg d d' k r fn args kwargs w : d_runs d k = Some r ->
  r_fn r = Some fn -> r_args r = Some args -> r_kwargs r = Some kwargs -> r_when r = Some w -> fn <> EmptyString ->
  exists h, get_execution reg d d' k = Some h /\ hd_key h = k /\ function_for reg fn (hd_fun h) /\
    hd_args h = args /\ hd_kwargs h = kwargs /\ hd_when h = w.
Proof.
  intros E1 E2 E3 E4 E5 Hn. unfold get_execution. rewrite E1, E2, E3, E4, E5. rewrite (proj2 (String.eqb_neq _ _) Hn).
  eexists. split; [reflexivity|]. unfold sync_handle. cbn [hd_key new_handle].
  assert (F : function_for reg fn (match reg fn with Some f => f | None => placeholder fn end))
    by (unfold function_for; destruct (reg fn); [left|right]; auto).
  destruct (d_runs d' k); cbn; repeat split; exact F.
Qed.

Lemma get_execution_inv reg d d' k h : get_execution reg d d' k = Some h ->
  exists fn, hd_key h = k /\ r_fn (rget d k) = Some fn /\ function_for reg fn (hd_fun h) /\
    r_args (rget d k) = Some (hd_args h) /\ r_kwargs (rget d k) = Some (hd_kwargs h) /\ r_when (rget d k) = Some (hd_when h) /\
    exists h0, h = sync_handle d' h0 /\ hd_key h0 = k /\ hd_state h0 = SScheduled.
Proof.
  unfold get_execution, rget. destruct (d_runs d k) as [r|]; [|discriminate]. cbn [default].
  destruct (r_fn r) as [fn|]; [|discriminate]. destruct (r_args r) as [args|]; [|discriminate].
  destruct (r_kwargs r) as [kwargs|]; [|discriminate]. destruct (String.eqb fn ""); [discriminate|].
  destruct (r_when r) as [w|]; [|discriminate]. intros [= <-]. exists fn.
  assert (F : function_for reg fn (match reg fn with Some f => f | None => placeholder fn end))
    by (unfold function_for; destruct (reg fn); [left|right]; auto).
  unfold sync_handle at 1 2 3 4 5. cbn [hd_key new_handle].
  destruct (d_runs d' k) eqn:Ed; cbn [hd_key hd_fun hd_args hd_kwargs hd_when new_handle];
    (repeat (split; [first [reflexivity|exact F]|])); eexists; (split; [reflexivity|split; reflexivity]).
Qed.

Theorem lookup_describes c reg k l d' m : orderly c k l ->
  let s := final c init_sys l in
  present s m -> m_key m = k -> m_fn m <> EmptyString -> live s m ->
  exists h, get_execution reg (s_db s) d' k = Some h /\ describes reg h m.
Proof.
  intros A s P Ek Hn Hl.
  assert (G : GInv s) by (apply (reachable_GInv c); exists l; reflexivity).
  assert (U : UInv k (kabs k s)) by (apply (reachable_UInv c); exists l; reflexivity).
  destruct (LInv_final c k l init_sys (GInv_init) (UInv_init k) A (conj (BInv_init k) (LInv_init k))) as [B L].
  fold s in B, L. apply (present_held k) in P; auto.
  assert (Hge : 1 <= m_gen m).
  { destruct P as [[i H]|[H|[(cc & i & H)|(x & H & <-)]]].
    - apply (ui_stream _ _ U i m H).
    - apply (ui_parked _ _ U m H).
    - apply (ui_wait _ _ U cc i m H).
    - apply (ui_exec _ _ U x H). }
  unfold live in Hl. rewrite Ek in Hl. change (ksuper (kabs k s) (m_gen m) = false) in Hl.
  destruct (ksuper_false _ _ Hl Hge) as (g & Eg & Le).
  assert (Eq : m_gen m = kgen (kabs k s)).
  { destruct (held_holds _ _ P) as [lo Hh]. apply (bi_le _ B) in Hh. unfold kgen in *. rewrite Eg in *. simpl in *. lia. }
  destruct (li_cur _ L m P Eq) as (D1 & D2 & D3 & D4).
  destruct (d_runs (s_db s) k) as [r|] eqn:Er.
  - assert (Kr : kr (kabs k s) = r) by (unfold kr, kabs, kd; simpl; now rewrite Er). rewrite Kr in *.
    destruct (get_execution_some reg (s_db s) d' k r _ _ _ _ Er D1 D2 D3 D4 Hn) as (h & E & F1 & F2 & F3 & F4 & F5).
    exists h. split; [exact E|]. unfold describes. rewrite Ek. auto.
  - assert (Kr : kr (kabs k s) = empty_runs) by (unfold kr, kabs, kd; simpl; now rewrite Er). rewrite Kr in *. discriminate.
Qed.

Theorem lookup_from_call c reg l d' k h : let s := final c init_sys l in
  get_execution reg (s_db s) d' k = Some h ->
  exists a t, (In (OAdd a t) l \/ In (OReplace a t) l) /\ repeats reg h a.
Proof.
  intros s E. destruct (get_execution_inv _ _ _ _ _ E) as (fn & Ek & E1 & F & E2 & E3 & E4 & _).
  destruct (FromCall_reachable c k l) as [(N & _ & _)|(a & t & Ha & A1 & A2 & A3 & A4)].
  - change (r_fn (rget (s_db s) k) = None) in N. congruence.
  - change (r_fn (rget (s_db s) k) = Some (a_fn a)) in A2. change (r_args (rget (s_db s) k) = Some (a_args a)) in A3.
    change (r_kwargs (rget (s_db s) k) = Some (a_kwargs a)) in A4.
    exists a, t. split; [exact Ha|]. unfold repeats. rewrite Ek, A1. repeat split; [|congruence|congruence].
    replace (a_fn a) with fn by congruence. exact F.
Qed.

Theorem lookup_up_to_date c reg d k h s' : reachable c s' -> d_runs (s_db s') k <> None ->
  get_execution reg d (s_db s') k = Some h -> up_to_date (s_db s') h.
Proof.
  intros R N E. destruct (get_execution_inv _ _ _ _ _ E) as (fn & Ek & _ & _ & _ & _ & _ & h0 & -> & E0 & Es).
  unfold up_to_date. rewrite Ek. unfold sync_handle, rget. rewrite E0.
  destruct (d_runs (s_db s') k) as [r|] eqn:Er; [|congruence]. cbn.
  pose proof (Stated_reachable c k s' R r Er) as S. destruct (r_state r); [|congruence]. repeat split.
Qed.

Theorem lookup_found c reg l1 l2 o k d' : Forall named (l1 ++ o :: l2) ->
  (exists a t, (o = OAdd a t \/ o = OReplace a t) /\ a_key a = k) ->
  let s1 := final c init_sys l1 in
  snd (step c s1 o) = ODisp DScheduled -> along c (keeps c k) (fst (step c s1 o)) l2 ->
  exists h, get_execution reg (s_db (final c init_sys (l1 ++ o :: l2))) d' k = Some h.
Proof.
  intros N (a & t & Eo & Ek) s1 D A.
  assert (G : GInv s1) by (apply (reachable_GInv c); exists l1; reflexivity).
  assert (U : UInv k (kabs k s1)) by (apply (reachable_UInv c); exists l1; reflexivity).
  assert (C0 : Complete (kr (kabs k (fst (step c s1 o))))).
  { assert (X : exists w imm m d, m_when m = w /\ s_db (fst (step c s1 o)) = publish (place d k w imm false m) k (if imm then SQueued else SScheduled)).
    { exists (a_when a), (a_when a <=? t), (call_msg a).
      destruct Eo as [-> | ->]; cbn [step] in D |- *; unfold do_schedule, lua_schedule in *; rewrite Ek in *; cbn [negb andb] in *.
      - destruct (lua_exists (s_db s1) k); [discriminate D|]. eexists. split; reflexivity.
      - eexists. split; reflexivity. }
    destruct X as (w & imm & m & d & Ew & X). unfold kabs. rewrite X. unfold kd, kr; simpl.
    unfold place, hincr_gen, xadd. destruct imm; cbn; rewrite ?upd_eq; cbn; (repeat split; discriminate). }
  set (s := final c init_sys (l1 ++ o :: l2)).
  assert (Es : s = final c (fst (step c s1 o)) l2).
  { unfold s, s1. rewrite final_app, final_cons. reflexivity. }
  assert (C : Complete (kr (kabs k s))).
  { rewrite Es. apply Complete_final; auto; [now apply GInv_step|now apply UInv_step]. }
  pose proof (FromCall_reachable c k (l1 ++ o :: l2)) as F. fold s in F.
  destruct C as (C1 & C2 & C3 & C4). destruct F as [(F1 & _)|(a' & t' & Ha & E1 & E2 & E3 & E4)]; [congruence|].
  assert (Hn : a_fn a' <> EmptyString).
  { rewrite Forall_forall in N. destruct Ha as [Ha|Ha]; apply N in Ha; exact Ha. }
  destruct (d_runs (s_db s) k) as [r|] eqn:Er.
  - assert (Kr : kr (kabs k s) = r) by (unfold kr, kabs, kd; simpl; now rewrite Er). rewrite Kr in *.
    destruct (r_when r) as [w|] eqn:Ew; [|congruence].
    destruct (get_execution_some reg (s_db s) d' k r _ _ _ _ Er E2 E3 E4 Ew Hn) as (h & Eh & _). eauto.
  - assert (Kr : kr (kabs k s) = empty_runs) by (unfold kr, kabs, kd; simpl; now rewrite Er). rewrite Kr in *. discriminate.
Qed.
