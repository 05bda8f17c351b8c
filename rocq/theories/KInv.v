(** Invariants of one key over the per-key machine of KView. *)
From Verif Require Import Base ZSet Model GInv KView KSim Spec.

Definition kgen (v : ks) : Z := default 0 (r_gen (kr v)).

Record UInv (k : key) (v : ks) : Prop := mkUInv {
  ui_stream : forall i m, In (i, m) (k_stream v) -> m_key m = k /\ i < k_next v /\ 1 <= m_gen m;
  ui_sorted : ids_sorted (k_stream v);
  ui_parked : forall m, k_parked v = Some m -> m_key m = k /\ 1 <= m_gen m;
  ui_score : forall m w, k_parked v = Some m -> k_score v = Some w -> m_when m = w;
  ui_wait : forall cc i m, In (cc, (i, m)) (k_wait v) -> m_key m = k /\ i < k_next v /\ 1 <= m_gen m;
  ui_wsorted : ids_sorted (map snd (k_wait v));
  ui_exec : forall x, In x (k_execs v) -> m_key (x_msg x) = k /\ x_mid x <= k_last v /\ 1 <= m_gen (x_msg x);
  ui_execm : forall x m, In x (k_execs v) -> In (x_mid x, m) (k_stream v) -> m = x_msg x;
  ui_nodup : NoDup (map x_id (k_execs v));
  ui_last : k_last v < k_next v;
  ui_gen : forall g, r_gen (kr v) = Some g -> 1 <= g }.

Lemma kgen_nonneg k v : UInv k v -> 0 <= kgen v.
Proof. intros H. unfold kgen. destruct (r_gen (kr v)) eqn:E; simpl; [apply (ui_gen _ _ H) in E; lia|lia]. Qed.

Lemma UInv_init k : UInv k (kabs k init_sys).
Proof. constructor; simpl; try tauto; try discriminate; try lia. constructor. Qed.

(** ** How each building block changes the fields *)

Lemma UInv_runs k v o : UInv k v -> (forall r g, o = Some r -> r_gen r = Some g -> 1 <= g) -> UInv k (kset_runs v o).
Proof.
  intros [] Ho. constructor; auto. simpl. intros g. unfold kr; simpl. destruct o; simpl; [eauto|discriminate].
Qed.

Lemma UInv_khset k v f : UInv k v -> (forall r, r_gen (f r) = r_gen r) -> UInv k (khset v f).
Proof.
  intros H Hf. apply UInv_runs; [exact H|]. intros r g [= <-]. rewrite Hf. apply (ui_gen _ _ H).
Qed.

Lemma UInv_khset_gen k v g : UInv k v -> 1 <= g -> UInv k (khset v (rset_gen g)).
Proof. intros H Hg. apply UInv_runs; [exact H|]. intros r g' [= <-]. simpl. intros [= <-]; exact Hg. Qed.

Lemma UInv_khdel k v f : UInv k v -> (forall r, r_gen (f r) = r_gen r) -> UInv k (khdel v f).
Proof.
  intros H Hf. apply UInv_runs; [exact H|]. intros r g. pose proof (ui_gen _ _ H) as G. unfold kr in G.
  destruct (k_runs v); simpl in *; [|discriminate]. intros [= <-]. rewrite Hf. apply G.
Qed.

Lemma UInv_kadd k v m : UInv k v -> m_key m = k -> 1 <= m_gen m -> UInv k (kadd v m).
Proof.
  intros [] Hk Hg. constructor; simpl; auto; try lia.
  - intros i m'. rewrite in_app_iff; simpl. intros [Hi|[[= <- <-]|[]]]; [apply ui_stream0 in Hi; intuition lia|auto with zarith].
  - apply ids_sorted_snoc; auto. intros [i m'] Hi; apply ui_stream0 in Hi; simpl; lia.
  - intros cc i m' Hi. apply ui_wait0 in Hi. intuition lia.
  - intros x m' Hx. rewrite in_app_iff; simpl. intros [Hi|[[= E <-]|[]]]; [eauto|].
    apply ui_exec0 in Hx. intuition lia.
Qed.

Lemma UInv_kdel k v i : UInv k v -> UInv k (kdel v i).
Proof.
  intros []. constructor; simpl; auto.
  - intros j m Hj. apply del_entry_In in Hj as [Hj _]. auto.
  - now apply ids_sorted_filter.
  - intros x m Hx Hj. apply del_entry_In in Hj as [Hj _]. auto.
Qed.

Lemma UInv_parked k v o : UInv k v -> (forall m, o = Some m -> m_key m = k /\ 1 <= m_gen m) -> k_score v = None \/ o = None ->
  UInv k (kset_parked v o).
Proof.
  intros [] H1 H2. constructor; simpl; auto. intros m w -> E. destruct H2; congruence.
Qed.

Lemma UInv_score k v : UInv k v -> UInv k (kset_score v None).
Proof. intros []. constructor; simpl; auto. discriminate. Qed.

Lemma UInv_unpark k v : UInv k v -> UInv k (kset_score (kset_parked v None) None).
Proof. intros []. constructor; simpl; auto; discriminate. Qed.

Lemma UInv_park k v m : UInv k v -> m_key m = k -> 1 <= m_gen m ->
  UInv k (kset_score (kset_parked v (Some m)) (Some (m_when m))).
Proof. intros [] H1 H2. constructor; simpl; auto; intros; congruence || (injection H as <-; auto). Qed.

Lemma UInv_prog k v o : UInv k v -> UInv k (kset_prog v o).
Proof. intros []. constructor; simpl; auto. Qed.

Lemma UInv_wait_filter k v f : UInv k v -> UInv k (kset_wait v (filter f (k_wait v))).
Proof.
  intros []. constructor; simpl; auto.
  - intros cc i m Hi. apply filter_In in Hi as [Hi _]. eauto.
  - now apply ids_sorted_map_filter.
Qed.

Lemma UInv_wait_add k v cc m : UInv k v -> m_key m = k -> 1 <= m_gen m ->
  UInv k (kset_next (kset_wait v (k_wait v ++ [(cc, (k_next v, m))])) (k_next v + 1)).
Proof.
  intros [] Hk Hg. constructor; simpl; auto; try lia.
  - intros i m' Hi. apply ui_stream0 in Hi. intuition lia.
  - intros c' i m'. rewrite in_app_iff; simpl. intros [Hi|[[= <- <- <-]|[]]]; [apply ui_wait0 in Hi; intuition lia|auto with zarith].
  - rewrite map_app; simpl. apply ids_sorted_snoc; auto. intros [i m'] Hi. simpl.
    apply in_map_iff in Hi as ([c' [i' m'']] & E & Hi). simpl in E. injection E as -> ->. apply ui_wait0 in Hi. intuition lia.
Qed.

Lemma UInv_execs k v h f : UInv k v -> (forall x, x_id (f x) = x_id x /\ x_mid (f x) = x_mid x /\ x_msg (f x) = x_msg x) ->
  UInv k (kphase v h f).
Proof.
  intros [] Hf. constructor; simpl; auto.
  - intros x Hx. apply upd_exec_In in Hx as (y & Hy & [->|[_ ->]]); [auto|].
    destruct (Hf y) as (_ & -> & ->). auto.
  - intros x m Hx. apply upd_exec_In in Hx as (y & Hy & [->|[_ ->]]); [eauto|].
    destruct (Hf y) as (_ & -> & ->). eauto.
  - rewrite upd_exec_ids; [auto|]. intros x; apply Hf.
Qed.

Lemma UInv_kplace k v w imm clr m : UInv k v -> m_key m = k -> m_when m = w -> UInv k (kplace v w imm clr m).
Proof.
  intros H Hk Hw. pose proof (kgen_nonneg _ _ H) as Hg. unfold kgen in Hg. unfold kplace. cbv zeta.
  set (g := default 0 (r_gen (kr v)) + 1). assert (Hg1 : 1 <= g) by lia.
  pose proof (UInv_khset_gen k v g H Hg1) as H1.
  destruct imm.
  - apply UInv_khset; [|reflexivity]. apply UInv_kadd; auto.
  - assert (H2 : UInv k (khset (kset_score (kset_parked (khset v (rset_gen g)) (Some (with_gen m g))) (Some w)) (rset_scheduled w (with_gen m g)))).
    { apply UInv_khset; [|reflexivity]. rewrite <- Hw. change (m_when m) with (m_when (with_gen m g)). apply UInv_park; auto. }
    destruct clr; [apply UInv_khdel; [exact H2|reflexivity]|exact H2].
Qed.

Lemma UInv_kreplace k v : UInv k v -> UInv k (kreplace_existing v).
Proof.
  intros H. unfold kreplace_existing. apply UInv_unpark. destruct (r_sid (kr v)); [now apply UInv_kdel|exact H].
Qed.

Lemma UInv_apply c k v e : kok k v e -> UInv k v -> UInv k (kapply c v e).
Proof.
  intros Hok H. destruct e; simpl in Hok |- *.
  - destruct H; constructor; simpl; auto; try lia.
    + intros i m Hi; apply ui_stream0 in Hi; intuition lia.
    + intros cc i m Hi; apply ui_wait0 in Hi; intuition lia.
    + intros x Hx; apply ui_exec0 in Hx; intuition lia.
  - apply UInv_runs; [exact H|discriminate].
  - apply UInv_khdel; auto.
  - destruct H; constructor; simpl; auto; try tauto.
  - now apply UInv_score.
  - apply UInv_parked; [exact H|discriminate|auto].
  - now apply UInv_score.
  - unfold ksched. destruct (negb repl && kexists v); [exact H|]. apply UInv_kplace; auto.
    destruct repl; [now apply UInv_kreplace|exact H].
  - unfold kcancel. cbv zeta.
    assert (H1 : UInv k (khdel (kset_prog (kreplace_existing v) None) rdel_known)).
    { apply UInv_khdel; [|reflexivity]. apply UInv_prog, UInv_kreplace, H. }
    destruct (r_state _) as [[]|]; try exact H1; (apply UInv_khset; [exact H1|reflexivity]).
  - unfold kmove. destruct (k_parked v) as [m|] eqn:P; [|exact H]. apply (ui_parked _ _ H) in P as P'.
    apply UInv_khset; [|reflexivity]. apply UInv_parked; [|discriminate|auto]. apply UInv_kadd; tauto.
  - destruct Hok as (Hin & Hk & Hp & Hs & Hl1 & Hl2 & Hl3 & Hl4 & Hl5).
    pose proof (ui_stream _ _ H _ _ Hin) as (_ & _ & Hg).
    destruct H; constructor; simpl; auto; try lia.
    + intros y. rewrite in_app_iff; simpl. intros [Hy|[<-|[]]]; [apply ui_exec0 in Hy; intuition lia|auto].
    + intros y m. rewrite in_app_iff; simpl. intros [Hy|[<-|[]]] Hm; [eauto|].
      pose proof (ids_sorted_inj _ _ _ ui_sorted0 Hm Hin eq_refl) as E. congruence.
    + rewrite map_app; simpl. apply NoDup_snoc; auto. rewrite in_map_iff. intros (y & E & Hy). apply Hl5 in Hy. lia.
  - destruct H; constructor; simpl; auto.
    + intros y Hy. apply filter_In in Hy as [Hy _]. auto.
    + intros y m Hy. apply filter_In in Hy as [Hy _]. auto.
    + now apply NoDup_map_filter.
  - apply UInv_execs; [|intros; apply with_phase_same]. unfold kclaim.
    destruct (ksuper v _); [now apply UInv_kdel|].
    apply UInv_khdel; [|reflexivity]. apply UInv_prog. apply UInv_khset; auto.
  - apply UInv_execs; [exact H|intros; apply with_phase_same].
  - apply UInv_execs; [exact H|intros; apply with_slot_same].
  - apply UInv_execs; [|intros; apply with_phase_same]. apply UInv_khdel; auto.
  - apply UInv_execs; [|intros; apply with_phase_same]. unfold kterminal.
    destruct (ksuper v _).
    + apply UInv_kdel. destruct (kprog_mine v _); [now apply UInv_prog|exact H].
    + apply UInv_kdel, UInv_prog. unfold kexpire. destruct (0 <? c_ttl c).
      * apply UInv_khdel; [|reflexivity]. apply UInv_khset; auto.
      * apply UInv_runs; [|discriminate]. apply UInv_khset; auto.
  - destruct Hok as [Hin _]. pose proof (ui_exec _ _ H _ Hin) as (Hk & _ & _).
    apply UInv_execs; [|intros; apply with_phase_same]. unfold kresched. apply UInv_khdel; [|reflexivity].
    apply UInv_kplace; auto. now apply UInv_kdel.
  - destruct Hok as [Hin _]. pose proof (ui_exec _ _ H _ Hin) as (Hk & _ & _).
    apply UInv_execs; [|intros; apply with_phase_same]. unfold kpark. cbv zeta.
    apply UInv_khdel; [|reflexivity]. apply UInv_khset; [|reflexivity].
    assert (Hd : UInv k (kdel v (x_mid x))) by now apply UInv_kdel.
    pose proof (kgen_nonneg _ _ Hd) as Hg. unfold kgen in Hg.
    set (g := default 0 (r_gen (kr (kdel v (x_mid x)))) + 1) in *. assert (1 <= g) by lia.
    apply (UInv_wait_add k (khset (kdel v (x_mid x)) (rset_gen g))); auto.
    apply UInv_khset_gen; auto.
  - pose proof (ui_wait _ _ H _ _ _ Hok) as (Hk & _ & _). pose proof (kgen_nonneg _ _ H) as Hg. unfold kgen in Hg.
    unfold kwake. destruct (r_state (kr v)) as [[]|]; try (now apply UInv_wait_filter). cbv zeta.
    set (g := default 0 (r_gen (kr v)) + 1) in *. assert (1 <= g) by lia.
    apply UInv_khset; [|reflexivity]. apply UInv_wait_filter. apply UInv_kadd; auto. apply UInv_khset_gen; auto.
  - unfold kcleanup. apply UInv_khdel; [|reflexivity]. apply UInv_prog. now apply UInv_wait_filter.
  - apply UInv_runs; [now apply UInv_unpark|discriminate].
Qed.

Lemma UInv_path c k v es v' : kpath c k v es v' -> UInv k v -> UInv k v'.
Proof. induction 1; auto. intros; apply IHkpath. now apply UInv_apply. Qed.

Lemma UInv_step c k s o : GInv s -> UInv k (kabs k s) -> UInv k (kabs k (fst (step c s o))).
Proof. intros G H. destruct (sim_step c k s o G) as (es & P & _). eapply UInv_path; eauto. Qed.

Lemma UInv_final c k s l : GInv s -> UInv k (kabs k s) -> UInv k (kabs k (final c s l)).
Proof.
  revert s; induction l as [|o l IH]; intros s G H; [exact H|].
  rewrite final_cons. apply IH; [now apply GInv_step|now apply UInv_step].
Qed.

Lemma reachable_UInv c k s : reachable c s -> UInv k (kabs k s).
Proof. intros [l ->]. apply UInv_final; [apply GInv_init|apply UInv_init]. Qed.

(** ** Keeping the record *)

Definition forgetful (o : op) : bool :=
  match o with OTick _ | OCancelFinish _ | OClearApply _ | OTerminal _ _ _ _ _ | ORelease _ _ | OScavenge _ _ _ => true | _ => false end.

Lemma khdel_none v f : k_runs v = None -> k_runs (khdel v f) = None.
Proof. intros E; simpl; now rewrite E. Qed.
Lemma khdel_some v f : k_runs v <> None -> k_runs (khdel v f) <> None.
Proof. simpl. destruct (k_runs v); simpl; congruence. Qed.
Lemma khset_some v f : k_runs (khset v f) <> None.
Proof. discriminate. Qed.

Lemma kplace_some v w imm clr m : k_runs (kplace v w imm clr m) <> None.
Proof. unfold kplace; cbv zeta. destruct imm; [apply khset_some|]. destruct clr; [apply khdel_some|]; apply khset_some. Qed.

Lemma ksuper_none k v x : UInv k v -> k_runs v = None -> In x (k_execs v) -> ksuper v (m_gen (x_msg x)) = true.
Proof. intros U E Hx. apply (ui_exec _ _ U) in Hx. unfold ksuper, kr. rewrite E; simpl. lia. Qed.

Lemma kreplace_runs v : k_runs (kreplace_existing v) = k_runs v.
Proof. unfold kreplace_existing. destruct (r_sid (kr v)); reflexivity. Qed.

Lemma keep_none c k o v e : forgetful o = true -> kok k v e -> label k o e -> UInv k v -> k_runs v = None -> k_runs (kapply c v e) = None.
Proof.
  intros F Hok L U E. destruct o; try discriminate F; destruct e; simpl in L; try contradiction; try discriminate L; simpl; try exact E; try (now rewrite E); try reflexivity.
  all: try (decompose [ex and or] L; discriminate).
  all: try (destruct o as [[? ?]|]; decompose [ex and or] L; discriminate).
  all: try (destruct repl; decompose [ex and or] L; discriminate).
  all: try (destruct (x_redel x); discriminate L).
  all: try (unfold kwake, kr; rewrite E; exact E).
  destruct Hok as [Hin _]. unfold kterminal. rewrite (ksuper_none k v x U E Hin). destruct (kprog_mine v _); exact E.
Qed.

Lemma keep_some c k o v e : forgetful o = false -> label k o e -> k_runs v <> None -> k_runs (kapply c v e) <> None.
Proof.
  intros F L E. destruct e; cbn [kapply]; try exact E; try (apply khset_some); try (apply khdel_some; exact E).
  - simpl in L. destruct o; try contradiction; discriminate F.
  - unfold ksched. destruct (negb repl && kexists v); [exact E|apply kplace_some].
  - unfold kcancel; cbv zeta. destruct (r_state _) as [[]|]; try apply khset_some; apply khdel_some; cbn [k_runs kset_prog]; rewrite kreplace_runs; exact E.
  - unfold kmove. destruct (k_parked v); [apply khset_some|exact E].
  - cbv zeta. unfold kphase, kset_execs; cbn [k_runs]. unfold kclaim. destruct (ksuper v _); [exact E|apply khdel_some, khset_some].
  - simpl in L. subst o. discriminate F.
  - apply khdel_some, kplace_some.
  - unfold kwake. destruct (r_state (kr v)) as [[]|]; try exact E. apply khset_some.
  - simpl in L. destruct o; try contradiction; discriminate F.
Qed.

Lemma path_none c k o v es v' : forgetful o = true -> kpath c k v es v' -> Forall (label k o) es -> UInv k v ->
  k_runs v = None -> k_runs v' = None.
Proof.
  intros F Hp. induction Hp as [v|v e es v' Hok Hp IH]; intros L U E; [exact E|]. inversion L; subst.
  apply IH; auto; [now apply UInv_apply|]. eapply keep_none; eauto.
Qed.

Lemma path_some c k o v es v' : forgetful o = false -> kpath c k v es v' -> Forall (label k o) es ->
  k_runs v <> None -> k_runs v' <> None.
Proof.
  intros F Hp. induction Hp as [v|v e es v' Hok Hp IH]; intros L E; [exact E|]. inversion L; subst.
  apply IH; auto. eapply keep_some; eauto.
Qed.

Lemma kpath_nil_inv c k v v' : kpath c k v [] v' -> v' = v.
Proof. intros H; inversion H; reflexivity. Qed.
Lemma kpath_one_inv c k v e v' : kpath c k v [e] v' -> kok k v e /\ v' = kapply c v e.
Proof. intros H; inversion H as [|? ? ? ? H1 H2]; subst. split; [exact H1|]. now apply kpath_nil_inv in H2. Qed.

(** Invariant induction over a step that keeps the record. *)
Lemma kept_ind c k s o (P : ks -> Prop) : GInv s -> UInv k (kabs k s) -> keeps c k s o ->
  (forall v e, kok k v e -> label k o e -> UInv k v -> UInv k (kapply c v e) ->
               (k_runs v <> None -> k_runs (kapply c v e) <> None) ->
               (single o = true -> v = kabs k s) -> P v -> P (kapply c v e)) ->
  P (kabs k s) -> P (kabs k (fst (step c s o))).
Proof.
  intros G U K Hstep HP. destruct (sim_step c k s o G) as (es & Hp & L & Hs).
  assert (K' : k_runs (kabs k s) <> None -> k_runs (kabs k (fst (step c s o))) <> None) by exact K. clear K.
  destruct (single o) eqn:So.
  { destruct (Hs eq_refl) as [->|[e ->]]; [now rewrite (kpath_nil_inv _ _ _ _ Hp)|].
    destruct (kpath_one_inv _ _ _ _ _ Hp) as [Hok E]. rewrite E in *. inversion L; subst.
    apply Hstep; auto. apply UInv_apply; auto. }
  clear Hs. assert (Hstep' : forall v e, kok k v e -> label k o e -> UInv k v -> UInv k (kapply c v e) ->
               (k_runs v <> None -> k_runs (kapply c v e) <> None) -> P v -> P (kapply c v e))
    by (intros; apply Hstep; auto; discriminate). clear Hstep.
  revert U K' L HP. induction Hp as [v|v e es v' Hok Hp IH]; intros U K' L HP; [exact HP|].
  inversion L as [|? ? L1 L2]; subst. pose proof (UInv_apply c k v e Hok U) as U1.
  assert (X : k_runs v <> None -> k_runs (kapply c v e) <> None).
  { destruct (forgetful o) eqn:F.
    - intros E E1. apply (K' E). eapply path_none; eauto.
    - intros E. eapply keep_some; eauto. }
  apply IH; auto.
  destruct (forgetful o) eqn:F.
  - intros E1 E2. destruct (k_runs v) eqn:Ev.
    + apply K'; congruence.
    + apply E1. eapply keep_none; eauto.
  - intros E1. eapply path_some; eauto.
Qed.

(** The same without the keeping hypothesis. *)
Lemma step_ind c k s o (P : ks -> Prop) : GInv s -> UInv k (kabs k s) ->
  (forall v e, kok k v e -> label k o e -> UInv k v -> UInv k (kapply c v e) ->
               (single o = true -> v = kabs k s) -> P v -> P (kapply c v e)) ->
  P (kabs k s) -> P (kabs k (fst (step c s o))).
Proof.
  intros G U Hstep HP. destruct (sim_step c k s o G) as (es & Hp & L & Hs).
  destruct (single o) eqn:So.
  { destruct (Hs eq_refl) as [->|[e ->]]; [now rewrite (kpath_nil_inv _ _ _ _ Hp)|].
    destruct (kpath_one_inv _ _ _ _ _ Hp) as [Hok E]. rewrite E in *. inversion L; subst.
    apply Hstep; auto. apply UInv_apply; auto. }
  clear Hs. assert (Hstep' : forall v e, kok k v e -> label k o e -> UInv k v -> UInv k (kapply c v e) -> P v -> P (kapply c v e))
    by (intros; apply Hstep; auto; discriminate). clear Hstep.
  revert U L HP. induction Hp as [v|v e es v' Hok Hp IH]; intros U L HP; [exact HP|].
  inversion L as [|? ? L1 L2]; subst. pose proof (UInv_apply c k v e Hok U) as U1. auto.
Qed.

(** ** Generations *)

Inductive loc := LS (i : sid) | LP | LW (i : sid).

(** Where a new message is put by an event, if any. *)
Definition newcopy (v : ks) (e : kev) : option loc :=
  match e with
  | KSched repl imm _ => if negb repl && kexists v then None else Some (if imm then LS (k_next v) else LP)
  | KResched _ _ _ imm => Some (if imm then LS (k_next v) else LP)
  | KPark _ _ => Some (LW (k_next v))
  | KWake _ _ _ => match r_state (kr v) with Some SScheduled => Some (LS (k_next v)) | _ => None end
  | _ => None
  end.

Lemma kr_khset v f : kr (khset v f) = f (kr v). Proof. reflexivity. Qed.
Lemma khdel_gen v f : (forall r, r_gen (f r) = r_gen r) -> r_gen (kr (khdel v f)) = r_gen (kr v).
Proof. intros Hf. unfold kr; simpl. destruct (k_runs v); simpl; auto. Qed.
Lemma kr_kdel v i : kr (kdel v i) = kr v. Proof. reflexivity. Qed.
Lemma kr_kreplace v : kr (kreplace_existing v) = kr v.
Proof. unfold kr. now rewrite kreplace_runs. Qed.

Lemma kplace_gen v w imm clr m : r_gen (kr (kplace v w imm clr m)) = Some (kgen v + 1).
Proof. unfold kplace, kgen; cbv zeta. destruct imm; [reflexivity|]. destruct clr; reflexivity. Qed.

Lemma gen_apply c k v e : kok k v e -> UInv k v -> (k_runs v <> None -> k_runs (kapply c v e) <> None) ->
  r_gen (kr (kapply c v e)) = match newcopy v e with Some _ => Some (kgen v + 1) | None => r_gen (kr v) end.
Proof.
  intros Hok U K. destruct e; cbn [kapply newcopy] in *; try reflexivity.
  - cbn [kapply kset_runs k_runs] in K. unfold kr; cbn [kset_runs k_runs]. destruct (k_runs v); [exfalso; apply K; congruence|reflexivity].
  - now apply khdel_gen.
  - unfold ksched. destruct (negb repl && kexists v); [reflexivity|]. rewrite kplace_gen. destruct imm; (destruct repl; [unfold kgen; now rewrite kr_kreplace|reflexivity]).
  - unfold kcancel; cbv zeta.
    assert (E : r_gen (kr (khdel (kset_prog (kreplace_existing v) None) rdel_known)) = r_gen (kr v)).
    { rewrite khdel_gen by reflexivity. change (kr (kset_prog (kreplace_existing v) None)) with (kr (kreplace_existing v)). now rewrite kr_kreplace. }
    destruct (r_state _) as [[]|]; exact E.
  - unfold kmove. destruct (k_parked v); reflexivity.
  - cbv zeta. unfold kclaim. destruct (ksuper v _); reflexivity.
  - now apply khdel_gen.
  - destruct Hok as [Hin _]. unfold kterminal in *. destruct (ksuper v (m_gen (x_msg x))) eqn:S.
    + destruct (kprog_mine v _); reflexivity.
    + unfold kexpire in *. destruct (0 <? c_ttl c); [reflexivity|].
      destruct (k_runs v) eqn:E; [exfalso; apply K; [congruence|reflexivity]|].
      rewrite (ksuper_none k v x U E Hin) in S. discriminate.
  - change (r_gen (kr (kresched v (x_mid x) when imm (resched_msg (x_msg x) when bump))) = Some (kgen v + 1)).
    unfold kresched. rewrite khdel_gen by reflexivity. now rewrite kplace_gen.
  - unfold kwake. destruct (r_state (kr v)) as [[]|]; reflexivity.
  - unfold kcleanup. rewrite khdel_gen by reflexivity. reflexivity.
  - unfold kr; cbn [kset_runs k_runs] in *. destruct (k_runs v); [exfalso; apply K; congruence|reflexivity].
Qed.

Lemma kgen_apply c k v e : kok k v e -> UInv k v -> (k_runs v <> None -> k_runs (kapply c v e) <> None) ->
  kgen (kapply c v e) = match newcopy v e with Some _ => kgen v + 1 | None => kgen v end.
Proof.
  intros H1 H2 H3. unfold kgen at 1. rewrite (gen_apply c k v e H1 H2 H3). destruct (newcopy v e); reflexivity.
Qed.

(** ** Who holds which generation, and where *)

Definition holds (v : ks) (g : Z) (l : loc) : Prop :=
  match l with
  | LS i => (exists m, In (i, m) (k_stream v) /\ m_gen m = g) \/
            (exists x, In x (k_execs v) /\ x_mid x = i /\ m_gen (x_msg x) = g)
  | LP => exists m, k_parked v = Some m /\ m_gen m = g
  | LW i => exists cc m, In (cc, (i, m)) (k_wait v) /\ m_gen m = g
  end.

Lemma holds_same v v' g l : k_stream v' = k_stream v -> k_execs v' = k_execs v -> k_parked v' = k_parked v -> k_wait v' = k_wait v ->
  holds v' g l <-> holds v g l.
Proof. intros E1 E2 E3 E4. unfold holds. now rewrite E1, E2, E3, E4. Qed.

Lemma holds_kdel v i g l : holds (kdel v i) g l -> holds v g l.
Proof.
  destruct l; simpl; auto. intros [(m & Hm & Hg)|H]; [left|now right].
  apply del_entry_In in Hm as [Hm _]. eauto.
Qed.

Lemma holds_kphase v h f g l : (forall x, x_mid (f x) = x_mid x /\ x_msg (f x) = x_msg x) ->
  holds (kphase v h f) g l -> holds v g l.
Proof.
  intros Hf. destruct l; simpl; auto. intros [H|(x & Hx & E1 & E2)]; [now left|right].
  apply upd_exec_In in Hx as (y & Hy & [->|[_ ->]]); [eauto|]. destruct (Hf y) as [F1 F2]. rewrite F1 in E1; rewrite F2 in E2. eauto.
Qed.

Lemma holds_kphase_iff v h f g l : (forall x, x_mid (f x) = x_mid x /\ x_msg (f x) = x_msg x) ->
  holds (kphase v h f) g l <-> holds v g l.
Proof.
  intros Hf. split; [now apply holds_kphase|]. destruct l; simpl; auto. intros [H|(x & Hx & E1 & E2)]; [now left|right].
  exists (if x_id x =? h then f x else x). split; [unfold upd_exec; apply in_map_iff; eauto|].
  destruct (x_id x =? h); [|auto]. destruct (Hf x) as [F1 F2]. now rewrite F1, F2.
Qed.

Lemma holds_kdel_waiter v cc i g l : holds (kdel_waiter cc i v) g l -> holds v g l.
Proof. destruct l; simpl; auto. intros (c' & m & Hm & Hg). apply filter_In in Hm as [Hm _]. eauto. Qed.

Lemma holds_unpark v g l : holds (kset_score (kset_parked v None) None) g l -> holds v g l /\ l <> LP.
Proof. destruct l; simpl; auto; try (split; [auto|discriminate]). intros (m & E & _); discriminate. Qed.

Lemma holds_kreplace v g l : holds (kreplace_existing v) g l -> holds v g l /\ l <> LP.
Proof.
  unfold kreplace_existing. intros H. apply holds_unpark in H as [H1 H2]. split; [|exact H2].
  destruct (r_sid (kr v)); [now apply holds_kdel in H1|exact H1].
Qed.

Lemma holds_kadd v m g l : holds (kadd v m) g l -> holds v g l \/ (l = LS (k_next v) /\ g = m_gen m).
Proof.
  destruct l; simpl; auto. intros [(m' & Hm & Hg)|H]; [|auto]. rewrite in_app_iff in Hm; simpl in Hm.
  destruct Hm as [Hm|[[= -> ->]|[]]]; [left; left; eauto|right; auto].
Qed.

Lemma holds_kplace v w imm clr m g l : holds (kplace v w imm clr m) g l ->
  (holds v g l /\ (imm = false -> l <> LP)) \/ (l = (if imm then LS (k_next v) else LP) /\ g = kgen v + 1).
Proof.
  unfold kplace; cbv zeta. fold (kgen v). destruct imm.
  - intros H. rewrite (holds_same (kadd (khset v (rset_gen (kgen v + 1))) (with_gen m (kgen v + 1)))) in H by reflexivity.
    apply holds_kadd in H as [H|[-> ->]]; [left; split; [|discriminate]|right; auto].
    now rewrite (holds_same v) in H by reflexivity.
  - intros H. assert (H' : holds (kset_parked v (Some (with_gen m (kgen v + 1)))) g l).
    { revert H. destruct clr; apply holds_same; reflexivity. }
    clear H. destruct l; simpl in *.
    + left; split; [auto|discriminate].
    + destruct H' as (m' & [= <-] & <-). right; auto.
    + left; split; [auto|discriminate].
Qed.

Lemma holds_apply c k v e g l : kok k v e -> UInv k v -> holds (kapply c v e) g l ->
  holds v g l \/ (newcopy v e = Some l /\ g = kgen v + 1) \/
  ((exists t, e = KMove t) /\ l = LS (k_next v) /\ holds v g LP /\ k_parked (kapply c v e) = None).
Proof.
  intros Hok U H. destruct e; cbn [kapply newcopy] in *; auto.
  - left. destruct l; simpl in *; auto. destruct H as [(m & [] & _)|H]; auto.
  - left. destruct l; simpl in *; auto. destruct H as (m & E & _); discriminate.
  - unfold ksched in H. destruct (negb repl && kexists v); [auto|].
    apply holds_kplace in H as [[H _]|[-> ->]].
    + left. destruct repl; [now apply holds_kreplace in H|exact H].
    + right; left. destruct repl; [|destruct imm; auto]. unfold kgen. rewrite kr_kreplace.
      replace (k_next (kreplace_existing v)) with (k_next v); [destruct imm; auto|].
      unfold kreplace_existing; destruct (r_sid (kr v)); reflexivity.
  - left. unfold kcancel in H; cbv zeta in H.
    assert (X : holds (kreplace_existing v) g l).
    { destruct (r_state _) as [[]|] in H; exact H. }
    now apply holds_kreplace in X.
  - unfold kmove in *. destruct (k_parked v) as [m|] eqn:P; [|auto].
    rewrite (holds_same (kset_parked (kadd v m) None)) in H by reflexivity.
    destruct l; simpl in H.
    + destruct H as [(m' & Hm & Hg)|H]; [|left; right; exact H]. rewrite in_app_iff in Hm; simpl in Hm.
      destruct Hm as [Hm|[[= <- <-]|[]]]; [left; left; eauto|]. right; right. repeat split; eauto. simpl. eauto.
    + destruct H as (m' & E & _); discriminate.
    + left. exact H.
  - left. destruct Hok as (Hin & _). destruct l; simpl in *; auto.
    destruct H as [H|(y & Hy & E1 & E2)]; [now left|]. rewrite in_app_iff in Hy; simpl in Hy.
    destruct Hy as [Hy|[<-|[]]]; [right; eauto|left]. exists (x_msg x). subst; auto.
  - left. destruct l; simpl in *; auto. destruct H as [H|(y & Hy & E)]; [now left|right].
    apply filter_In in Hy as [Hy _]. eauto.
  - left. cbv zeta in H. apply holds_kphase in H; [|intros; split; apply with_phase_same].
    unfold kclaim in H. destruct (ksuper v _); [now apply holds_kdel in H|].
    now rewrite (holds_same v) in H by reflexivity.
  - left. apply holds_kphase in H; [exact H|intros; split; apply with_phase_same].
  - left. apply holds_kphase in H; [exact H|intros; split; apply with_slot_same].
  - left. apply holds_kphase in H; [|intros; split; apply with_phase_same]. exact H.
  - left. apply holds_kphase in H; [|intros; split; apply with_phase_same].
    unfold kterminal in H. destruct (ksuper v _).
    + apply holds_kdel in H. destruct (kprog_mine v _); exact H.
    + apply holds_kdel in H. unfold kexpire in H. destruct (0 <? c_ttl c); exact H.
  - apply holds_kphase in H; [|intros; split; apply with_phase_same].
    unfold kresched in H. rewrite (holds_same (kplace (kdel v (x_mid x)) when imm true (resched_msg (x_msg x) when bump))) in H by reflexivity.
    apply holds_kplace in H as [[H _]|[-> ->]]; [left; now apply holds_kdel in H|right; left].
    destruct imm; auto.
  - apply holds_kphase in H; [|intros; split; apply with_phase_same].
    unfold kpark in H; cbv zeta in H. destruct l; simpl in H.
    + left. apply (holds_kdel v (x_mid x) g (LS i)). exact H.
    + left. exact H.
    + destruct H as (cc & m & Hm & Hg). rewrite in_app_iff in Hm; simpl in Hm.
      destruct Hm as [Hm|[[= <- <- <-]|[]]]; [left; simpl; eauto|right; left]. split; [reflexivity|]. rewrite <- Hg. reflexivity.
  - unfold kwake in H. destruct (r_state (kr v)) as [[]|]; try (left; now apply holds_kdel_waiter in H).
    cbv zeta in H. rewrite (holds_same (kdel_waiter c0 wid (kadd (khset v (rset_gen (kgen v + 1))) (with_gen m (kgen v + 1))))) in H by reflexivity.
    apply holds_kdel_waiter, holds_kadd in H as [H|[-> ->]]; [left; exact H|right; left; auto].
  - left. unfold kcleanup in H. rewrite (holds_same (kdel_waiter c0 i v)) in H by reflexivity. now apply holds_kdel_waiter in H.
  - left. rewrite (holds_same (kset_score (kset_parked v None) None)) in H by reflexivity. now apply holds_unpark in H.
Qed.

(** Generations do not exceed the counter, and no two places hold the same one. *)
Record BInv (v : ks) : Prop := mkBInv {
  bi_le : forall g l, holds v g l -> g <= kgen v;
  bi_inj : forall g l l', holds v g l -> holds v g l' -> l = l' }.

Lemma BInv_apply c k v e : kok k v e -> UInv k v -> (k_runs v <> None -> k_runs (kapply c v e) <> None) ->
  BInv v -> BInv (kapply c v e).
Proof.
  intros Hok U K [B1 B2]. pose proof (kgen_apply c k v e Hok U K) as G.
  assert (L : kgen v <= kgen (kapply c v e)) by (rewrite G; destruct (newcopy v e); lia).
  split.
  - intros g l H. apply holds_apply with (k := k) in H; auto. destruct H as [H|[[N ->]|(_ & _ & H & _)]].
    + apply B1 in H. lia.
    + rewrite G, N. lia.
    + apply B1 in H. lia.
  - intros g l l' H H'. assert (H0 := H). assert (H0' := H').
    apply holds_apply with (k := k) in H; auto. apply holds_apply with (k := k) in H'; auto.
    destruct H as [H|[[N Eg]|([t Et] & El & H & Hp)]]; destruct H' as [H'|[[N' Eg']|([t' Et'] & El' & H' & Hp')]].
    + eapply B2; eauto.
    + apply B1 in H. lia.
    + pose proof (B2 _ _ _ H H') as E. subst l. destruct H0 as (m & E & _). congruence.
    + apply B1 in H'. lia.
    + congruence.
    + apply B1 in H'. lia.
    + pose proof (B2 _ _ _ H' H) as E. subst l'. destruct H0' as (m & E & _). congruence.
    + apply B1 in H. lia.
    + congruence.
Qed.

Lemma BInv_init k : BInv (kabs k init_sys).
Proof.
  split; intros g l.
  - destruct l; simpl; [intros [(m & [] & _)|(x & [] & _)]|intros (m & E & _); discriminate|intros (cc & m & [] & _)].
  - intros l'. destruct l; simpl; [intros [(m & [] & _)|(x & [] & _)]|intros (m & E & _); discriminate|intros (cc & m & [] & _)].
Qed.

Lemma BInv_step c k s o : GInv s -> UInv k (kabs k s) -> keeps c k s o -> BInv (kabs k s) ->
  BInv (kabs k (fst (step c s o))) /\ kgen (kabs k s) <= kgen (kabs k (fst (step c s o))).
Proof.
  intros G U K B.
  apply (kept_ind c k s o (fun v => BInv v /\ kgen (kabs k s) <= kgen v) G U K); [|split; [exact B|lia]].
  intros v e Hok _ U1 _ K1 _ [B1 L]. split; [eapply BInv_apply; eauto|].
  rewrite (kgen_apply c k v e Hok U1 K1). destruct (newcopy v e); lia.
Qed.

Lemma along_app c P s l1 l2 : along c P s (l1 ++ l2) <-> along c P s l1 /\ along c P (final c s l1) l2.
Proof.
  revert s; induction l1 as [|o l1 IH]; intros s; simpl; [tauto|]. rewrite final_cons, IH. tauto.
Qed.

Lemma BInv_final c k s l : GInv s -> UInv k (kabs k s) -> along c (keeps c k) s l -> BInv (kabs k s) ->
  BInv (kabs k (final c s l)) /\ kgen (kabs k s) <= kgen (kabs k (final c s l)).
Proof.
  revert s; induction l as [|o l IH]; intros s G U K B; [split; [exact B|unfold final; simpl; lia]|].
  destruct K as [K1 K2].
  rewrite final_cons. destruct (BInv_step c k s o G U K1 B) as [B1 L1].
  destruct (IH (fst (step c s o))) as [B2 L2]; auto; [now apply GInv_step|now apply UInv_step|]. split; [exact B2|lia].
Qed.

Lemma reachable_keeping_reachable c k s : reachable_keeping c k s -> reachable c s.
Proof. intros (l & _ & ->). now exists l. Qed.

Lemma reachable_BInv c k s : reachable_keeping c k s -> BInv (kabs k s).
Proof.
  intros (l & K & ->). apply BInv_final; auto; [apply GInv_init|apply UInv_init|apply BInv_init].
Qed.
