(** Proofs of C122: how long records are kept. *)
From Verif Require Import Base ZSet Model GInv Spec SpecRecord RecordProofs.
From Verif Require LeaseProofs.

(** ** Records without an expiry *)
Definition KeepX (r r' : runs) : Prop := done r' -> r_expire r' = None -> done r /\ r_expire r = None.
Lemma KeepX_refl r : KeepX r r. Proof. intros A B. auto. Qed.
Lemma KeepX_trans a b c : KeepX a b -> KeepX b c -> KeepX a c.
Proof. intros A B D E. destruct (B D E) as [D' E']. exact (A D' E'). Qed.

Lemma stepX c s o k : KeepX (rget (s_db s) k) (rget (s_db (fst (step c s o))) k) \/ exists t, o = OCancel k t.
Proof.
  destruct (step_change (d_now (s_db s)) (c_ttl c) KeepX KeepX_refl KeepX_trans) with (c := c) (s := s) (o := o) (k := k)
    as [H|[(v & A & E)|[(v & e & res & A & E & _)|(v & A & E & Ev & Eo)]]]; try reflexivity;
    try (intros; intros (st & D & T) X; cbn in D, X; first [discriminate X | discriminate D | injection D as <-; discriminate T | split; [exists st; split; [exact D|exact T]|exact X]]).
  - left. exact H.
  - left. rewrite E. intros (st & D & T) _. cbn in D. injection D as <-. discriminate.
  - left. rewrite E. intros _ X. cbn in X. discriminate.
  - right. eauto.
Qed.

Lemma finish_expires c s k : ~ (done (rget (s_db (fst (step c s (OCancelFinish k)))) k) /\ r_expire (rget (s_db (fst (step c s (OCancelFinish k)))) k) = None).
Proof.
  cbn [step fst set_db s_db]. unfold cancel_finish. intros [D X]. destruct (0 <? c_ttl c).
  - unfold rget, expire_runs, hdel, set_runs in *. cbn in *. unfold upd in *. rewrite String.eqb_refl in *. destruct (d_runs (s_db s) k); cbn in *; [discriminate X|].
    destruct D as (? & D & _). discriminate D.
  - unfold rget, del_runs, set_runs in D. cbn in D. unfold upd in D. rewrite String.eqb_refl in D. destruct D as (? & D & _). discriminate D.
Qed.

Lemma unfinished_cancel c k l : done (rget (s_db (final c init_sys l)) k) -> r_expire (rget (s_db (final c init_sys l)) k) = None ->
  exists l1 t l2, l = l1 ++ OCancel k t :: l2 /\ ~ In (OCancelFinish k) l2.
Proof.
  induction l as [|o l IH] using rev_ind; [intros (? & D & _); discriminate D|]. rewrite final_snoc. set (s := final c init_sys l) in *. intros D X.
  destruct (stepX c s o k) as [H|[t ->]]; [|exists l, t, []; split; [reflexivity|intros []]].
  destruct (H D X) as [D' X']. destruct (IH D' X') as (l1 & t & l2 & -> & N). exists l1, t, (l2 ++ [o]). split; [now rewrite <- app_assoc|].
  intros I. apply in_app_or in I as [I|[->|[]]]; [exact (N I)|]. exact (finish_expires c s k (conj D X)).
Qed.

(** ** Bounds *)
Definition KeepB (n ttl : Z) (r r' : runs) : Prop := forall e, r_expire r' = Some e -> r_expire r = Some e \/ (e = n + ttl * 1000000 /\ 0 < ttl).
Lemma KeepB_trans n ttl a b c : KeepB n ttl a b -> KeepB n ttl b c -> KeepB n ttl a c.
Proof. intros A B e E. destruct (B e E) as [H|H]; [exact (A e H)|auto]. Qed.

Lemma stepB c s o k : KeepB (d_now (s_db s)) (c_ttl c) (rget (s_db s) k) (rget (s_db (fst (step c s o))) k).
Proof.
  destruct (step_change (d_now (s_db s)) (c_ttl c) (KeepB (d_now (s_db s)) (c_ttl c))) with (c := c) (s := s) (o := o) (k := k)
    as [H|[(v & A & E)|[(v & e & res & A & E & T)|(v & A & E & Ev & Eo)]]]; try reflexivity;
    try (intros; intros e0 X; cbn in X; first [discriminate X | left; exact X]).
  - intros a b d. apply KeepB_trans.
  - intros r T e X. cbn in X. injection X as <-. right. auto.
  - exact H.
  - rewrite E. intros e X. left. exact X.
  - rewrite E. intros e' X. cbn in X. injection X as <-. right. auto.
  - rewrite E. intros e X. left. exact X.
Qed.

Definition Bounded (c : cfg) (s : sys) : Prop := forall k e, r_expire (rget (s_db s) k) = Some e ->
  d_now (s_db s) < e <= d_now (s_db s) + c_ttl c * 1000000.
Lemma Bounded_step c s o : Bounded c s -> Bounded c (fst (step c s o)).
Proof.
  intros B k e E. assert (X : (exists dt, o = OTick dt) \/ forall dt, o <> OTick dt) by (destruct o; try (right; discriminate); left; eauto).
  destruct X as [[dt ->]|N].
  - cbn [step] in *. destruct (0 <=? dt) eqn:L; [|exact (B k e E)]. cbn [fst set_db s_db] in *. unfold rget, tick in E. cbn in E.
    change (d_now (tick (s_db s) dt)) with (d_now (s_db s) + dt). specialize (B k). unfold rget in B. destruct (d_runs (s_db s) k) as [r|]; [|discriminate E].
    destruct (expired (d_now (s_db s) + dt) (r_expire r)) eqn:Ex; [discriminate E|]. cbn in E, B. specialize (B e E). rewrite E in Ex. cbn in Ex. lia.
  - rewrite (LeaseProofs.now_same c s o N). destruct (stepB c s o k e E) as [H|[-> T]]; [exact (B k e H)|lia].
Qed.
Lemma reachable_Bounded c s : reachable c s -> Bounded c s.
Proof.
  intros [l ->]. induction l as [|o l IH] using rev_ind; [intros k e E; discriminate E|]. rewrite final_snoc. now apply Bounded_step.
Qed.

Lemma tick_gone c s dt k e : Bounded c s -> r_expire (rget (s_db s) k) = Some e -> 0 <= dt -> c_ttl c * 1000000 <= dt ->
  d_runs (s_db (fst (step c s (OTick dt)))) k = None.
Proof.
  intros B E D L. pose proof (B k e E) as Bd. cbn [step]. replace (0 <=? dt) with true by lia. cbn [fst set_db s_db]. unfold tick. cbn.
  unfold rget in E. destruct (d_runs (s_db s) k) as [r|]; [|reflexivity]. cbn in E. rewrite E. cbn. replace (e <=? d_now (s_db s) + dt) with true by lia. reflexivity.
Qed.

Lemma gone c k l dt : done (rget (s_db (final c init_sys l)) k) -> (forall l1 t l2, l = l1 ++ OCancel k t :: l2 -> In (OCancelFinish k) l2) ->
  0 <= dt -> c_ttl c * 1000000 <= dt -> d_runs (s_db (final c init_sys (l ++ [OTick dt]))) k = None.
Proof.
  intros D F P L. rewrite final_snoc. destruct (r_expire (rget (s_db (final c init_sys l)) k)) as [e|] eqn:E.
  - apply (tick_gone c _ dt k e); auto. apply reachable_Bounded. exists l. reflexivity.
  - destruct (unfinished_cancel c k l D E) as (l1 & t & l2 & El & N). elim N. exact (F l1 t l2 El).
Qed.

(** Time alone does not remove a record without an expiry. *)
Lemma ticks_keep c k r l : forall s, d_runs (s_db s) k = Some r -> r_expire r = None -> (forall o, In o l -> exists dt, o = OTick dt) ->
  d_runs (s_db (final c s l)) k = Some r.
Proof.
  induction l as [|o l IH]; intros s E X T; [exact E|]. rewrite final_cons. apply IH; auto; [|intros o' I; apply T; now right].
  destruct (T o (or_introl eq_refl)) as [dt ->]. cbn [step]. destruct (0 <=? dt); [|exact E]. cbn [fst set_db s_db]. unfold tick. cbn. rewrite E, X. reflexivity.
Qed.
