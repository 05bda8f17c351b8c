(** The record of a key never names the message of a run that was claimed. *)
From Verif Require Import Base ZSet Model GInv KView KSim KInv Spec Hist.

Definition began (p : phase) : bool := match p with PClaimed | PBody | PEnded => true | _ => false end.
Definition SidInv (v : ks) : Prop := forall x, In x (k_execs v) -> began (x_phase x) = true -> r_sid (kr v) <> Some (x_mid x).

Lemma same_id l (x y : exec) : NoDup (map x_id l) -> In x l -> In y l -> x_id y = x_id x -> y = x.
Proof.
  induction l as [|a l IH]; intros N X Y E; [contradiction|]. cbn in N. inversion N; subst.
  assert (Z : forall z, In z l -> x_id z <> x_id a) by (intros z Hz Ez; apply H1; rewrite <- Ez; now apply in_map).
  destruct X as [->|X], Y as [->|Y]; auto; exfalso; [exact (Z y Y E)|exact (Z x X (eq_sym E))].
Qed.

Lemma khdel_sid v f : (forall r, r_sid (f r) = r_sid r \/ r_sid (f r) = None) -> r_sid (kr (khdel v f)) = r_sid (kr v) \/ r_sid (kr (khdel v f)) = None.
Proof. intros H. unfold khdel, kr. cbn. destruct (k_runs v) as [r|]; cbn; [apply H|auto]. Qed.

Lemma sid_kplace v w imm clr m : let v' := kplace v w imm clr m in
  (r_sid (kr v') = r_sid (kr v) \/ r_sid (kr v') = None \/ r_sid (kr v') = Some (k_next v)) /\ k_execs v' = k_execs v.
Proof. unfold kplace. destruct imm; [cbn; auto|]. destruct clr; cbn; auto. Qed.

Lemma sid_apply c k v e : kok k v e -> UInv k v -> let v' := kapply c v e in
  r_sid (kr v') = r_sid (kr v) \/ r_sid (kr v') = None \/ r_sid (kr v') = Some (k_next v).
Proof.
  intros _ _. destruct e; cbn [kapply]; try (cbn; auto; fail).
  - destruct (khdel_sid v (rset_expire (Some t))) as [->| ->]; auto.
  - unfold ksched. destruct (_ && _); [auto|]. destruct (sid_kplace (if repl then kreplace_existing v else v) (a_when a) imm false (call_msg a)) as [[->|[->| ->]] _]; auto.
    + destruct repl; auto. left. now rewrite kr_kreplace.
    + destruct repl; auto. right; right. unfold kreplace_existing. destruct (r_sid (kr v)); reflexivity.
  - unfold kcancel. right; left.
    assert (E : forall u, r_sid (kr (khdel u rdel_known)) = None) by (intros u; unfold khdel, kr; cbn; now destruct (k_runs u)).
    set (u := khdel _ _). specialize (E (kset_prog (kreplace_existing v) None)). fold u in E.
    destruct (r_state (kr u)) as [[]|]; auto.
  - unfold kmove. destruct (k_parked v); auto.
  - unfold kclaim. destruct (ksuper _ _); cbn; auto.
  - destruct (khdel_sid v rdel_known) as [E|E]; [intros r; now right|left; exact E|right; left; exact E].
  - unfold kterminal, kexpire. destruct (ksuper _ _); [destruct (kprog_mine _ _); cbn; auto|]. destruct (0 <? _); cbn; auto.
  - unfold kresched. cbn [kphase kset_execs kr k_runs].
    change (r_sid (kr (khdel (kplace (kdel v (x_mid x)) when imm true (resched_msg (x_msg x) when bump)) rdel_worker)) = r_sid (kr v) \/
      r_sid (kr (khdel (kplace (kdel v (x_mid x)) when imm true (resched_msg (x_msg x) when bump)) rdel_worker)) = None \/
      r_sid (kr (khdel (kplace (kdel v (x_mid x)) when imm true (resched_msg (x_msg x) when bump)) rdel_worker)) = Some (k_next v)).
    destruct (khdel_sid (kplace (kdel v (x_mid x)) when imm true (resched_msg (x_msg x) when bump)) rdel_worker) as [->| ->]; [intros r; now left| |auto].
    destruct (sid_kplace (kdel v (x_mid x)) when imm true (resched_msg (x_msg x) when bump)) as [[->|[->| ->]] _]; auto.
  - unfold kwake. destruct (r_state (kr v)) as [[]|]; cbn; auto.
  - unfold kcleanup. match goal with |- context [khdel ?u rdel_waiter] => destruct (khdel_sid u rdel_waiter) as [->| ->]; [intros r; now left| |]; auto end.
Qed.

Lemma execs_apply c k v e x' : kok k v e -> UInv k v -> In x' (k_execs (kapply c v e)) -> began (x_phase x') = true ->
  (exists x, In x (k_execs v) /\ x_mid x = x_mid x' /\ began (x_phase x) = true) \/ (In (x_mid x') (map x_mid (k_execs v)) /\ r_sid (kr (kapply c v e)) = None).
Proof.
  intros K U H B.
  assert (Old : forall x, In x (k_execs v) -> x = x' -> (exists x, In x (k_execs v) /\ x_mid x = x_mid x' /\ began (x_phase x) = true) \/ (In (x_mid x') (map x_mid (k_execs v)) /\ r_sid (kr (kapply c v e)) = None))
    by (intros x Hx ->; left; eauto).
  assert (Same : k_execs (kapply c v e) = k_execs v -> (exists x, In x (k_execs v) /\ x_mid x = x_mid x' /\ began (x_phase x) = true) \/ (In (x_mid x') (map x_mid (k_execs v)) /\ r_sid (kr (kapply c v e)) = None))
    by (intros E; rewrite E in H; eauto).
  assert (Ph : forall u h f, k_execs u = k_execs v -> k_execs (kapply c v e) = k_execs (kphase u h f) ->
     (forall y, In y (k_execs v) -> x_id y = h -> x_mid (f y) = x_mid y /\ (began (x_phase (f y)) = true -> began (x_phase y) = true)) ->
     exists x, In x (k_execs v) /\ x_mid x = x_mid x' /\ began (x_phase x) = true).
  { intros u h f Eu E F. rewrite E in H. cbn in H. rewrite Eu in H. apply upd_exec_In in H as (y & Hy & [->|[Hh ->]]); [eauto|].
    destruct (F y Hy Hh) as [F1 F2]. exists y. repeat split; auto. }
  destruct e; cbn [kapply kok] in *; try (apply Same; reflexivity).
  - apply Same. unfold ksched. destruct (_ && _); [reflexivity|]. destruct (sid_kplace (if repl then kreplace_existing v else v) (a_when a) imm false (call_msg a)) as [_ ->].
    destruct repl; [|reflexivity]. unfold kreplace_existing. destruct (r_sid (kr v)); reflexivity.
  - apply Same. unfold kcancel, kreplace_existing. destruct (r_sid (kr v)); match goal with |- context [match ?s with Some _ => _ | None => _ end] => destruct s as [[]|] end; reflexivity.
  - apply Same. unfold kmove. destruct (k_parked v); reflexivity.
  - destruct K as (_ & _ & P & _). cbn in H. apply in_app_or in H as [H|[<-|[]]]; [eauto|]. rewrite P in B. discriminate.
  - cbn in H. apply filter_In in H as [H _]. eauto.
  - destruct K as [Hx P]. unfold kclaim in *. destruct (ksuper v (m_gen (x_msg x))) eqn:S.
    + left. eapply (Ph (kdel v (x_mid x))); [reflexivity|reflexivity|]. intros y _ _. split; [reflexivity|discriminate].
    + right. split; [|reflexivity]. cbn in H. apply upd_exec_In in H as (y & Hy & [->|[_ ->]]); cbn; apply in_map; exact Hy.
  - destruct K as [Hx P]. left. apply (Ph v (x_id x) (with_phase p) eq_refl eq_refl). intros y Hy E. split; [reflexivity|intros _].
    assert (y = x) as -> by exact (same_id _ x y (ui_nodup _ _ U) Hx Hy E).
    destruct P as [[-> _]|[-> _]]; reflexivity.
  - left. apply (Ph v (x_id x) (with_slot o) eq_refl eq_refl). intros y Hy E. split; [reflexivity|auto].
  - left. apply (Ph (khdel v rdel_known) (x_id x) (with_phase PStruck) eq_refl eq_refl). intros y Hy E. split; [reflexivity|discriminate].
  - left. eapply Ph; [|reflexivity|intros y Hy E; split; [reflexivity|discriminate]]. unfold kterminal, kexpire. destruct (ksuper _ _); [destruct (kprog_mine _ _); reflexivity|]. destruct (0 <? _); reflexivity.
  - left. eapply Ph; [|reflexivity|intros y Hy E; split; [reflexivity|discriminate]]. unfold kresched. cbn.
    destruct (sid_kplace (kdel v (x_mid x)) when imm true (resched_msg (x_msg x) when bump)) as [_ E]. exact E.
  - left. eapply Ph; [|reflexivity|intros y Hy E; split; [reflexivity|discriminate]]. reflexivity.
  - apply Same. unfold kwake. destruct (r_state (kr v)) as [[]|]; reflexivity.
Qed.

Lemma SidInv_apply c k v e : kok k v e -> UInv k v -> SidInv v -> SidInv (kapply c v e).
Proof.
  intros K U I x' H B. destruct (execs_apply c k v e x' K U H B) as [(x & Hx & M & Bx)|[_ ->]]; [|discriminate].
  rewrite <- M. destruct (sid_apply c k v e K U) as [->|[->| ->]]; [now apply I|discriminate|]. intros [= E].
  destruct (ui_exec _ _ U x Hx) as (_ & L & _). pose proof (ui_last _ _ U). lia.
Qed.

Lemma reachable_SidInv c k s : reachable c s -> SidInv (kabs k s).
Proof.
  intros [l ->]. enough (H : forall s, GInv s -> UInv k (kabs k s) -> SidInv (kabs k s) -> SidInv (kabs k (final c s l))) by (apply H; [apply GInv_init|apply UInv_init|intros x []]).
  induction l as [|o l IH]; intros s G U I; [exact I|]. rewrite final_cons. apply IH; [now apply GInv_step|now apply UInv_step|].
  apply (step_ind c k s o SidInv); auto. intros v e K _ Uv _ _. now apply (SidInv_apply c k).
Qed.

Lemma claimed_not_named c s h x : reachable c s -> get_exec (s_execs s) h = Some x -> began (x_phase x) = true ->
  r_sid (rget (s_db s) (m_key (x_msg x))) <> Some (x_mid x).
Proof.
  intros R E B. apply get_exec_spec in E as [E _]. apply (reachable_SidInv c (m_key (x_msg x)) s R x); [|exact B].
  unfold kabs, kd. cbn. apply filter_In. split; [exact E|apply String.eqb_refl].
Qed.

Lemma replace_existing_keeps v i m : In (i, m) (k_stream v) -> r_sid (kr v) <> Some i -> In (i, m) (k_stream (kreplace_existing v)).
Proof.
  intros H N. unfold kreplace_existing. destruct (r_sid (kr v)) as [j|]; cbn; [|exact H].
  unfold del_entry. apply filter_In. split; [exact H|]. cbn. destruct (Z.eqb_spec i j); [congruence|reflexivity].
Qed.
Lemma kplace_keeps v w imm clr n i m : In (i, m) (k_stream v) -> In (i, m) (k_stream (kplace v w imm clr n)).
Proof. intros H. unfold kplace. destruct imm; [cbn; apply in_or_app; auto|]. destruct clr; exact H. Qed.

(** Neither a cancel nor a replace takes the message of a claimed run away. *)
Lemma running_stays c s o x m : reachable c s -> In x (s_execs s) -> began (x_phase x) = true -> on_stream s (x_mid x) m ->
  (exists k t, o = OCancel k t) \/ (exists a t, o = OReplace a t) -> on_stream (fst (step c s o)) (x_mid x) m.
Proof.
  intros R E B H O. assert (G := reachable_GInv c s R).
  assert (Em : m = x_msg x) by (destruct G as [_ GX]; exact (xi_msg _ GX x m E H)).
  set (k := m_key m). apply (kstream_In k).
  assert (I : SidInv (kabs k s)) by exact (reachable_SidInv c k s R).
  enough (P : SidInv (kabs k (fst (step c s o))) /\ In (x_mid x, m) (k_stream (kabs k (fst (step c s o)))) /\ In x (k_execs (kabs k (fst (step c s o))))) by apply P.
  apply (step_ind c k s o (fun v => SidInv v /\ In (x_mid x, m) (k_stream v) /\ In x (k_execs v))); auto.
  - exact (reachable_UInv c k s R).
  - intros v e K L U _ _ (Iv & Hv & Xv). split; [exact (SidInv_apply c k v e K U Iv)|]. pose proof (Iv x Xv B) as N.
    assert (KS : forall r imm a, In (x_mid x, m) (k_stream (ksched v r imm a)) /\ In x (k_execs (ksched v r imm a))).
    { intros r imm a. unfold ksched. destruct (_ && _); [auto|]. split.
      - apply kplace_keeps. destruct r; [now apply replace_existing_keeps|exact Hv].
      - destruct (sid_kplace (if r then kreplace_existing v else v) (a_when a) imm false (call_msg a)) as [_ ->].
        destruct r; [|exact Xv]. unfold kreplace_existing. destruct (r_sid (kr v)); exact Xv. }
    assert (KC : forall t, In (x_mid x, m) (k_stream (kcancel v t)) /\ In x (k_execs (kcancel v t))).
    { intros t. apply (replace_existing_keeps v _ _ Hv) in N. assert (Y : k_execs (kreplace_existing v) = k_execs v) by (unfold kreplace_existing; destruct (r_sid (kr v)); reflexivity).
      rewrite <- Y in Xv. unfold kcancel. destruct (r_state _) as [[]|]; auto. }
    destruct e; cbn [label kapply] in *; auto; exfalso;
      destruct O as [(k' & t' & ->)|(a' & t' & ->)];
      repeat match goal with
      | H : exists _, _ |- _ => destruct H
      | H : _ /\ _ |- _ => destruct H
      | H : _ \/ _ |- _ => destruct H
      | H : context [if ?b then _ else _] |- _ => destruct b
      | H : context [match ?b with Some _ => _ | None => _ end] |- _ => destruct b as [[]|]
      end; first [contradiction|discriminate].
  - split; [exact I|]. split; [apply kstream_In; auto|apply kexecs_In; split; [exact E|now rewrite <- Em]].
Qed.
