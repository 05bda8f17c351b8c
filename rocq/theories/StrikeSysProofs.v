(** Lemmas about strikes and running tasks. *)
From Verif Require Import Base ZSet Model GInv Strike SpecStrike StrikeProofs StrikeMixed StrikeSys SpecStrikeSys.

Definition busy (p : phase) : bool := match p with PClaimed | PBody | PEnded => true | _ => false end.

(** [l'] holds the executions of [l] with unchanged identity, and [busy] only by
    claiming. *)
Lemma exec_step c s o x' : In x' (s_execs (fst (step c s o))) ->
  (exists x, In x (s_execs s) /\ x_id x' = x_id x /\ x_worker x' = x_worker x /\ x_msg x' = x_msg x /\
     (busy (x_phase x') = true -> busy (x_phase x) = true \/
        (exists y, In y (s_execs s) /\ x_id y = x_id x /\ busy (x_phase y) = true) \/ (exists t, o = OClaim (x_id x) t)))
  \/ (x_id x' = s_nextx s /\ x_phase x' = PDelivered).
Proof.
  assert (R : In x' (s_execs s) -> exists x, In x (s_execs s) /\ x_id x' = x_id x /\ x_worker x' = x_worker x /\ x_msg x' = x_msg x /\
     (busy (x_phase x') = true -> busy (x_phase x) = true \/
        (exists y, In y (s_execs s) /\ x_id y = x_id x /\ busy (x_phase y) = true) \/ (exists t, o = OClaim (x_id x) t)))
    by (intros; exists x'; repeat split; auto).
  assert (G : forall h y, get_exec (s_execs s) h = Some y -> In y (s_execs s) /\ x_id y = h).
  { intros h y H. unfold get_exec in H. apply find_some in H. destruct H as [H E]. apply Z.eqb_eq in E. auto. }
  assert (U : forall h f, (forall y, x_id (f y) = x_id y /\ x_worker (f y) = x_worker y /\ x_msg (f y) = x_msg y) ->
    (forall y, In y (s_execs s) -> x_id y = h -> busy (x_phase (f y)) = true -> busy (x_phase y) = true \/
        (exists y', In y' (s_execs s) /\ x_id y' = h /\ busy (x_phase y') = true) \/ (exists t, o = OClaim h t)) ->
    In x' (upd_exec (s_execs s) h f) -> exists x, In x (s_execs s) /\ x_id x' = x_id x /\ x_worker x' = x_worker x /\ x_msg x' = x_msg x /\
     (busy (x_phase x') = true -> busy (x_phase x) = true \/
        (exists y, In y (s_execs s) /\ x_id y = x_id x /\ busy (x_phase y) = true) \/ (exists t, o = OClaim (x_id x) t))).
  { intros h f Hf Hb H. apply upd_exec_In in H. destruct H as (y & Hy & [->|[Eh ->]]).
    - exists y; repeat split; auto.
    - destruct (Hf y) as (E1 & E2 & E3). exists y. repeat split; auto. rewrite Eh. apply Hb; auto. }
  destruct o; unfold step; cbv zeta;
    repeat match goal with |- context [get_exec (s_execs s) ?h] => destruct (get_exec (s_execs s) h) as [z|] eqn:Gz end;
    try (destruct (G _ _ Gz) as [Hz Hid]).
  - destruct (0 <=? dt); cbn; auto.
  - destruct (do_schedule _ _ _ _); cbn; auto.
  - destruct (do_schedule _ _ _ _); cbn; auto.
  - cbn; auto.
  - cbn; auto.
  - cbn; auto.
  - cbn; auto.
  - destruct (ready_clear s _); [|cbn; auto]. destruct (clear_apply _ _ _); cbn; auto.
  - destruct (lua_stream_due _ _) as [? [? ?]]; cbn; auto.
  - unfold deliver. destruct (read_group _ _) as [? [[? ?]|]]; cbn; [|auto].
    intros H; apply in_app_or in H; destruct H as [H|[<-|[]]]; [left; auto|right; auto].
  - unfold deliver. destruct (autoclaim _ _ _ _) as [? [[? ?]|]]; cbn; [|auto].
    intros H; apply in_app_or in H; destruct H as [H|[<-|[]]]; [left; auto|right; auto].
  - cbn; auto.
  - destruct (x_phase z) eqn:P; try (cbn; now auto).
    destruct (lua_claim _ _ _ _ _ _) as [? []]; cbn [fst s_execs set_execs]; intros H; left;
      (eapply U; [| |exact H]; [intros; repeat split|cbn; intros; eauto 6]).
  - cbn; auto.
  - destruct (x_phase z) eqn:P; try (cbn; now auto). cbn [fst s_execs set_execs]. intros H; left.
    eapply U; [| |exact H]; [intros; repeat split|]. intros y Hy Ey _. right; left. exists z. rewrite P. auto.
  - cbn; auto.
  - destruct (x_phase z) eqn:P; try (cbn; now auto). cbn [fst s_execs set_execs]. intros H; left.
    eapply U; [| |exact H]; [intros; repeat split|]. intros y Hy Ey _. right; left. exists z. rewrite P. auto.
  - cbn; auto.
  - destruct (x_phase z) eqn:P; try (cbn; now auto). cbn [fst s_execs set_execs]. intros H; left.
    eapply U; [| |exact H]; [intros; repeat split|]. cbn; discriminate.
  - cbn; auto.
  - destruct (may_finish _ _); [|cbn; auto]. destruct (lua_terminal _ _ _ _ _ _ _ _ _). cbn [fst s_execs set_execs]. intros H; left.
    eapply U; [| |exact H]; [intros; repeat split|]. cbn; discriminate.
  - cbn; auto.
  - destruct (may_resched _); [|cbn; auto]. destruct (lua_schedule _ _ _ _ _ _ _). cbn [fst s_execs set_execs]. intros H; left.
    eapply U; [| |exact H]; [intros; repeat split|]. cbn; discriminate.
  - cbn; auto.
  - destruct (x_phase z) eqn:P; try (cbn; now auto). destruct (x_slot z); [cbn; now auto|].
    destruct (lua_acquire_or_park _ _ _ _ _ _ _ _ _ _) as [? []]; cbn [fst s_execs set_execs]; intros H; left;
      (eapply U; [| |exact H]; [intros; repeat split|cbn; intros; auto; discriminate]).
  - cbn; auto.
  - destruct (x_slot z) as [[? ?]|]; [|cbn; auto].
    destruct (x_phase z) eqn:P; try (cbn; now auto); cbn [fst s_execs set_execs]; intros H; left;
      (eapply U; [| |exact H]; [intros y; unfold unwind; destruct (x_phase y); repeat split|]; intros y Hy Ey; unfold unwind; destruct (x_phase y) eqn:Py; cbn; rewrite ?Py; cbn; auto; try discriminate).
  - cbn; auto.
  - destruct (x_slot z) as [[? ?]|]; cbn; auto.
  - cbn; auto.
  - cbn; auto.
  - cbn; auto.
  - cbn [fst s_execs]. intros H. apply filter_In in H. left. apply R; tauto.
Qed.

Lemma nextx_step c s o : s_nextx s <= s_nextx (fst (step c s o)).
Proof.
  destruct o; unfold step, deliver; cbv zeta;
    repeat match goal with |- context [match ?x with _ => _ end] => destruct x end; cbn; lia.
Qed.

Record SS (s : ssys) : Prop := mkSSI {
  st_g : GInv (ss_sys s);
  st_busy : forall x, In x (s_execs (ss_sys s)) -> busy (x_phase x) = true -> ss_verdict s (x_id x) = Some false;
  st_fresh : forall h, ss_verdict s h <> None -> h < s_nextx (ss_sys s) }.

Lemma SS_init : SS ss_init.
Proof. split; [apply GInv_init|intros x []|intros h H; elim H; reflexivity]. Qed.

Lemma SS_lift c s o : SS s -> (forall h t, o = OClaim h t -> ss_verdict s h = Some false) -> SS (fst (lift s (step c (ss_sys s) o))).
Proof.
  intros [G B F] Hc. unfold lift; cbn [fst]. split; cbn [ss_sys ss_verdict].
  - now apply GInv_step.
  - intros x' Hx' Hb. destruct (exec_step c (ss_sys s) o x' Hx') as [(x & Hx & E1 & E2 & E3 & Hi)|[_ E]]; [|rewrite E in Hb; discriminate].
    rewrite E1. destruct (Hi Hb) as [H|[(y & Hy & Ey & H)|(t & ->)]].
    + now apply B.
    + rewrite <- Ey. now apply B.
    + eapply Hc; reflexivity.
  - intros h Hh. pose proof (nextx_step c (ss_sys s) o). specialize (F h Hh). lia.
Qed.

Lemma SS_step c bind s o : SS s -> SS (fst (sstep c bind s o)).
Proof.
  intros I. destruct o; cbn [sstep].
  - destruct I; split; assumption.
  - destruct (nth_error _ _); [|exact I]. destruct I; split; assumption.
  - destruct (nth_error _ _); [|exact I]. destruct I; split; assumption.
  - destruct I; split; assumption.
  - destruct (ss_stricken _ _ _ _); [exact I|]. apply SS_lift; [exact I|discriminate].
  - destruct (ss_stricken _ _ _ _); [exact I|]. apply SS_lift; [exact I|discriminate].
  - destruct (get_exec _ _) as [x|] eqn:Gx; [|exact I]. destruct (ss_verdict s h) eqn:V; [exact I|].
    destruct I as [G B F]. apply get_exec_spec in Gx. destruct Gx as [Hx <-].
    split; cbn [fst ss_sys ss_verdict]; [exact G| |].
    + intros y Hy Hb. specialize (B y Hy Hb). destruct (Z.eqb_spec (x_id y) (x_id x)) as [E|E]; [|exact B]. congruence.
    + intros h Hh. destruct (Z.eqb_spec h (x_id x)) as [E|E]; [rewrite E|now apply F]. apply (xi_next _ (proj2 G)); exact Hx.
  - destruct o; try (exact I); try (apply SS_lift; [exact I|discriminate]).
    + match goal with |- context [ss_verdict s ?h] => destruct (ss_verdict s h) as [[|]|] eqn:V end; try exact I. apply SS_lift; [exact I|]. intros h' t' [= <- _]; exact V.
    + match goal with |- context [ss_verdict s ?h] => destruct (ss_verdict s h) as [[|]|] eqn:V end; try exact I. apply SS_lift; [exact I|discriminate].
Qed.

Lemma SS_run c bind l : forall s, SS s -> SS (srun c bind s l).
Proof. induction l as [|o l IH]; intros s I; simpl; [exact I|]. apply IH, SS_step, I. Qed.

(** Executions of [m] in [p] that were not cleared at the start are not cleared. *)
Definition uncleared (V0 : Z -> option bool) (p : string) (m : msg) (s : ssys) : Prop :=
  forall x, In x (s_execs (ss_sys s)) -> x_worker x = p -> x_msg x = m -> V0 (x_id x) <> Some false -> ss_verdict s (x_id x) <> Some false.

Lemma uncleared_lift c V0 p m s o : SS s -> uncleared V0 p m s -> uncleared V0 p m (fst (lift s (step c (ss_sys s) o))).
Proof.
  intros [G B F] U x' Hx' Ew Em Hv. unfold lift in *; cbn [fst ss_sys ss_verdict] in *.
  destruct (exec_step c (ss_sys s) o x' Hx') as [(x & Hx & E1 & E2 & E3 & _)|[E _]].
  - rewrite E1 in *. apply U; congruence.
  - rewrite E. destruct (ss_verdict s (s_nextx (ss_sys s))) as [b|] eqn:V; [|discriminate].
    assert (X : s_nextx (ss_sys s) < s_nextx (ss_sys s)) by (apply F; congruence). lia.
Qed.

Lemma uncleared_step c bind V0 p m s o : SS s -> ss_stricken bind s p m = true -> uncleared V0 p m s -> uncleared V0 p m (fst (sstep c bind s o)).
Proof.
  intros I St U. destruct o; cbn [sstep].
  - exact U.
  - destruct (nth_error _ _); exact U.
  - destruct (nth_error _ _); exact U.
  - exact U.
  - destruct (ss_stricken bind s p0 _); [exact U|]. now apply uncleared_lift.
  - destruct (ss_stricken bind s p0 _); [exact U|]. now apply uncleared_lift.
  - destruct (get_exec _ _) as [x|] eqn:Gx; [|exact U]. destruct (ss_verdict s h) eqn:V; [exact U|].
    apply get_exec_spec in Gx. destruct Gx as [Hx <-].
    intros y Hy Ew Em Hv. cbn [fst ss_sys ss_verdict] in *. destruct (Z.eqb_spec (x_id y) (x_id x)) as [E|E]; [|now apply U].
    assert (y = x) as -> by (destruct I as [[_ X] _ _]; clear - Hx Hy E X; revert Hx Hy; pose proof (xi_nodup _ X) as N; induction (s_execs (ss_sys s)) as [|z l IH]; [intros []|]; cbn [map In] in *; inversion N as [|? ? Nn Nd]; subst; intros [->|Hx] [->|Hy]; auto; exfalso; apply Nn; [rewrite <- E|rewrite E]; now apply in_map).
    rewrite Ew, Em, St. discriminate.
  - destruct o; try (exact U); try (now apply uncleared_lift).
    + match goal with |- context [ss_verdict s ?h] => destruct (ss_verdict s h) as [[|]|] eqn:V end; try exact U. now apply uncleared_lift.
    + match goal with |- context [ss_verdict s ?h] => destruct (ss_verdict s h) as [[|]|] eqn:V end; try exact U. now apply uncleared_lift.
Qed.

Lemma struck_stricken bind p m s : orderly p s -> struck_in bind p m s -> ss_stricken bind s p m = true.
Proof. intros [U H] S. unfold ss_stricken. apply (blocked_iff (ss_applied s p) (target_of bind m) U H). exact S. Qed.

Lemma unstruck_clear bind p m s : orderly p s -> ~ struck_in bind p m s -> ss_stricken bind s p m = false.
Proof.
  intros [U H] S. unfold ss_stricken. destruct (stricken _ _) eqn:E; [|reflexivity]. exfalso; apply S.
  apply (blocked_iff (ss_applied s p) (target_of bind m) U H). exact E.
Qed.

Lemma uncleared_run c bind V0 p m (P : ssys -> Prop) l : (forall s, P s -> ss_stricken bind s p m = true) -> forall s, SS s -> sthroughout c bind P s l ->
  uncleared V0 p m s -> uncleared V0 p m (srun c bind s l).
Proof.
  intros HP. induction l as [|o l IH]; intros s I [Hs T] U; simpl; [exact U|].
  apply IH; [now apply SS_step|exact T|]. apply uncleared_step; auto.
Qed.

Lemma never_started_if c bind p m (P : ssys -> Prop) l0 l x : (forall s, P s -> ss_stricken bind s p m = true) ->
  sthroughout c bind P (srun c bind ss_init l0) l ->
  In x (s_execs (ss_sys (srun c bind ss_init (l0 ++ l)))) -> x_worker x = p -> x_msg x = m ->
  ss_verdict (srun c bind ss_init l0) (x_id x) <> Some false ->
  ~ under_way x.
Proof.
  intros HP T Hx Ew Em Hv.
  assert (E : srun c bind ss_init (l0 ++ l) = srun c bind (srun c bind ss_init l0) l).
  { clear. generalize ss_init. induction l0 as [|o l0 IH]; intros s; simpl; [reflexivity|apply IH]. }
  rewrite E in Hx. set (s0 := srun c bind ss_init l0) in *.
  assert (I : SS s0) by (apply SS_run, SS_init).
  pose proof (uncleared_run c bind (ss_verdict s0) p m P l HP s0 I T) as U.
  specialize (U (fun x _ _ _ H => H) x Hx Ew Em Hv).
  intros B. apply U. apply (st_busy _ (SS_run c bind l s0 I)); [exact Hx|].
  destruct B as [->|[->| ->]]; reflexivity.
Qed.

Lemma never_started c bind p m l0 l x :
  sthroughout c bind (fun s => orderly p s /\ struck_in bind p m s) (srun c bind ss_init l0) l ->
  In x (s_execs (ss_sys (srun c bind ss_init (l0 ++ l)))) -> x_worker x = p -> x_msg x = m ->
  ss_verdict (srun c bind ss_init l0) (x_id x) <> Some false ->
  ~ under_way x.
Proof. apply never_started_if. intros s [O S]; now apply struck_stricken. Qed.

Lemma blocked_stricken bind p m s : blocked_in bind p m s <-> ss_stricken bind s p m = true.
Proof.
  unfold blocked_in, ss_stricken. rewrite (sl_run_hashable (ss_applied s p) sl_empty). symmetry. apply any_sequence.
  intros i Hi. apply filter_In in Hi. apply Hi.
Qed.

Lemma finish_struck c bind s h x t e r : SS s -> get_exec (s_execs (ss_sys s)) h = Some x -> x_phase x = PDelivered -> ss_verdict s h = Some true ->
  let s' := srun c bind s [SDo (ODelKnown h); SDo (OTerminal h SCancelled t e r)] in
  get_exec (s_execs (ss_sys s')) h = Some (with_phase PDone x) /\
  (forall m, ~ In (x_mid x, m) (d_stream (s_db (ss_sys s')))) /\
  (superseded (s_db (ss_sys s)) (m_key (x_msg x)) (m_gen (x_msg x)) = false -> 0 < c_ttl c ->
    r_state (rget (s_db (ss_sys s')) (m_key (x_msg x))) = Some SCancelled).
Proof.
  intros I Gx Px V. cbn zeta. cbn [srun]. cbn [sstep]. rewrite V.
  set (k := m_key (x_msg x)).
  assert (E1 : step c (ss_sys s) (ODelKnown h) = (set_execs (ss_sys s) (delete_known (s_db (ss_sys s)) k) (upd_exec (s_execs (ss_sys s)) h (with_phase PStruck)), ODone)).
  { unfold step; cbv zeta. rewrite Gx, Px. reflexivity. }
  rewrite E1. unfold lift at 1 2; cbn [fst snd ss_sys].
  assert (Gu : forall f, (forall y, x_id (f y) = x_id y) -> forall l y, get_exec l h = Some y -> get_exec (upd_exec l h f) h = Some (f y)).
  { intros f Hf l y. unfold get_exec, upd_exec. induction l as [|z l IH]; simpl; [discriminate|].
    destruct (Z.eqb_spec (x_id z) h) as [Ez|Ez].
    - intros [= ->]. rewrite Hf, Ez, Z.eqb_refl. reflexivity.
    - rewrite (proj2 (Z.eqb_neq _ _) Ez). exact IH. }
  set (s1 := set_execs (ss_sys s) (delete_known (s_db (ss_sys s)) k) (upd_exec (s_execs (ss_sys s)) h (with_phase PStruck))).
  assert (G1 : get_exec (s_execs s1) h = Some (with_phase PStruck x)) by (apply Gu; auto).
  assert (Sup : superseded (s_db s1) k (m_gen (x_msg x)) = superseded (s_db (ss_sys s)) k (m_gen (x_msg x))).
  { unfold superseded. f_equal. unfold s1, delete_known, rget. cbn. rewrite upd_eq. destruct (d_runs (s_db (ss_sys s)) k); reflexivity. }
  set (d2 := fst (lua_terminal (s_db s1) k (m_gen (x_msg x)) SCancelled t (c_ttl c) e r (x_mid x))).
  assert (E2 : fst (step c s1 (OTerminal h SCancelled t e r)) = set_execs s1 d2 (upd_exec (s_execs s1) h (with_phase PDone))).
  { unfold step; cbv zeta. rewrite G1. cbn [x_phase with_phase may_finish state_eqb x_msg x_mid]. unfold d2, k.
    destruct (lua_terminal _ _ _ _ _ _ _ _ _); reflexivity. }
  unfold lift; cbn [fst snd ss_sys]. rewrite E2. cbn [s_execs s_db set_execs].
  split; [rewrite (Gu (with_phase PDone)) with (y := with_phase PStruck x); auto|].
  unfold d2. split.
  - intros m0 Hin. unfold lua_terminal in Hin.
    assert (X : forall d i, ~ In (i, m0) (d_stream (xdel d i))).
    { intros d i H. unfold xdel in H; cbn in H. apply del_entry_In in H. cbn in H. tauto. }
    destruct (superseded _ _ _); cbn [fst] in Hin; apply X in Hin; exact Hin.
  - intros S Ht. unfold lua_terminal. rewrite Sup, S. cbn [fst].
    apply Z.ltb_lt in Ht. rewrite Ht. unfold rget; cbn. rewrite !upd_eq. reflexivity.
Qed.
