(** Proofs for Shared.v. *)
From Verif Require Import Base ZSet Model GInv Spec KView KSim KInv Hist Progress SpecProgress ProgressProofs Shared SpecShared.

Ltac nocr := let w := fresh in let E := fresh in intros w E; discriminate E.

Lemma origin c s o x' : XInv s -> In x' (s_execs (fst (step c s o))) ->
  (exists x, In x (s_execs s) /\ x_id x' = x_id x /\ x_msg x' = x_msg x /\ x_worker x' = x_worker x /\
     (x_phase x' = PDelivered -> x_phase x = PDelivered) /\
     (may_report (x_phase x') = true -> may_report (x_phase x) = true \/ x_phase x = PDelivered) /\
     (forall w, o = OCrash w -> x_worker x <> w)) \/
  x_id x' = s_nextx s.
Proof.
  intros X. set (T := exists x, _).
  assert (R : In x' (s_execs s) -> (forall w, o = OCrash w -> x_worker x' <> w) -> T).
  { intros H N. exists x'. repeat split; auto. }
  assert (U : forall h z f, get_exec (s_execs s) h = Some z -> (forall w, o = OCrash w -> x_worker z <> w) ->
    x_id (f z) = x_id z /\ x_msg (f z) = x_msg z /\ x_worker (f z) = x_worker z ->
    (x_phase (f z) = PDelivered -> x_phase z = PDelivered) ->
    (may_report (x_phase (f z)) = true -> may_report (x_phase z) = true \/ x_phase z = PDelivered) ->
    (forall w, o = OCrash w -> False) ->
    In x' (upd_exec (s_execs s) h f) -> T).
  { intros h z f Gz N (F1 & F2 & F3) F4 F5 No H. destruct (get_exec_spec _ _ _ Gz) as [Hz Hid].
    apply upd_exec_In in H. destruct H as (y & Hy & [->|[Eh ->]]); [apply R; auto; intros w E; destruct (No w E)|].
    assert (y = z) by (eapply execs_inj; eauto; congruence). subst y. exists z. repeat split; auto. }
  destruct o; unfold step; cbv zeta;
    repeat match goal with |- context [get_exec (s_execs s) ?h] => destruct (get_exec (s_execs s) h) as [z|] eqn:Gz end;
    try (cbn; intros H; left; (apply R; [exact H|nocr]));
    try match goal with
    | |- context [if ?b then _ else _] => destruct b; cbn; intros H; left; (apply R; [exact H|nocr])
    | |- context [do_schedule ?a ?b ?c ?d] => destruct (do_schedule a b c d); cbn; intros H; left; (apply R; [exact H|nocr])
    | |- context [ready_clear s ?w] => destruct (ready_clear s _); [destruct (clear_apply _ _ _)|]; cbn; intros H; left; (apply R; [exact H|nocr])
    | |- context [lua_stream_due ?a ?b] => destruct (lua_stream_due a b) as [? [? ?]]; cbn; intros H; left; (apply R; [exact H|nocr])
    end.
  - unfold deliver. destruct (read_group _ _) as [? [[? ?]|]]; cbn; [|intros H; left; (apply R; [exact H|nocr])].
    intros H; apply in_app_or in H; destruct H as [H|[<-|[]]]; [left; (apply R; [exact H|nocr])|right; auto].
  - unfold deliver. destruct (autoclaim _ _ _ _) as [? [[? ?]|]]; cbn; [|intros H; left; (apply R; [exact H|nocr])].
    intros H; apply in_app_or in H; destruct H as [H|[<-|[]]]; [left; (apply R; [exact H|nocr])|right; auto].
  - destruct (x_phase z) eqn:P; try (cbn; intros H; left; (apply R; [exact H|nocr])).
    destruct (lua_claim _ _ _ _ _ _) as [? []]; cbn [fst s_execs set_execs]; intros H; left;
      (eapply U; [exact Gz|nocr| | | |nocr|exact H]; cbn; rewrite ?P; [auto|discriminate|auto]).
  - destruct (x_phase z) eqn:P; try (cbn; intros H; left; (apply R; [exact H|nocr])). cbn [fst s_execs set_execs]. intros H; left.
    eapply U; [exact Gz|nocr| | | |nocr|exact H]; cbn; rewrite ?P; [auto|discriminate|auto].
  - destruct (x_phase z) eqn:P; try (cbn; intros H; left; (apply R; [exact H|nocr])). cbn [fst s_execs set_execs]. intros H; left.
    eapply U; [exact Gz|nocr| | | |nocr|exact H]; cbn; rewrite ?P; [auto|discriminate|auto].
  - destruct (x_phase z) eqn:P; try (cbn; intros H; left; (apply R; [exact H|nocr])). cbn [fst s_execs set_execs]. intros H; left.
    eapply U; [exact Gz|nocr| | | |nocr|exact H]; cbn; rewrite ?P; [auto|discriminate|auto].
  - destruct (may_finish _ _) eqn:M; [|cbn; intros H; left; (apply R; [exact H|nocr])]. destruct (lua_terminal _ _ _ _ _ _ _ _ _). cbn [fst s_execs set_execs]. intros H; left.
    eapply U; [exact Gz|nocr| | | |nocr|exact H]; cbn; [auto|discriminate|discriminate].
  - destruct (may_resched _); [|cbn; intros H; left; (apply R; [exact H|nocr])]. destruct (lua_schedule _ _ _ _ _ _ _). cbn [fst s_execs set_execs]. intros H; left.
    eapply U; [exact Gz|nocr| | | |nocr|exact H]; cbn; [auto|discriminate|discriminate].
  - destruct (x_phase z) eqn:P; try (cbn; intros H; left; (apply R; [exact H|nocr])). destruct (x_slot z) eqn:Sz; [cbn; intros H; left; (apply R; [exact H|nocr])|].
    destruct (lua_acquire_or_park _ _ _ _ _ _ _ _ _ _) as [? []]; cbn [fst s_execs set_execs]; intros H; left;
      (eapply U; [exact Gz|nocr| | | |nocr|exact H]; cbn; rewrite ?P; [auto|auto; discriminate|auto]).
  - destruct (x_slot z) as [[? ?]|]; [|cbn; intros H; left; (apply R; [exact H|nocr])].
    destruct (x_phase z) eqn:P; try (cbn; intros H; left; (apply R; [exact H|nocr])); cbn [fst s_execs set_execs]; intros H; left;
      (eapply U; [exact Gz|nocr| | | |nocr|exact H]; unfold unwind; rewrite P; cbn; rewrite ?P; [auto|discriminate|auto]).
  - destruct (x_slot z) as [[? ?]|]; cbn; intros H; left; (apply R; [exact H|nocr]).
  - cbn [fst s_execs]. intros H. apply filter_In in H as [H1 H2]. left. apply R; [exact H1|]. intros w' E. injection E as <-.
    apply negb_true_iff, String.eqb_neq in H2. exact H2.
Qed.

(** A run that has entered and still runs is the one the object holds. *)
Definition Held (q : ssys) : Prop := forall h, In h (sh_in q) -> h < s_nextx (p_sys (sh_p q)) /\
  forall x, In x (s_execs (p_sys (sh_p q))) -> x_id x = h -> x_phase x <> PDelivered /\
    (may_report (x_phase x) = true -> sh_obj q (x_worker x) (m_fn (x_msg x)) = Some h).

Lemma write_on_report q h ok f g x : get_exec (s_execs (p_sys q)) h = Some x -> may_report (x_phase x) = true ->
  write_on q h ok f g = report q h ok f g.
Proof. intros X M. unfold write_on, report. now rewrite X, M. Qed.

Lemma through_report q h ok f g : Held q -> In h (sh_in q) ->
  through q h ok f g = mkSh (report (sh_p q) h ok f g) (sh_obj q) (sh_in q).
Proof.
  intros H E. unfold through. destruct (get_exec _ h) as [x|] eqn:X.
  - destruct (may_report (x_phase x)) eqn:M; cbn [andb].
    + assert (B : existsb (Z.eqb h) (sh_in q) = true) by (apply existsb_exists; exists h; split; [exact E|lia]).
      rewrite B. destruct (get_exec_spec _ _ _ X) as [I1 I2]. destruct (H h E) as [_ H2]. destruct (H2 x I1 I2) as [_ H3].
      rewrite (H3 M). now rewrite (write_on_report _ _ _ _ _ _ X M).
    + unfold report. rewrite X, M. cbn. now destruct q.
  - unfold report. rewrite X. now destruct q.
Qed.

Lemma Held_report q h ok f g : Held q -> Held (mkSh (report (sh_p q) h ok f g) (sh_obj q) (sh_in q)).
Proof.
  intros H j E. cbn [sh_p sh_obj sh_in] in *. destruct (report_execs (sh_p q) h ok f g) as [-> ->]. exact (H j E).
Qed.

Lemma Held_op c q o (f : string -> string -> option Z) : PInv (sh_p q) -> Held q ->
  (forall w fn, (forall v, o = OCrash v -> w <> v) -> f w fn = sh_obj q w fn) ->
  Held (mkSh (pstep c (sh_p q) (POp o)) f (sh_in q)).
Proof.
  intros [[_ G] _] H F h E. cbn [sh_p sh_obj sh_in pstep p_sys] in *. destruct (H h E) as [H1 H2].
  split; [pose proof (nextx_le c (p_sys (sh_p q)) o); lia|].
  intros x' I1 I2. destruct (origin c _ o x' G I1) as [(x & X1 & X2 & X3 & X4 & X5 & X6 & X7)|X]; [|lia].
  destruct (H2 x X1 ltac:(congruence)) as [A B]. split; [intros D; exact (A (X5 D))|].
  intros M. rewrite X3, X4. rewrite F; [|exact X7]. apply B. destruct (X6 M) as [D|D]; [exact D|contradiction].
Qed.

Lemma Held_step c q o : PInv (sh_p q) -> Held q -> one_at_a_time q o -> Held (sstep c q o).
Proof.
  intros P H O. destruct o as [p|h|h n t|h n t|h m t]; cbn [sstep one_at_a_time] in *;
    try (rewrite through_report by assumption; now apply Held_report).
  - destruct p as [o|h n t|h n t|h m t]; try (now apply Held_report).
    destruct o; try (now apply Held_op).
    apply Held_op; auto. intros w' fn N. destruct (String.eqb_spec w' w) as [->|_]; [now destruct (N w eq_refl)|reflexivity].
  - destruct (get_exec _ h) as [x|] eqn:X; [|exact H]. destruct (x_phase x) eqn:Ph; try exact H.
    destruct (get_exec_spec _ _ _ X) as [I1 I2]. pose proof (proj2 (proj1 P)) as G.
    intros j E. cbn [sh_p sh_obj sh_in] in *.
    assert (Sx : forall y, In y (s_execs (p_sys (sh_p q))) -> x_id y = h -> y = x) by (intros y Y1 Y2; eapply execs_inj; eauto; congruence).
    destruct (Z.eq_dec j h) as [->|N].
    + split; [rewrite <- I2; now apply (xi_next _ G)|]. intros y Y1 Y2. rewrite (Sx y Y1 Y2). split; [rewrite Ph; discriminate|].
      intros _. unfold set_obj. now rewrite !String.eqb_refl.
    + destruct E as [E|E]; [congruence|]. destruct (H j E) as [H1 H2]. split; [exact H1|]. intros y Y1 Y2. destruct (H2 y Y1 Y2) as [A B].
      split; [exact A|]. intros M. unfold set_obj. destruct (String.eqb_spec (x_worker y) (x_worker x)) as [W|W]; [|now apply B].
      destruct (String.eqb_spec (m_fn (x_msg y)) (m_fn (x_msg x))) as [F|F]; [|now apply B]. exfalso.
      destruct (O x y I1 I2 Y1 ltac:(congruence) W F) as (O1 & O2 & O3). destruct (x_phase y); try discriminate M; auto.
Qed.

Lemma own_step c q o : Held q -> one_at_a_time q o -> sh_p (sstep c q o) = pfinal c (sh_p q) (own o).
Proof.
  intros H O. destruct o as [p|h|h n t|h n t|h m t]; cbn [sstep own one_at_a_time pfinal] in *;
    try (rewrite through_report by assumption; reflexivity).
  - destruct p as [o|h n t|h n t|h m t]; try reflexivity. destruct o; reflexivity.
  - destruct (get_exec _ h) as [x|]; [|reflexivity]. destruct (x_phase x); reflexivity.
Qed.

Lemma pfinal_app c q l m : pfinal c q (l ++ m) = pfinal c (pfinal c q l) m.
Proof. revert q; induction l; intros; simpl; auto. Qed.

Lemma PInv_final c q l : PInv q -> PInv (pfinal c q l).
Proof. revert q; induction l; intros; simpl; auto using PInv_step. Qed.

Lemma own_final c l : forall q, PInv (sh_p q) -> Held q -> salong c one_at_a_time q l ->
  sh_p (sfinal c q l) = pfinal c (sh_p q) (flat_map own l).
Proof.
  induction l as [|o l IH]; intros q P H A; [reflexivity|]. destruct A as [A1 A2]. cbn [sfinal flat_map]. rewrite pfinal_app.
  rewrite <- (own_step c q o H A1). apply IH; [|now apply Held_step|exact A2].
  rewrite (own_step c q o H A1). now apply PInv_final.
Qed.
