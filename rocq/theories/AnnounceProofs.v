(** Proofs about overlapping progress reports. *)
From Verif Require Import Base Announce SpecAnnounce.

Lemma at_same f i x : at_stage f i x i = x.
Proof. unfold at_stage. rewrite Z.eqb_refl. reflexivity. Qed.
Lemma at_other f i x j : j <> i -> at_stage f i x j = f j.
Proof. intros H. unfold at_stage. destruct (Z.eqb_spec j i); congruence. Qed.
Lemma at_some f i x j y : at_stage f i x j = Some y -> (j = i /\ x = Some y) \/ (j <> i /\ f j = Some y).
Proof. unfold at_stage. destruct (Z.eqb_spec j i); auto. Qed.

(** ** The sum of the increments *)

Fixpoint total_of (P : list (Z * Z)) : Z := match P with [] => 0 | p :: P => snd p + total_of P end.
Definition waiting (s : asys) (i n : Z) : Prop := exists ev, a_calls s i = Some (SSent (Incr n) ev).

Lemma total_remove i n P : NoDup (map fst P) -> In (i, n) P ->
  exists Q, NoDup (map fst Q) /\ total_of P = n + total_of Q /\ forall j m, In (j, m) Q <-> (j <> i /\ In (j, m) P).
Proof.
  induction P as [|[j m] P IH]; intros ND HI; [destruct HI|].
  cbn [map fst] in ND. inversion ND as [|? ? NI ND']; subst. destruct HI as [E|HI].
  - injection E as -> ->. exists P. split; [assumption|]. split; [reflexivity|]. intros j m. cbn [In]. split.
    + intros H. split; [|auto]. intros ->. apply NI. apply in_map_iff. exists (i, m). auto.
    + intros [N [E|H]]; [congruence|assumption].
  - destruct (IH ND' HI) as (Q & NQ & TQ & HQ). exists ((j, m) :: Q). split; [|split].
    + cbn [map fst]. constructor; [|assumption]. intros H. apply in_map_iff in H as ([j' m'] & E & H). cbn in E. subst j'.
      apply HQ in H as [_ H]. apply NI. apply in_map_iff. exists (j, m'). auto.
    + cbn [total_of snd]. lia.
    + intros j' m'. cbn [In]. split.
      * intros [E|H]; [injection E as <- <-|apply HQ in H; intuition].
        split; [|auto]. intros ->. apply NI. apply in_map_iff. exists (i, n). auto.
      * intros [N [E|H]]; [auto|]. right. apply HQ. auto.
Qed.

Definition Sum (s : asys) (total : Z) : Prop :=
  exists P, NoDup (map fst P) /\ (forall i n, In (i, n) P <-> waiting s i n) /\ v_cur (a_stored s) + total_of P = total.

Lemma waiting_same s s' : (forall i n, waiting s' i n <-> waiting s i n) -> v_cur (a_stored s') = v_cur (a_stored s) ->
  forall t, Sum s t -> Sum s' t.
Proof.
  intros W C t (P & ND & HP & HT). exists P. split; [assumption|]. split; [|lia].
  intros i n. rewrite HP, W. tauto.
Qed.

Lemma waiting_at s i x st l ev j n : (forall m v, x <> Some (SSent (Incr m) v)) -> (forall m, ~ waiting s i m) ->
  waiting (mkA st l (at_stage (a_calls s) i x) ev) j n <-> waiting s j n.
Proof.
  intros X N. unfold waiting. cbn [a_calls]. split; intros (v & H).
  - apply at_some in H as [(-> & H)|(_ & H)]; [exfalso; exact (X _ _ H)|eauto].
  - exists v. destruct (Z.eq_dec j i) as [->|D]; [exfalso; apply (N n); exists v; exact H|].
    rewrite at_other by assumption. exact H.
Qed.

Lemma sum_step s o t : new_number s o -> Sum s t -> Sum (astep s o) (t + increments [o]).
Proof.
  intros NN HS. destruct o as [i r|i|i].
  - cbn [new_number] in NN. cbn [astep]. rewrite NN.
    destruct (refused r) eqn:R.
    + replace (t + increments [ABegin i r]) with t; [assumption|].
      destruct r; cbn [increments refused] in *; try rewrite R; lia.
    + destruct r as [n|n|m].
      * cbn [refused] in R. cbn [increments]. rewrite R.
        destruct HS as (P & ND & HP & HT). exists ((i, n) :: P). split; [|split].
        -- cbn [map fst]. constructor; [|assumption]. intros H. apply in_map_iff in H as ([j m] & E & H). cbn in E. subst j.
           apply HP in H as (ev & H). congruence.
        -- intros j m. unfold waiting. cbn [a_calls In]. split.
           ++ intros [E|H]; [injection E as <- <-; eexists; apply at_same|].
              apply HP in H as (ev & H). exists ev. rewrite at_other; [assumption|]. intros ->. congruence.
           ++ intros (ev & H). apply at_some in H as [(-> & H)|(D & H)]; [left; injection H as <- _; reflexivity|].
              right. apply HP. exists ev. exact H.
        -- cbn [a_stored total_of snd]. lia.
      * cbn [increments]. rewrite Z.add_0_r.
        refine (waiting_same _ _ _ _ _ HS); [|reflexivity]. intros j k. apply waiting_at; [discriminate|].
        intros k' (ev & H). congruence.
      * cbn [increments]. rewrite Z.add_0_r.
        refine (waiting_same _ _ _ _ _ HS); [|reflexivity]. intros j k. apply waiting_at; [discriminate|].
        intros k' (ev & H). congruence.
  - cbn [increments]. rewrite Z.add_0_r. cbn [astep].
    destruct (a_calls s i) as [[r ev|r v|ev]|] eqn:C; [destruct r as [n|n|m]|exact HS| |exact HS].
    + destruct HS as (P & ND & HP & HT).
      destruct (total_remove i n P ND) as (Q & NQ & TQ & HQ); [apply HP; exists ev; assumption|].
      exists Q. split; [assumption|]. split.
      * intros j m. rewrite HQ, HP. unfold waiting. cbn [a_calls]. split.
        -- intros (D & ev' & H). exists ev'. rewrite at_other; assumption.
        -- intros (ev' & H). apply at_some in H as [(-> & H)|(D & H)]; [discriminate|eauto].
      * cbn [a_stored set_cur v_cur]. lia.
    + refine (waiting_same _ _ _ _ _ HS); [|reflexivity]. intros j k. apply waiting_at; [discriminate|].
      intros k' (ev' & H). congruence.
    + refine (waiting_same _ _ _ _ _ HS); [|reflexivity]. intros j k. apply waiting_at; [discriminate|].
      intros k' (ev' & H). congruence.
    + refine (waiting_same _ _ _ _ _ HS); [|reflexivity]. intros j k. apply waiting_at; [discriminate|].
      intros k' (ev' & H). congruence.
  - cbn [increments]. rewrite Z.add_0_r. cbn [astep].
    destruct (a_calls s i) as [[r ev|r v|ev]|] eqn:C; [exact HS|destruct r as [n|n|m]|exact HS|exact HS];
    (refine (waiting_same _ _ _ _ _ HS); [|reflexivity]; intros j k; apply waiting_at; [discriminate|];
      intros k' (ev' & H); congruence).
Qed.

Lemma increments_cons o l : increments (o :: l) = increments [o] + increments l.
Proof. destruct o as [i [n|n|m]|i|i]; cbn [increments]; lia. Qed.

Lemma sum_along s l t : aalong new_number s l -> Sum s t -> Sum (afinal s l) (t + increments l).
Proof.
  revert s t. induction l as [|o l IH]; intros s t HA HS; cbn [afinal].
  - cbn [increments]. rewrite Z.add_0_r. exact HS.
  - destruct HA as [H1 H2]. rewrite increments_cons, Z.add_assoc. apply IH; [assumption|]. apply sum_step; assumption.
Qed.

Lemma sum_settled s t : settled s -> Sum s t -> v_cur (a_stored s) = t.
Proof.
  intros Q (P & _ & HP & HT). destruct P as [|[i n] P]; [cbn [total_of] in HT; lia|].
  destruct (proj1 (HP i n) (or_introl eq_refl)) as (ev & H). rewrite Q in H. discriminate.
Qed.

(** ** Every new value is announced *)

Definition stage_ok (c : Z) (x : stage) : Prop :=
  match x with
  | SSent r ev => refused r = false /\ v_cur ev <= c
  | SReplied _ v => v <= c
  | SPublish ev => v_cur ev <= c
  end.
Definition Ann (s : asys) : Prop :=
  let c := v_cur (a_stored s) in
  0 <= c /\ v_cur (a_local s) <= c /\ (forall ev, In ev (a_events s) -> v_cur ev <= c) /\
  (forall i x, a_calls s i = Some x -> stage_ok c x) /\
  (c = 0 \/ (exists ev, In ev (a_events s) /\ v_cur ev = c) \/
   (exists i n, a_calls s i = Some (SReplied (Incr n) c)) \/ (exists i ev, a_calls s i = Some (SPublish ev) /\ v_cur ev = c)).

Lemma stage_ok_le c c' x : c <= c' -> stage_ok c x -> stage_ok c' x.
Proof. intros H. destruct x; cbn [stage_ok]; intuition lia. Qed.

Lemma ann_init : Ann init_asys.
Proof. unfold Ann. cbn. repeat split; try lia; try tauto; try discriminate. Qed.

Lemma ann_step s o : Ann s -> Ann (astep s o).
Proof.
  intros (H0 & HL & HE & HC & HX). destruct o as [i r|i|i]; cbn [astep].
  - destruct (a_calls s i) eqn:C; [repeat split; assumption|]. destruct (refused r) eqn:R; [repeat split; assumption|].
    unfold Ann. cbn [a_stored a_local a_events a_calls].
    split; [assumption|]. split; [assumption|]. split; [assumption|]. split.
    + intros j x H. apply at_some in H as [(-> & H)|(_ & H)]; [|eauto].
      injection H as <-. cbn [stage_ok]. split; [assumption|]. destruct r; cbn; lia.
    + destruct HX as [X|[X|[(j & n & X)|(j & ev & X & Y)]]]; [auto|auto| |].
      * right. right. left. exists j, n. rewrite at_other; [assumption|]. intros ->. congruence.
      * right. right. right. exists j, ev. rewrite at_other; [auto|]. intros ->. congruence.
  - destruct (a_calls s i) as [[r ev|r v|ev]|] eqn:C; [|repeat split; assumption| |repeat split; assumption].
    + pose proof (HC _ _ C) as [R P]. destruct r as [n|n|m]; cbn [refused] in R.
      * unfold Ann. cbn [a_stored a_local a_events a_calls set_cur v_cur].
        split; [lia|]. split; [lia|]. split; [intros e E; specialize (HE e E); lia|]. split.
        -- intros j x H. apply at_some in H as [(-> & H)|(_ & H)].
           ++ injection H as <-. cbn [stage_ok]. lia.
           ++ eapply stage_ok_le; [|eauto]. lia.
        -- right. right. left. exists i, n. apply at_same.
      * unfold Ann. cbn [a_stored a_local a_events a_calls set_tot v_cur].
        split; [assumption|]. split; [assumption|]. split; [|split].
        -- intros e E. apply in_app_or in E as [E|[<-|[]]]; [auto|assumption].
        -- intros j x H. apply at_some in H as [(-> & H)|(_ & H)]; [|eauto]. injection H as <-. cbn [stage_ok]. lia.
        -- destruct HX as [X|[(e & X & Y)|[(j & k & X)|(j & e & X & Y)]]].
           ++ auto.
           ++ right. left. exists e. split; [apply in_or_app; auto|assumption].
           ++ right. right. left. exists j, k. rewrite at_other; [assumption|]. intros ->. congruence.
           ++ right. right. right. exists j, e. rewrite at_other; [auto|]. intros ->. congruence.
      * unfold Ann. cbn [a_stored a_local a_events a_calls set_msg v_cur].
        split; [assumption|]. split; [assumption|]. split; [|split].
        -- intros e E. apply in_app_or in E as [E|[<-|[]]]; [auto|assumption].
        -- intros j x H. apply at_some in H as [(-> & H)|(_ & H)]; [|eauto]. injection H as <-. cbn [stage_ok]. lia.
        -- destruct HX as [X|[(e & X & Y)|[(j & k & X)|(j & e & X & Y)]]].
           ++ auto.
           ++ right. left. exists e. split; [apply in_or_app; auto|assumption].
           ++ right. right. left. exists j, k. rewrite at_other; [assumption|]. intros ->. congruence.
           ++ right. right. right. exists j, e. rewrite at_other; [auto|]. intros ->. congruence.
    + pose proof (HC _ _ C) as P. cbn [stage_ok] in P. unfold Ann. cbn [a_stored a_local a_events a_calls].
      split; [assumption|]. split; [assumption|]. split; [|split].
      * intros e E. apply in_app_or in E as [E|[<-|[]]]; [auto|assumption].
      * intros j x H. apply at_some in H as [(-> & H)|(_ & H)]; [discriminate|eauto].
      * destruct HX as [X|[(e & X & Y)|[(j & k & X)|(j & e & X & Y)]]].
        -- auto.
        -- right. left. exists e. split; [apply in_or_app; auto|assumption].
        -- right. right. left. exists j, k. rewrite at_other; [assumption|]. intros ->. congruence.
        -- destruct (Z.eq_dec j i) as [->|D].
           ++ right. left. exists e. split; [|assumption]. apply in_or_app. right. left. congruence.
           ++ right. right. right. exists j, e. rewrite at_other; auto.
  - destruct (a_calls s i) as [[r ev|r v|ev]|] eqn:C; [repeat split; assumption| |repeat split; assumption|repeat split; assumption].
    pose proof (HC _ _ C) as P. cbn [stage_ok] in P. destruct r as [n|n|m].
    + unfold Ann. cbn [a_stored a_local a_events a_calls set_cur v_cur].
      split; [assumption|]. split; [assumption|]. split; [assumption|]. split.
      * intros j x H. apply at_some in H as [(-> & H)|(_ & H)]; [|eauto]. injection H as <-. cbn [stage_ok v_cur]. assumption.
      * destruct HX as [X|[(e & X & Y)|[(j & k & X)|(j & e & X & Y)]]].
        -- auto.
        -- right. left. exists e. auto.
        -- destruct (Z.eq_dec j i) as [->|D].
           ++ right. right. right. exists i. eexists. split; [apply at_same|]. cbn [set_cur v_cur]. congruence.
           ++ right. right. left. exists j, k. rewrite at_other; assumption.
        -- right. right. right. exists j, e. rewrite at_other; [auto|]. intros ->. congruence.
    + unfold Ann. cbn [a_stored a_local a_events a_calls set_tot v_cur].
      split; [assumption|]. split; [assumption|]. split; [assumption|]. split.
      * intros j x H. apply at_some in H as [(-> & H)|(_ & H)]; [discriminate|eauto].
      * destruct HX as [X|[(e & X & Y)|[(j & k & X)|(j & e & X & Y)]]].
        -- auto.
        -- right. left. exists e. auto.
        -- right. right. left. exists j, k. rewrite at_other; [assumption|]. intros ->. congruence.
        -- right. right. right. exists j, e. rewrite at_other; [auto|]. intros ->. congruence.
    + unfold Ann. cbn [a_stored a_local a_events a_calls set_msg v_cur].
      split; [assumption|]. split; [assumption|]. split; [assumption|]. split.
      * intros j x H. apply at_some in H as [(-> & H)|(_ & H)]; [discriminate|eauto].
      * destruct HX as [X|[(e & X & Y)|[(j & k & X)|(j & e & X & Y)]]].
        -- auto.
        -- right. left. exists e. auto.
        -- right. right. left. exists j, k. rewrite at_other; [assumption|]. intros ->. congruence.
        -- right. right. right. exists j, e. rewrite at_other; [auto|]. intros ->. congruence.
Qed.

Lemma ann_final l s : Ann s -> Ann (afinal s l).
Proof. revert s. induction l as [|o l IH]; intros s H; cbn [afinal]; [assumption|]. apply IH, ann_step, H. Qed.

(** ** One call at a time *)

Definition only (s : asys) (i : Z) (x : stage) : Prop := a_calls s i = Some x /\ forall j, j <> i -> a_calls s j = None.
Definition Seq (s : asys) : Prop :=
  (settled s /\ a_local s = a_stored s /\ believed s = a_stored s) \/
  exists i x, only s i x /\
    match x with
    | SSent r ev => a_local s = a_stored s /\ ev = prepared r (a_local s)
    | SReplied (Incr n) v => a_stored s = set_cur (a_local s) v
    | SReplied (Total n) _ => a_stored s = set_tot (a_local s) n /\ believed s = a_stored s
    | SReplied (Message m) _ => a_stored s = set_msg (a_local s) m /\ believed s = a_stored s
    | SPublish ev => ev = a_stored s /\ a_local s = a_stored s
    end.

Lemma only_at s st l ev i x y : only s i x -> only (mkA st l (at_stage (a_calls s) i (Some y)) ev) i y.
Proof. intros [_ H]. split; cbn [a_calls]; [apply at_same|]. intros j D. rewrite at_other; auto. Qed.
Lemma only_end s st l ev i x : only s i x -> settled (mkA st l (at_stage (a_calls s) i None) ev).
Proof. intros [_ H] j. cbn [a_calls]. destruct (Z.eq_dec j i) as [->|D]; [apply at_same|rewrite at_other; auto]. Qed.

Lemma believed_app st l f es ev : believed (mkA st l f (es ++ [ev])) = ev.
Proof. unfold believed. cbn [a_events]. apply last_last. Qed.

Lemma seq_step s o : one_by_one s o -> Seq s -> Seq (astep s o).
Proof.
  intros HO [(Q & L & B)|(i0 & x & [C N] & HX)].
  - destruct o as [i r|i|i]; cbn [astep]; rewrite (Q i); [|left; auto|left; auto].
    destruct (refused r); [left; auto|]. right. exists i. eexists. split; [split; cbn [a_calls]; [apply at_same|]|].
    + intros j D. rewrite at_other by assumption. apply Q.
    + cbn [a_local a_stored]. auto.
  - assert (other : forall i, i <> i0 -> a_calls s i = None) by exact N.
    destruct o as [i r|i|i].
    + cbn [one_by_one] in HO. rewrite (HO i0) in C. discriminate.
    + cbn [astep]. destruct (Z.eq_dec i i0) as [->|D].
      * rewrite C. destruct x as [[n|n|m] ev|r v|ev].
        -- destruct HX as [L _]. right. exists i0. eexists. split; [eapply only_at; split; eassumption|].
           cbn [a_stored a_local]. rewrite L. reflexivity.
        -- destruct HX as [L ->]. right. exists i0. eexists. split; [eapply only_at; split; eassumption|].
           cbn [a_stored a_local]. rewrite believed_app, L. split; reflexivity.
        -- destruct HX as [L ->]. right. exists i0. eexists. split; [eapply only_at; split; eassumption|].
           cbn [a_stored a_local]. rewrite believed_app, L. split; reflexivity.
        -- right. exists i0. eexists. split; [split; eassumption|]. exact HX.
        -- destruct HX as [-> L]. left. split; [eapply only_end; split; eassumption|].
           rewrite believed_app. cbn [a_stored a_local]. auto.
      * rewrite (other i D). right. exists i0, x. split; [split; assumption|assumption].
    + cbn [astep]. destruct (Z.eq_dec i i0) as [->|D].
      * rewrite C. destruct x as [r ev|[n|n|m] v|ev].
        -- right. exists i0. eexists. split; [split; eassumption|]. exact HX.
        -- right. exists i0. eexists. split; [eapply only_at; split; eassumption|].
           cbn [a_stored a_local]. rewrite HX. split; reflexivity.
        -- destruct HX as [E B]. left. split; [eapply only_end; split; eassumption|].
           unfold believed in *. cbn [a_stored a_local a_events]. split; congruence.
        -- destruct HX as [E B]. left. split; [eapply only_end; split; eassumption|].
           unfold believed in *. cbn [a_stored a_local a_events]. split; congruence.
        -- right. exists i0. eexists. split; [split; eassumption|]. exact HX.
      * rewrite (other i D). right. exists i0, x. split; [split; assumption|assumption].
Qed.

Lemma seq_along s l : aalong one_by_one s l -> Seq s -> Seq (afinal s l).
Proof.
  revert s. induction l as [|o l IH]; intros s HA HS; cbn [afinal]; [assumption|].
  destruct HA as [H1 H2]. apply IH; [assumption|]. apply seq_step; assumption.
Qed.

Lemma seq_settled s : settled s -> Seq s -> a_local s = a_stored s /\ believed s = a_stored s.
Proof. intros Q [(_ & L & B)|(i & x & [C _] & _)]; [auto|]. rewrite Q in C. discriminate. Qed.

(** ** Calls made from beginning to end *)

Definition whole (i : Z) (r : rep) : list aop :=
  match r with Incr _ => [ABegin i r; AServer i; AReply i; AServer i] | _ => [ABegin i r; AServer i; AReply i] end.

Lemma lone_incr s i n : settled s -> 1 <= n ->
  let s' := afinal s (whole i (Incr n)) in
  settled s' /\ believed s' = set_cur (a_local s) (v_cur (a_stored s) + n) /\ a_stored s' = set_cur (a_stored s) (v_cur (a_stored s) + n).
Proof.
  intros Q Hn. cbn [whole afinal]. cbv zeta.
  cbn [astep]. rewrite (Q i). cbn [refused]. destruct (Z.ltb_spec n 1); [lia|].
  cbn [a_calls a_stored a_local a_events]. rewrite at_same. cbn [a_calls a_stored a_local a_events]. rewrite at_same.
  cbn [a_calls a_stored a_local a_events]. rewrite at_same. split; [|split].
  - intros j. cbn [a_calls]. destruct (Z.eq_dec j i) as [->|D]; [apply at_same|]. rewrite !at_other by assumption. apply Q.
  - rewrite believed_app. reflexivity.
  - reflexivity.
Qed.

Definition number (o : aop) : Z := match o with ABegin i _ | AServer i | AReply i => i end.
Lemma untouched l s j : ~ In j (map number l) -> a_calls s j = None -> a_calls (afinal s l) j = None.
Proof.
  revert s. induction l as [|o l IH]; intros s N H; cbn [afinal]; [assumption|]. cbn [map In] in N.
  apply IH; [tauto|]. assert (D : j <> number o) by (intros ->; tauto). clear N IH.
  destruct o as [i r|i|i]; cbn [number] in D; cbn [astep];
  destruct (a_calls s i) as [[[n|n|m] ev|[n|n|m] v|ev]|]; try assumption;
  try (destruct (refused r); [assumption|]); cbn [a_calls]; rewrite ?at_other by assumption; assumption.
Qed.

Lemma settled_by l : forallb (fun j => match a_calls (afinal init_asys l) j with None => true | _ => false end) (map number l) = true ->
  settled (afinal init_asys l).
Proof.
  intros H j. destruct (in_dec Z.eq_dec j (map number l)) as [I|N].
  - rewrite forallb_forall in H. specialize (H j I). destruct (a_calls (afinal init_asys l) j); [discriminate|reflexivity].
  - apply untouched; [assumption|reflexivity].
Qed.

Lemma aalong_app P l1 l2 s : aalong P s l1 -> aalong P (afinal s l1) l2 -> aalong P s (l1 ++ l2).
Proof. revert s. induction l1 as [|x l1 IH]; intros s; cbn [app aalong afinal]; [tauto|]. intros [H1 H2] H3. auto. Qed.

Lemma whole_one_by_one i r s : settled s -> aalong one_by_one s (whole i r).
Proof. intros Q. destruct r; cbn [whole aalong one_by_one]; auto 6. Qed.

Lemma afinal_app l1 l2 s : afinal s (l1 ++ l2) = afinal (afinal s l1) l2.
Proof. revert s. induction l1 as [|x l1 IH]; intros s; cbn [app afinal]; auto. Qed.
