(** What single operations do, from every reachable state. *)
From Verif Require Import Base ZSet Model GInv KView KSim Spec KInv KLine Hist.

(** ** Frame *)

Lemma same_for_kabs k s s' : GInv s -> GInv s' ->
  k_runs (kabs k s') = k_runs (kabs k s) -> k_prog (kabs k s') = k_prog (kabs k s) ->
  k_stream (kabs k s') = k_stream (kabs k s) -> k_parked (kabs k s') = k_parked (kabs k s) ->
  k_score (kabs k s') = k_score (kabs k s) -> k_wait (kabs k s') = k_wait (kabs k s) ->
  k_execs (kabs k s') = k_execs (kabs k s) -> same_for k s s'.
Proof.
  intros G G' E1 E2 E3 E4 E5 E6 E7. split; [exact E1|]. split; [exact E2|]. split; [|split; [exact E5|]].
  - intros p m Hm. destruct p; simpl.
    + pose proof (kstream_In k s i m) as H1. pose proof (kstream_In k s' i m) as H2. rewrite E3 in H2. tauto.
    + rewrite Hm. simpl in E4. now rewrite E4.
    + pose proof (kwait_In k s cc i m) as H1. pose proof (kwait_In k s' cc i m) as H2. rewrite E6 in H2. tauto.
  - intros x Hx. pose proof (kexecs_In k s x) as H1. pose proof (kexecs_In k s' x) as H2. rewrite E7 in H2. tauto.
Qed.

Theorem frame c s o k k' : GInv s -> op_key s o = Some k -> k' <> k -> same_for k' s (fst (step c s o)).
Proof.
  intros G E N. destruct (sim_step c k' s o G) as (es & Hp & L & Hs).
  assert (So : single o = true) by (destruct o; try reflexivity; discriminate E).
  assert (X : kabs k' (fst (step c s o)) = kabs k' s \/ exists n l, kabs k' (fst (step c s o)) = kset_last (kset_next (kabs k' s) n) l).
  { destruct (Hs So) as [->|[e ->]]; [left; now apply kpath_nil_inv in Hp|].
    apply kpath_one_inv in Hp as [Hok ->]. inversion L as [|? ? L1 _]; subst. clear L Hs.
    assert (IE : forall x, In x (k_execs (kabs k' s)) -> get_exec (s_execs s) (x_id x) = Some x /\ m_key (x_msg x) = k').
    { intros x Hx. apply kexecs_In in Hx as [H1 H2]. split; [apply get_exec_In; [apply G|exact H1]|exact H2]. }
    destruct e; simpl in L1; try (right; do 2 eexists; reflexivity); exfalso.
    all: try (subst o; discriminate E).
    all: try (destruct L1 as [t ->]; discriminate E).
    - destruct o; try contradiction; try discriminate E. simpl in E. congruence.
    - destruct o; try contradiction; try discriminate E. simpl in E. congruence.
    - destruct L1 as (t & -> & _). simpl in Hok. destruct repl; simpl in E; congruence.
    - subst o. simpl in E. congruence.
    - destruct (x_redel x); subst o; discriminate E.
    - subst o. destruct Hok as [Hin _]. apply IE in Hin as [H1 H2]. simpl in E. rewrite H1 in E. simpl in E. congruence.
    - destruct Hok as [Hin _]. apply IE in Hin as [H1 H2]. destruct L1 as [[-> _]|[[-> _]|(t & -> & _)]]; simpl in E; try rewrite H1 in E; simpl in E; congruence.
    - simpl in Hok. apply IE in Hok as [H1 H2]. destruct o0 as [[cc mx]|]; destruct L1 as [t ->]; simpl in E; try rewrite H1 in E; simpl in E; congruence.
    - subst o. destruct Hok as [Hin _]. apply IE in Hin as [H1 H2]. simpl in E. rewrite H1 in E. simpl in E. congruence.
    - subst o. destruct Hok as [Hin _]. apply IE in Hin as [H1 H2]. simpl in E. rewrite H1 in E. simpl in E. congruence.
    - destruct L1 as (t & -> & _). destruct Hok as [Hin _]. apply IE in Hin as [H1 H2]. simpl in E. rewrite H1 in E. simpl in E. congruence.
    - destruct L1 as (mx & t & ->). destruct Hok as [Hin _]. apply IE in Hin as [H1 H2]. simpl in E. rewrite H1 in E. simpl in E. congruence.
    - destruct L1 as [(h & t & ->)|(mx & t & ->)]; discriminate E.
    - subst o. simpl in E. congruence.
    - destruct o; try contradiction; discriminate E. }
  apply same_for_kabs; auto; try (now apply GInv_step); destruct X as [->|(n & l & ->)]; reflexivity.
Qed.

(** ** What add and replace report is the truth (C02) *)

Lemma stored_at_place s d k w imm m p m' : m_key m = k -> m_when m = w ->
  let g := default 0 (r_gen (rget d k)) + 1 in
  let s' := set_db s (publish (place d k w imm false m) k (if imm then SQueued else SScheduled)) in
  stored_at s' p m' <->
    (p = (if imm then AtStream (d_next d) else AtFuture) /\ m' = with_gen m g) \/
    (stored_at (set_db s d) p m' /\ (imm = false -> p = AtFuture -> m_key m' <> k)).
Proof.
  intros Ek Ew g s'. unfold s'. clear s'. unfold place, hincr_gen. cbv zeta.
  destruct imm; [unfold xadd|]; destruct p; cbn.
  - unfold on_stream; cbn. rewrite in_app_iff; cbn. fold g.
    split; [intros [H|[H|[]]]; [right; split; [exact H|discriminate]|injection H as <- <-; auto]|intros [[H ->]|[H _]]; [injection H as ->|]; auto].
  - split; [intros H; right; split; [exact H|discriminate]|intros [[H _]|[H _]]; [discriminate H|exact H]].
  - split; [intros H; right; split; [exact H|discriminate]|intros [[H _]|[H _]]; [discriminate H|exact H]].
  - unfold on_stream; cbn. split; [intros H; right; split; [exact H|discriminate]|intros [[H _]|[H _]]; [discriminate H|exact H]].
  - unfold upd. destruct (String.eqb_spec (m_key m') k) as [E|E].
    + split; [intros H; injection H as <-; auto|intros [[_ ->]|[_ H]]; [reflexivity|now destruct (H eq_refl eq_refl)]].
    + split; [auto|intros [[_ ->]|[H _]]; [now rewrite <- Ek in E|exact H]].
  - split; [intros H; right; split; [exact H|discriminate]|intros [[H _]|[H _]]; [discriminate H|exact H]].
Qed.

Lemma place_facts d k w imm m : m_key m = k ->
  let d' := place d k w imm false m in
  (exists r, d_runs d' k = Some r /\ r_state r = Some (if imm then SQueued else SScheduled) /\ r_when r = Some w /\
     r_known r = Some w /\ r_fn r = Some (m_fn m) /\ r_args r = Some (m_args m) /\ r_kwargs r = Some (m_kwargs m) /\
     r_gen r = Some (default 0 (r_gen (rget d k)) + 1)) /\
  (forall k', k' <> k -> d_runs d' k' = d_runs d k') /\
  (forall k', zscore k' (d_queue d') = if imm then zscore k' (d_queue d) else if String.eqb k k' then Some w else zscore k' (d_queue d)) /\
  d_pubs d' = d_pubs d /\ d_pel d' = d_pel d /\ d_prog d' = d_prog d.
Proof.
  intros Ek d'. unfold d'. clear d'. unfold place, hincr_gen. cbv zeta.
  destruct imm; [unfold xadd|]; cbn; (split; [rewrite upd_eq; eexists; split; [reflexivity|]; cbn; repeat split; unfold rget; cbn; now rewrite upd_eq|]);
    (split; [intros k' N; now rewrite !upd_neq|]); (split; [intros k'; try apply zscore_zadd; reflexivity|auto]).
Qed.

(** The stored data after an accepted add: nothing but the new message and the
    record of its key. *)
Theorem add_truth c s a t s' r : step c s (OAdd a t) = (s', ODisp r) ->
  match r with
  | DScheduled =>
      exists m, first_attempt a m /\ record_shows s' a (placed_state a t) /\ live s' m /\
        (forall p m', stored_at s' p m' <->
           (p = placed_at s a t /\ m' = m) \/
           (stored_at s p m' /\ ~ (p = AtFuture /\ p = placed_at s a t /\ m_key m' = a_key a))) /\
        (forall k, zscore k (d_queue (s_db s')) =
           if String.eqb (a_key a) k then (if a_when a <=? t then zscore k (d_queue (s_db s)) else Some (a_when a))
           else zscore k (d_queue (s_db s))) /\
        d_pubs (s_db s') = d_pubs (s_db s) ++ [(a_key a, placed_state a t)] /\
        s_execs s' = s_execs s /\ d_pel (s_db s') = d_pel (s_db s)
  | _ => s' = s
  end.
Proof.
  cbn [step]. unfold do_schedule, lua_schedule. cbn [negb andb]. destruct (lua_exists (s_db s) (a_key a)).
  - cbn. intros H. injection H as <- <-. destruct s; reflexivity.
  - intros H. injection H as <- <-.
    exists (with_gen (call_msg a) (default 0 (r_gen (rget (s_db s) (a_key a))) + 1)).
    pose proof (place_facts (s_db s) (a_key a) (a_when a) (a_when a <=? t) (call_msg a) eq_refl) as ((r & F1 & F2 & F3 & F4 & F5 & F6 & F7 & F8) & _ & FQ & FP & FL & _).
    split; [repeat split|]. split; [exists r; unfold placed_state; auto 10|].
    split; [|split; [|split; [|split; [|auto]]]].
    + unfold live, superseded. change (s_db (set_db s ?d)) with d. unfold rget. change (d_runs (publish ?d _ _) ?k) with (d_runs d k).
      cbn [m_key with_gen call_msg m_gen]. rewrite F1. cbn [default]. rewrite F8. rewrite Z.ltb_irrefl. apply andb_false_r.
    + intros p m'.
      pose proof (stored_at_place s (s_db s) (a_key a) (a_when a) (a_when a <=? t) (call_msg a) p m' eq_refl eq_refl) as H. cbn zeta in H.
      rewrite H. change (set_db s (s_db s)) with (mkSys (s_db s) (s_execs s) (s_nextx s) (s_clear s)).
      replace (mkSys (s_db s) (s_execs s) (s_nextx s) (s_clear s)) with s by (destruct s; reflexivity).
      unfold placed_at. destruct (a_when a <=? t); split; (intros [X|[X Y]]; [left; exact X|right; split; [exact X|]]).
      * intros (-> & E & _). discriminate E.
      * discriminate.
      * intros (-> & _ & E). exact (Y eq_refl eq_refl E).
      * intros _ -> E. apply Y. auto.
    + intros k. change (d_queue (s_db (set_db s ?d))) with (d_queue d). change (d_queue (publish ?d _ _)) with (d_queue d). rewrite FQ.
      destruct (String.eqb_spec (a_key a) k); destruct (a_when a <=? t); reflexivity.
    + change (d_pubs (s_db (set_db s ?d))) with (d_pubs d). unfold publish. cbn [d_pubs set_pubs]. rewrite FP.
      unfold placed_state. reflexivity.
Qed.

Lemma replace_existing_facts d k : DInv d ->
  (forall i m, In (i, m) (d_stream (lua_replace_existing d k)) <-> In (i, m) (d_stream d) /\ r_sid (rget d k) <> Some i) /\
  d_runs (lua_replace_existing d k) = d_runs d /\
  (forall k', d_parked (lua_replace_existing d k) k' = if String.eqb k' k then None else d_parked d k') /\
  (forall k', zscore k' (d_queue (lua_replace_existing d k)) = if String.eqb k k' then None else zscore k' (d_queue d)) /\
  d_wait (lua_replace_existing d k) = d_wait d /\ d_pubs (lua_replace_existing d k) = d_pubs d /\
  d_next (lua_replace_existing d k) = d_next d /\ d_pel (lua_replace_existing d k) = d_pel d.
Proof.
  intros D. unfold lua_replace_existing. rewrite existing_sid; auto.
  destruct (r_sid (rget d k)) as [j|]; cbn; (split; [|repeat split; auto; intros; apply zscore_zrem]).
  - intros i m. rewrite del_entry_In. cbn. unfold sid in *. split; intros [H1 H2]; split; auto; congruence.
  - intros i m. split; [intros; split; [auto|discriminate]|tauto].
Qed.

Theorem replace_truth c s a t : GInv s ->
  exists s', step c s (OReplace a t) = (s', ODisp DScheduled) /\
  exists m, first_attempt a m /\ record_shows s' a (placed_state a t) /\ live s' m /\
    (forall p m', stored_at s' p m' <->
       (p = placed_at s a t /\ m' = m) \/ (stored_at s p m' /\ ~ held_by_schedule s (a_key a) p m')) /\
    (forall p m', stored_at s p m' -> held_by_schedule s (a_key a) p m' -> m_key m' = a_key a) /\
    (forall k, zscore k (d_queue (s_db s')) =
       if String.eqb (a_key a) k then (if a_when a <=? t then None else Some (a_when a)) else zscore k (d_queue (s_db s))) /\
    d_pubs (s_db s') = d_pubs (s_db s) ++ [(a_key a, placed_state a t)] /\
    s_execs s' = s_execs s /\ d_pel (s_db s') = d_pel (s_db s).
Proof.
  intros [D X]. cbn [step]. unfold do_schedule, lua_schedule. cbn [negb andb]. eexists. split; [reflexivity|].
  set (d1 := lua_replace_existing (s_db s) (a_key a)).
  pose proof (replace_existing_facts (s_db s) (a_key a) D) as (R1 & R2 & R3 & R4 & R5 & R6 & R7 & R8). fold d1 in R1, R2, R3, R4, R5, R6, R7, R8.
  clearbody d1.
  pose proof (place_facts d1 (a_key a) (a_when a) (a_when a <=? t) (call_msg a) eq_refl) as ((r & F1 & F2 & F3 & F4 & F5 & F6 & F7 & F8) & _ & FQ & FP & FL & _).
  exists (with_gen (call_msg a) (default 0 (r_gen (rget d1 (a_key a))) + 1)).
  split; [repeat split|]. split; [exists r; unfold placed_state; auto 10|].
  split; [|split; [|split; [|split; [|split; [|split; [reflexivity|]]]]]].
  - unfold live, superseded. change (s_db (set_db s ?d)) with d. unfold rget. change (d_runs (publish ?d _ _) ?k) with (d_runs d k).
    cbn [m_key with_gen call_msg m_gen]. rewrite F1. cbn [default]. rewrite F8. rewrite Z.ltb_irrefl. apply andb_false_r.
  - intros p m'.
    pose proof (stored_at_place s d1 (a_key a) (a_when a) (a_when a <=? t) (call_msg a) p m' eq_refl eq_refl) as H. cbn zeta in H.
    rewrite H. unfold placed_at. rewrite R7. clear H.
    assert (Q : stored_at (set_db s d1) p m' <-> stored_at s p m' /\ ~ held_by_schedule s (a_key a) p m').
    { destruct p; cbn.
      - exact (R1 i m').
      - rewrite R3. destruct (String.eqb_spec (m_key m') (a_key a)); split; intros; try tauto. discriminate.
      - rewrite R5. tauto. }
    split; (intros [Y|Y]; [left; exact Y|right]).
    + apply Q. tauto.
    + split; [apply Q; exact Y|]. intros _ -> E. destruct Y as [_ Y]. apply Y. exact E.
  - intros p m' H1 H2. destruct p; cbn in *; [|exact H2|contradiction].
    eapply (di_sid _ D); [exact H2|exact H1].
  - intros k. change (d_queue (s_db (set_db s ?d))) with (d_queue d). change (d_queue (publish ?d _ _)) with (d_queue d). rewrite FQ, R4.
    destruct (String.eqb_spec (a_key a) k); destruct (a_when a <=? t); reflexivity.
  - change (d_pubs (s_db (set_db s ?d))) with (d_pubs d). unfold publish. cbn [d_pubs set_pubs]. rewrite FP, R6. reflexivity.
  - change (d_pel (s_db (set_db s ?d))) with (d_pel d). unfold publish. cbn [d_pel set_pubs]. now rewrite FL, R8.
Qed.

(** ** The scheduler pass (C08) *)

Definition payloads (d : db) (ks : list key) : list msg :=
  flat_map (fun k => match d_parked d k with Some m => [m] | None => [] end) ks.

Lemma payloads_ext d d' ks : (forall k, In k ks -> d_parked d k = d_parked d' k) -> payloads d ks = payloads d' ks.
Proof.
  induction ks as [|k ks IH]; simpl; intros H; [reflexivity|]. rewrite (H k (or_introl eq_refl)). f_equal. apply IH. auto.
Qed.

Lemma numbered_app n a b : numbered n (a ++ b) = numbered n a ++ numbered (n + Z.of_nat (length a)) b.
Proof.
  revert n. induction a as [|m a IH]; intros n; [simpl; f_equal; unfold sid in *; lia|].
  cbn [numbered app length]. rewrite IH. do 3 f_equal. unfold sid in *. lia.
Qed.

Record moved (ks : list key) (d d' : db) : Prop := mkMoved {
  mv_stream : d_stream d' = d_stream d ++ numbered (d_next d) (payloads d ks);
  mv_next : d_next d' = d_next d + Z.of_nat (length (payloads d ks));
  mv_parked : forall k, d_parked d' k = if existsb (String.eqb k) ks then None else d_parked d k;
  mv_runs : forall k, d_runs d' k =
     if existsb (String.eqb k) ks && is_some (d_parked d k) then Some (rset_state SQueued (rget d k)) else d_runs d k;
  mv_pubs : d_pubs d' = d_pubs d ++ map (fun m => (m_key m, SQueued)) (payloads d ks);
  mv_same : d_queue d' = d_queue d /\ d_wait d' = d_wait d /\ d_prog d' = d_prog d /\ d_pel d' = d_pel d /\
            d_last d' = d_last d /\ d_slots d' = d_slots d /\ d_slotexp d' = d_slotexp d /\ d_now d' = d_now d }.

Lemma stream_ones_moved ks : forall d, NoDup ks -> (forall k m, d_parked d k = Some m -> m_key m = k) ->
  moved ks d (fold_left stream_one ks d).
Proof.
  induction ks as [|k ks IH]; intros d N P.
  - simpl. constructor; simpl; try rewrite app_nil_r; auto. lia. auto 10.
  - inversion N as [|? ? N1 N2]; subst. simpl.
    assert (X : forall k', existsb (String.eqb k') ks = true <-> In k' ks).
    { intros k'. rewrite existsb_exists. split; [intros (y & H1 & H2); apply String.eqb_eq in H2; now subst|].
      intros H; exists k'; split; [exact H|apply String.eqb_refl]. }
    destruct (d_parked d k) as [m|] eqn:Em.
    + assert (Ek : m_key m = k) by eauto.
      set (d1 := stream_one d k).
      assert (S1 : d_stream d1 = d_stream d ++ [(d_next d, m)]) by (unfold d1, stream_one; now rewrite Em).
      assert (S2 : d_next d1 = d_next d + 1) by (unfold d1, stream_one; now rewrite Em).
      assert (S3 : forall k', d_parked d1 k' = if String.eqb k' k then None else d_parked d k')
        by (intros; unfold d1, stream_one; now rewrite Em).
      assert (S4 : forall k', d_runs d1 k' = if String.eqb k' k then Some (rset_state SQueued (rget d k)) else d_runs d k')
        by (intros; unfold d1, stream_one; rewrite Em, Ek; reflexivity).
      assert (S5 : d_pubs d1 = d_pubs d ++ [(k, SQueued)]) by (unfold d1, stream_one; now rewrite Em, Ek).
      assert (S6 : d_queue d1 = d_queue d /\ d_wait d1 = d_wait d /\ d_prog d1 = d_prog d /\ d_pel d1 = d_pel d /\
        d_last d1 = d_last d /\ d_slots d1 = d_slots d /\ d_slotexp d1 = d_slotexp d /\ d_now d1 = d_now d)
        by (unfold d1, stream_one; rewrite Em; auto 10).
      clearbody d1.
      assert (PE : payloads d1 ks = payloads d ks).
      { apply payloads_ext. intros k' H. rewrite S3. destruct (String.eqb_spec k' k); [subst; contradiction|reflexivity]. }
      assert (PP : payloads d (k :: ks) = m :: payloads d ks) by (simpl; now rewrite Em).
      destruct (IH d1) as [M1 M2 M3 M4 M5 M6]; auto.
      { intros k' m' H. rewrite S3 in H. destruct (String.eqb_spec k' k); [discriminate|eauto]. }
      rewrite PE in *. constructor.
      * rewrite M1, S1, S2, PP. simpl. now rewrite <- app_assoc.
      * rewrite M2, S2, PP. cbn [length]. lia.
      * intros k'. rewrite M3, S3. simpl. destruct (String.eqb_spec k' k); simpl; [now destruct (existsb _ _)|reflexivity].
      * intros k'. rewrite M4, S3, S4. simpl. unfold rget. rewrite S4.
        destruct (String.eqb_spec k' k) as [->|]; simpl; [|reflexivity].
        rewrite andb_false_r, Em. reflexivity.
      * rewrite M5, S5, PP. simpl. rewrite Ek. now rewrite <- app_assoc.
      * destruct M6 as (A1 & A2 & A3 & A4 & A5 & A6 & A7 & A8). destruct S6 as (B1 & B2 & B3 & B4 & B5 & B6 & B7 & B8).
        repeat split; congruence.
    + assert (E : stream_one d k = d) by (unfold stream_one; now rewrite Em). rewrite E.
      assert (PP : payloads d (k :: ks) = payloads d ks) by (simpl; now rewrite Em).
      destruct (IH d) as [M1 M2 M3 M4 M5 M6]; auto. constructor; rewrite ?PP; auto.
      * intros k'. rewrite M3. simpl. destruct (String.eqb_spec k' k); simpl; [subst; rewrite Em; now destruct (existsb _ _)|reflexivity].
      * intros k'. rewrite M4. simpl. destruct (String.eqb_spec k' k); simpl; [subst; rewrite Em, andb_false_r; reflexivity|reflexivity].
Qed.

Lemma payloads_length d ks : length (payloads d ks) = length (filter (fun k => is_some (d_parked d k)) ks).
Proof. induction ks as [|k ks IH]; simpl; [reflexivity|]. rewrite app_length, IH. destruct (d_parked d k); reflexivity. Qed.

Lemma payloads_In d ks m : (forall k m, d_parked d k = Some m -> m_key m = k) ->
  In m (payloads d ks) <-> In (m_key m) ks /\ d_parked d (m_key m) = Some m.
Proof.
  intros P. unfold payloads. rewrite in_flat_map. split.
  - intros (k & H1 & H2). destruct (d_parked d k) as [m'|] eqn:E; simpl in H2; [|contradiction].
    destruct H2 as [<-|[]]. apply P in E as E'. rewrite E'. auto.
  - intros [H1 H2]. exists (m_key m). rewrite H2. simpl; auto.
Qed.

Lemma payloads_nodup d ks : (forall k m, d_parked d k = Some m -> m_key m = k) -> NoDup ks -> NoDup (map m_key (payloads d ks)).
Proof.
  intros P. induction ks as [|k ks IH]; intros N; [constructor|]. inversion N; subst. simpl. rewrite map_app.
  destruct (d_parked d k) as [m|] eqn:E; simpl; [|auto]. constructor; [|auto].
  rewrite (P _ _ E). intros H. apply in_map_iff in H as (m' & H3 & H4). apply payloads_In in H4 as [H4 _]; auto. congruence.
Qed.

Lemma due_map_nodup t z : znodup z -> NoDup (map snd (zrangebyscore 0 t z)).
Proof. apply zrangebyscore_nodup. Qed.

Lemma payloads_order d z t : zsorted z -> (forall k m w, d_parked d k = Some m -> In (w, k) z -> m_when m = w) ->
  (forall k m, d_parked d k = Some m -> m_key m = k) ->
  in_time_order (payloads d (map snd (zrangebyscore 0 t z))).
Proof.
  intros S W P. induction z as [|[w k] z IH]; simpl; [exact I|].
  destruct S as [S' S].
  assert (IH' : in_time_order (payloads d (map snd (zrangebyscore 0 t z)))) by (apply IH; auto; intros; eapply W; eauto; right; auto).
  unfold zrangebyscore in *. simpl. destruct (zwithin 0 t (w, k)); simpl; [|exact IH'].
  destruct (d_parked d k) as [m|] eqn:E; simpl; [|exact IH']. split; [|exact IH'].
  intros m' H. apply payloads_In in H as [H1 H2]; auto. apply in_map_iff in H1 as ([w' k'] & H3 & H4). simpl in H3. subst k'.
  apply filter_In in H4 as [H4 _].
  rewrite (W _ _ _ E (or_introl eq_refl)). rewrite (W _ _ _ H2 (or_intror H4)).
  exact (S' _ H4).
Qed.

Lemma scheduler_moves_due_inv c s t : GInv s -> (forall k, UInv k (kabs k s)) ->
  let s' := fst (step c s (OScheduler t)) in
  exists ms,
    snd (step c s (OScheduler t)) = OMoved (zcard (d_queue (s_db s))) (Z.of_nat (length ms)) /\
    d_stream (s_db s') = d_stream (s_db s) ++ numbered (d_next (s_db s)) ms /\
    NoDup (map m_key ms) /\ in_time_order ms /\
    (forall m, In m ms <-> in_future s m /\ 0 <= m_when m <= t) /\
    (forall m, in_future s' m <-> in_future s m /\ ~ 0 <= m_when m <= t) /\
    (forall k, d_runs (s_db s') k =
       if existsb (fun m => String.eqb (m_key m) k) ms then Some (rset_state SQueued (rget (s_db s) k)) else d_runs (s_db s) k) /\
    (forall k, (forall w, zscore k (d_queue (s_db s)) = Some w -> ~ 0 <= w <= t) ->
       zscore k (d_queue (s_db s')) = zscore k (d_queue (s_db s)) /\ d_parked (s_db s') k = d_parked (s_db s) k) /\
    d_wait (s_db s') = d_wait (s_db s) /\ d_prog (s_db s') = d_prog (s_db s) /\ s_execs s' = s_execs s /\
    d_pubs (s_db s') = d_pubs (s_db s) ++ map (fun m => (m_key m, SQueued)) ms.
Proof.
  intros [D X] UI.
  assert (P := di_parked _ D).
  assert (W : forall k m w, d_parked (s_db s) k = Some m -> In (w, k) (d_queue (s_db s)) -> m_when m = w).
  { intros k m w H1 H2. apply (ui_score k (kabs k s) (UI k)); [exact H1|].
    simpl. apply zscore_In; [apply D|exact H2]. }
  cbn [step]. unfold lua_stream_due. cbv zeta.
  set (d := s_db s) in *. set (due := map snd (zrangebyscore 0 t (d_queue d))).
  pose proof (stream_ones_moved due d (due_map_nodup t _ (di_queue _ D)) P) as [M1 M2 M3 M4 M5 (M6 & M7 & M8 & M9 & _)].
  set (d' := fold_left stream_one due d) in *.
  assert (Hdue : forall k, In k due <-> exists w, zscore k (d_queue d) = Some w /\ 0 <= w <= t).
  { intros k. unfold due. rewrite in_map_iff. split.
    - intros ([w k'] & <- & H). apply zrangebyscore_In in H as [H1 H2]. exists w. split; [apply zscore_In; [apply D|exact H1]|exact H2].
    - intros (w & H1 & H2). exists (w, k). split; [reflexivity|]. apply zrangebyscore_In. split; [now apply zscore_Some_In|exact H2]. }
  assert (Xb : forall k, existsb (String.eqb k) due = true <-> In k due).
  { intros k. rewrite existsb_exists. split; [intros (y & H1 & H2); apply String.eqb_eq in H2; now subst|].
    intros H; exists k; split; [exact H|apply String.eqb_refl]. }
  assert (Hms : forall m, In m (payloads d due) <-> in_future s m /\ 0 <= m_when m <= t).
  { intros m. rewrite payloads_In; [|exact P]. rewrite Hdue. unfold in_future. fold d. split.
    - intros ((w & H1 & H2) & H3). pose proof (W _ _ _ H3 (zscore_Some_In _ _ _ H1)) as E. subst w. auto.
    - intros ((H1 & H2) & H3). split; [|exact H1]. exists (m_when m). auto. }
  set (n := Z.of_nat (length (filter (fun k => is_some (d_parked d k)) due))).
  assert (Hn : n = Z.of_nat (length (payloads d due))) by (unfold n; now rewrite payloads_length).
  set (df := if 0 <? n then set_queue d' (zremrangebyscore 0 t (d_queue d')) else d').
  assert (Q1 : forall k, zscore k (d_queue df) = (if 0 <? n then match zscore k (d_queue d) with Some w => if zwithin 0 t (w, k) then None else Some w | None => None end
                            else zscore k (d_queue d))).
  { intros k. unfold df. destruct (0 <? n); simpl; rewrite M6; [|reflexivity]. rewrite zscore_remrange; [|apply D].
    destruct (zscore k (d_queue d)) as [w|]; reflexivity. }
  assert (Qp : d_parked df = d_parked d') by (unfold df; destruct (0 <? n); reflexivity).
  exists (payloads d due). cbn [snd fst set_db s_db s_execs].
  split; [fold n; rewrite Hn; reflexivity|].
  split; [fold n; fold df; unfold df; destruct (0 <? n); exact M1|].
  split; [apply payloads_nodup; [exact P|apply due_map_nodup, D]|].
  split; [apply payloads_order; [apply D|exact W|exact P]|].
  split; [exact Hms|].
  fold n. fold df.
  split; [|split; [|split; [|split; [|split; [|split; [reflexivity|]]]]]].
  - intros m. unfold in_future. cbn [s_db set_db]. fold d. rewrite Qp, M3, Q1. split.
    + intros [H1 H2]. destruct (existsb (String.eqb (m_key m)) due) eqn:E; [congruence|].
      assert (H3 : zscore (m_key m) (d_queue d) = Some (m_when m)).
      { destruct (0 <? n); [|exact H2]. destruct (zscore (m_key m) (d_queue d)) as [w|]; [|discriminate H2].
        match type of H2 with context [if ?b then _ else _] => destruct b end; [discriminate H2|exact H2]. }
      split; [auto|]. intros H4. assert (In (m_key m) due) by (apply Hdue; eauto). apply Xb in H. congruence.
    + intros [[H1 H2] H3]. destruct (existsb (String.eqb (m_key m)) due) eqn:E.
      { exfalso. apply Xb, Hdue in E as (w & H4 & H5). rewrite H2 in H4. injection H4 as <-. contradiction. }
      split; [exact H1|]. destruct (0 <? n); [|exact H2]. rewrite H2. unfold zwithin. simpl.
      destruct ((0 <=? m_when m) && (m_when m <=? t)) eqn:E2; [lia|reflexivity].
  - intros k. replace (d_runs df k) with (d_runs d' k) by (unfold df; destruct (0 <? n); reflexivity). rewrite M4. fold d.
    destruct (existsb (fun m => String.eqb (m_key m) k) (payloads d due)) eqn:E.
    + apply existsb_exists in E as (m & H1 & H2). apply String.eqb_eq in H2. subst k.
      apply payloads_In in H1 as [H1 H2]; [|exact P]. apply Xb in H1. rewrite H1, H2. reflexivity.
    + rewrite existsb_false in E. destruct (existsb (String.eqb k) due) eqn:E2; [|reflexivity].
      destruct (d_parked d k) as [m|] eqn:Em; [|reflexivity]. exfalso. pose proof (P _ _ Em) as Ek. subst k.
      assert (H : In m (payloads d due)) by (apply payloads_In; [exact P|split; [now apply Xb|exact Em]]).
      apply E in H. rewrite String.eqb_refl in H. discriminate.
  - intros k Hk. fold d. rewrite Q1, Qp, M3.
    assert (N : existsb (String.eqb k) due = false).
    { destruct (existsb (String.eqb k) due) eqn:E; [|reflexivity]. apply Xb, Hdue in E as (w & H1 & H2). now apply Hk in H1. }
    rewrite N. split; [|reflexivity]. destruct (0 <? n); [|reflexivity]. fold d in Hk. destruct (zscore k (d_queue d)) as [w|]; [|reflexivity].
    unfold zwithin. simpl. specialize (Hk w eq_refl). destruct ((0 <=? w) && (w <=? t)) eqn:E2; [lia|reflexivity].
  - unfold df. destruct (0 <? n); exact M7.
  - unfold df. destruct (0 <? n); exact M8.
  - unfold df. destruct (0 <? n); exact M5.
Qed.

Theorem scheduler_moves_due c s t : reachable c s ->
  let s' := fst (step c s (OScheduler t)) in
  exists ms,
    snd (step c s (OScheduler t)) = OMoved (zcard (d_queue (s_db s))) (Z.of_nat (length ms)) /\
    d_stream (s_db s') = d_stream (s_db s) ++ numbered (d_next (s_db s)) ms /\
    NoDup (map m_key ms) /\ in_time_order ms /\
    (forall m, In m ms <-> in_future s m /\ 0 <= m_when m <= t) /\
    (forall m, in_future s' m <-> in_future s m /\ ~ 0 <= m_when m <= t) /\
    (forall k, d_runs (s_db s') k =
       if existsb (fun m => String.eqb (m_key m) k) ms then Some (rset_state SQueued (rget (s_db s) k)) else d_runs (s_db s) k) /\
    (forall k, (forall w, zscore k (d_queue (s_db s)) = Some w -> ~ 0 <= w <= t) ->
       zscore k (d_queue (s_db s')) = zscore k (d_queue (s_db s)) /\ d_parked (s_db s') k = d_parked (s_db s) k) /\
    d_wait (s_db s') = d_wait (s_db s) /\ d_prog (s_db s') = d_prog (s_db s) /\ s_execs s' = s_execs s /\
    d_pubs (s_db s') = d_pubs (s_db s) ++ map (fun m => (m_key m, SQueued)) ms.
Proof. intros R. exact (scheduler_moves_due_inv c s t (reachable_GInv c s R) (fun k => reachable_UInv c k s R)). Qed.

(** ** How entries leave the stream (C11) *)

Definition deleting (v : ks) (i : sid) (e : kev) : Prop :=
  match e with
  | KDropStream | KSched true _ _ | KCancel _ => True
  | KClaim x _ => x_mid x = i /\ ksuper v (m_gen (x_msg x)) = true
  | KFinish x _ _ _ _ _ | KResched x _ _ _ | KPark x _ => x_mid x = i
  | _ => False
  end.

Lemma kdel_In v j i m : In (i, m) (k_stream v) -> j = i \/ In (i, m) (k_stream (kdel v j)).
Proof.
  intros H. destruct (Z.eq_dec j i) as [E|E]; [auto|right]. simpl. apply del_entry_In. split; [exact H|]. simpl. auto.
Qed.

Lemma kplace_stream v w imm clr m e : In e (k_stream v) -> In e (k_stream (kplace v w imm clr m)).
Proof. intros H. unfold kplace. cbv zeta. destruct imm; simpl; [apply in_app_iff; auto|destruct clr; exact H]. Qed.

Lemma stream_kept c k v e i m : kok k v e -> In (i, m) (k_stream v) ->
  In (i, m) (k_stream (kapply c v e)) \/ deleting v i e.
Proof.
  intros Hok H. destruct e; simpl; auto.
  - destruct repl; simpl; [auto|]. left. unfold ksched. simpl. destruct (kexists v); [exact H|]. now apply kplace_stream.
  - left. unfold kmove. destruct (k_parked v); [|exact H]. simpl. apply in_app_iff; auto.
  - unfold kclaim. destruct (ksuper v (m_gen (x_msg x))) eqn:E; [|left; exact H].
    destruct (kdel_In v (x_mid x) i m H) as [X|X]; [auto|left; exact X].
  - unfold kterminal. destruct (ksuper v (m_gen (x_msg x))).
    + destruct (kprog_mine v (m_gen (x_msg x))); match goal with |- context [kdel ?v' ?j] => destruct (kdel_In v' j i m H) as [X|X]; [auto|left; exact X] end.
    + match goal with |- context [kdel ?v' ?j] => destruct (kdel_In v' j i m) as [X|X]; [|auto|left; exact X] end.
      unfold kexpire. destruct (0 <? c_ttl c); exact H.
  - destruct (kdel_In v (x_mid x) i m H) as [X|X]; [auto|left].
    unfold kresched. simpl. apply kplace_stream. exact X.
  - destruct (kdel_In v (x_mid x) i m H) as [X|X]; [auto|left; exact X].
  - left. unfold kwake. destruct (r_state (kr v)) as [[]|]; simpl; try exact H. apply in_app_iff; auto.
Qed.

Lemma path_stream_kept c k o v es v' i m : single o = false -> (forall w, o <> OClearApply w) ->
  kpath c k v es v' -> Forall (label k o) es -> In (i, m) (k_stream v) -> In (i, m) (k_stream v').
Proof.
  intros So No P. induction P as [|v e es v' Hok P IH]; intros L H; [exact H|]. inversion L as [|? ? L1 L2]; subst.
  apply IH; [exact L2|]. destruct (stream_kept c k v e i m Hok H) as [X|X]; [exact X|exfalso].
  destruct e; simpl in X, L1; try contradiction; try (subst o; first [discriminate So|now eapply No]); try (destruct L1 as [wc L1]; now apply (No wc)).
  - destruct repl; [|contradiction]. destruct L1 as (t & -> & _). discriminate So.
  - destruct L1 as (t & -> & _). discriminate So.
  - destruct L1 as (mx & t & ->). discriminate So.
Qed.

Theorem leaves_only_for_a_reason c s o i m : GInv s -> on_stream s i m ->
  on_stream (fst (step c s o)) i m \/ leaves_for_a_reason c s o i m.
Proof.
  intros G H. set (k := m_key m).
  assert (Hk : In (i, m) (k_stream (kabs k s))) by (apply kstream_In; auto).
  destruct (sim_step c k s o G) as (es & Hp & L & Hs).
  destruct (single o) eqn:So.
  - destruct (Hs eq_refl) as [->|[e ->]].
    { apply kpath_nil_inv in Hp. left. apply (kstream_In k). rewrite Hp. exact Hk. }
    apply kpath_one_inv in Hp as [Hok E]. inversion L as [|? ? L1 _]; subst. clear L Hs.
    destruct (stream_kept c k (kabs k s) e i m Hok Hk) as [X|X]; [left; apply (kstream_In k); rewrite E; exact X|].
    assert (IE : forall x, In x (k_execs (kabs k s)) -> x_mid x = i -> get_exec (s_execs s) (x_id x) = Some x /\ In x (s_execs s) /\ x_msg x = m).
    { intros x Hx Em. apply kexecs_In in Hx as [H1 H2]. split; [apply get_exec_In; [apply G|exact H1]|]. split; [exact H1|].
      symmetry. destruct G as [_ GX]. rewrite <- Em in H. apply (xi_msg _ GX x m H1). exact H. }
    destruct e; simpl in X, L1; try contradiction.
    + right; right; right; right. exact L1.
    + destruct repl; [|contradiction]. destruct L1 as (t & -> & _). right; right; right; left. exists a, t. split; [reflexivity|exact Hok].
    + right; right; left. exists t. exact L1.
    + right; left. destruct X as [Em X]. destruct Hok as [Hin Hph]. destruct (IE x Hin Em) as (I1 & I2 & I3).
      exists x. repeat split; auto. right; right; right. exists t. split; [exact L1|]. subst o.
      assert (Es : superseded (s_db s) (m_key m) (m_gen m) = true) by (rewrite <- I3; rewrite <- X; unfold superseded, ksuper, kr, kabs; simpl; rewrite I3; reflexivity).
      split; [|exact Es]. cbn [step]. rewrite I1, Hph. unfold lua_claim. rewrite I3, Es. reflexivity.
    + right; left. destruct Hok as [Hin Hph]. destruct (IE x Hin X) as (I1 & I2 & I3). exists x. repeat split; auto.
      left. do 4 eexists. split; [exact L1|exact Hph].
    + right; left. destruct Hok as [Hin Hph]. destruct (IE x Hin X) as (I1 & I2 & I3). exists x. repeat split; auto.
      right; left. destruct L1 as (t & L1 & _). do 3 eexists. split; [exact L1|exact Hph].
    + destruct L1 as (mx & t & L1). destruct Hok as [Hin Hph]. destruct (IE x Hin X) as (I1 & I2 & I3).
      assert (Kx : m_key (x_msg x) = k) by (rewrite I3; reflexivity). subst o.
      assert (D : snd (step c s (OAcquire (x_id x) c0 mx t)) = OAcquired false \/ snd (step c s (OAcquire (x_id x) c0 mx t)) <> OAcquired false).
      { destruct (snd (step c s (OAcquire (x_id x) c0 mx t))) as [| | | | | | | |[]]; auto; right; discriminate. }
      destruct D as [D|D].
      * right; left. exists x. repeat split; auto. right; right; left. exists c0, mx, t. auto.
      * left. apply (kstream_In k). destruct (acquire_kept c k s (x_id x) c0 mx t x I1 Kx D) as [-> | ->]; exact Hk.
  - destruct (match o with OClearApply _ => true | _ => false end) eqn:Ec.
    + right; right; right; right. destruct o; try discriminate Ec. eauto.
    + left. apply (kstream_In k). eapply path_stream_kept; eauto. intros wc ->. discriminate Ec.
Qed.

Theorem finished_entry_gone c s h x st t e r : get_exec (s_execs s) h = Some x -> may_finish (x_phase x) st = true ->
  let s' := fst (step c s (OTerminal h st t e r)) in
  (forall m, ~ on_stream s' (x_mid x) m) /\ ~ In (x_mid x) (map pe_id (d_pel (s_db s'))).
Proof.
  intros Hx Hf s'. unfold s'. cbn [step]. rewrite Hx, Hf. unfold lua_terminal. cbv zeta.
  assert (Q : forall d, (forall m, ~ In (x_mid x, m) (d_stream (xdel (xack d (x_mid x)) (x_mid x)))) /\
    ~ In (x_mid x) (map pe_id (d_pel (xdel (xack d (x_mid x)) (x_mid x))))).
  { intros d. split.
    - intros m. simpl. rewrite del_entry_In. simpl. intros [_ H]. now apply H.
    - intros H. apply (xack_ids d (x_mid x)) in H as [_ H]. now apply H. }
  destruct (superseded _ _ _); cbn [fst set_execs s_db]; (split; [intros m; apply (proj1 (Q _))|apply (proj2 (Q _))]).
Qed.

(** ** Rescheduling is atomic (C12) *)

Lemma kabs_resched c k s h x w b t : get_exec (s_execs s) h = Some x -> m_key (x_msg x) = k -> may_resched (x_phase x) = true ->
  kabs k (fst (step c s (OResched h w b t))) = kapply c (kabs k s) (KResched x w b (w <=? t)).
Proof.
  intros Hx Hk Hp. cbn [step]. rewrite Hx, Hp. cbn [lua_schedule fst].
  assert (Hh : x_id x = h) by (apply get_exec_spec in Hx; tauto).
  unfold kabs at 1. unfold set_execs; cbn [s_db s_execs m_key resched_msg]. cbn [kapply]. rewrite Hh, kd_upd_exec by reflexivity.
  rewrite Hk, kd_reschedule_same by exact Hk. reflexivity.
Qed.

Definition loc_of (p : spot) : loc :=
  match p with AtStream i => LS i | AtFuture => LP | AtLine _ i => LW i end.

Lemma stored_holds k s p m : m_key m = k -> stored_at s p m -> holds (kabs k s) (m_gen m) (loc_of p).
Proof.
  intros Hk H. destruct p; simpl in *.
  - left. exists m. split; [now apply kstream_In|reflexivity].
  - rewrite Hk in H. exists m. split; [exact H|reflexivity].
  - exists cc, m. split; [now apply kwait_In|reflexivity].
Qed.

Lemma stored_gen k s p m : UInv k (kabs k s) -> m_key m = k -> stored_at s p m -> 1 <= m_gen m.
Proof.
  intros U Hk H. destruct p; simpl in *.
  - apply (ui_stream _ _ U i m). now apply kstream_In.
  - rewrite Hk in H. apply (ui_parked _ _ U m). exact H.
  - apply (ui_wait _ _ U cc i m). now apply kwait_In.
Qed.

Lemma live_gen k s p m : UInv k (kabs k s) -> BInv (kabs k s) -> m_key m = k -> stored_at s p m -> live s m ->
  m_gen m = kgen (kabs k s).
Proof.
  intros U B Hk H L. pose proof (stored_gen k s p m U Hk H) as G1. pose proof (bi_le _ B _ _ (stored_holds k s p m Hk H)) as G2.
  unfold live in L. rewrite Hk in L. change (ksuper (kabs k s) (m_gen m) = false) in L.
  apply ksuper_false in L as (g & E & Hg); [|exact G1]. unfold kgen in *. rewrite E in *. simpl in *. lia.
Qed.

Lemma same_spot k s p p' m m' : GInv s -> BInv (kabs k s) -> m_key m = k -> m_key m' = k -> m_gen m = m_gen m' ->
  stored_at s p m -> stored_at s p' m' -> p' = p /\ m' = m.
Proof.
  intros [D _] B Hk Hk' E H H'.
  pose proof (stored_holds k s p m Hk H) as H1. pose proof (stored_holds k s p' m' Hk' H') as H2. rewrite E in H1.
  pose proof (bi_inj _ B _ _ _ H1 H2) as Q.
  destruct p, p'; try discriminate Q; simpl in *.
  - injection Q as ->. split; [reflexivity|]. pose proof (ids_sorted_inj _ _ _ (di_sorted _ D) H H' eq_refl) as X. congruence.
  - split; [reflexivity|]. congruence.
  - injection Q as ->.
    assert (X : forall l, ids_sorted (map snd l) -> In (cc, (i0, m)) l -> In (cc0, (i0, m')) l -> (cc0, (i0, m')) = (cc, (i0, m))).
    { intros l. induction l as [|[c1 [i1 m1]] l IH]; cbn [map snd]; [contradiction|].
      intros S [X1|X1] [X2|X2].
      - congruence.
      - injection X1 as -> -> ->. exfalso. apply ids_sorted_NoDup in S. inversion S; subst. apply H4. apply in_map_iff. exists (i0, m').
        split; [reflexivity|]. apply in_map_iff. eexists; split; [|exact X2]. reflexivity.
      - injection X2 as -> -> ->. exfalso. apply ids_sorted_NoDup in S. inversion S; subst. apply H4. apply in_map_iff. exists (i0, m).
        split; [reflexivity|]. apply in_map_iff. eexists; split; [|exact X1]. reflexivity.
      - apply IH; auto. apply S. }
    specialize (X _ (di_wsorted _ D) H H'). injection X as -> ->. auto.
Qed.

Theorem resched_atomic c k s h x w b t :
  reachable_keeping c k s -> get_exec (s_execs s) h = Some x -> m_key (x_msg x) = k ->
  may_resched (x_phase x) = true -> superseded (s_db s) k (m_gen (x_msg x)) = false ->
  let s' := fst (step c s (OResched h w b t)) in
  (forall p m, stored_at s p m -> m_key m = k -> live s m -> p = AtStream (x_mid x) /\ m = x_msg x) /\
  exists p m, stored_at s' p m /\ live s' m /\ m_key m = k /\
    p = (if w <=? t then AtStream (d_next (s_db s)) else AtFuture) /\ (p = AtFuture -> in_future s' m) /\
    m_when m = w /\ m_attempt m = (if b then m_attempt (x_msg x) + 1 else m_attempt (x_msg x)) /\
    m_fn m = m_fn (x_msg x) /\ m_args m = m_args (x_msg x) /\ m_kwargs m = m_kwargs (x_msg x) /\
    (forall p' m', stored_at s' p' m' -> m_key m' = k -> live s' m' -> p' = p /\ m' = m).
Proof.
  intros R Hx Hk Hp Hs s'.
  pose proof (reachable_GInv c s (reachable_keeping_reachable c k s R)) as G.
  pose proof (reachable_UInv c k s (reachable_keeping_reachable c k s R)) as U.
  pose proof (reachable_BInv c k s R) as B.
  apply get_exec_spec in Hx as Hx'. destruct Hx' as [Hin Hh].
  assert (Hkx : In x (k_execs (kabs k s))) by (apply kexecs_In; auto).
  split.
  - intros p m H1 H2 H3.
    pose proof (live_gen k s p m U B H2 H1 H3) as E1.
    assert (E2 : m_gen (x_msg x) = kgen (kabs k s)).
    { pose proof (ui_exec _ _ U x Hkx) as (_ & _ & G1).
      assert (HH : holds (kabs k s) (m_gen (x_msg x)) (LS (x_mid x))) by (right; eauto).
      pose proof (bi_le _ B _ _ HH). change (ksuper (kabs k s) (m_gen (x_msg x)) = false) in Hs.
      apply ksuper_false in Hs as (g & E & Hg); [|exact G1]. unfold kgen in *. rewrite E in *. simpl in *. lia. }
    pose proof (stored_holds k s p m H2 H1) as Q1.
    assert (Q2 : holds (kabs k s) (m_gen m) (LS (x_mid x))) by (right; exists x; split; [auto|split; [auto|congruence]]).
    pose proof (bi_inj _ B _ _ _ Q1 Q2) as Q. destruct p; try discriminate Q. injection Q as ->. split; [reflexivity|].
    destruct G as [_ GX]. apply (xi_msg _ GX x m Hin). exact H1.
  - assert (K : keeps c k s (OResched h w b t)).
    { intros _. change (d_runs (s_db ?s0) k) with (k_runs (kabs k s0)). rewrite (kabs_resched c k s h x w b t Hx Hk Hp).
      simpl. apply khdel_some, kplace_some. }
    destruct (BInv_step c k s _ G U K B) as [B' _]. fold s' in B'.
    pose proof (GInv_step c s (OResched h w b t) G) as G'. fold s' in G'.
    pose proof (UInv_step c k s (OResched h w b t) G U) as U'. fold s' in U'.
    assert (E : kabs k s' = kapply c (kabs k s) (KResched x w b (w <=? t))) by (apply kabs_resched; auto).
    set (g := kgen (kabs k s) + 1) in *.
    assert (Eg : kgen (kabs k s') = g).
    { rewrite E. rewrite (kgen_apply c k (kabs k s) (KResched x w b (w <=? t))); [reflexivity|split; auto|exact U|].
      intros _. simpl. apply khdel_some, kplace_some. }
    set (m := with_gen (resched_msg (x_msg x) w b) g).
    assert (Lm : live s' m).
    { unfold live. change (m_key m) with (m_key (x_msg x)). rewrite Hk. change (ksuper (kabs k s') g = false).
      unfold ksuper. unfold kgen in Eg. destruct (r_gen (kr (kabs k s'))); simpl in Eg.
      - subst z. rewrite Z.ltb_irrefl. apply andb_false_r.
      - exfalso. pose proof (kgen_nonneg k _ U). unfold g in Eg. lia. }
    assert (St : stored_at s' (if w <=? t then AtStream (d_next (s_db s)) else AtFuture) m /\
       (w <=? t = false -> in_future s' m)).
    { destruct (w <=? t) eqn:Ei.
      - split; [|discriminate]. simpl. apply (kstream_In k). rewrite E. simpl. unfold kresched, kplace. simpl.
        apply in_app_iff. right. left. reflexivity.
      - assert (Pk : d_parked (s_db s') k = Some m).
        { change (d_parked (s_db s') k) with (k_parked (kabs k s')). rewrite E. reflexivity. }
        assert (Zk : zscore k (d_queue (s_db s')) = Some w).
        { change (zscore k (d_queue (s_db s'))) with (k_score (kabs k s')). rewrite E. reflexivity. }
        simpl. unfold in_future. change (m_key m) with (m_key (x_msg x)). rewrite Hk. auto. }
    destruct St as [St Sf].
    exists (if w <=? t then AtStream (d_next (s_db s)) else AtFuture), m.
    split; [exact St|]. split; [exact Lm|]. split; [exact Hk|]. split; [reflexivity|].
    split; [intros Ef; apply Sf; destruct (w <=? t); [discriminate Ef|reflexivity]|].
    repeat (split; [reflexivity|]).
    intros p' m' H1 H2 H3. eapply same_spot; eauto.
    symmetry. rewrite (live_gen k s' p' m' U' B' H2 H1 H3). exact Eg.
Qed.
