(** Proofs about the search for abandoned messages. *)
From Verif Require Import Base ZSet Model GInv Spec SpecRecover KInv Hist Steps2 RecoverProofs Sweep SpecSweep.

Definition known (d : db) (i : sid) : bool := is_some (lookup_entry i (d_stream d)).
Lemma known_existsb d i : known d i = existsb (fun e => fst e =? i) (d_stream d).
Proof.
  unfold known, lookup_entry. induction (d_stream d) as [|[j m] l IH]; [reflexivity|]. cbn. destruct (j =? i); [reflexivity|exact IH].
Qed.
Lemma known_In d i : known d i = true <-> exists m, In (i, m) (d_stream d).
Proof.
  rewrite known_existsb, existsb_exists. split.
  - intros ([j m] & H & E). cbn in E. apply Z.eqb_eq in E. subst j. eauto.
  - intros (m & H). exists (i, m). split; [exact H|apply Z.eqb_refl].
Qed.

Definition stale (c : cfg) (d : db) (p : pent) : bool := c_redeliver c <=? d_now d - pe_time p.
Definition answers (c : cfg) (d : db) (p : pent) : bool := negb (known d (pe_id p)) || stale c d p.
Lemma answering_answers c s p : answering c s p = answers c (s_db s) p.
Proof. unfold answering, answers, stale. now rewrite known_existsb. Qed.

Lemma scan_eq c d a n p l : scan c d (S a) (S n) (p :: l) =
  if negb (known d (pe_id p)) then (fst (scan c d a n l), pe_id p :: snd (scan c d a n l))
  else if stale c d p then (pe_id p :: fst (scan c d a n l), snd (scan c d a n l)) else scan c d a (S n) l.
Proof.
  cbn [scan]. unfold known, stale. destruct (is_some _); cbn [negb].
  - destruct (Z.ltb_spec (d_now d - pe_time p) (c_redeliver c)).
    + replace (c_redeliver c <=? _) with false by lia. reflexivity.
    + replace (c_redeliver c <=? _) with true by lia. destruct (scan c d a n l); reflexivity.
  - destruct (scan c d a n l); reflexivity.
Qed.
Lemma scan_nil c d a n l : a = O \/ n = O \/ l = [] -> scan c d a n l = ([], []).
Proof. intros [->|[->| ->]]; [destruct l; reflexivity|destruct l, a; reflexivity|destruct a, n; reflexivity]. Qed.

Lemma scan_claimed c d l : forall a n i, In i (fst (scan c d a n l)) -> exists p, In p l /\ pe_id p = i /\ known d i = true /\ stale c d p = true.
Proof.
  induction l as [|p l IH]; intros a n i H; [rewrite scan_nil in H by auto; contradiction|].
  destruct a as [|a]; [rewrite scan_nil in H by auto; contradiction|]. destruct n as [|n]; [rewrite scan_nil in H by auto; contradiction|].
  rewrite scan_eq in H. destruct (known d (pe_id p)) eqn:K; cbn [negb] in H.
  - destruct (stale c d p) eqn:T; cbn [fst] in H.
    + destruct H as [<-|H]; [exists p; cbn; auto|]. apply IH in H as (q & Q1 & Q2). exists q. cbn. auto.
    + apply IH in H as (q & Q1 & Q2). exists q. cbn. auto.
  - cbn [fst] in H. apply IH in H as (q & Q1 & Q2). exists q. cbn. auto.
Qed.
Lemma scan_dropped c d l : forall a n i, In i (snd (scan c d a n l)) -> known d i = false.
Proof.
  induction l as [|p l IH]; intros a n i H; [rewrite scan_nil in H by auto; contradiction|].
  destruct a as [|a]; [rewrite scan_nil in H by auto; contradiction|]. destruct n as [|n]; [rewrite scan_nil in H by auto; contradiction|].
  rewrite scan_eq in H. destruct (known d (pe_id p)) eqn:K; cbn [negb] in H.
  - destruct (stale c d p) eqn:T; cbn [snd] in H; eauto.
  - cbn [snd] in H. destruct H as [<-|H]; eauto.
Qed.

(** An entry with few enough before it is claimed. *)
Lemma scan_reaches c d p post : forall pre a n, (length pre < a)%nat -> (length (filter (answers c d) pre) < n)%nat ->
  known d (pe_id p) = true -> stale c d p = true -> In (pe_id p) (fst (scan c d a n (pre ++ p :: post))).
Proof.
  induction pre as [|q pre IH]; intros a n La Ln K T; (destruct a as [|a]; [cbn in La; lia|]); (destruct n as [|n]; [lia|]); cbn [app]; rewrite scan_eq.
  - rewrite K, T. cbn. auto.
  - cbn [filter] in Ln. unfold answers in Ln at 1. cbn in La. destruct (known d (pe_id q)); cbn [negb orb] in *.
    + destruct (stale c d q); cbn [fst]; [right; apply IH; auto; cbn in Ln; lia|apply IH; auto; lia].
    + cbn [fst]. apply IH; auto; cbn in Ln; lia.
Qed.

(** Otherwise the search takes up at least one of those before it. *)
Lemma scan_takes c d post : forall pre a n, (length pre < a)%nat -> (0 < n)%nat -> (0 < length (filter (answers c d) pre))%nat ->
  exists q, In q pre /\ answers c d q = true /\ (In (pe_id q) (fst (scan c d a n (pre ++ post))) \/ In (pe_id q) (snd (scan c d a n (pre ++ post)))).
Proof.
  induction pre as [|q pre IH]; intros a n La Ln T; [cbn in T; lia|]. destruct a as [|a]; [cbn in La; lia|]. destruct n as [|n]; [lia|].
  cbn [app]. rewrite scan_eq. cbn [filter] in T. unfold answers at 1 in T. cbn in La. destruct (known d (pe_id q)) eqn:K; cbn [negb orb] in *.
  - destruct (stale c d q) eqn:E.
    + exists q. unfold answers. rewrite K, E. cbn. auto.
    + destruct (IH a (S n)) as (r & R1 & R2 & R3); auto; [lia|]. exists r. cbn. auto.
  - exists q. unfold answers. rewrite K. cbn. auto.
Qed.

(** Nothing to claim among the entries looked at. *)
Lemma scan_blind c d : forall l a n, (forall q, In q (firstn a l) -> answers c d q = false) -> scan c d a n l = ([], []).
Proof.
  induction l as [|p l IH]; intros a n H; [now rewrite scan_nil by auto|]. destruct a as [|a]; [now rewrite scan_nil by auto|]. destruct n as [|n]; [now rewrite scan_nil by auto|].
  rewrite scan_eq. pose proof (H p (or_introl eq_refl)) as E. unfold answers in E. destruct (known d (pe_id p)), (stale c d p); try discriminate E. cbn.
  apply IH. intros q Hq. apply H. cbn. auto.
Qed.

(** ** Dropping *)

Lemma drop_fields s ids : d_stream (s_db (drop_pending s ids)) = d_stream (s_db s) /\ d_now (s_db (drop_pending s ids)) = d_now (s_db s) /\
  d_runs (s_db (drop_pending s ids)) = d_runs (s_db s) /\ s_execs (drop_pending s ids) = s_execs s /\
  d_pel (s_db (drop_pending s ids)) = filter (fun p => negb (existsb (Z.eqb (pe_id p)) ids)) (d_pel (s_db s)).
Proof.
  unfold drop_pending, set_db. cbn [s_db s_execs]. generalize (s_db s). induction ids as [|i ids IH]; intros d; cbn [fold_left].
  - repeat split. cbn. induction (d_pel d) as [|p l IHl]; [reflexivity|]. cbn. now rewrite <- IHl.
  - destruct (IH (xack d i)) as (E1 & E2 & E3 & _ & E5). rewrite E1, E2, E3, E5. repeat split. cbn.
    induction (d_pel d) as [|p l IHl]; [reflexivity|]. cbn. destruct (pe_id p =? i); cbn; [exact IHl|]. destruct (existsb (Z.eqb (pe_id p)) ids); cbn; [exact IHl|now rewrite IHl].
Qed.

Lemma filter_NoDup_map (l : list pent) f : NoDup (map pe_id l) -> NoDup (map pe_id (filter f l)).
Proof.
  induction l as [|p l IH]; intros N; [constructor|]. inversion N; subst. cbn. destruct (f p); [|auto]. cbn. constructor; [|auto].
  intros H. apply H1. apply in_map_iff in H as (q & E & Hq). apply filter_In in Hq as [Hq _]. rewrite <- E. now apply in_map.
Qed.

Lemma GInv_drop s ids : GInv s -> (forall i, In i ids -> known (s_db s) i = false) -> GInv (drop_pending s ids).
Proof.
  intros G K. unfold drop_pending, set_db. apply GInv_db; [exact G|]. clear G. revert K. generalize (s_db s).
  induction ids as [|i ids IH]; intros d K; cbn [fold_left]; [apply good_refl|]. eapply good_trans; [|apply IH; intros j Hj; apply (K j); cbn; auto].
  change (xack d i) with (set_pel d (d_pel (xack d i))). apply good_pel.
  - intros j Hj. apply xack_ids in Hj. tauto.
  - intros j m Hm Hj. apply xack_ids. split; [exact Hj|]. intros ->. assert (X : known d i = true) by (apply known_In; eauto). rewrite K in X by (cbn; auto). discriminate.
  - intros N. cbn. now apply filter_NoDup_map.
Qed.

(** ** What one sweep does *)

(** Claims of distinct entries that are idle and present. *)
Lemma claims_pel c w ids : forall s, NoDup ids -> (forall i, In i ids -> known (s_db s) i = true /\
    exists p, find (fun p => pe_id p =? i) (d_pel (s_db s)) = Some p /\ stale c (s_db s) p = true) ->
  d_pel (s_db (final c s (map (OAutoclaim w) ids))) =
  map (fun p => if existsb (Z.eqb (pe_id p)) ids then mkPent (pe_id p) w (d_now (s_db s)) (pe_count p + 1) else p) (d_pel (s_db s)).
Proof.
  induction ids as [|i ids IH]; intros s N H; [cbn; now rewrite map_id|]. cbn [map]. rewrite final_cons. inversion N as [|? ? N1 N2]; subst.
  destruct (autoclaim_Hands c s w i) as (E1 & _ & E3 & _).
  assert (Q : d_pel (s_db (fst (step c s (OAutoclaim w i)))) = map (fun p => if pe_id p =? i then mkPent i w (d_now (s_db s)) (pe_count p + 1) else p) (d_pel (s_db s))).
  { destruct (H i (or_introl eq_refl)) as (K & p & P & T). cbn [step]. unfold autoclaim. rewrite P. unfold stale in T. rewrite claimable_idle by lia. unfold known in K. destruct (lookup_entry i (d_stream (s_db s))); [reflexivity|discriminate]. }
  rewrite IH; [|exact N2|].
  - rewrite Q, E3, map_map. apply map_ext. intros p. cbn [existsb]. destruct (Z.eqb_spec (pe_id p) i) as [E|E]; cbn [pe_id].
    + destruct (existsb (Z.eqb i) ids) eqn:X; [exfalso; apply existsb_exists in X as (j & X1 & X2); apply Z.eqb_eq in X2; subst j; contradiction|]. now rewrite E.
    + reflexivity.
  - intros j Hj. assert (Nj : j <> i) by (intros ->; contradiction). destruct (H j (or_intror Hj)) as (K & p & P & T). unfold known. rewrite E1. split; [exact K|]. exists p.
    split; [|unfold stale; rewrite E3; exact T]. rewrite Q. clear - P Nj. induction (d_pel (s_db s)) as [|a l IH]; [discriminate|]. cbn in *.
    destruct (Z.eqb_spec (pe_id a) i) as [E|E]; cbn [pe_id].
    + destruct (Z.eqb_spec i j); [congruence|]. destruct (Z.eqb_spec (pe_id a) j); [congruence|auto].
    + destruct (pe_id a =? j); auto.
Qed.

Lemma find_unique (l : list pent) p : NoDup (map pe_id l) -> In p l -> find (fun q => pe_id q =? pe_id p) l = Some p.
Proof.
  induction l as [|q l IH]; intros N H; [contradiction|]. cbn in *. inversion N; subst. destruct H as [->|H]; [now rewrite Z.eqb_refl|].
  destruct (Z.eqb_spec (pe_id q) (pe_id p)) as [E|E]; [exfalso; apply H2; rewrite E; now apply in_map|auto].
Qed.

Lemma scan_nodup c d l : forall a n, NoDup (map pe_id l) -> NoDup (fst (scan c d a n l)).
Proof.
  induction l as [|p l IH]; intros a n N; [rewrite scan_nil by auto; constructor|].
  destruct a as [|a]; [rewrite scan_nil by auto; constructor|]. destruct n as [|n]; [rewrite scan_nil by auto; constructor|].
  inversion N; subst. rewrite scan_eq. destruct (known d (pe_id p)); cbn [negb fst]; [|auto]. destruct (stale c d p); cbn [fst]; [|auto].
  constructor; [|auto]. intros H. apply scan_claimed in H as (q & Q1 & Q2 & _). apply H1. rewrite <- Q2. now apply in_map.
Qed.

Lemma sweep_hyps c s n : GInv s -> let r := scan c (s_db s) (10 * n) n (d_pel (s_db s)) in
  GInv (drop_pending s (snd r)) /\ NoDup (fst r) /\
  (forall i, In i (fst r) -> known (s_db (drop_pending s (snd r))) i = true /\
    exists p, find (fun p => pe_id p =? i) (d_pel (s_db (drop_pending s (snd r)))) = Some p /\ stale c (s_db (drop_pending s (snd r))) p = true).
Proof.
  intros G r. pose proof (di_pnodup _ (proj1 G)) as N.
  split; [apply GInv_drop; [exact G|]; intros i Hi; eapply scan_dropped; exact Hi|]. split; [now apply scan_nodup|].
  intros i Hi. destruct (scan_claimed _ _ _ _ _ _ Hi) as (p & P1 & P2 & P3 & P4).
  destruct (drop_fields s (snd r)) as (E1 & E2 & _ & _ & E5). unfold known, stale. rewrite E1, E2. split; [exact P3|]. exists p. split; [|exact P4].
  rewrite E5, <- P2. apply find_unique; [now apply filter_NoDup_map|]. apply filter_In. split; [exact P1|]. apply Bool.negb_true_iff.
  destruct (existsb (Z.eqb (pe_id p)) (snd r)) eqn:X; [|reflexivity]. exfalso. apply existsb_exists in X as (j & X1 & X2). apply Z.eqb_eq in X2. subst j.
  apply scan_dropped in X1. congruence.
Qed.

Lemma sweep_unfold c s w n : let r := scan c (s_db s) (10 * n) n (d_pel (s_db s)) in
  sweep c s w n = final c (drop_pending s (snd r)) (map (OAutoclaim w) (fst r)).
Proof. cbv zeta. unfold sweep. destruct (scan _ _ _ _ _). reflexivity. Qed.

Lemma sweep_GInv c s w n : GInv s -> GInv (sweep c s w n).
Proof. intros G. rewrite sweep_unfold. apply GInv_final. apply (sweep_hyps c s n G). Qed.

Lemma sweep_fields c s w n : GInv s -> let r := scan c (s_db s) (10 * n) n (d_pel (s_db s)) in
  d_stream (s_db (sweep c s w n)) = d_stream (s_db s) /\ d_now (s_db (sweep c s w n)) = d_now (s_db s) /\ d_runs (s_db (sweep c s w n)) = d_runs (s_db s) /\
  (exists tl, s_execs (sweep c s w n) = s_execs s ++ tl) /\
  d_pel (s_db (sweep c s w n)) = map (fun p => if existsb (Z.eqb (pe_id p)) (fst r) then mkPent (pe_id p) w (d_now (s_db s)) (pe_count p + 1) else p)
    (filter (fun p => negb (existsb (Z.eqb (pe_id p)) (snd r))) (d_pel (s_db s))).
Proof.
  intros G. cbv zeta. rewrite sweep_unfold. destruct (sweep_hyps c s n G) as (G1 & N & H). set (r := scan _ _ _ _ _) in *.
  destruct (drop_fields s (snd r)) as (E1 & E2 & E3 & E4 & E5). destruct (autoclaims_Hands c w (fst r) (drop_pending s (snd r))) as (F1 & F2 & F3 & F4).
  rewrite F1, F2, F3, E1, E2, E3. repeat split; [rewrite E4 in F4; exact F4|]. rewrite (claims_pel c w (fst r) _ N H), E2, E5. reflexivity.
Qed.

Theorem sweep_reaches c s w n p m pre post : GInv s -> d_pel (s_db s) = pre ++ p :: post ->
  (length pre < 10 * n)%nat -> (length (filter (answering c s) pre) < n)%nat ->
  on_stream s (pe_id p) m -> c_redeliver c <= d_now (s_db s) - pe_time p ->
  exists h, handed (sweep c s w n) w h (pe_id p) m.
Proof.
  intros G E L1 L2 O T. rewrite sweep_unfold. destruct (sweep_hyps c s n G) as (G1 & N & H). set (r := scan _ _ _ _ _) in *.
  destruct (drop_fields s (snd r)) as (E1 & E2 & E3 & E4 & E5).
  assert (In (pe_id p) (fst r)) as Hi.
  { unfold r. rewrite E. apply scan_reaches; auto.
    - erewrite filter_ext; [exact L2|]. intros q. cbn. now rewrite answering_answers.
    - apply known_In. eauto.
    - unfold stale. lia. }
  destruct (H _ Hi) as (_ & q & Q1 & Q2). apply (autoclaims_hand c w (pe_id p) m (fst r) _ q G1); auto; [unfold on_stream; rewrite E1; exact O|].
  unfold stale in Q2. lia.
Qed.

Theorem sweep_blind c s w n : GInv s -> (forall q, In q (firstn (10 * n) (d_pel (s_db s))) -> answering c s q = false) -> sweep c s w n = s.
Proof.
  intros G H. unfold sweep. rewrite scan_blind; [destruct s; reflexivity|]. intros q Hq. rewrite <- answering_answers. auto.
Qed.

(** ** Repeated sweeps at one moment *)

Fixpoint sweeps (c : cfg) (s : sys) (l : list (string * nat)) : sys :=
  match l with [] => s | (w, n) :: l => sweeps c (sweep c s w n) l end.

Lemma sweeps_Hands c l : forall s, GInv s -> Hands s (sweeps c s l).
Proof.
  induction l as [|[w n] l IH]; intros s G; [apply Hands_refl|]. cbn [sweeps]. eapply Hands_trans; [|apply IH; now apply sweep_GInv].
  destruct (sweep_fields c s w n G) as (E1 & E2 & E3 & E4 & _). repeat split; auto.
Qed.

Lemma filter_length_le {A} (f g : A -> bool) l : (forall x, In x l -> g x = true -> f x = true) -> (length (filter g l) <= length (filter f l))%nat.
Proof.
  induction l as [|x l IH]; intros H; [auto|]. cbn. assert (IH' := IH (fun y Hy => H y (or_intror Hy))). pose proof (H x (or_introl eq_refl)) as Hx.
  destruct (g x); [rewrite Hx by reflexivity; cbn; lia|]. destruct (f x); cbn; lia.
Qed.
Lemma filter_length_lt {A} (f g : A -> bool) l : (forall x, In x l -> g x = true -> f x = true) -> (exists x, In x l /\ f x = true /\ g x = false) ->
  (length (filter g l) < length (filter f l))%nat.
Proof.
  induction l as [|x l IH]; intros H (y & Hy & F & Gf); [contradiction|]. cbn. assert (H' := fun z Hz => H z (or_intror Hz)). destruct Hy as [->|Hy].
  - rewrite F, Gf. cbn. pose proof (filter_length_le f g l H'). lia.
  - assert (IH' := IH H' (ex_intro _ y (conj Hy (conj F Gf)))). pose proof (H x (or_introl eq_refl)) as Hx.
    destruct (g x); [rewrite Hx by reflexivity; cbn; lia|]. destruct (f x); cbn; lia.
Qed.

Theorem sweeps_reach c m i l : 0 < c_redeliver c -> forall s pre p post, GInv s -> d_pel (s_db s) = pre ++ p :: post -> pe_id p = i ->
  (forall w n, In (w, n) l -> (length pre < 10 * n)%nat) -> (length (filter (answering c s) pre) < length l)%nat ->
  on_stream s i m -> c_redeliver c <= d_now (s_db s) - pe_time p ->
  exists w h, In w (map fst l) /\ handed (sweeps c s l) w h i m.
Proof.
  intros Rp. induction l as [|[w n] l IH]; intros s pre p post G E Ei L1 L2 O T; [cbn in L2; lia|]. cbn [sweeps].
  pose proof (L1 w n (or_introl eq_refl)) as Ln.
  destruct (lt_dec (length (filter (answering c s) pre)) n) as [Lt|Ge].
  - destruct (sweep_reaches c s w n p m pre post G E Ln Lt) as (h & Hh); [now rewrite Ei|exact T|]. exists w, h. split; [cbn; auto|]. rewrite <- Ei.
    eapply handed_Hands; [apply sweeps_Hands; now apply sweep_GInv|exact Hh].
  - destruct (sweep_fields c s w n G) as (E1 & E2 & E3 & E4 & E5). set (r := scan c (s_db s) (10 * n) n (d_pel (s_db s))) in *.
    set (g := fun p => if existsb (Z.eqb (pe_id p)) (fst r) then mkPent (pe_id p) w (d_now (s_db s)) (pe_count p + 1) else p) in *.
    set (f := fun p => negb (existsb (Z.eqb (pe_id p)) (snd r))) in *.
    assert (Known : known (s_db s) i = true) by (apply known_In; exists m; exact O).
    assert (Fp : f p = true).
    { unfold f. apply Bool.negb_true_iff. rewrite Ei. destruct (existsb (Z.eqb i) (snd r)) eqn:X; [|reflexivity]. apply existsb_exists in X as (j & X1 & X2).
      apply Z.eqb_eq in X2. subst j. apply scan_dropped in X1. congruence. }
    destruct (existsb (Z.eqb i) (fst r)) eqn:Cl.
    { apply existsb_exists in Cl as (j & X1 & X2). apply Z.eqb_eq in X2. subst j. destruct (sweep_hyps c s n G) as (G1 & N & H). fold r in G1, N, H.
      destruct (H i X1) as (_ & q & Q1 & Q2).
      destruct (autoclaims_hand c w i m (fst r) (drop_pending s (snd r)) q G1) as (h & Hh); auto.
      - unfold on_stream. destruct (drop_fields s (snd r)) as (-> & _). exact O.
      - unfold stale in Q2. lia.
      - exists w, h. split; [cbn; auto|]. eapply handed_Hands; [apply sweeps_Hands; now apply sweep_GInv|]. rewrite sweep_unfold. exact Hh. }
    assert (Gp : g p = p) by (unfold g; rewrite Ei, Cl; reflexivity).
    rewrite E, filter_app, map_app in E5. cbn [filter] in E5. rewrite Fp in E5. cbn [map] in E5. rewrite Gp in E5.
    set (pre' := map g (filter f pre)) in *.
    destruct (IH (sweep c s w n) pre' p (map g (filter f post)) (sweep_GInv c s w n G) E5 Ei) as (w' & h & W & Hh).
    + intros w' n' Hw. specialize (L1 w' n' (or_intror Hw)). unfold pre'. rewrite map_length. pose proof (filter_le_length f pre). lia.
    + enough (length (filter (answering c (sweep c s w n)) pre') < length (filter (answering c s) pre))%nat by (cbn in L2; lia).
      assert (X : length (filter (answering c (sweep c s w n)) pre') = length (filter (fun q => f q && answering c (sweep c s w n) (g q)) pre)).
      { unfold pre'. clear. induction pre as [|q pre IH]; [reflexivity|]. cbn. destruct (f q); cbn; [|exact IH]. destruct (answering c (sweep c s w n) (g q)); cbn; [now rewrite IH|exact IH]. }
      rewrite X. apply filter_length_lt.
      * intros q Hq Hg. apply andb_true_iff in Hg as [F1 F2]. rewrite answering_answers in *. unfold answers, stale, known in *. rewrite E1, E2 in F2. unfold g in F2.
        destruct (existsb (Z.eqb (pe_id q)) (fst r)) eqn:Y; [|exact F2]. cbn [pe_id pe_time] in F2. rewrite Z.sub_diag in F2. replace (c_redeliver c <=? 0) with false in F2 by lia. rewrite Bool.orb_false_r in F2. now rewrite F2.
      * assert (La : (0 < length (filter (answers c (s_db s)) pre))%nat).
        { rewrite (filter_ext (answers c (s_db s)) (answering c s)) by (intros; symmetry; apply answering_answers). cbn in L2. lia. }
        destruct (scan_takes c (s_db s) (p :: post) pre (10 * n) n Ln ltac:(lia) La) as (q & Q1 & Q2 & Q3). rewrite <- E in Q3. fold r in Q3.
        exists q. split; [exact Q1|]. rewrite answering_answers. split; [exact Q2|]. destruct Q3 as [Q3|Q3].
        -- destruct (scan_claimed _ _ _ _ _ _ Q3) as (q' & _ & _ & Kq & _). apply Bool.andb_false_iff. right. rewrite answering_answers. unfold answers, stale. unfold g.
           assert (Y : existsb (Z.eqb (pe_id q)) (fst r) = true) by (apply existsb_exists; exists (pe_id q); split; [exact Q3|apply Z.eqb_refl]). rewrite Y. cbn [pe_id pe_time].
           unfold known in *. rewrite E1, E2, Kq, Z.sub_diag. cbn. lia.
        -- apply Bool.andb_false_iff. left. unfold f. apply Bool.negb_false_iff. apply existsb_exists. exists (pe_id q). split; [exact Q3|apply Z.eqb_refl].
    + unfold on_stream. rewrite E1. exact O.
    + rewrite E2. exact T.
    + exists w', h. split; [cbn; auto|exact Hh].
Qed.

(** ** The pending list is kept in the order of the ids, as in Redis *)

Definition increasing (l : list sid) : Prop := ForallOrdPairs Z.lt l.

Lemma increasing_filter f l : increasing l -> increasing (filter f l).
Proof.
  induction 1 as [|i l H1 H2 IH]; [constructor|]. cbn. destruct (f i); [|exact IH]. constructor; [|exact IH].
  rewrite Forall_forall in *. intros j Hj. apply filter_In in Hj as [Hj _]. auto.
Qed.
Lemma increasing_snoc l i : increasing l -> (forall j, In j l -> j < i) -> increasing (l ++ [i]).
Proof.
  induction 1 as [|j l H1 H2 IH]; intros H; [repeat constructor|]. cbn. constructor; [|apply IH; intros; apply H; cbn; auto].
  apply Forall_app. split; [exact H1|]. constructor; [apply H; cbn; auto|constructor].
Qed.

Definition thinned (l l' : list pent) : Prop := exists f, map pe_id l' = filter f (map pe_id l).
Lemma thinned_refl l : thinned l l.
Proof. exists (fun _ => true). induction (map pe_id l) as [|i r IH]; [reflexivity|]. cbn. now rewrite <- IH. Qed.
Lemma thinned_xack d i : thinned (d_pel d) (d_pel (xack d i)).
Proof.
  exists (fun j => negb (j =? i)). cbn. induction (d_pel d) as [|p l IH]; [reflexivity|]. cbn. destruct (pe_id p =? i); cbn; [exact IH|now rewrite IH].
Qed.

Lemma pel_ids_step c s o : thinned (d_pel (s_db s)) (d_pel (s_db (fst (step c s o)))) \/
  exists i, d_last (s_db s) < i /\ map pe_id (d_pel (s_db (fst (step c s o)))) = map pe_id (d_pel (s_db s)) ++ [i].
Proof.
  assert (Same : forall l, l = d_pel (s_db s) -> thinned (d_pel (s_db s)) l) by (intros l ->; apply thinned_refl).
  assert (Ack : forall l i, l = d_pel (xack (s_db s) i) -> thinned (d_pel (s_db s)) l) by (intros l i ->; apply thinned_xack).
  assert (W1 : forall cc d e, d_pel (wake_one cc d e) = d_pel d).
  { intros cc d [wid m]. unfold wake_one. destruct (r_state _) as [[]|]; reflexivity. }
  assert (W : forall d cc cap, d_pel (wake d cc cap) = d_pel d).
  { intros d cc cap. unfold wake. destruct (0 <? cap); [|reflexivity]. generalize (firstn (Z.to_nat cap) (waiters d cc)). intros l. revert d.
    induction l as [|e l IH]; intros d; simpl; [reflexivity|]. now rewrite IH, W1. }
  assert (P : forall d k w imm clr m, d_pel (place d k w imm clr m) = d_pel d).
  { intros. unfold place, hincr_gen. destruct imm; [reflexivity|]. destruct clr; reflexivity. }
  assert (R : forall d k, d_pel (lua_replace_existing d k) = d_pel d).
  { intros. unfold lua_replace_existing. destruct (match r_sid _ with Some _ => _ | None => _ end); reflexivity. }
  destruct o; cbn [step].
  - left. apply Same. destruct (0 <=? dt) eqn:E; reflexivity.
  - left. apply Same. unfold do_schedule, lua_schedule. destruct (negb false && lua_exists _ _); cbn [fst set_db s_db publish set_pubs d_pel]; rewrite ?P; auto.
  - left. apply Same. unfold do_schedule, lua_schedule. cbn [negb andb]. cbn [fst set_db s_db publish set_pubs d_pel]. rewrite ?P, ?R; auto.
  - left. apply Same. cbn. destruct (cancel_rest (s_db s) k t) as (_ & _ & _ & _ & E & _). cbv zeta in E. exact E.
  - left. apply Same. cbn. unfold cancel_finish. destruct (0 <? c_ttl c); cbn; auto.
  - left. apply Same. reflexivity.
  - left. apply Same. reflexivity.
  - left. apply Same. destruct (ready_clear s _) as [sn|]; [|reflexivity]. cbn.
    assert (F1 : forall l d, d_pel (fold_left (clear_run (c_ttl c)) l d) = d_pel d).
    { induction l as [|k l IH]; intros d; simpl; [reflexivity|]. rewrite IH. unfold clear_run. destruct (0 <? c_ttl c); reflexivity. }
    assert (F2 : forall l d, d_pel (fold_left (clear_scheduled (c_ttl c)) l d) = d_pel d).
    { induction l as [|k l IH]; intros d; simpl; [reflexivity|]. rewrite IH. unfold clear_scheduled, clear_run. destruct (0 <? c_ttl c); reflexivity. }
    rewrite F1, F2. destruct (0 <? cs_count sn); cbn; auto.
  - left. apply Same. assert (F : forall l d, d_pel (fold_left stream_one l d) = d_pel d).
    { induction l as [|k l IH]; intros d; simpl; [reflexivity|]. rewrite IH. unfold stream_one. destruct (d_parked d k); reflexivity. }
    unfold lua_stream_due. cbn. destruct (0 <? Z.of_nat _); cbn; rewrite F; auto.
  - unfold read_group. destruct (next_new (s_db s)) as [[i m]|] eqn:N; cbn; [|left; apply Same; reflexivity]. right. exists i.
    apply next_new_spec in N as [_ N]. split; [exact N|]. now rewrite map_app.
  - left. unfold autoclaim. destruct (find _ _); [|apply Same; reflexivity]. destruct (claimable _ _ _); [|apply Same; reflexivity].
    destruct (lookup_entry _ _); cbn [deliver fst s_db set_pel d_pel]; [|eapply Ack; reflexivity]. destruct (Same _ eq_refl) as [f Hf]. exists f. rewrite <- Hf.
    rewrite map_map. apply map_ext. intros q. destruct (Z.eqb_spec (pe_id q) i); cbn; auto.
  - left. cbn [fst s_db set_db]. unfold renew. cbn [d_pel set_pel].
    match goal with |- context [existsb _ ?ids] => set (l := ids) end.
    exists (fun i => negb (existsb (Z.eqb i) l) || is_some (lookup_entry i (d_stream (s_db s)))). rewrite map_map. generalize (d_pel (s_db s)). intros ps.
    induction ps as [|p ps IH]; [reflexivity|]. cbn. destruct (negb (existsb (Z.eqb (pe_id p)) l) || is_some (lookup_entry (pe_id p) (d_stream (s_db s)))); cbn; [rewrite IH|exact IH].
    destruct (existsb (Z.eqb (pe_id p)) l); reflexivity.
  - left. destruct (get_exec _ _) as [x|]; [|apply Same; reflexivity]. destruct (x_phase x); try (apply Same; reflexivity). unfold lua_claim. destruct (superseded _ _ _); [eapply Ack; reflexivity|apply Same; reflexivity].
  - left. apply Same. destruct (get_exec _ _) as [x|]; [|reflexivity]. destruct (x_phase x); reflexivity.
  - left. apply Same. destruct (get_exec _ _) as [x|]; [|reflexivity]. destruct (x_phase x); reflexivity.
  - left. apply Same. destruct (get_exec _ _) as [x|]; [|reflexivity]. destruct (x_phase x); reflexivity.
  - left. destruct (get_exec _ _) as [x|]; [|apply Same; reflexivity]. destruct (may_finish _ _); [|apply Same; reflexivity]. unfold lua_terminal.
    destruct (superseded _ _ _); cbv zeta; cbn [fst].
    + destruct (prog_mine _ _ _); eapply Ack; reflexivity.
    + destruct (0 <? c_ttl c); eapply Ack; reflexivity.
  - left. destruct (get_exec _ _) as [x|]; [|apply Same; reflexivity]. destruct (may_resched _); [|apply Same; reflexivity]. cbn [lua_schedule fst]. unfold lua_reschedule. cbn [fst set_execs s_db publish set_pubs d_pel hdel set_runs]. rewrite P. eapply Ack; reflexivity.
  - left. destruct (get_exec _ _) as [x|]; [|apply Same; reflexivity]. destruct (x_phase x); try (apply Same; reflexivity). destruct (x_slot x); try (apply Same; reflexivity).
    unfold lua_acquire_or_park. destruct (zscore _ _); [destruct (x_redel x && _); [apply Same; reflexivity|eapply Ack; reflexivity]|].
    destruct (zcard _ <? maxc); [apply Same; reflexivity|]. destruct (zrangebyscore _ _ _) as [|[]]; [eapply Ack; reflexivity|apply Same; reflexivity].
  - left. apply Same. destruct (get_exec _ _) as [x|]; [|reflexivity]. destruct (x_slot x) as [[cc mx]|]; [|reflexivity].
    unfold lua_release. destruct (x_phase x); cbn [fst set_execs s_db]; rewrite ?W; auto;
      match goal with |- context [match ?w with [] => _ | _ => _ end] => destruct w end; cbn; auto.
  - left. apply Same. destruct (get_exec _ _) as [x|]; [|reflexivity]. destruct (x_slot x) as [[cc mx]|]; cbn; auto.
  - left. apply Same. unfold lua_scavenge. cbn. destruct (waiters _ _); [auto|]. rewrite W. cbn. auto.
  - left. apply Same. cbn. unfold cancel_cleanup. destruct (own_place _ _ _ _); [|auto]. cbn. auto.
  - left. apply Same. reflexivity.
Qed.

Theorem pending_increasing c s : reachable c s -> increasing (map pe_id (d_pel (s_db s))).
Proof.
  intros [l ->]. enough (H : forall s, GInv s -> increasing (map pe_id (d_pel (s_db s))) -> increasing (map pe_id (d_pel (s_db (final c s l))))) by (apply H; [apply GInv_init|constructor]).
  induction l as [|o l IH]; intros s G H; [exact H|]. rewrite final_cons. apply IH; [now apply GInv_step|].
  destruct (pel_ids_step c s o) as [[f E]|(i & Hi & E)]; rewrite E; [now apply increasing_filter|]. apply increasing_snoc; [exact H|].
  intros j Hj. pose proof (di_pel _ (proj1 G) j Hj). lia.
Qed.
