(** Proofs about the times in a snapshot. *)
From Verif Require Import Base ZSet Model GInv KSim Count Spec Steps3 LiveProofs RecoverProofs Snapshot PropsSnapshot SnapTimes SpecSnapTimes.

Lemma some_eq {A} (x y : A) : Some x = Some y -> x = y.
Proof. intros H. now injection H. Qed.

Lemma page_in d p : In p (xpending_page d) -> In p (d_pel d).
Proof. unfold xpending_page. intros H. apply firstn_In in H. now apply sorted_In. Qed.

(** Delivered at [T] or later. *)
Definition since (T : Z) (i : sid) (s : sys) : Prop :=
  T <= d_now (s_db s) /\ forall p, In p (d_pel (s_db s)) -> pe_id p = i -> T <= pe_time p.

Lemma since_step c s o T i : since T i s -> since T i (fst (step c s o)).
Proof.
  intros [N H]. pose proof (now_step c s o) as M. split; [lia|]. intros p Hp Hi.
  apply pel_step in Hp as [Hp|Hp]; [auto|lia].
Qed.
Lemma since_final c l s T i : since T i s -> since T i (final c s l).
Proof. revert s. induction l as [|o l IH]; intros s H; [exact H|]. rewrite final_cons. apply IH, since_step, H. Qed.

(** Delivered at [T] exactly. *)
Definition exactly (T : Z) (i : sid) (s : sys) : Prop :=
  i <= d_last (s_db s) /\ forall p, In p (d_pel (s_db s)) -> pe_id p = i -> pe_time p = T.

Lemma shown c s i T now : reachable c s -> now = d_now (s_db s) -> since T i s ->
  forall t, started_of (s_db s) now i = Some t -> T <= t <= now.
Proof.
  intros R -> [_ H] t. unfold started_of. destruct (find _ _) as [p|] eqn:F; [|discriminate].
  apply find_some in F as [F E]. apply page_in in F. intros Q. apply some_eq in Q.
  apply Z.eqb_eq in E. specialize (H p F E). pose proof (past c s p R F).
  pose proof (Z.mul_div_le (d_now (s_db s) - pe_time p) 1000 ltac:(lia)).
  assert (0 <= (d_now (s_db s) - pe_time p) / 1000) by (apply Z.div_pos; lia). lia.
Qed.

Lemma shown_exact s i T now : now = d_now (s_db s) -> exactly T i s ->
  forall t, started_of (s_db s) now i = Some t -> t < T + 1000.
Proof.
  intros -> [_ H] t. unfold started_of. destruct (find _ _) as [p|] eqn:F; [|discriminate].
  apply find_some in F as [F E]. apply page_in in F. intros Q. apply some_eq in Q.
  apply Z.eqb_eq in E. specialize (H p F E). pose proof (Z.mul_succ_div_gt (d_now (s_db s) - pe_time p) 1000 ltac:(lia)). lia.
Qed.

Lemma listed_started reg d d2 now sn i m w : snapshot reg d d2 = Some sn -> In (i, m, w) (sn_running sn) ->
  exists t, started_of d now i = Some t /\ In (i, m, w, Some t) (running_since d now sn).
Proof.
  unfold snapshot. destruct (forallb _ _); [|discriminate]. intros E. injection E as <-. cbn [sn_running].
  intros H. assert (exists t, started_of d now i = Some t) as [t Ht].
  { apply in_flat_map in H as ([i' m'] & _ & H). cbn [fst snd] in H. unfold pending_of in H.
    destruct (find (fun p => pe_id p =? i') (xpending_page d)) as [p|] eqn:F; [|destruct H].
    cbn [option_map] in H. destruct H as [H|[]]. injection H as <- _ _. unfold started_of. rewrite F. cbn. eauto. }
  exists t. split; [assumption|]. unfold running_since. apply in_map_iff. exists (i, m, w). cbn [fst]. rewrite Ht. split; [reflexivity|assumption].
Qed.

Lemma exactly_step c s o T i : GInv s -> d_last (s_db s) <= d_last (s_db (fst (step c s o))) ->
  not_renewed i s o -> exactly T i s -> exactly T i (fst (step c s o)).
Proof.
  intros G ML [NA NR] [L H]. split; [lia|]. intros p Hp Hi.
  assert (D : (exists w, o = ORead w) \/ (exists w j, o = OAutoclaim w j) \/ (exists w, o = ORenew w) \/
    (forall w j, o <> ORead w /\ o <> OAutoclaim w j /\ o <> ORenew w)).
  { destruct o; eauto; right; right; right; intros; repeat split; discriminate. }
  destruct D as [(w & ->)|[(w & j & ->)|[(w & ->)|D]]].
  - cbn [step] in Hp. unfold read_group in Hp. destruct (next_new (s_db s)) as [[j m]|] eqn:N; cbn [deliver fst s_db] in Hp; [|auto].
    cbn [set_pel set_last d_pel] in Hp. apply in_app_or in Hp as [Hp|[<-|[]]]; [auto|].
    apply next_new_spec in N as [_ N]. cbn [pe_id] in Hi. lia.
  - cbn [step] in Hp. unfold autoclaim in Hp. destruct (find _ _); [|cbn in Hp; auto]. destruct (claimable _ _ _); [|cbn in Hp; auto].
    destruct (lookup_entry _ _); cbn [deliver fst s_db set_pel d_pel] in Hp.
    + apply in_map_iff in Hp as (q & E & Q). destruct (Z.eqb_spec (pe_id q) j) as [J|J]; subst p; [|auto].
      cbn [pe_id] in Hi. subst j. exfalso. apply (NA w). congruence.
    + cbn in Hp. apply filter_In in Hp as [Hp _]. auto.
  - cbn [step fst s_db set_db] in Hp. unfold renew in Hp. cbn [d_pel set_pel] in Hp. apply in_map_iff in Hp as (q & E & Q).
    apply filter_In in Q as [Q _]. destruct (existsb (Z.eqb (pe_id q)) _) eqn:X; subst p; [|auto].
    cbn [pe_id] in Hi. apply existsb_exists in X as (j & J & X). apply in_map_iff in J as (x & J & F). apply filter_In in F as [F Y].
    exfalso. apply andb_prop in Y as [Y1 Y2]. apply (NR w x eq_refl F); [now apply String.eqb_eq|intros Z0; rewrite Z0 in Y2; discriminate|lia].
  - apply pel_step_old in Hp; auto.
Qed.

Lemma exactly_along c l s T i : reachable c s -> along c (not_renewed i) s l -> exactly T i s -> exactly T i (final c s l).
Proof.
  revert s. induction l as [|o l IH]; intros s R HA H; [exact H|]. rewrite final_cons. destruct HA as [H1 H2].
  apply IH; [destruct R as [l0 ->]; exists (l0 ++ [o]); now rewrite final_app, final_cons|assumption|]. apply exactly_step; auto; [now apply (reachable_GInv c)|].
  apply last_step with (1 := reachable_GInv c s R).
Qed.

(** The entry of a message just delivered. *)
Lemma delivered_entry c s w h i m : reachable c s -> snd (step c s (ORead w)) = ODelivered h i m ->
  since (d_now (s_db s)) i (fst (step c s (ORead w))) /\ exactly (d_now (s_db s)) i (fst (step c s (ORead w))).
Proof.
  intros R. destruct (reachable_GInv c s R) as [D _]. cbn [step]. unfold read_group.
  destruct (next_new (s_db s)) as [[j m']|] eqn:N; cbn [deliver snd fst]; [|discriminate].
  intros E. injection E as _ -> ->. apply next_new_spec in N as [_ N].
  assert (O : forall p, In p (d_pel (s_db s)) -> pe_id p <> i).
  { intros p Hp E. pose proof (di_pel _ D (pe_id p) (in_map pe_id _ _ Hp)). lia. }
  split; (split; [cbn; lia|]); cbn [s_db set_pel set_last d_pel]; intros p Hp Hi; apply in_app_or in Hp as [Hp|[<-|[]]];
  try (exfalso; apply (O p Hp); assumption); cbn [pe_time]; lia.
Qed.

(** The entries a renewal leaves. *)
Lemma renewed_entry c s w x : In x (s_execs s) -> x_worker x = w -> x_phase x <> PDone ->
  since (d_now (s_db s)) (x_mid x) (fst (step c s (ORenew w))).
Proof.
  intros Hx Hw Hp. cbn [step fst]. split; [cbn; lia|]. cbn [s_db set_db]. unfold renew. cbn [d_pel set_pel].
  intros p H Hi. apply in_map_iff in H as (q & E & Q). destruct (existsb (Z.eqb (pe_id q)) _) eqn:X; subst p; [cbn; lia|].
  exfalso. assert (T : existsb (Z.eqb (pe_id q)) (map x_mid (filter (fun x => String.eqb (x_worker x) w && match x_phase x with PDone => false | _ => true end) (s_execs s))) = true); [|congruence].
  apply existsb_exists. exists (x_mid x). split; [|lia]. apply in_map, filter_In. split; [assumption|].
  rewrite Hw, String.eqb_refl. destruct (x_phase x); congruence || reflexivity.
Qed.
