From Verif Require Import Base ZSet Model Spec GInv KView KInv Steps Steps2 Steps3 Heartbeat SpecHeartbeat HeartbeatProofs LeaseProofs Periodic SpecPeriodic.

(** ** One loop *)

(** The last pass whose command counts began at [r]; since then [pl_fails] failed. *)
Definition timely (p : period) (r : Z) (l : ploop) : Prop :=
  match pl_phase l with
  | PWaits u => u <= r + (pl_fails l + 1) * cycle p - pe_late p
  | PBegun _ b | PMade _ b => b <= r + (pl_fails l + 1) * cycle p
  end.
(** [first]: a loop that works first may not have made a pass yet. *)
Record Good (first : bool) (p : period) (fails : Z) (F : Z -> Prop) (now : Z) (l : ploop) : Prop := mkGood {
  gd_fails : 0 <= pl_fails l;
  gd_time : on_time p now l = true;
  gd_since : match pl_phase l with PWaits _ => True | PBegun _ b | PMade _ b => b <= now end;
  gd_made : forall t b, pl_phase l = PMade t b -> F b;
  gd_last : pl_fails l <= fails -> exists r, r <= now /\ (F r \/ (first = true /\ r = pl_since l - pe_slow p - pe_every p)) /\ timely p r l }.

Section Loop.
Variables (first : bool) (p : period) (fails : Z).
Hypothesis S : sane p.

Lemma good_now F now : first = true -> Good first p fails F now (loop_now now).
Proof.
  intros Hf. destruct S as (S1 & S2 & S3). constructor; cbn [pl_phase pl_fails pl_since loop_now on_time]; try lia; try discriminate; auto.
  intros _. exists (now - pe_slow p - pe_every p). split; [lia|]. split; [right; auto|]. unfold timely, cycle. cbn [pl_phase pl_fails pl_since loop_now]. lia.
Qed.

Lemma good_begin F now t l l' : Good first p fails F now l -> loop_begin now t l = Some l' -> Good first p fails F now l' /\ pl_phase l' = PBegun t now /\ pl_since l' = pl_since l.
Proof.
  intros [G1 G2 G3 G4 G5] E. unfold loop_begin in E. destruct S as (S1 & S2 & S3). destruct (pl_phase l) as [u| |] eqn:Ep; try discriminate.
  destruct (now <? u) eqn:Eu; [discriminate|]. injection E as <-. split; [|split; reflexivity]. unfold on_time in G2. rewrite Ep in G2.
  constructor; cbn [pl_phase pl_fails pl_since loop_now on_time]; try lia; try discriminate; auto. intros H. destruct (G5 H) as (r & R0 & R1 & R2).
  exists r. split; [exact R0|]. split; [exact R1|]. unfold timely in *. rewrite Ep in R2. cbn [pl_phase pl_fails pl_since loop_now]. lia.
Qed.

Lemma good_command (F F' : Z -> Prop) now t l l' : Good first p fails F now l -> loop_command l = Some (t, l') ->
  (forall b, pl_phase l = PBegun t b -> F' b) ->
  Good first p fails F' now l' /\ pl_since l' = pl_since l.
Proof.
  intros [G1 G2 G3 G4 G5] E N. unfold loop_command in E. destruct S as (S1 & S2 & S3). destruct (pl_phase l) as [|t0 b|] eqn:Ep; try discriminate.
  injection E as <- <-. split; [|reflexivity]. unfold on_time in G2. rewrite Ep in G2.
  constructor; cbn [pl_phase pl_fails pl_since loop_now on_time]; auto; try lia.
  - intros t' b' X. injection X as _ <-. auto.
  - intros H. exists b. split; [exact G3|]. split; [left; auto|]. unfold timely, cycle. cbn [pl_phase pl_fails pl_since loop_now]. nia.
Qed.

Lemma good_end F now ok l l' : Good first p fails F now l -> loop_end p now ok l = Some l' -> Good first p fails F now l' /\ (exists u, pl_phase l' = PWaits u) /\ pl_since l' = pl_since l.
Proof.
  intros [G1 G2 G3 G4 G5] E. unfold loop_end in E. destruct S as (S1 & S2 & S3). unfold on_time in G2. unfold timely in G5.
  destruct (pl_phase l) as [u|t b|t b] eqn:Ep; try discriminate.
  - destruct ok; [discriminate|]. injection E as <-. split; [|split; [cbn; eauto|reflexivity]].
    constructor; cbn [pl_phase pl_fails pl_since loop_now on_time]; try lia; try discriminate; auto. intros H. destruct G5 as (r & R0 & R1 & R2); [lia|].
    exists r. split; [exact R0|]. split; [exact R1|]. unfold timely, cycle in *. cbn [pl_phase pl_fails pl_since loop_now]. nia.
  - injection E as <-. split; [|split; [cbn; eauto|reflexivity]].
    constructor; cbn [pl_phase pl_fails pl_since loop_now on_time]; try (destruct ok; lia); try discriminate; auto.
    intros H. exists b. split; [exact G3|]. split; [left; eauto|]. unfold timely, cycle. cbn [pl_phase pl_fails pl_since loop_now]. destruct ok; nia.
Qed.

Lemma good_mono (F F' : Z -> Prop) now l : (forall r, r <= now -> now <= r + (fails + 1) * cycle p + pe_slow p -> F r -> F' r) ->
  0 <= fails -> Good first p fails F now l -> Good first p fails F' now l.
Proof.
  intros M N [G1 G2 G3 G4 G5]. destruct S as (S1 & S2 & S3). constructor; auto.
  - intros t b E. rewrite E in G3. apply M; [exact G3| |eauto]. unfold on_time in G2. rewrite E in G2. unfold cycle. nia.
  - intros H. destruct (G5 H) as (r & R0 & R1 & R2). exists r. split; [exact R0|]. split; [|exact R2]. destruct R1 as [R1|R1]; [left|right; exact R1].
    apply M; [exact R0| |exact R1]. unfold timely, on_time in *. assert ((pl_fails l + 1) * cycle p <= (fails + 1) * cycle p) by (unfold cycle; nia).
    destruct (pl_phase l); lia.
Qed.

Lemma good_later F now now' l : now <= now' -> on_time p now' l = true -> Good first p fails F now l -> Good first p fails F now' l.
Proof. intros L T [G1 G2 G3 G4 G5]. constructor; auto; [destruct (pl_phase l); auto; lia|]. intros H. destruct (G5 H) as (r & R0 & R1). exists r. split; [lia|exact R1]. Qed.

(** Some pass counts that began less than so long ago. *)
Lemma good_bound F now l : Good first p fails F now l -> pl_fails l <= fails -> pl_since l + (fails + 1) * cycle p < now + pe_every p ->
  exists r, F r /\ now <= r + (fails + 1) * cycle p + pe_slow p.
Proof.
  intros [G1 G2 G3 G4 G5] H L. destruct S as (S1 & S2 & S3). destruct (G5 H) as (r & R0 & R1 & R2).
  assert ((pl_fails l + 1) * cycle p <= (fails + 1) * cycle p) by (unfold cycle; nia).
  assert (B : now <= r + (fails + 1) * cycle p + pe_slow p) by (unfold timely, on_time in *; destruct (pl_phase l); lia).
  destruct R1 as [R1|[_ ->]]; [eauto|]. exfalso. lia.
Qed.
End Loop.

(** ** Several loops *)
Lemma get_loop_In l w p : get_loop l w = Some p -> In (w, p) l.
Proof.
  unfold get_loop. destruct (find _ l) as [[w' q]|] eqn:E; [|discriminate]. apply find_some in E as [E1 E2]. cbn in *.
  apply String.eqb_eq in E2 as ->. now intros [= ->].
Qed.
Lemma get_loop_None l w p : get_loop l w = None -> ~ In (w, p) l.
Proof.
  unfold get_loop. destruct (find _ l) as [[w' q]|] eqn:E; [discriminate|]. intros _ H. apply (find_none _ _ E) in H. cbn in H. rewrite String.eqb_refl in H. discriminate.
Qed.
Lemma set_loop_In l w p w' q : In (w', q) (set_loop l w p) -> (w' = w /\ q = p) \/ (w' <> w /\ In (w', q) l).
Proof.
  unfold set_loop. rewrite in_map_iff. intros ([a b] & E & H). cbn in E. destruct (String.eqb_spec a w).
  - injection E as <- <-. auto.
  - injection E as -> ->. auto.
Qed.
Lemma del_loop_In l w e : In e (del_loop l w) -> In e l /\ fst e <> w.
Proof. unfold del_loop. rewrite filter_In. intros [H E]. destruct (String.eqb_spec (fst e) w); [discriminate|auto]. Qed.

(** ** The future queue *)
Definition Floor (s : sys) (L : Z) : Prop := forall m, in_future s m -> L < m_when m.

Lemma floor_step c s o L : GInv s -> (forall k, UInv k (kabs k s)) ->
  (forall a t, o = OAdd a t \/ o = OReplace a t -> L <= t) -> (forall h w b t, o = OResched h w b t -> L <= t) ->
  Floor s L -> Floor (fst (step c s o)) L.
Proof.
  intros G U A1 A2 F m [Hp Hs]. set (k := m_key m) in *.
  assert (X : forall m w, k_parked (kabs k (fst (step c s o))) = Some m -> k_score (kabs k (fst (step c s o))) = Some w -> L < w).
  2: { apply (X m (m_when m)); [exact Hp|exact Hs]. }
  apply (step_ind c k s o (fun v => forall m w, k_parked v = Some m -> k_score v = Some w -> L < w) G (U k)).
  2: { intros m' w H1 H2. pose proof (proj1 (ui_parked _ _ (U k) _ H1)) as Ek. pose proof (ui_score _ _ (U k) _ _ H1 H2) as <-.
       apply F. split; rewrite Ek; [exact H1|exact H2]. }
  intros v e Hok Lb U1 U2 _ IH m' w H1 H2. pose proof H1 as H1'.
  apply (score_apply c k v e w Hok) in H2 as H3. destruct H3 as [H3|[(repl & a & -> & ->)|(x & b & ->)]].
  - apply (parked_apply c k v e m' Hok) in H1 as [H1|[(repl & a & ->)|(x & w' & b & ->)]]; [eauto| |].
    + simpl in Lb. destruct Lb as (t & -> & E). cbn [kapply] in H1', H2. unfold ksched in H1', H2. destruct (negb repl && kexists v); [eauto|].
      unfold kplace in H2. simpl in H2. injection H2 as <-. assert (L <= t) by (apply (A1 a); destruct repl; auto). lia.
    + simpl in Lb. destruct Lb as (t & -> & E). cbn [kapply] in H2. unfold kresched, kplace in H2. simpl in H2. injection H2 as <-.
      specialize (A2 _ _ _ _ eq_refl). lia.
  - simpl in Lb. destruct Lb as (t & -> & E). assert (L <= t) by (apply (A1 a); destruct repl; auto). lia.
  - simpl in Lb. destruct Lb as (t & -> & E). specialize (A2 _ _ _ _ eq_refl). lia.
Qed.

Lemma floor_scheduler c s t : GInv s -> (forall k, UInv k (kabs k s)) -> Floor s (-1) ->
  Floor (fst (step c s (OScheduler t))) t.
Proof.
  intros G U F m H. destruct (scheduler_moves_due_inv c s t G U) as (ms & _ & _ & _ & _ & _ & H6 & _).
  apply H6 in H as [H N]. specialize (F m H). lia.
Qed.

Lemma now_scheduler c s t : d_now (s_db (fst (step c s (OScheduler t)))) = d_now (s_db s).
Proof. apply now_same. discriminate. Qed.

Record UGood (p : period) (fails lag : Z) (s : usys) : Prop := mkUGood {
  ug_g : GInv (us_sys s);
  ug_u : forall k, UInv k (kabs k (us_sys s));
  ug_epoch : Floor (us_sys s) (-1);
  ug_clock : forall w l t b, In (w, l) (us_loops s) -> pl_phase l = PBegun t b -> b - lag <= t;
  ug_good : forall w l, In (w, l) (us_loops s) -> Good true p fails (fun r => Floor (us_sys s) (r - lag)) (d_now (s_db (us_sys s))) l }.

Lemma UGood_init p fails lag : UGood p fails lag us_init.
Proof.
  constructor; cbn; try contradiction; [apply GInv_init|intros; apply UInv_init|]. intros m [H _]. discriminate H.
Qed.

(** A step of the docket that leaves the loops alone, or drops some. *)
Lemma UGood_do c p fails lag s o ls : sane p -> 0 <= fails -> 0 <= lag -> UGood p fails lag s -> u_clock lag s (UDo o) ->
  d_now (s_db (fst (step c (us_sys s) o))) = d_now (s_db (us_sys s)) \/ (forall w l, In (w, l) ls -> on_time p (d_now (s_db (fst (step c (us_sys s) o)))) l = true) ->
  (forall e, In e ls -> In e (us_loops s)) -> UGood p fails lag (mkU (fst (step c (us_sys s) o)) ls).
Proof.
  intros S N0 L0 [U1 U2 U3 U4 U5] K T Hls. pose proof (now_step c (us_sys s) o) as Nw.
  constructor; cbn [us_sys us_loops].
  - now apply GInv_step.
  - intros k. now apply UInv_step.
  - apply floor_step; auto.
    + intros a t [->| ->]; destruct K; lia.
    + intros h w b t ->. destruct K. lia.
  - eauto.
  - intros w l H. pose proof (U5 w l (Hls _ H)) as X.
    apply (good_later true p fails _ (d_now (s_db (us_sys s)))); [exact Nw| |].
    + destruct T as [T|T]; [rewrite T; apply (gd_time _ _ _ _ _ _ X)|eauto].
    + apply (good_mono true p fails S (fun r => Floor (us_sys s) (r - lag))); [|exact N0|exact X]. intros r Hr _. apply floor_step; auto.
      * intros a t [->| ->]; destruct K; lia.
      * intros h w' b t ->. destruct K. lia.
Qed.

Lemma UGood_step c p fails lag s o : sane p -> 0 <= fails -> 0 <= lag -> UGood p fails lag s -> u_clock lag s o -> UGood p fails lag (ustep c p s o).
Proof.
  intros S N0 L0 I K. pose proof I as [U1 U2 U3 U4 U5]. destruct o as [w|w t|w|w ok|w|o]; cbn [ustep].
  - destruct (get_loop _ _); [exact I|]. constructor; cbn [us_sys us_loops]; auto.
    + intros w' l t b H. apply in_app_iff in H as [H|[H|[]]]; [eauto|]. injection H as _ <-. discriminate.
    + intros w' l H. apply in_app_iff in H as [H|[H|[]]]; [eauto|]. injection H as _ <-. now apply good_now.
  - destruct (get_loop _ _) as [l|] eqn:E; [|exact I]. apply get_loop_In in E. destruct (loop_begin _ _ _) as [l'|] eqn:B; [|exact I].
    destruct (good_begin true p fails S _ _ _ _ _ (U5 _ _ E) B) as (B1 & B2 & B3).
    constructor; cbn [us_sys us_loops]; auto.
    + intros w' l0 t0 b H E0. apply set_loop_In in H as [[-> ->]|[_ H]]; [|eauto]. rewrite B2 in E0. injection E0 as <- <-. destruct K. lia.
    + intros w' l0 H. apply set_loop_In in H as [[-> ->]|[_ H]]; [exact B1|eauto].
  - destruct (get_loop _ _) as [l|] eqn:E; [|exact I]. apply get_loop_In in E. destruct (loop_command _) as [[t l']|] eqn:B; [|exact I].
    assert (J : UGood p fails lag (mkU (fst (step c (us_sys s) (OScheduler t))) (us_loops s))).
    { apply UGood_do; auto. left. apply now_scheduler. }
    destruct J as [J1 J2 J3 J4 J5]. cbn [us_sys us_loops] in *. rewrite now_scheduler in J5.
    constructor; cbn [us_sys us_loops]; auto.
    + intros w' l0 t0 b H E0. apply set_loop_In in H as [[-> ->]|[_ H]]; [|eauto].
      unfold loop_command in B. destruct (pl_phase l); try discriminate. injection B as <- <-. discriminate E0.
    + intros w' l0 H. rewrite now_scheduler. apply set_loop_In in H as [[-> ->]|[_ H]]; [|eauto].
      apply (good_command true p fails S _ _ _ _ _ _ (U5 _ _ E) B). intros b Eb. pose proof (U4 _ _ _ _ E Eb).
      pose proof (floor_scheduler c (us_sys s) t U1 U2 U3) as Fl. intros m Hm. specialize (Fl m Hm). lia.
  - destruct (get_loop _ _) as [l|] eqn:E; [|exact I]. apply get_loop_In in E. destruct (loop_end _ _ _ _) as [l'|] eqn:B; [|exact I].
    destruct (good_end true p fails S _ _ _ _ _ (U5 _ _ E) B) as (B1 & (u & B2) & B3).
    constructor; cbn [us_sys us_loops]; auto.
    + intros w' l0 t0 b H E0. apply set_loop_In in H as [[-> ->]|[_ H]]; [|eauto]. congruence.
    + intros w' l0 H. apply set_loop_In in H as [[-> ->]|[_ H]]; [exact B1|eauto].
  - constructor; cbn [us_sys us_loops]; auto.
    + intros w' l t b H. apply del_loop_In in H as [H _]. eauto.
    + intros w' l H. apply del_loop_In in H as [H _]. eauto.
  - assert (D : (forall dt, o <> OTick dt) -> forall ls, (forall e, In e ls -> In e (us_loops s)) -> UGood p fails lag (mkU (fst (step c (us_sys s) o)) ls)).
    { intros Nt ls H. apply UGood_do; auto. left. now apply now_same. }
    destruct o; try (apply D; [discriminate|auto]).
    + destruct (forallb _ _) eqn:Ef; [|exact I]. apply UGood_do; auto. cbn [step]. destruct (0 <=? dt) eqn:Ed; [|left; reflexivity].
      right. intros w l H. rewrite forallb_forall in Ef. apply (Ef _ H).
    + intros e H. now apply del_loop_In in H as [H _].
Qed.

Lemma UGood_run c p fails lag l : forall s, sane p -> 0 <= fails -> 0 <= lag -> UGood p fails lag s -> u_along c p (u_clock lag) s l ->
  UGood p fails lag (urun c p s l).
Proof. induction l as [|o l IH]; intros s S N0 L0 I A; [exact I|]. destruct A as [A1 A2]. apply IH; auto. now apply UGood_step. Qed.

(** ** The registry of workers *)
Definition Listed (b : board) (w : string) (lag : Z) (h : hb) (r : Z) : Prop := exists s, In (s, w) (on_board h b) /\ r - lag <= s.

Record BGood (p : period) (fails lag ahead : Z) (b : board) (w : string) (s : bsys) : Prop := mkBGood {
  bg_clock : forall w' l t at_, In (w', l) (bs_loops s) -> pl_phase l = PBegun t at_ -> at_ - lag <= t <= at_ + ahead /\ at_ <= hb_now (bs_hb s);
  bg_good : forall l, In (w, l) (bs_loops s) -> Good true p fails (Listed b w lag (bs_hb s)) (hb_now (bs_hb s)) l }.

Lemma BGood_init p fails lag ahead b w : BGood p fails lag ahead b w bs_init.
Proof. constructor; cbn; contradiction. Qed.

Section Beats.
Variables (age : Z) (p : period) (fails lag ahead : Z) (b : board) (w : string).
Hypothesis S : sane p.
Hypothesis N0 : 0 <= fails.
Hypothesis Fit : (fails + 1) * cycle p + pe_slow p + lag + ahead < age.

Lemma listed_purge h b' t r : t <= hb_now h + ahead -> hb_now h <= r + (fails + 1) * cycle p + pe_slow p ->
  Listed b w lag h r -> Listed b w lag (fst (hstep h (HPurge b' age t))) r.
Proof.
  intros Ht Hr (s & H1 & H2). exists s. split; [|exact H2]. apply board_purge. cbn [fst].
  repeat match goal with |- context [if ?x then _ else _] => destruct x end; auto; split; auto; cbn; lia.
Qed.
Lemma listed_beat h w' t names r : w' <> w -> t <= hb_now h + ahead -> hb_now h <= r + (fails + 1) * cycle p + pe_slow p ->
  Listed b w lag h r -> Listed b w lag (beat h age w' t names) r.
Proof.
  intros Nw Ht Hr (s & H1 & H2). exists s. split; [|exact H2]. apply board_beat. destruct (concerns b names); [|exact H1].
  right. split; [exact H1|]. cbn. split; [congruence|lia].
Qed.

Lemma BGood_do s e ls : BGood p fails lag ahead b w s -> hb_now (fst (hstep (bs_hb s) e)) = hb_now (bs_hb s) ->
  (forall r, hb_now (bs_hb s) <= r + (fails + 1) * cycle p + pe_slow p -> Listed b w lag (bs_hb s) r -> Listed b w lag (fst (hstep (bs_hb s) e)) r) ->
  (forall x, In x ls -> In x (bs_loops s)) -> BGood p fails lag ahead b w (mkB (fst (hstep (bs_hb s) e)) ls).
Proof.
  intros [C G] E M L. constructor; cbn [bs_hb bs_loops]; rewrite E; [eauto|].
  intros l H. apply (good_mono true p fails S (Listed b w lag (bs_hb s))); auto.
Qed.

Lemma BGood_step s o : BGood p fails lag ahead b w s -> b_clock age lag ahead b w s o -> BGood p fails lag ahead b w (bstep age p s o).
Proof.
  intros I K. pose proof I as [C G]. destruct o as [w'|w' t|w' names|w' ok|w'|e]; cbn [bstep].
  - destruct (get_loop _ _); [exact I|]. constructor; cbn [bs_hb bs_loops].
    + intros w0 l t a H. apply in_app_iff in H as [H|[H|[]]]; [eauto|]. injection H as _ <-. discriminate.
    + intros l H. apply in_app_iff in H as [H|[H|[]]]; [eauto|]. injection H as _ <-. now apply good_now.
  - destruct (get_loop _ _) as [l|] eqn:E; [|exact I]. apply get_loop_In in E. destruct (loop_begin _ _ _) as [l'|] eqn:B; [|exact I].
    constructor; cbn [bs_hb bs_loops].
    + intros w0 l0 t0 a H E0. apply set_loop_In in H as [[-> ->]|[_ H]]; [|eauto].
      unfold loop_begin in B. destruct (pl_phase l); try discriminate. destruct (_ <? _); [discriminate|]. injection B as <-. injection E0 as <- <-.
      cbn in K. lia.
    + intros l0 H. apply set_loop_In in H as [[-> ->]|[_ H]]; [|eauto]. now apply (good_begin true p fails S _ _ _ _ _ (G _ E) B).
  - destruct (get_loop _ _) as [l|] eqn:E; [|exact I]. apply get_loop_In in E. destruct (loop_command _) as [[t l']|] eqn:B; [|exact I].
    assert (Ph : exists a, pl_phase l = PBegun t a /\ pl_phase l' = PMade t a).
    { unfold loop_command in B. destruct (pl_phase l); try discriminate. injection B as <- <-. eauto. }
    destruct Ph as (a & Ph & Ph'). destruct (C _ _ _ _ E Ph) as [C1 C2].
    constructor; cbn [bs_hb bs_loops].
    + intros w0 l0 t0 a0 H E0. apply set_loop_In in H as [[-> ->]|[_ H]]; [congruence|]. cbn. eauto.
    + intros l0 H. apply set_loop_In in H as [[<- ->]|[Nw H]].
      * apply (good_command true p fails S _ _ _ _ _ _ (G _ E) B). intros a' Ea. rewrite Ph in Ea. injection Ea as <-.
        exists t. split; [|lia]. cbn. apply board_beat. rewrite (K eq_refl). left. reflexivity.
      * apply (good_mono true p fails S (Listed b w lag (bs_hb s))); [|exact N0|exact (G _ H)].
        intros r _ Hr. cbn [hstep fst]. apply listed_beat; [congruence|lia|exact Hr].
  - destruct (get_loop _ _) as [l|] eqn:E; [|exact I]. apply get_loop_In in E. destruct (loop_end _ _ _ _) as [l'|] eqn:B; [|exact I].
    constructor; cbn [bs_hb bs_loops].
    + intros w0 l0 t0 a H E0. apply set_loop_In in H as [[-> ->]|[_ H]]; [|eauto].
      unfold loop_end in B. destruct (pl_phase l); try discriminate; [destruct ok; try discriminate|]; injection B as <-; discriminate E0.
    + intros l0 H. apply set_loop_In in H as [[-> ->]|[_ H]]; [|eauto]. now apply (good_end true p fails S _ _ _ _ _ (G _ E) B).
  - constructor; cbn [bs_hb bs_loops].
    + intros w0 l t a H. apply del_loop_In in H as [H _]. eauto.
    + intros l H. apply del_loop_In in H as [H _]. eauto.
  - destruct e as [dt|a w' t names|w' names|b' a t|b'|w'].
    + destruct (forallb _ _) eqn:Ef; [|exact I]. cbn [hstep fst]. destruct (0 <=? dt) eqn:Ed; [|constructor; assumption].
      constructor; cbn [bs_hb bs_loops hb_now fst].
      * intros w0 l t a H E0. destruct (C _ _ _ _ H E0). lia.
      * intros l H. rewrite forallb_forall in Ef.
        apply (good_later true p fails _ (hb_now (bs_hb s))); [lia|apply (Ef _ H)|].
        apply (good_mono true p fails S (Listed b w lag (bs_hb s))); [|exact N0|exact (G _ H)].
        intros r _ _ (q & H1 & H2). exists q. split; [|exact H2]. destruct b; exact H1.
    + destruct (get_loop _ _) eqn:E; [exact I|]. cbn in K. destruct K as [-> K].
      destruct (string_dec w' w) as [->|Nw].
      * constructor; cbn [bs_hb bs_loops]; [exact C|]. intros l H. now apply (get_loop_None _ _ l) in E.
      * apply BGood_do; auto. intros r Hr. cbn [hstep fst]. now apply listed_beat.
    + destruct (get_loop _ _) eqn:E; [exact I|]. destruct (string_dec w' w) as [->|Nw].
      * constructor; cbn [bs_hb bs_loops]; [exact C|]. intros l H. now apply (get_loop_None _ _ l) in E.
      * apply BGood_do; auto. intros r Hr (q & H1 & H2). exists q. split; [|exact H2]. apply board_remove. destruct (concerns b names); [|exact H1].
        split; [exact H1|]. cbn. congruence.
    + cbn in K. destruct K as [-> K]. apply BGood_do; auto; [destruct b'; reflexivity|]. intros r Hr. now apply listed_purge.
    + apply BGood_do; auto.
    + apply BGood_do; auto.
Qed.

Lemma BGood_run l : forall s, BGood p fails lag ahead b w s -> b_along age p (b_clock age lag ahead b w) s l -> BGood p fails lag ahead b w (brun age p s l).
Proof. induction l as [|o l IH]; intros s I A; [exact I|]. destruct A as [A1 A2]. apply IH; auto. now apply BGood_step. Qed.
End Beats.
