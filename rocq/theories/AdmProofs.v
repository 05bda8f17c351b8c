(** Proofs about admission control. *)
From Verif Require Import Base ZSet Text Admission SpecAdm.
Open Scope string_scope. Open Scope list_scope. Open Scope Z_scope.

(** ** RateLimit *)

Lemma rl_member_inj k t k' t' : rl_member k t = rl_member k' t' -> k = k' /\ t = t'.
Proof.
  unfold rl_member. intros H. apply (split_last ":"%char) in H as [-> H].
  - split; [reflexivity|]. now apply dec_inj.
  - apply (all_chars_occurs digit_or_sign); [apply dec_digits|reflexivity].
  - apply (all_chars_occurs digit_or_sign); [apply dec_digits|reflexivity].
Qed.

Definition mem (p : string * Z) : string := rl_member (fst p) (snd p).
Lemma mem_inj p q : mem p = mem q -> p = q.
Proof. unfold mem. destruct p, q; simpl. intros H. apply rl_member_inj in H as [-> ->]. reflexivity. Qed.

Lemma NoDup_map_inj {A B} (f : A -> B) l : (forall x y, f x = f y -> x = y) -> NoDup l -> NoDup (map f l).
Proof.
  intros Hf. induction 1 as [|x l Hx Hl IH]; simpl; constructor; auto.
  rewrite in_map_iff. intros (y & E & Hy). apply Hf in E as ->. contradiction.
Qed.

(** The invariant: what the log says about the standing admissions [a], when the
    latest clock reading was [t]. *)
Record RLI (n w d t : Z) (st : rlog) (a : list (string * Z)) : Prop := {
  ri_log : forall p, In p a -> t - w < snd p -> In (snd p, mem p) (rl_log st);
  ri_exp : forall e p, rl_exp st = Some e -> In p a -> snd p + 2 * w - d <= e;
  ri_time : forall p, In p a -> snd p <= t;
  ri_nodup : NoDup a;
  ri_win : forall T, window_count T w a <= n }.

Lemma filter_length_mono {A} (f g : A -> bool) l : (forall x, In x l -> f x = true -> g x = true) ->
  (length (filter f l) <= length (filter g l))%nat.
Proof.
  induction l as [|x l IH]; simpl; intros H; [lia|].
  assert (L : (length (filter f l) <= length (filter g l))%nat) by (apply IH; intros; apply H; auto).
  destruct (f x) eqn:E; [rewrite (H x (or_introl eq_refl) E); simpl; lia|]. destruct (g x); simpl; lia.
Qed.

Lemma filter2 {A} (f g : A -> bool) l : filter f (filter g l) = filter (fun x => f x && g x) l.
Proof. induction l as [|x l IH]; simpl; [reflexivity|]. destruct (g x); simpl; rewrite IH; destruct (f x); reflexivity. Qed.

Lemma rli_step n w d t st a e l : 0 <= n -> 0 < w -> 2 * d <= w ->
  clocks_ok d t (e :: l) -> NoDup (requests (e :: l)) -> (forall p, In p a -> ~ In p (requests (e :: l))) ->
  RLI n w d t st a ->
  let t' := match e with RLReq _ now _ => now | _ => t end in
  let st' := fst (rl_step n w st e) in
  let a' := net1 a (e, snd (rl_step n w st e)) in
  RLI n w d t' st' a' /\ clocks_ok d t' l /\ NoDup (requests l) /\ (forall p, In p a' -> ~ In p (requests l)).
Proof.
  intros Hn Hw Hd C N D [I1 I2 I3 I4 I5] t'. destruct e as [k now srv|k now].
  - destruct C as (C1 & C2 & C3). simpl in N. inversion N as [|? ? N1 N2]; subst.
    (* what is left of the log *)
    set (st0 := if gone (rl_exp st) srv then rl_empty else st).
    set (log := filter (fun p => now - w <? fst p) (rl_log st0)).
    assert (L : forall p, In p a -> now - w < snd p -> In (snd p, mem p) log).
    { intros p Hp H. apply filter_In. split; [|simpl; lia]. unfold st0.
      destruct (gone (rl_exp st) srv) eqn:G.
      - exfalso. unfold gone in G. destruct (rl_exp st) as [e|] eqn:Ee; [|discriminate].
        specialize (I2 e p eq_refl Hp). lia.
      - apply I1; [assumption|lia]. }
    cbn [rl_step rl_script fst snd]. unfold rl_script. fold st0. fold log.
    destruct (zcard log <? n) eqn:Z1.
    + destruct (w * 2 <=? 0) eqn:W2; [lia|]. cbn [fst snd net1].
      assert (Hnew : ~ In (k, now) a) by (intros H; apply (D _ H); simpl; auto).
      split; [|split; [exact C3|split; [exact N2|]]].
      * constructor; cbn [rl_log rl_exp].
        -- intros p Hp H. unfold t' in H. apply in_app_or in Hp as [Hp|[<-|[]]].
           ++ apply zadd_In. right. split; [apply L; auto|]. cbn [snd]. intros E. apply Hnew.
              change (rl_member k now) with (mem (k, now)) in E. apply mem_inj in E as ->. exact Hp.
           ++ apply zadd_In. now left.
        -- intros e p [= <-] Hp. apply in_app_or in Hp as [Hp|[<-|[]]]; [apply I3 in Hp|]; cbn [snd] in *; lia.
        -- intros p Hp. unfold t'. apply in_app_or in Hp as [Hp|[<-|[]]]; [apply I3 in Hp|]; cbn [snd] in *; lia.
        -- apply NoDup_snoc; assumption.
        -- intros T. unfold window_count. rewrite filter_app, app_length, Nat2Z.inj_add.
           cbn [filter]. unfold in_window at 2. cbn [snd].
           destruct (Z_lt_le_dec T now) as [HT|HT].
           ++ replace (now <=? T) with false by lia. rewrite andb_false_r. simpl. specialize (I5 T).
              unfold window_count in I5. lia.
           ++ assert (K : (length (filter (in_window T w) a) <= length log)%nat).
              { rewrite <- (map_length mem). rewrite <- (map_length snd log).
                apply NoDup_incl_length.
                - apply NoDup_map_inj; [apply mem_inj|]. now apply NoDup_filter.
                - intros x Hx. apply in_map_iff in Hx as (p & <- & Hp). apply filter_In in Hp as [Hp H].
                  unfold in_window in H. apply in_map_iff. exists (snd p, mem p). split; [reflexivity|].
                  apply L; [assumption|lia]. }
              unfold zcard in Z1. destruct ((T - w <? now) && (now <=? T)); simpl length; lia.
      * intros p Hp. apply in_app_or in Hp as [Hp|[<-|[]]]; [|exact N1].
        intros H. apply (D _ Hp). simpl; auto.
    + assert (E : exists r, r <> RLProceed /\
        (let '(st, r) := match log with
          | [] => (mkRlog log (rl_exp st0), RLError)
          | (oldest, _) :: _ => (mkRlog log (rl_exp st0), RLBlocked (if oldest + w - now <? 1 then 1 else oldest + w - now))
          end in (st, Some r)) = (mkRlog log (rl_exp st0), Some r)).
      { destruct log as [|[o z] log']; eexists; (split; [|reflexivity]); discriminate. }
      destruct E as (r & Er & ->). cbn [fst snd]. replace (net1 a (RLReq k now srv, Some r)) with a by (now destruct r).
      split; [|split; [exact C3|split; [exact N2|]]].
      * constructor; cbn [rl_log rl_exp]; auto.
        -- intros e p Ee Hp. apply (I2 e p); [|assumption]. unfold st0 in Ee.
           destruct (gone (rl_exp st) srv); [discriminate|assumption].
        -- intros p Hp. apply I3 in Hp. unfold t'; lia.
      * intros p Hp H. apply (D _ Hp). simpl; auto.
  - cbn [rl_step fst snd net1]. simpl in C, N.
    split; [|split; [exact C|split; [exact N|]]].
    + constructor; cbn [rl_log rl_exp].
      * intros p Hp H. apply filter_In in Hp as [Hp E]. apply zrem_In. split; [now apply I1|].
        cbn [snd]. intros X. change (rl_member k now) with (mem (k, now)) in X. apply mem_inj in X as ->.
        simpl in E. rewrite String.eqb_refl, Z.eqb_refl in E. discriminate.
      * intros e p Ee Hp. apply filter_In in Hp as [Hp _]. eauto.
      * intros p Hp. apply filter_In in Hp as [Hp _]. apply I3; auto.
      * now apply NoDup_filter.
      * intros T. specialize (I5 T). unfold window_count in *.
        rewrite filter2. eapply Z.le_trans; [|exact I5]. apply inj_le.
        apply filter_length_mono. intros x _ Hx. apply andb_prop in Hx. tauto.
    + intros p Hp. apply filter_In in Hp as [Hp _]. exact (D p Hp).
Qed.

Lemma rli_run n w d : 0 <= n -> 0 < w -> 2 * d <= w -> forall l t st a,
  clocks_ok d t l -> NoDup (requests l) -> (forall p, In p a -> ~ In p (requests l)) -> RLI n w d t st a ->
  forall T, window_count T w (fold_left net1 (rl_trace n w st l) a) <= n.
Proof.
  intros Hn Hw Hd. induction l as [|e l IH]; intros t st a C N D R T.
  - apply (ri_win _ _ _ _ _ _ R).
  - pose proof (rli_step n w d t st a e l Hn Hw Hd C N D R) as (R' & C' & N' & D').
    cbn [rl_trace fold_left]. eapply IH; eassumption.
Qed.

Theorem rate_bound n w d t l T : 0 <= n -> 0 < w -> 2 * d <= w -> clocks_ok d t l -> NoDup (requests l) ->
  window_count T w (net (rl_trace n w rl_empty l)) <= n.
Proof.
  intros Hn Hw Hd C N. unfold net. apply (rli_run n w d Hn Hw Hd l t rl_empty []); auto.
  constructor; simpl; auto; try tauto; try discriminate. constructor. 
Qed.

(** Whatever the clocks: the log is sorted and never longer than the limit. *)
Lemma rl_script_shape st m now w n srv : 0 <= n -> zsorted (rl_log st) -> zcard (rl_log st) <= n ->
  let st' := fst (rl_script st m now w n srv) in zsorted (rl_log st') /\ zcard (rl_log st') <= n.
Proof.
  intros Hn S L. unfold rl_script.
  set (st0 := if gone (rl_exp st) srv then rl_empty else st).
  set (log := filter (fun p => now - w <? fst p) (rl_log st0)).
  assert (S0 : zsorted log).
  { apply zsorted_filter. unfold st0. destruct (gone _ _); simpl; auto. }
  assert (L0 : zcard log <= n).
  { assert (L1 : zcard (rl_log st0) <= n) by (unfold st0; destruct (gone _ _); [unfold zcard; simpl; lia|assumption]).
    unfold zcard in *. pose proof (filter_length_le (fun p => now - w <? fst p) (rl_log st0)). fold log in H. lia. }
  destruct (zcard log <? n) eqn:E.
  - destruct (w * 2 <=? 0); simpl; [split; [exact I|unfold zcard; simpl; lia]|].
    split; [now apply zadd_sorted|]. unfold zcard in *. pose proof (zadd_length_le now m log). lia.
  - destruct log as [|[o z] log'] eqn:El; simpl; auto.
Qed.

Lemma rl_run_shape n w : 0 <= n -> forall l st, zsorted (rl_log st) -> zcard (rl_log st) <= n ->
  zsorted (rl_log (rl_run n w st l)) /\ zcard (rl_log (rl_run n w st l)) <= n.
Proof.
  intros Hn. induction l as [|e l IH]; intros st S L; [auto|]. cbn [rl_run].
  assert (H : zsorted (rl_log (fst (rl_step n w st e))) /\ zcard (rl_log (fst (rl_step n w st e))) <= n).
  { destruct e as [k now srv|k now]; cbn [rl_step].
    - pose proof (rl_script_shape st (rl_member k now) now w n srv Hn S L) as H.
      destruct (rl_script st (rl_member k now) now w n srv); exact H.
    - simpl. split; [now apply zsorted_filter|]. unfold zcard in *. pose proof (zrem_length_le (rl_member k now) (rl_log st)). lia. }
  apply IH; tauto.
Qed.

Lemma filter_none_pass {A} (f : A -> bool) l : (forall x, In x l -> f x = true) -> filter f l = l.
Proof. induction l as [|x l IH]; simpl; intros H; [reflexivity|]. rewrite (H x) by auto. f_equal. apply IH. auto. Qed.

Theorem retry_after_exact n w l k now srv st d : 0 < n -> 0 < w ->
  rl_step n w (rl_run n w rl_empty l) (RLReq k now srv) = (st, Some (RLBlocked d)) ->
  1 <= d /\
  (forall k' d' srv', 0 <= d' < d -> gone (rl_exp st) srv' = false ->
     exists r, snd (rl_step n w st (RLReq k' (now + d') srv')) = Some (RLBlocked r)) /\
  (forall k' srv', snd (rl_step n w st (RLReq k' (now + d) srv')) = Some RLProceed).
Proof.
  intros Hn Hw. pose proof (rl_run_shape n w ltac:(lia) l rl_empty I ltac:(unfold zcard; simpl; lia)) as [S L].
  set (s0 := rl_run n w rl_empty l) in *. clearbody s0. cbn [rl_step].
  pose proof (rl_script_shape s0 (rl_member k now) now w n srv ltac:(lia) S L) as S1. revert S1.
  unfold rl_script at 1 2 3. set (st0 := if gone (rl_exp s0) srv then rl_empty else s0).
  set (log := filter (fun p => now - w <? fst p) (rl_log st0)).
  destruct (zcard log <? n) eqn:E; [destruct (w * 2 <=? 0); discriminate|].
  assert (F : forall p, In p log -> now - w < fst p).
  { intros p Hp. apply filter_In in Hp as [_ Hp]. lia. }
  destruct log as [|[o z] log'] eqn:El; [discriminate|]. cbn [fst rl_log]. intros [S1 L1] [= <- <-].
  pose proof (F (o, z) (or_introl eq_refl)) as Ho. cbn [fst] in Ho.
  replace (o + w - now <? 1) with false by lia. split; [lia|]. split.
  - intros k' d' srv' Hd G. unfold rl_script. cbn [rl_log rl_exp] in *. rewrite G.
    rewrite (filter_none_pass (fun p => now + d' - w <? fst p)).
    + cbn [rl_log]. rewrite E. eexists. reflexivity.
    + cbn [rl_log]. intros p [<-|Hp]; cbn [fst]; [lia|]. destruct S1 as [S1 _]. specialize (S1 p Hp). cbn [fst] in S1. lia.
  - intros k' srv'. unfold rl_script. cbn [rl_log rl_exp].
    set (st1 := if gone _ srv' then _ else _).
    assert (K : zcard (filter (fun p => now + (o + w - now) - w <? fst p) (rl_log st1)) < n).
    { unfold zcard in *. destruct (gone (rl_exp st0) srv'); cbn [st1 rl_log rl_empty filter length]; [lia|].
      cbn [filter fst]. replace (now + (o + w - now) - w <? o) with false by lia.
      pose proof (filter_length_le (fun p => now + (o + w - now) - w <? fst p) log'). cbn [length] in L1. lia. }
    replace (zcard _ <? n) with true by lia. destruct (w * 2 <=? 0); reflexivity.
Qed.

Lemma last_cons {A} (q : list A) : forall a t, last (a :: q) t = last q a.
Proof. induction q as [|y q IH]; intros a t; [reflexivity|]. change (last (a :: y :: q) t) with (last (y :: q) t). now rewrite !IH. Qed.

(** ** Cooldown *)

Definition proceeds (r : cd_reply) : bool := match r with CDProceed => true | _ => false end.

Definition CDI (w t : Z) (st : option Z) (adm : list Z) : Prop :=
  match st with
  | None => adm = []
  | Some e => In (e - w) adm /\ forall x, In x adm -> x <= e - w /\ x <= t
  end.

Lemma cd_step_inv w t st adm x : 0 < w -> t <= x -> CDI w t st adm ->
  let r := cd_step w st x in
  (snd r = CDProceed <-> (forall y, In y adm -> y + w < x)) /\ snd r <> CDError /\
  CDI w x (fst r) (adm ++ if proceeds (snd r) then [x] else []).
Proof.
  intros Hw Ht H. unfold cd_step. replace (w <=? 0) with false by lia.
  destruct st as [e|]; simpl in H.
  - destruct H as [H1 H2]. unfold gone. destruct (e <? x) eqn:E; cbn [fst snd proceeds CDI].
    + split; [|split; [discriminate|]].
      * split; [|reflexivity]. intros _ y Hy. apply H2 in Hy. lia.
      * replace (x + w - w) with x by lia. split; [apply in_or_app; simpl; auto|].
        intros y Hy. apply in_app_or in Hy as [Hy|[<-|[]]]; [apply H2 in Hy|]; lia.
    + rewrite app_nil_r. split; [|split; [discriminate|]].
      * split; [discriminate|]. intros C. specialize (C _ H1). lia.
      * split; [assumption|]. intros y Hy. apply H2 in Hy. lia.
  - subst. cbn [fst snd proceeds CDI]. split; [|split; [discriminate|]].
    + split; [|reflexivity]. intros _ y [].
    + simpl. split; [left; lia|]. intros y [<-|[]]. lia.
Qed.

Fixpoint cd_run (w : Z) (st : option Z) (l : list Z) : option Z :=
  match l with [] => st | t :: l => cd_run w (fst (cd_step w st t)) l end.

Lemma cd_run_inv w : 0 < w -> forall l t st adm, rising t l -> CDI w t st adm ->
  CDI w (last l t) (cd_run w st l) (adm ++ cd_admitted (cd_trace w st l)).
Proof.
  intros Hw. induction l as [|x l IH]; intros t st adm R H; cbn [cd_run cd_trace].
  - simpl. now rewrite app_nil_r.
  - destruct R as [R1 R2]. pose proof (cd_step_inv w t st adm x Hw R1 H) as (_ & _ & H').
    specialize (IH x _ _ R2 H'). replace (last (x :: l) t) with (last l x).
    + unfold cd_admitted in *. cbn [filter snd].
      destruct (snd (cd_step w st x)); cbn [proceeds map fst] in *;
        rewrite <- app_assoc in IH; exact IH.
    + symmetry. apply last_cons.
Qed.

Lemma cd_trace_app w : forall l1 l2 st, cd_trace w st (l1 ++ l2) = cd_trace w st l1 ++ cd_trace w (cd_run w st l1) l2.
Proof. induction l1 as [|x l1 IH]; intros l2 st; simpl; [reflexivity|]. now rewrite IH. Qed.

Lemma rising_app t l1 x : rising t (l1 ++ [x]) -> rising t l1 /\ last l1 t <= x.
Proof.
  revert t. induction l1 as [|y l1 IH]; simpl; intros t H; [tauto|]. destruct H as [H1 H2].
  apply IH in H2 as [H2 H3]. split; [tauto|]. destruct l1 as [|z l1]; [exact H3|].
  change (last (z :: l1) t <= x). rewrite last_cons. now rewrite last_cons in H3.
Qed.

Theorem cooldown_exact w t l x : 0 < w -> rising t (l ++ [x]) ->
  snd (cd_step w (cd_run w None l) x) = CDProceed <-> (forall y, In y (cd_admitted (cd_trace w None l)) -> y + w < x).
Proof.
  intros Hw R. apply rising_app in R as [R1 R2].
  pose proof (cd_run_inv w Hw l t None [] R1 eq_refl) as H. simpl app in H.
  apply (cd_step_inv w _ _ _ x Hw R2 H).
Qed.

Lemma cd_admitted_app a b : cd_admitted (a ++ b) = cd_admitted a ++ cd_admitted b.
Proof. unfold cd_admitted. now rewrite filter_app, map_app. Qed.

Lemma ordpairs_snoc {A} (R : A -> A -> Prop) l x : ForallOrdPairs R l -> (forall y, In y l -> R y x) -> ForallOrdPairs R (l ++ [x]).
Proof.
  induction 1 as [|y l Hy Hl IH]; simpl; intros H; [repeat constructor|].
  constructor; [|apply IH; auto]. apply Forall_app. split; [assumption|]. constructor; auto.
Qed.

Theorem cooldown_spacing w t l : 0 < w -> rising t l ->
  ForallOrdPairs (fun a b => a + w < b) (cd_admitted (cd_trace w None l)).
Proof.
  intros Hw. induction l as [|x l IH] using rev_ind; intros R; [constructor|].
  pose proof (cooldown_exact w t l x Hw R) as X. apply rising_app in R as [R _].
  rewrite cd_trace_app, cd_admitted_app. cbn [cd_trace]. unfold cd_admitted at 2. cbn [filter snd].
  destruct (snd (cd_step w (cd_run w None l) x)); cbn [map fst]; rewrite ?app_nil_r; auto.
  apply ordpairs_snoc; [auto|]. apply X. reflexivity.
Qed.

(** ** Debounce *)

(** When the submissions so far are [h] and the latest clock reading is [t]:
    both keys live and die together, and the seen time covers all others. *)
Definition DBI (t : Z) (h : list db_ev) (st : deb) : Prop :=
  match db_winner st, db_seen st with
  | None, None => True
  | Some (w, e), Some (ts, e') => e = e' /\ ts <= t /\ (forall s, In s h -> sb_key s <> w -> sb_now s <= ts)
  | _, _ => False
  end.

Lemma db_step_inv settle t h st s : t <= sb_now s -> (forall x, In x h -> sb_now x <= t) -> DBI t h st ->
  let r := db_step settle st s in
  DBI (sb_now s) (h ++ [s]) (fst r) /\
  (snd r = DBProceed -> forall x, In x h -> sb_key x <> sb_key s -> sb_now x + settle <= sb_now s).
Proof.
  intros Ht Hh H. unfold db_step, db_script, fresh_value.
  assert (New : forall w e, DBI (sb_now s) (h ++ [s]) (mkDeb (Some (w, e)) (Some (sb_now s, e)))).
  { intros w e. unfold DBI; simpl. split; [reflexivity|]. split; [lia|]. intros x Hx _.
    apply in_app_or in Hx as [Hx|[<-|[]]]; [apply Hh in Hx|]; lia. }
  unfold DBI in H. destruct (db_winner st) as [[w e]|] eqn:Ew; destruct (db_seen st) as [[ts e']|] eqn:Es; try contradiction.
  - destruct H as (<- & H1 & H2). destruct (gone (Some e) (sb_srv s)); cbn [fst snd]; [split; [apply New|discriminate]|].
    destruct (String.eqb_spec w (sb_key s)) as [->|N]; cbn [fst snd].
    + destruct (settle <=? sb_now s - ts) eqn:E; cbn [fst snd].
      * split; [exact I|]. intros _ x Hx Nx. specialize (H2 x Hx Nx). lia.
      * split; [|discriminate]. unfold DBI; simpl. split; [reflexivity|]. split; [lia|].
        intros x Hx Nx. apply in_app_or in Hx as [Hx|[<-|[]]]; [auto|congruence].
    + split; [apply New|discriminate].
  - cbn [fst snd]. split; [apply New|discriminate].
Qed.

Lemma db_run_app settle : forall a b st, db_run settle st (a ++ b) = db_run settle (db_run settle st a) b.
Proof. induction a as [|x a IH]; intros b st; simpl; auto. Qed.

Lemma db_run_inv settle : forall l t h st, db_rising t l -> (forall x, In x h -> sb_now x <= t) -> DBI t h st ->
  let t' := last (map sb_now l) t in
  DBI t' (h ++ l) (db_run settle st l) /\ (forall x, In x (h ++ l) -> sb_now x <= t').
Proof.
  unfold db_rising. induction l as [|s l IH]; intros t h st R Hh H; cbn [db_run map].
  - rewrite app_nil_r. simpl. auto.
  - cbn [map rising] in R. destruct R as [R1 R2].
    pose proof (db_step_inv settle t h st s R1 Hh H) as [H' _].
    assert (Hh' : forall x, In x (h ++ [s]) -> sb_now x <= sb_now s).
    { intros x Hx. apply in_app_or in Hx as [Hx|[<-|[]]]; [apply Hh in Hx|]; lia. }
    specialize (IH (sb_now s) (h ++ [s]) _ R2 Hh' H').
    rewrite <- app_assoc in IH. cbn [app] in IH.
    rewrite last_cons. exact IH.
Qed.

Lemma db_rising_app t l s : db_rising t (l ++ [s]) -> db_rising t l /\ last (map sb_now l) t <= sb_now s.
Proof. unfold db_rising. rewrite map_app. apply rising_app. Qed.

Theorem debounce_quiet settle t l s : db_rising t (l ++ [s]) ->
  snd (db_step settle (db_run settle deb_empty l) s) = DBProceed ->
  forall x, In x l -> sb_key x <> sb_key s -> sb_now x + settle <= sb_now s.
Proof.
  intros R E. apply db_rising_app in R as [R1 R2].
  pose proof (db_run_inv settle l t [] deb_empty R1 (fun x (H : In x []) => match H with end) I) as [H1 H2].
  cbn [app] in H1, H2. eapply db_step_inv; eassumption.
Qed.

(** Since the last proceed (or the start) the elected key was submitted, no later
    than the seen time. *)
Definition Elected (h : list db_ev) (st : deb) : Prop :=
  match db_winner st, db_seen st with
  | None, None => True
  | Some (w, e), Some (ts, e') => e = e' /\ exists s, In s h /\ sb_key s = w /\ sb_now s <= ts
  | _, _ => False
  end.

Lemma elected_step settle t h st s : (forall x, In x h -> sb_now x <= t) -> t <= sb_now s -> Elected h st ->
  let r := db_step settle st s in
  Elected (h ++ [s]) (fst r) /\
  (snd r = DBProceed -> exists x, In x h /\ sb_key x = sb_key s /\ sb_now x + settle <= sb_now s).
Proof.
  intros Hh Ht H. unfold db_step, db_script, fresh_value. unfold Elected in H.
  destruct (db_winner st) as [[w e]|] eqn:Ew; destruct (db_seen st) as [[ts e']|] eqn:Es; try contradiction.
  - destruct H as (<- & x & Hx & Ex & Hts). destruct (gone (Some e) (sb_srv s)); cbn [fst snd].
    + split; [|discriminate]. unfold Elected; simpl. split; [reflexivity|]. exists s. split; [apply in_or_app; simpl; auto|].
      split; [reflexivity|lia].
    + destruct (String.eqb_spec w (sb_key s)) as [->|N]; cbn [fst snd].
      * destruct (settle <=? sb_now s - ts) eqn:E; cbn [fst snd].
        -- split; [exact I|]. intros _. exists x. repeat split; auto. lia.
        -- split; [|discriminate]. unfold Elected; simpl. split; [reflexivity|]. exists x. split; [apply in_or_app; auto|auto].
      * split; [|discriminate]. unfold Elected; simpl. split; [reflexivity|]. exists x. split; [apply in_or_app; auto|].
        split; [auto|]. specialize (Hh _ Hx). lia.
  - cbn [fst snd]. split; [|discriminate]. unfold Elected; simpl. split; [reflexivity|]. exists s.
    split; [apply in_or_app; simpl; auto|]. split; [reflexivity|lia].
Qed.

Lemma elected_run settle : forall l t h st, db_rising t l -> (forall x, In x h -> sb_now x <= t) -> Elected h st ->
  Elected (h ++ l) (db_run settle st l).
Proof.
  unfold db_rising. induction l as [|s l IH]; intros t h st R Hh H; cbn [db_run map].
  - now rewrite app_nil_r.
  - cbn [map rising] in R. destruct R as [R1 R2]. pose proof (elected_step settle t h st s Hh R1 H) as [H' _].
    assert (Hh' : forall x, In x (h ++ [s]) -> sb_now x <= sb_now s).
    { intros x Hx. apply in_app_or in Hx as [Hx|[<-|[]]]; [apply Hh in Hx|]; lia. }
    specialize (IH (sb_now s) (h ++ [s]) _ R2 Hh' H'). rewrite <- app_assoc in IH. exact IH.
Qed.

Lemma rising_split t a x b : rising t (a ++ x :: b) -> rising t a /\ t <= x /\ rising x b.
Proof.
  revert t. induction a as [|y a IH]; simpl; intros t; [tauto|]. intros [H1 H2]. apply IH in H2. intuition lia.
Qed.
Lemma rising_ge t l x : rising t l -> In x l -> t <= x.
Proof.
  revert t. induction l as [|y l IH]; simpl; intros t H Hx; [contradiction|]. destruct H as [H1 H2].
  destruct Hx as [<-|Hx]; [assumption|]. specialize (IH _ H2 Hx). lia.
Qed.

Lemma db_proceed_empty settle st s : snd (db_step settle st s) = DBProceed -> fst (db_step settle st s) = deb_empty.
Proof.
  unfold db_step, db_script. destruct (fresh_value (db_winner st) (sb_srv s)) as [[w e]|]; [|discriminate].
  destruct (String.eqb w (sb_key s)); [|discriminate].
  destruct (settle <=? _); [reflexivity|discriminate].
Qed.

Theorem debounce_new_burst settle t l1 s1 l2 s2 : db_rising t (l1 ++ s1 :: l2 ++ [s2]) ->
  snd (db_step settle (db_run settle deb_empty l1) s1) = DBProceed ->
  snd (db_step settle (db_run settle deb_empty (l1 ++ s1 :: l2)) s2) = DBProceed ->
  exists x, In x l2 /\ sb_key x = sb_key s2 /\ sb_now s1 <= sb_now x /\ sb_now x + settle <= sb_now s2.
Proof.
  intros R E1 E2. rewrite db_run_app in E2. cbn [db_run] in E2. rewrite (db_proceed_empty _ _ _ E1) in E2.
  unfold db_rising in R. rewrite map_app in R. cbn [map] in R. apply rising_split in R as (_ & _ & R).
  rewrite map_app in R. cbn [map] in R. pose proof (rising_app _ _ _ R) as [R1 R2].
  pose proof (db_run_inv settle l2 (sb_now s1) [] deb_empty R1 (fun x (H : In x []) => match H with end) I) as [_ H2].
  pose proof (elected_run settle l2 (sb_now s1) [] deb_empty R1 (fun x (H : In x []) => match H with end) I) as H1.
  cbn [app] in H1, H2. pose proof (elected_step settle _ _ _ s2 H2 R2 H1) as [_ H3].
  destruct (H3 E2) as (x & Hx & Ex & Tx). exists x. repeat split; auto.
  eapply rising_ge; [exact R1|]. now apply in_map.
Qed.

(** The elected key stays elected while the keys are retained and it has not proceeded. *)
Definition winner_is (k : string) (st : deb) : Prop := exists e, db_winner st = Some (k, e).

Lemma retained_fresh st s w e : db_retained st s -> db_winner st = Some (w, e) -> gone (Some e) (sb_srv s) = false.
Proof. intros [H _] E. specialize (H _ _ E). unfold gone. lia. Qed.

Lemma retained_winner st s w e : db_retained st s -> db_winner st = Some (w, e) -> fresh_value (db_winner st) (sb_srv s) = Some (w, e).
Proof. intros R E. unfold fresh_value. now rewrite E, (retained_fresh _ _ _ _ R E). Qed.

Lemma winner_step settle k st s : winner_is k st -> db_retained st s ->
  (sb_key s = k -> snd (db_step settle st s) <> DBProceed) -> winner_is k (fst (db_step settle st s)).
Proof.
  intros [e E] R N. unfold db_step, db_script in *.
  rewrite (retained_winner _ _ _ _ R E) in *. cbn [fst snd] in *.
  destruct (String.eqb_spec k (sb_key s)) as [->|Nk].
  - destruct (settle <=? _); cbn [fst snd] in *; [exfalso; apply N; reflexivity|]. eexists; reflexivity.
  - eexists; reflexivity.
Qed.

Lemma winner_run settle k : forall l st, winner_is k st ->
  db_along settle (fun st s => db_retained st s /\ (sb_key s = k -> snd (db_step settle st s) <> DBProceed)) st l ->
  winner_is k (db_run settle st l).
Proof.
  induction l as [|s l IH]; simpl; intros st W H; [assumption|]. destruct H as [[H1 H2] H3].
  apply IH; [|assumption]. now apply winner_step.
Qed.

Lemma resched_winner settle st s r : snd (db_step settle st s) = DBReschedule r -> winner_is (sb_key s) (fst (db_step settle st s)).
Proof.
  unfold db_step, db_script. destruct (fresh_value (db_winner st) (sb_srv s)) as [[w e]|] eqn:F; cbn [fst snd].
  - destruct (String.eqb_spec w (sb_key s)) as [->|]; [|discriminate]. destruct (settle <=? _); [discriminate|].
    intros _. eexists; reflexivity.
  - intros _. eexists; reflexivity.
Qed.

Theorem debounce_elected settle st s l s' r : snd (db_step settle st s) = DBReschedule r -> sb_key s' = sb_key s ->
  db_along settle (fun st x => db_retained st x /\ (sb_key x = sb_key s -> snd (db_step settle st x) <> DBProceed))
    (fst (db_step settle st s)) l ->
  let st' := db_run settle (fst (db_step settle st s)) l in
  db_retained st' s' ->
  snd (db_step settle st' s') <> DBDrop /\
  (forall x, db_retained st' x -> sb_key x <> sb_key s -> snd (db_step settle st' x) = DBDrop).
Proof.
  intros E Ek A st' R. pose proof (winner_run settle (sb_key s) l _ (resched_winner _ _ _ _ E) A) as [e W].
  fold st' in W. split.
  - unfold db_step, db_script. rewrite (retained_winner _ _ _ _ R W). cbn [fst snd].
    rewrite Ek, String.eqb_refl. destruct (settle <=? _); discriminate.
  - intros x Rx Nx. unfold db_step, db_script. rewrite (retained_winner _ _ _ _ Rx W). cbn [fst snd].
    rewrite eqb_neq_string by congruence. reflexivity.
Qed.

(** The reported delay is exact: with no other submission in between the elected
    task proceeds when it comes back, and not earlier. *)
Theorem debounce_delay settle t l s r s' : 0 < settle -> db_rising t (l ++ [s]) ->
  let st := db_run settle deb_empty l in
  snd (db_step settle st s) = DBReschedule r -> sb_key s' = sb_key s ->
  db_retained (fst (db_step settle st s)) s' ->
  0 < r <= settle /\
  (snd (db_step settle (fst (db_step settle st s)) s') = DBProceed <-> sb_now s + r <= sb_now s').
Proof.
  intros Hs R st E Ek Rt. apply db_rising_app in R as [R1 R2].
  pose proof (db_run_inv settle l t [] deb_empty R1 (fun x (H : In x []) => match H with end) I) as [H _].
  cbn [app] in H. fold st in H.
  assert (S : exists e ts, fst (db_step settle st s) = mkDeb (Some (sb_key s, e)) (Some (ts, e)) /\ sb_now s + r = ts + settle /\ 0 < r <= settle).
  { revert E. unfold db_step, db_script, fresh_value. unfold DBI in H.
    destruct (db_winner st) as [[w e]|]; destruct (db_seen st) as [[ts e']|]; try contradiction.
    - destruct H as (<- & H1 & _). destruct (gone (Some e) (sb_srv s)); cbn [fst snd].
      + intros [= <-]. eexists _, _. split; [reflexivity|lia].
      + destruct (String.eqb_spec w (sb_key s)) as [->|]; [|discriminate].
        destruct (settle <=? sb_now s - ts) eqn:X; [discriminate|]. intros [= <-]. cbn [fst snd pexpire].
        eexists _, _. split; [reflexivity|]. lia.
    - cbn [fst snd]. intros [= <-]. eexists _, _. split; [reflexivity|lia]. }
  destruct S as (e & ts & S & T & Hr). split; [exact Hr|]. rewrite S in *.
  unfold db_step, db_script. unfold fresh_value at 1. cbn [db_winner db_seen].
  rewrite (retained_fresh _ _ _ _ Rt eq_refl). unfold fresh_value. rewrite (retained_fresh _ _ _ _ Rt eq_refl).
  rewrite Ek, String.eqb_refl. destruct (settle <=? sb_now s' - ts) eqn:X; cbn [fst snd]; split; intros; try reflexivity; try discriminate; lia.
Qed.

(** If the elected task never comes back and submissions keep arriving before the
    keys expire, every one of them is dropped. *)
Theorem debounce_starved settle k : forall l st, winner_is k st ->
  db_along settle (fun st s => db_retained st s /\ sb_key s <> k) st l ->
  Forall (fun x => snd x = DBDrop) (db_trace settle st l).
Proof.
  induction l as [|s l IH]; intros st W H; cbn [db_trace]; [constructor|]. destruct H as [[R N] H].
  constructor; cbn [snd].
  - destruct W as [e W]. unfold db_step, db_script. rewrite (retained_winner _ _ _ _ R W).
    rewrite eqb_neq_string by congruence. reflexivity.
  - apply IH; [|assumption]. apply winner_step; auto.
Qed.

(** After a quiet time of ten settle periods the next submission is elected. *)
Theorem debounce_recovers settle t l s : 0 < settle -> db_rising t l ->
  (forall x, In x l -> sb_srv x + settle * 10 < sb_srv s) ->
  snd (db_step settle (db_run settle deb_empty l) s) = DBReschedule settle.
Proof.
  intros Hs R H.
  assert (K : forall l st, (forall x, In x l -> sb_srv x + settle * 10 < sb_srv s) ->
    (forall w e, db_winner st = Some (w, e) -> e < sb_srv s) -> forall w e, db_winner (db_run settle st l) = Some (w, e) -> e < sb_srv s).
  { clear. induction l as [|x l IH]; intros st H W; [exact W|]. cbn [db_run]. apply IH; [intros y Hy; apply H; simpl; auto|].
    specialize (H x (or_introl eq_refl)). intros w e. unfold db_step, db_script.
    destruct (fresh_value (db_winner st) (sb_srv x)) as [[w' e']|]; cbn [fst db_winner].
    - destruct (String.eqb w' (sb_key x)); [destruct (settle <=? _)|]; cbn [fst db_winner deb_empty pexpire]; intros X; inversion X; subst; lia.
    - intros X; inversion X; subst; lia. }
  specialize (K l deb_empty H ltac:(simpl; discriminate)).
  unfold db_step, db_script. unfold fresh_value at 1. destruct (db_winner (db_run settle deb_empty l)) as [[w e]|] eqn:E; [|reflexivity].
  specialize (K _ _ eq_refl). unfold gone. replace (e <? sb_srv s) with true by lia. reflexivity.
Qed.
