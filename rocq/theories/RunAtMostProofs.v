(** Proofs about run_at_most. *)
From Verif Require Import Base ZSet Model GInv KSim Spec RunAtMost SpecRunAtMost.

(** What a step does to the executions. *)
Definition ph_trans (o : op) (h : Z) (p p' : phase) : Prop :=
  p' = p \/ p' = PDone \/ p' = PEnded \/ p' = PStruck \/ (p = PDelivered /\ p' = PClaimed /\ exists t, o = OClaim h t) \/ (p = PClaimed /\ p' = PBody /\ o = OBodyStart h).

Ltac dm := match goal with |- context [match ?t with _ => _ end] => destruct t end.
Ltac same Same := left; apply Same; reflexivity.
Ltac chg h x G P := right; left; split; [reflexivity|]; exists h, x; eexists; split; [exact G|]; split; [reflexivity|]; cbn; rewrite ?P; repeat split; unfold ph_trans; eauto 10.
Lemma exec_shape c s o : let s' := fst (step c s o) in
  (s_nextx s <= s_nextx s' /\ exists l, s_execs s' = s_execs s ++ l /\ (forall x, In x l -> x_id x = s_nextx s /\ s_nextx s < s_nextx s')) \/
  (s_nextx s' = s_nextx s /\ exists h x f, get_exec (s_execs s) h = Some x /\ s_execs s' = upd_exec (s_execs s) h f /\
     x_id (f x) = x_id x /\ x_worker (f x) = x_worker x /\ x_msg (f x) = x_msg x /\ ph_trans o h (x_phase x) (x_phase (f x))) \/
  (s_nextx s' = s_nextx s /\ exists g, s_execs s' = filter g (s_execs s)).
Proof.
  cbv zeta.
  assert (Same : forall s', s_nextx s' = s_nextx s -> s_execs s' = s_execs s ->
    (s_nextx s <= s_nextx s' /\ exists l, s_execs s' = s_execs s ++ l /\ (forall x, In x l -> x_id x = s_nextx s /\ s_nextx s < s_nextx s'))).
  { intros s' E1 E2. split; [lia|]. exists []. rewrite app_nil_r. split; [exact E2|intros x []]. }
  destruct o; cbn [step]; try (left; apply Same; reflexivity).
  - destruct (0 <=? dt); left; apply Same; reflexivity.
  - dm; same Same.
  - dm; same Same.
  - unfold deliver. dm. dm; [dm|]; left; cbn; [|apply Same; reflexivity]. split; [lia|]. eexists. split; [reflexivity|]. intros x [<-|[]]. cbn. lia.
  - unfold deliver. dm. dm; [dm|]; left; cbn; [|apply Same; reflexivity]. split; [lia|]. eexists. split; [reflexivity|]. intros x [<-|[]]. cbn. lia.
  - destruct (get_exec (s_execs s) h) as [x|] eqn:G; [|same Same]. destruct (x_phase x) eqn:P; try (same Same). dm. dm; chg h x G P.
  - destruct (get_exec (s_execs s) h) as [x|] eqn:G; [|same Same]. destruct (x_phase x) eqn:P; try (same Same). chg h x G P.
  - destruct (get_exec (s_execs s) h) as [x|] eqn:G; [|same Same]. destruct (x_phase x) eqn:P; try (same Same). chg h x G P.
  - destruct (get_exec (s_execs s) h) as [x|] eqn:G; [|same Same]. destruct (x_phase x) eqn:P; try (same Same). chg h x G P.
  - destruct (get_exec (s_execs s) h) as [x|] eqn:G; [|same Same]. dm; [|same Same]. dm. chg h x G G.
  - destruct (get_exec (s_execs s) h) as [x|] eqn:G; [|same Same]. dm; [|same Same]. dm. chg h x G G.
  - destruct (get_exec (s_execs s) h) as [x|] eqn:G; [|same Same]. destruct (x_phase x) eqn:P; try (same Same). destruct (x_slot x); [same Same|]. dm. dm; chg h x G P.
  - destruct (get_exec (s_execs s) h) as [x|] eqn:G; [|left; apply Same; reflexivity]. destruct (x_slot x) as [[cc mx]|]; [|left; apply Same; reflexivity].
    assert (Q : x_id (with_slot None (unwind x)) = x_id x /\ x_worker (with_slot None (unwind x)) = x_worker x /\ x_msg (with_slot None (unwind x)) = x_msg x /\ ph_trans (ORelease h t) h (x_phase x) (x_phase (with_slot None (unwind x)))).
    { unfold unwind, ph_trans. destruct (x_phase x) eqn:P; cbn; rewrite ?P; repeat split; auto 10. }
    destruct (x_phase x) eqn:P; try (left; apply Same; reflexivity); right; left; (split; [reflexivity|]); exists h, x, (fun x => with_slot None (unwind x)); (split; [exact G|]); (split; [reflexivity|]); rewrite P; exact Q.
  - destruct (get_exec (s_execs s) h) as [x|] eqn:G; [|left; apply Same; reflexivity]. destruct (x_slot x) as [[cc mx]|]; left; apply Same; reflexivity.
  - right; right. split; [reflexivity|]. eexists. reflexivity.
Qed.

(** Counting. *)
Definition cnt (g : exec -> bool) (l : list exec) : Z := Z.of_nat (length (filter g l)).
Lemma cnt_nonneg g l : 0 <= cnt g l.
Proof. unfold cnt. lia. Qed.
Lemma cnt_app g l l' : cnt g (l ++ l') = cnt g l + cnt g l'.
Proof. unfold cnt. rewrite filter_app, app_length. lia. Qed.
Lemma cnt_cons g x l : cnt g (x :: l) = (if g x then 1 else 0) + cnt g l.
Proof. unfold cnt. cbn. destruct (g x); cbn [length]; lia. Qed.
Lemma cnt_filter g f l : cnt g (filter f l) <= cnt g l.
Proof. induction l as [|x l IH]; [reflexivity|]. cbn. destruct (f x); rewrite ?cnt_cons; destruct (g x); lia. Qed.
Lemma cnt_ext g g' l : (forall x, In x l -> g x = g' x) -> cnt g l = cnt g' l.
Proof. induction l as [|x l IH]; intros H; [reflexivity|]. rewrite !cnt_cons, (H x (or_introl eq_refl)), IH; [reflexivity|]. intros; apply H; now right. Qed.
Lemma cnt_none g l : (forall x, In x l -> g x = false) -> cnt g l = 0.
Proof. induction l as [|x l IH]; intros H; [reflexivity|]. rewrite cnt_cons, (H x (or_introl eq_refl)), IH; [reflexivity|]. intros; apply H; now right. Qed.
Lemma upd_absent l h f : ~ In h (map x_id l) -> upd_exec l h f = l.
Proof. induction l as [|x l IH]; intros H; [reflexivity|]. cbn in H |- *. destruct (Z.eqb_spec (x_id x) h) as [E|E]; [tauto|]. f_equal. apply IH. tauto. Qed.
Lemma cnt_upd g l h f x : NoDup (map x_id l) -> get_exec l h = Some x -> cnt g (upd_exec l h f) = cnt g l - (if g x then 1 else 0) + (if g (f x) then 1 else 0).
Proof.
  induction l as [|y l IH]; intros N G; [discriminate|]. cbn in N. inversion N; subst. unfold get_exec in G. cbn in G. cbn [upd_exec map]. change (map _ l) with (upd_exec l h f).
  destruct (Z.eqb_spec (x_id y) h) as [E|E].
  - injection G as ->. subst h. rewrite upd_absent by assumption. rewrite !cnt_cons. lia.
  - rewrite !cnt_cons, IH by assumption. lia.
Qed.
(** Changing the predicate at one execution only. *)
Lemma cnt_at g g' l h x : NoDup (map x_id l) -> get_exec l h = Some x -> (forall y, x_id y <> h -> g' y = g y) ->
  cnt g' l = cnt g l - (if g x then 1 else 0) + (if g' x then 1 else 0).
Proof.
  induction l as [|y l IH]; intros N G H; [discriminate|]. cbn in N. inversion N; subst. unfold get_exec in G. cbn in G. rewrite !cnt_cons.
  destruct (Z.eqb_spec (x_id y) h) as [E|E].
  - injection G as ->. subst h. rewrite (cnt_ext g' g l); [lia|]. intros z Hz. apply H. intros Ez. apply H2. rewrite <- Ez. now apply in_map.
  - rewrite (H y E), IH by assumption. lia.
Qed.

Section Bound.
Variables (c : cfg) (w : string) (limit : key -> option Z) (k : key) (n W : Z).
Hypothesis Lim : limit k = Some n.
Definition at_most : Z := if n <=? 0 then 0 else n + W - 1.

Definition isPassed (s : ra) (x : exec) : bool :=
  String.eqb (x_worker x) w && String.eqb (m_key (x_msg x)) k &&
  match ra_stage s (x_id x), x_phase x with GPassed, (PDelivered | PClaimed) => true | _, _ => false end.
Definition isCounted (s : ra) (x : exec) : bool :=
  String.eqb (x_worker x) w && String.eqb (m_key (x_msg x)) k &&
  match ra_stage s (x_id x), x_phase x with GCounted, PClaimed => true | _, _ => false end.

Record RInv (S : Z) (s : ra) : Prop := mkRInv {
  ri_g : GInv (ra_sys s);
  ri_new : forall h, s_nextx (ra_sys s) <= h -> ra_stage s h = GNew;
  ri_bound : ra_count s k + cnt (isPassed s) (s_execs (ra_sys s)) <= at_most;
  ri_pos : 0 <= S;
  ri_starts : S + cnt (isCounted s) (s_execs (ra_sys s)) <= ra_count s k }.

(** A step of the docket in which no claim or body start of the worker happens out of
    turn. *)
Lemma RInv_do S s o (d : Z) : RInv S s ->
  (forall h x t, o = OClaim h t -> get_exec (s_execs (ra_sys s)) h = Some x -> String.eqb (x_worker x) w = true -> ra_stage s h = GPassed) ->
  (0 < d -> exists h x, o = OBodyStart h /\ get_exec (s_execs (ra_sys s)) h = Some x /\ isCounted s x = true) -> 0 <= d <= 1 ->
  RInv (S + d) (fst (rdo c s o)).
Proof.
  intros [G N B Po St] Cl Bs Ld. unfold rdo. pose proof (exec_shape c (ra_sys s) o) as Sh. pose proof (GInv_step c (ra_sys s) o G) as G'.
  assert (Db : forall h x, o = OBodyStart h -> get_exec (s_execs (ra_sys s)) h = Some x -> isCounted s x = true -> snd (step c (ra_sys s) o) <> ORefused).
  { intros h x -> Gx I. unfold isCounted in I. cbn [step]. rewrite Gx. destruct (x_phase x); try discriminate; apply andb_prop in I as [_ I]; destruct (ra_stage s (x_id x)); discriminate. }
  assert (Bx : forall h x, o = OBodyStart h -> get_exec (s_execs (ra_sys s)) h = Some x -> isCounted s x = true -> s_execs (fst (step c (ra_sys s) o)) = upd_exec (s_execs (ra_sys s)) h (with_phase PBody)).
  { intros h x -> Gx I. unfold isCounted in I. cbn [step]. rewrite Gx. destruct (x_phase x); try reflexivity; apply andb_prop in I as [_ I]; destruct (ra_stage s (x_id x)); discriminate. }
  destruct (step c (ra_sys s) o) as [s' r] eqn:E. cbn [fst snd] in *.
  assert (Nd : NoDup (map x_id (s_execs (ra_sys s)))) by apply (xi_nodup _ (proj2 G)).
  constructor; cbn [ra_sys ra_stage ra_count].
  - exact G'.
  - intros h Hh. apply N. destruct Sh as [[X _]|[[X _]|[X _]]]; lia.
  - change (isPassed _) with (isPassed s). destruct Sh as [[_ (l & -> & Hl)]|[[_ (h & x & f & Gx & -> & F1 & F2 & F3 & T)]|[_ (g & ->)]]].
    + rewrite cnt_app, (cnt_none _ l); [lia|]. intros x Hx. destruct (Hl x Hx) as [X _]. unfold isPassed. rewrite X, (N (s_nextx (ra_sys s))) by lia. apply andb_false_r.
    + rewrite (cnt_upd _ _ h f x Nd Gx). enough (isPassed s (f x) = true -> isPassed s x = true) by (destruct (isPassed s x), (isPassed s (f x)); try lia; specialize (H eq_refl); discriminate).
      unfold isPassed. rewrite F1, F2, F3. destruct (String.eqb (x_worker x) w) eqn:Ew; cbn [andb]; [|discriminate]. destruct (String.eqb (m_key (x_msg x)) k); cbn [andb]; [|discriminate].
      destruct (ra_stage s (x_id x)); try discriminate. destruct T as [->|[->|[->|[->|[(-> & -> & _)|(-> & -> & _)]]]]]; auto; discriminate.
    + pose proof (cnt_filter (isPassed s) g (s_execs (ra_sys s))). lia.
  - lia.
  - change (isCounted _) with (isCounted s).
    assert (Le : cnt (isCounted s) (s_execs s') <= cnt (isCounted s) (s_execs (ra_sys s))).
    { destruct Sh as [[_ (l & -> & Hl)]|[[_ (h & x & f & Gx & -> & F1 & F2 & F3 & T)]|[_ (g & ->)]]].
      + rewrite cnt_app, (cnt_none _ l); [lia|]. intros x Hx. destruct (Hl x Hx) as [X _]. unfold isCounted. rewrite X, (N (s_nextx (ra_sys s))) by lia. apply andb_false_r.
      + rewrite (cnt_upd _ _ h f x Nd Gx). enough (isCounted s (f x) = true -> isCounted s x = true) by (destruct (isCounted s x), (isCounted s (f x)); try lia; specialize (H eq_refl); discriminate).
        unfold isCounted. rewrite F1, F2, F3. destruct (String.eqb (x_worker x) w) eqn:Ew; cbn [andb]; [|discriminate]. destruct (String.eqb (m_key (x_msg x)) k); cbn [andb]; [|discriminate].
        destruct (ra_stage s (x_id x)) eqn:Sg; try discriminate. destruct T as [->|[->|[->|[->|[(Pd & -> & t & ->)|(-> & -> & _)]]]]]; auto; try discriminate.
        destruct (get_exec_spec _ _ _ Gx) as [_ Ix]. rewrite Ix in Sg. rewrite (Cl h x t eq_refl Gx Ew) in Sg. discriminate.
      + apply cnt_filter. }
    destruct (Z.le_gt_cases d 0) as [Ld0|Gd]; [lia|]. destruct (Bs Gd) as (h & x & Eo & Gx & I).
    rewrite (Bx h x Eo Gx I), (cnt_upd _ _ h _ x Nd Gx), I.
    replace (isCounted s (with_phase PBody x)) with false; [lia|]. unfold isCounted. cbn. destruct (ra_stage s (x_id x)); now rewrite andb_false_r.
Qed.

Lemma isPassed_stage s s' x : ra_stage s' (x_id x) = ra_stage s (x_id x) -> isPassed s' x = isPassed s x /\ isCounted s' x = isCounted s x.
Proof. intros E. unfold isPassed, isCounted. now rewrite E. Qed.

Lemma RInv_step S s o : RInv S s -> cnt (isPassed (fst (rstep c w limit s o))) (s_execs (ra_sys (fst (rstep c w limit s o)))) <= W ->
  RInv (S + starts_one c w limit k s o) (fst (rstep c w limit s o)).
Proof.
  intros I Hw. pose proof I as [G N B Po St]. assert (Nd : NoDup (map x_id (s_execs (ra_sys s)))) by apply (xi_nodup _ (proj2 G)).
  assert (Id : RInv (S + 0) s) by (rewrite Z.add_0_r; exact I).
  assert (Do : forall o, (forall h t, o <> OClaim h t) -> (forall h, o <> OBodyStart h) -> RInv (S + 0) (fst (rdo c s o))).
  { intros o' N1 N2. apply RInv_do; [exact I|intros h x t ->; destruct (N1 h t eq_refl)|lia|lia]. }
  assert (Mine : forall h x, mine w s h = Some x -> get_exec (s_execs (ra_sys s)) h = Some x /\ String.eqb (x_worker x) w = true /\ x_id x = h).
  { intros h x. unfold mine. destruct (get_exec (s_execs (ra_sys s)) h) as [y|] eqn:Gy; [|discriminate]. destruct (String.eqb (x_worker y) w) eqn:Ew; [|discriminate].
    intros [= <-]. destruct (get_exec_spec _ _ _ Gy). auto. }
  destruct o as [h other|h|own repl a t|o]; cbn [rstep] in *.
  - unfold starts_one. cbn [rstep]. destruct (mine w s h) as [x|] eqn:M; [|exact Id]. destruct (Mine h x M) as (Gx & Ew & Ix).
    destruct (x_phase x) eqn:P; try exact Id. destruct (ra_stage s h) eqn:Sg; try exact Id. cbn [fst snd] in *. rewrite Z.add_0_r.
    set (s' := mkRA _ _ _) in *. assert (Ot : forall y, x_id y <> h -> ra_stage s' (x_id y) = ra_stage s (x_id y)) by (intros y Hy; unfold s', set_stage; cbn; destruct (Z.eqb_spec (x_id y) h); congruence).
    assert (Sh : ra_stage s' h = if other || reached limit s (m_key (x_msg x)) then GStruck else GPassed) by (unfold s', set_stage; cbn; now rewrite Z.eqb_refl).
    constructor.
    + exact G.
    + intros h' Hh. destruct (Z.eq_dec h' h) as [->|Nh]; [|unfold s', set_stage; cbn; destruct (Z.eqb_spec h' h); [congruence|apply N; exact Hh]].
      destruct (get_exec_spec _ _ _ Gx) as [Hx _]. pose proof (xi_next _ (proj2 G) x Hx). cbn in Hh. lia.
    + change (ra_count s') with (ra_count s). change (ra_sys s') with (ra_sys s) in *.
      rewrite (cnt_at (isPassed s) (isPassed s') _ h x Nd Gx) in * by (intros y Hy; apply isPassed_stage, Ot, Hy).
      assert (F : isPassed s x = false) by (unfold isPassed; rewrite Ix, Sg; apply andb_false_r). rewrite F in *.
      destruct (isPassed s' x) eqn:Pa; [|lia]. unfold isPassed in Pa. rewrite Ix, Sh in Pa. apply andb_prop in Pa as [Pa Pb]. apply andb_prop in Pa as [_ Pk]. apply String.eqb_eq in Pk.
      destruct (other || reached limit s (m_key (x_msg x))) eqn:Re; [discriminate|]. apply orb_false_iff in Re as [_ Re]. unfold reached in Re. rewrite Pk, Lim in Re.
      pose proof (cnt_nonneg (isCounted s) (s_execs (ra_sys s))). unfold at_most. destruct (Z.leb_spec n 0); lia.
    + exact Po.
    + change (ra_count s') with (ra_count s). change (ra_sys s') with (ra_sys s).
      rewrite (cnt_at (isCounted s) (isCounted s') _ h x Nd Gx) by (intros y Hy; apply isPassed_stage, Ot, Hy).
      assert (F : isCounted s x = false) by (unfold isCounted; rewrite Ix, Sg; apply andb_false_r). rewrite F.
      assert (F' : isCounted s' x = false) by (unfold isCounted; rewrite Ix, Sh; destruct (_ || _); apply andb_false_r). rewrite F'. lia.
  - unfold starts_one. cbn [rstep]. destruct (mine w s h) as [x|] eqn:M; [|exact Id]. destruct (Mine h x M) as (Gx & Ew & Ix).
    destruct (x_phase x) eqn:P; try exact Id. destruct (ra_stage s h) eqn:Sg; try exact Id. cbn [fst snd] in *. rewrite Z.add_0_r. clear Hw.
    set (s' := mkRA _ _ _) in *. assert (Ot : forall y, x_id y <> h -> ra_stage s' (x_id y) = ra_stage s (x_id y)) by (intros y Hy; unfold s', set_stage; cbn; destruct (Z.eqb_spec (x_id y) h); congruence).
    assert (Sh : ra_stage s' h = GCounted) by (unfold s', set_stage; cbn; now rewrite Z.eqb_refl).
    assert (Cn : ra_count s' k = ra_count s k + if String.eqb (m_key (x_msg x)) k then 1 else 0).
    { unfold s'. cbn. destruct (String.eqb_spec (m_key (x_msg x)) k) as [->|Ek]; [rewrite Lim, upd_eq; reflexivity|]. destruct (limit (m_key (x_msg x))); [rewrite upd_neq by congruence|]; lia. }
    change (ra_sys s') with (ra_sys s) in *. constructor.
    + exact G.
    + intros h' Hh. destruct (Z.eq_dec h' h) as [->|Nh]; [|unfold s', set_stage; cbn; destruct (Z.eqb_spec h' h); [congruence|apply N; exact Hh]].
      destruct (get_exec_spec _ _ _ Gx) as [Hx _]. pose proof (xi_next _ (proj2 G) x Hx). cbn in Hh. lia.
    + change (ra_sys s') with (ra_sys s). rewrite (cnt_at (isPassed s) (isPassed s') _ h x Nd Gx) by (intros y Hy; apply isPassed_stage, Ot, Hy).
      assert (F : isPassed s x = String.eqb (m_key (x_msg x)) k) by (unfold isPassed; rewrite Ix, Sg, P, Ew; cbn; apply andb_true_r).
      assert (F' : isPassed s' x = false) by (unfold isPassed; rewrite Ix, Sh; apply andb_false_r). rewrite F, F', Cn. destruct (String.eqb (m_key (x_msg x)) k); lia.
    + exact Po.
    + change (ra_sys s') with (ra_sys s). rewrite (cnt_at (isCounted s) (isCounted s') _ h x Nd Gx) by (intros y Hy; apply isPassed_stage, Ot, Hy).
      assert (F : isCounted s' x = String.eqb (m_key (x_msg x)) k) by (unfold isCounted; rewrite Ix, Sh, P, Ew; cbn; apply andb_true_r).
      assert (F' : isCounted s x = false) by (unfold isCounted; rewrite Ix, Sg; apply andb_false_r). rewrite F, F', Cn. destruct (String.eqb (m_key (x_msg x)) k); lia.
  - replace (starts_one c w limit k s (RAdd own repl a t)) with 0 by reflexivity. destruct (own && reached limit s (a_key a)); [exact Id|]. apply Do; destruct repl; discriminate.
  - assert (Z0 : (forall h, o <> OBodyStart h) -> starts_one c w limit k s (RDo o) = 0) by (intros X; unfold starts_one; destruct o; try reflexivity; destruct (X h eq_refl)).
    destruct o; try (rewrite Z0 by discriminate; first [exact Id | apply Do; discriminate]).
    + (* claim *) rewrite Z0 by discriminate.
      assert (Y : (forall x, mine w s h = Some x -> ra_stage s h = GPassed) -> RInv (S + 0) (fst (rdo c s (OClaim h t)))).
      { intros Q. apply RInv_do; [exact I| |lia|lia]. intros h' x t' [= <- <-] Gx Ex. apply (Q x). unfold mine. now rewrite Gx, Ex. }
      destruct (mine w s h) as [x|] eqn:M; [|apply Y; discriminate]. destruct (ra_stage s h) eqn:Sg; try exact Id. apply Y. auto.
    + (* body *) assert (Other : mine w s h = None -> starts_one c w limit k s (RDo (OBodyStart h)) = 0).
      { intros M. unfold starts_one. destruct (snd _); try reflexivity. replace (existsb _ _) with false; [rewrite andb_false_r; reflexivity|].
        symmetry. apply not_true_iff_false. intros Ex. apply existsb_exists in Ex as (y & Y1 & Y2). apply andb_prop in Y2 as [Y2 Y3]. apply Z.eqb_eq in Y2.
        assert (Gy : get_exec (s_execs (ra_sys s)) h = Some y).
        { destruct (get_exec (s_execs (ra_sys s)) h) as [z|] eqn:Gz.
          - destruct (get_exec_spec _ _ _ Gz) as [Z1 Z2]. f_equal. eapply execs_inj; [apply (proj2 G)|exact Z1|exact Y1|congruence].
          - exfalso. unfold get_exec in Gz. apply find_none with (x := y) in Gz; [lia|exact Y1]. }
        unfold mine in M. rewrite Gy, Y3 in M. discriminate. }
      destruct (mine w s h) as [x|] eqn:M.
      * destruct (Mine h x M) as (Gx & Ew & Ix). destruct (ra_stage s h) eqn:Sg;
          try (replace (starts_one c w limit k s (RDo (OBodyStart h))) with 0 by (unfold starts_one; cbn [rstep]; rewrite M, Sg; reflexivity); exact Id).
        assert (Bd : starts_one c w limit k s (RDo (OBodyStart h)) <= 1 /\ 0 <= starts_one c w limit k s (RDo (OBodyStart h))) by (unfold starts_one; destruct (snd _); try lia; destruct (_ && _); lia).
        apply RInv_do; [exact I|intros ? ? ? [=]| |lia].
        intros Pos. exists h, x. split; [reflexivity|]. split; [exact Gx|]. unfold isCounted. rewrite Ix, Sg, Ew. cbn [andb].
        revert Pos. unfold starts_one. cbn [rstep]. rewrite M, Sg. unfold rdo. cbn [step]. rewrite Gx. destruct (x_phase x) eqn:P; cbn [snd]; try lia.
        destruct (String.eqb (m_key (x_msg x)) k); cbn [andb]; [reflexivity|lia].
      * rewrite Other by reflexivity. apply RInv_do; [exact I|intros ? ? ? [=]|lia|lia].
    + (* del known *) rewrite Z0 by discriminate. destruct (mine w s h) as [x|] eqn:M; [destruct (ra_stage s h)|]; first [exact Id | apply Do; discriminate].
Qed.

Lemma RInv_run l : forall S s, RInv S s -> ralong c w limit (fun s => cnt (isPassed s) (s_execs (ra_sys s)) <= W) s l ->
  RInv (S + starts_of c w limit k s l) (rrun c w limit s l).
Proof.
  induction l as [|o l IH]; intros S s I A; cbn; [now rewrite Z.add_0_r|]. destruct A as [_ A]. rewrite Z.add_assoc. apply IH; [|exact A].
  apply RInv_step; [exact I|]. destruct l; [exact A|apply A].
Qed.
End Bound.
