(** C92: the body of a task gets what was submitted. *)
From Verif Require Import Base Text Strike Bind SpecBind BindProofs BodyCall SpecBodyCall BodyCallProofs.

Lemma final_accepted ps args kw value : signature ps -> clear_names ps kw -> accepted ps args kw -> plain_stars ps ->
  dependencies_by_keyword ps args -> ordinary_names ps ->
  let kw' := merge kw (task_dependencies (resolve ps kw value)) in clear_names ps kw' /\ accepted ps args kw'.
Proof.
  intros [O D] Cl [Room Once Given Known] Ps Dk On kw'.
  assert (Iff : forall n, In n (map fst kw') <-> In n (map fst kw) \/ exists p, In p ps /\ q_default p = DDependency /\ q_name p = n).
  { intros n. rewrite <- !kget_some. unfold kw'. rewrite final_keyword by assumption. destruct (kget kw n) as [w|]; cbn [is_some]; [intuition|].
    destruct (existsb _ ps) eqn:E; cbn [is_some].
    - apply existsb_exists in E. destruct E as (p & I & E). destruct (q_default p) eqn:Dp; try discriminate. apply String.eqb_eq in E. split; [intros _; right; now exists p|reflexivity].
    - split; [discriminate|]. intros [X|(p & I & Dp & En)]; [discriminate|]. rewrite <- E. apply existsb_exists. exists p. split; [exact I|]. rewrite Dp. now apply String.eqb_eq. }
  assert (Dn : forall p q, In p ps -> In q ps -> q_default q = DDependency -> q_name q = q_name p -> by_keyword p).
  { intros p q I J Dq E. rewrite (same_name ps p q D I J (eq_sym E)) in *. destruct (In_nth_error ps q J) as [i X]. now apply (Dk i q X). }
  split.
  - intros p I J. apply Iff in J. destruct J as [J|(q & J & Dq & E)]; [now apply Cl|now apply (Dn p q)].
  - split.
    + exact Room.
    + intros i p X K L J. apply Iff in J. destruct J as [J|(q & J & Dq & E)]; [now apply (Once i p X K L)|].
      rewrite (same_name ps q p D J (nth_error_In _ _ X) E) in Dq. destruct (Dk i p X Dq) as [_ G]. specialize (G K). lia.
    + intros i p X Dp Sp. destruct (Given i p X Dp Sp) as [G|[G1 G2]]; [now left|right]. split; [exact G1|]. apply Iff. now left.
    + intros n J. apply Iff in J. destruct J as [J|(p & I & Dp & <-)]; [now apply Known|]. left. exists p. split; [exact I|]. split; [|reflexivity]. now apply (Dn p p).
Qed.

Lemma NoDup_app_join {A} (a b : list A) : NoDup a -> NoDup b -> (forall x, In x a -> In x b -> False) -> NoDup (a ++ b).
Proof.
  induction a as [|x a IH]; intros Na Nb D; [exact Nb|]. inversion Na as [|? ? N Na']; subst. cbn. constructor.
  - rewrite in_app_iff. intros [I|I]; [contradiction|]. apply (D x); [now left|exact I].
  - apply IH; [exact Na'|exact Nb|]. intros y I. apply D. now right.
Qed.
Lemma NoDup_filter_names (f : string * pv -> bool) l : NoDup (map fst l) -> NoDup (map fst (filter f l)).
Proof.
  induction l as [|e l IH]; cbn; intros D; [constructor|]. inversion D as [|? ? N D']; subst. destruct (f e); [|now apply IH]. cbn. constructor; [|now apply IH].
  intros I. apply N. apply in_map_iff in I. destruct I as (x & <- & I). apply filter_In in I. apply in_map. tauto.
Qed.
Lemma resolve_nodup ps kw value : NoDup (map q_name ps) -> NoDup (map fst (resolve ps kw value)).
Proof.
  induction ps as [|q ps IH]; intros D; [constructor|]. cbn in D. inversion D as [|? ? N D']; subst. unfold resolve. cbn [flat_map]. fold (resolve ps kw value).
  rewrite map_app. apply NoDup_app_join; [destruct (q_default q); cbn; repeat constructor; tauto|now apply IH|].
  intros x I J. apply in_map_iff in I. destruct I as (e & <- & I). apply resolve_name in I. apply resolve_names in J. destruct J as (r & Ir & _ & Er).
  apply N. rewrite <- I, <- Er. now apply in_map.
Qed.
Lemma final_nodup ps kw value : NoDup (map q_name ps) -> call_ok kw -> NoDup (map fst (merge kw (task_dependencies (resolve ps kw value)))).
Proof.
  intros D Ok. unfold merge. rewrite map_app, map_map. cbn [fst]. apply NoDup_app_join; [exact Ok|apply NoDup_filter_names, NoDup_filter_names, resolve_nodup, D|].
  intros x I J. apply in_map_iff in J. destruct J as (e & <- & J). apply filter_In in J. destruct J as [_ J]. apply negb_true_iff, is_some_false, kget_None in J. contradiction.
Qed.

(** For every call Python takes: the body is called, and each of its parameters has the
    value the caller gave for it, else its dependency's, else its default; the star
    parameters have exactly the rest.  Missing from the full statement: dependency
    parameters given by position (false, below). *)
Theorem C92_gets_partial ps args kw value : signature ps -> call_ok kw -> clear_names ps kw -> accepted ps args kw -> plain_stars ps ->
  dependencies_by_keyword ps args -> ordinary_names ps ->
  exists body, body_call ps args kw value = Some body /\
    (forall i p v, nth_error ps i = Some p -> star (q_kind p) = false -> (kget body (q_name p) = Some v <-> should_get ps args kw value (q_name p) v)) /\
    (forall i p, nth_error ps i = Some p -> q_kind p = PStar -> kget body (q_name p) = Some (PTup (skipn i args))) /\
    (forall p, In p ps -> q_kind p = KStar -> exists l, kget body (q_name p) = Some (dict l) /\ forall n v, In (n, v) l <-> gets_extra ps kw n v).
Proof.
  intros Sg Ok Cl Ac Ps Dk On. pose proof Sg as [O D]. destruct (final_accepted ps args kw value Sg Cl Ac Ps Dk On) as [Cl' Ac'].
  set (kw' := merge kw _) in *. destruct (bind_complete ps args kw' Sg Cl' Ac') as [b Hb].
  destruct (bind_spec ps args kw' b Sg Hb) as (A & B & _). destruct (bind_stars ps args kw' b Sg Hb) as [St Ks].
  exists (apply_defaults ps b). split; [unfold body_call, call; fold kw'; now rewrite Hb|].
  assert (W : forall p, In p ps -> kget (apply_defaults ps b) (q_name p) = kget (with_default b p) (q_name p)).
  { intros p I. unfold apply_defaults. apply kget_flat_map; [exact D| |exact I]. intros q [n v] J. now apply with_default_name in J. }
  assert (Fk : forall n, kget kw' n = match kget kw n with Some v => Some v | None => if existsb (fun p => match q_default p with DDependency => String.eqb (q_name p) n | _ => false end) ps then Some (value n) else None end).
  { intros n. now apply final_keyword. }
  assert (Ed : forall p, In p ps -> existsb (fun q => match q_default q with DDependency => String.eqb (q_name q) (q_name p) | _ => false end) ps = match q_default p with DDependency => true | _ => false end).
  { intros p I. destruct (existsb _ ps) eqn:E.
    - apply existsb_exists in E. destruct E as (q & J & E). destruct (q_default q) eqn:Dq; try discriminate. apply String.eqb_eq in E. rewrite (same_name ps q p D J I E) in Dq. now rewrite Dq.
    - destruct (q_default p) eqn:Dp; try reflexivity. exfalso.
      assert (X : existsb (fun q => match q_default q with DDependency => String.eqb (q_name q) (q_name p) | _ => false end) ps = true); [|congruence].
      apply existsb_exists. exists p. split; [exact I|]. rewrite Dp. apply String.eqb_refl. }
  assert (W1 : forall b p, kget (with_default b p) (q_name p) = match kget b (q_name p) with Some v => Some v | None =>
    match q_kind p, q_default p with PStar, _ => Some (PTup []) | KStar, _ => Some (dict []) | _, DValue v => Some v | _, DDependency => Some object | _, DNone => None end end).
  { intros b0 p. unfold with_default. destruct (kget b0 (q_name p)); [now rewrite kget_cons, String.eqb_refl|].
    destruct (q_kind p), (q_default p); rewrite ?kget_cons, ?String.eqb_refl; reflexivity. }
  split; [|split].
  - intros i p v X Sp. pose proof (nth_error_In _ _ X) as I. rewrite (W p I), W1, (A i p X Sp). unfold bound. rewrite (Fk (q_name p)), (Ed p I).
    assert (Same : forall j q, nth_error ps j = Some q -> q_name q = q_name p -> j = i /\ q = p).
    { intros j q Y E. pose proof (same_name ps q p D (nth_error_In _ _ Y) I E) as ->. split; [|reflexivity].
      assert (Nd : NoDup ps) by (now apply NoDup_map_inv in D). apply (proj1 (NoDup_nth_error ps) Nd); [apply nth_error_Some; congruence|congruence]. }
    destruct (by_pos p) eqn:Bp; [destruct (nth_error args i) as [a|] eqn:Na|].
    + (* by position *) apply by_pos_spec in Bp. assert (L : (i < length args)%nat) by (apply nth_error_Some; congruence). split.
      * intros [= <-]. left. exists i, p. split; [exact X|]. split; [reflexivity|]. left. now split.
      * intros [(j & q & Y & E & G)|[(j & q & Y & E & Dq & Sq & Np & _) _]]; destruct (Same j q Y E) as [-> ->].
        -- destruct G as [[_ G]|[[G1 G2]|(_ & G & _)]]; [congruence| |exfalso; apply G; now split].
           exfalso. assert (K : q_kind p = PEither) by (destruct Bp, G1; congruence). apply (ac_once _ _ _ Ac i p X K L). apply in_map_iff. now exists (q_name p, v).
        -- exfalso. apply Np. now split.
    + apply nth_error_None in Na. assert (Np : ~ (by_position p /\ (i < length args)%nat)) by (intros [_ Y]; lia).
      destruct (keywordable p) eqn:Kp.
      * destruct (kget kw (q_name p)) as [w|] eqn:G.
        -- apply keywordable_spec in Kp. split.
           ++ intros [= <-]. left. exists i, p. split; [exact X|]. split; [reflexivity|]. right. left. split; [exact Kp|now apply kget_In].
           ++ intros [(j & q & Y & E & H)|[(j & q & Y & E & Dq & Sq & _ & Ni) _]]; destruct (Same j q Y E) as [-> ->].
              ** destruct H as [[_ H]|[[_ H]|(_ & _ & H & _)]]; [assert ((i < length args)%nat) by (apply nth_error_Some; congruence); lia| |].
                 --- apply (kget_In_iff _ _ _ Ok) in H. congruence.
                 --- apply kget_None in H. congruence.
              ** apply kget_None in Ni. congruence.
        -- pose proof G as Ni. apply kget_None in Ni. destruct (q_default p) as [|w|] eqn:Dp.
           ++ exfalso. destruct (ac_given _ _ _ Ac i p X Dp Sp) as [H|[_ H]]; [now apply Np|contradiction].
           ++ assert (R : match q_kind p with PStar => Some (PTup []) | KStar => Some (dict []) | _ => Some w end = Some w) by (destruct (q_kind p); try discriminate Sp; reflexivity). rewrite R. split.
              ** intros [= <-]. left. exists i, p. split; [exact X|]. split; [reflexivity|]. right. right. repeat split; assumption.
              ** intros [(j & q & Y & E & H)|[(j & q & Y & E & Dq & _) _]]; destruct (Same j q Y E) as [-> ->]; [|congruence].
                 destruct H as [[_ H]|[[_ H]|(_ & _ & _ & H)]]; [assert ((i < length args)%nat) by (apply nth_error_Some; congruence); lia| |congruence].
                 exfalso. apply Ni. apply in_map_iff. now exists (q_name p, v).
           ++ split.
              ** intros [= <-]. right. split; [|reflexivity]. exists i, p. repeat split; try assumption.
              ** intros [(j & q & Y & E & H)|[_ ->]]; [|reflexivity]. destruct (Same j q Y E) as [-> ->].
                 destruct H as [[_ H]|[[_ H]|(_ & _ & _ & H)]]; [assert ((i < length args)%nat) by (apply nth_error_Some; congruence); lia| |congruence].
                 exfalso. apply Ni. apply in_map_iff. now exists (q_name p, v).
      * (* positional-only *) assert (Ni : ~ In (q_name p) (map fst kw)) by (intros H; apply (Cl p I) in H; apply keywordable_spec in H; congruence).
        destruct (q_default p) as [|w|] eqn:Dp.
        -- exfalso. destruct (ac_given _ _ _ Ac i p X Dp Sp) as [H|[_ H]]; [now apply Np|contradiction].
        -- assert (R : match q_kind p with PStar => Some (PTup []) | KStar => Some (dict []) | _ => Some w end = Some w) by (destruct (q_kind p); try discriminate Sp; reflexivity). rewrite R. split.
           ++ intros [= <-]. left. exists i, p. split; [exact X|]. split; [reflexivity|]. right. right. repeat split; assumption.
           ++ intros [(j & q & Y & E & H)|[(j & q & Y & E & Dq & _) _]]; destruct (Same j q Y E) as [-> ->]; [|congruence].
              destruct H as [[_ H]|[[_ H]|(_ & _ & _ & H)]]; [assert ((i < length args)%nat) by (apply nth_error_Some; congruence); lia| |congruence].
              exfalso. apply Ni. apply in_map_iff. now exists (q_name p, v).
        -- exfalso. destruct (Dk i p X Dp) as [H _]. apply keywordable_spec in H. congruence.
    + (* keyword-only *) assert (Np : ~ by_position p) by (intros H; apply by_pos_spec in H; congruence).
      assert (Kp : keywordable p = true) by (unfold by_pos in Bp; unfold keywordable; destruct (q_kind p); try discriminate; reflexivity). rewrite Kp. apply keywordable_spec in Kp.
      destruct (kget kw (q_name p)) as [w|] eqn:G.
      * split.
        -- intros [= <-]. left. exists i, p. split; [exact X|]. split; [reflexivity|]. right. left. split; [exact Kp|now apply kget_In].
        -- intros [(j & q & Y & E & H)|[(j & q & Y & E & Dq & Sq & _ & Ni) _]]; destruct (Same j q Y E) as [-> ->].
           ++ destruct H as [[H _]|[[_ H]|(_ & _ & H & _)]]; [contradiction| |].
              ** apply (kget_In_iff _ _ _ Ok) in H. congruence.
              ** apply kget_None in H. congruence.
           ++ apply kget_None in Ni. congruence.
      * pose proof G as Ni. apply kget_None in Ni. destruct (q_default p) as [|w|] eqn:Dp.
        -- exfalso. destruct (ac_given _ _ _ Ac i p X Dp Sp) as [[H _]|[_ H]]; contradiction.
        -- assert (R : match q_kind p with PStar => Some (PTup []) | KStar => Some (dict []) | _ => Some w end = Some w) by (destruct (q_kind p); try discriminate Sp; reflexivity). rewrite R. split.
           ++ intros [= <-]. left. exists i, p. split; [exact X|]. split; [reflexivity|]. right. right. repeat split; try assumption. intros [H _]. contradiction.
           ++ intros [(j & q & Y & E & H)|[(j & q & Y & E & Dq & _) _]]; destruct (Same j q Y E) as [-> ->]; [|congruence].
              destruct H as [[H _]|[[_ H]|(_ & _ & _ & H)]]; [contradiction| |congruence].
              exfalso. apply Ni. apply in_map_iff. now exists (q_name p, v).
        -- split.
           ++ intros [= <-]. right. split; [|reflexivity]. exists i, p. repeat split; try assumption. intros [H _]. contradiction.
           ++ intros [(j & q & Y & E & H)|[_ ->]]; [|reflexivity]. destruct (Same j q Y E) as [-> ->].
              destruct H as [[H _]|[[_ H]|(_ & _ & _ & H)]]; [contradiction| |congruence].
              exfalso. apply Ni. apply in_map_iff. now exists (q_name p, v).
  - intros i p X K. pose proof (nth_error_In _ _ X) as I. rewrite (W p I), W1, (St i p X K), K. destruct (skipn i args); reflexivity.
  - intros p I K. destruct (Ks p I K) as (l & G & L). exists l. split.
    + rewrite (W p I), W1, G, K. destruct l; reflexivity.
    + intros n v. rewrite L. unfold gets_extra. split.
      * intros [H N]. split; [now exists p|]. split; [|exact N].
        assert (X : In n (map fst kw')) by (apply in_map_iff; now exists (n, v)). apply kget_some in X.
        destruct (kget kw n) as [w|] eqn:G2.
        -- assert (Nk : NoDup (map fst kw')). { now apply final_nodup. }
           assert (V : kget kw' n = Some v) by now apply kget_In_iff. rewrite Fk, G2 in V. injection V as ->. now apply kget_In.
        -- exfalso. rewrite Fk, G2 in X. destruct (existsb _ ps) eqn:E; [|discriminate]. apply existsb_exists in E. destruct E as (q & J & E).
           destruct (q_default q) eqn:Dq; try discriminate. apply String.eqb_eq in E. apply N. exists q. split; [exact J|]. split; [|exact E].
           destruct (In_nth_error ps q J) as [j Y]. now apply (Dk j q Y).
      * intros (_ & H & N). split; [|exact N]. apply kget_In. rewrite Fk. now rewrite (proj2 (kget_In_iff kw n v Ok) H).
Qed.
Print Assumptions C92_gets_partial.

(** A caller may override dependencies by keyword: their value is not even asked for. *)
Corollary C92_override ps args kw value value' : signature ps -> call_ok kw -> clear_names ps kw -> accepted ps args kw -> plain_stars ps ->
  dependencies_by_keyword ps args -> ordinary_names ps -> forall p v, In p ps -> star (q_kind p) = false -> In (q_name p, v) kw ->
  exists body body', body_call ps args kw value = Some body /\ body_call ps args kw value' = Some body' /\
    kget body (q_name p) = Some v /\ kget body' (q_name p) = Some v.
Proof.
  intros Sg Ok Cl Ac Ps Dk On p v I Sp J. destruct (In_nth_error ps p I) as [i X].
  destruct (C92_gets_partial ps args kw value Sg Ok Cl Ac Ps Dk On) as (b & Hb & A & _).
  destruct (C92_gets_partial ps args kw value' Sg Ok Cl Ac Ps Dk On) as (b' & Hb' & A' & _).
  assert (G : gets ps args kw (q_name p) v). { exists i, p. split; [exact X|]. split; [reflexivity|]. right. left. split; [|exact J]. apply Cl; [exact I|]. apply in_map_iff. now exists (q_name p, v). }
  exists b, b'. split; [exact Hb|]. split; [exact Hb'|]. split; [apply (A i p v X Sp)|apply (A' i p v X Sp)]; now left.
Qed.
Print Assumptions C92_override.

(** ** Where it fails *)
Definition two_parms : list parm := [mkParm "a" PEither DNone; mkParm "x" PEither DDependency].
Lemma two_signature : signature two_parms.
Proof. split; [|cbn; repeat constructor; cbn; intuition discriminate]. split; [|split; [constructor|exact Logic.I]]. constructor; [right; now split|constructor]. Qed.
(** A dependency parameter given by position: Python takes the call, the worker's call is a
    TypeError. *)
Theorem C92_by_position_refuted : exists ps args kw v, signature ps /\ call_ok kw /\ clear_names ps kw /\ accepted ps args kw /\ plain_stars ps /\ ordinary_names ps /\
  gets ps args kw "x" v /\ forall value, body_call ps args kw value = None.
Proof.
  exists two_parms, [PInt 1; PInt 2], [], (PInt 2). split; [exact two_signature|]. split; [constructor|]. split; [intros p _ []|]. split.
  { split.
    - intros [|[|i]] L; [left; eexists; split; [reflexivity|now right]|left; eexists; split; [reflexivity|now right]|cbn in L; lia].
    - intros i p _ _ _ [].
    - intros [|[|i]] p X Dp Sp; cbn in X; [|injection X as <-; discriminate Dp|destruct i; discriminate X]. injection X as <-. left. split; [now right|cbn; lia].
    - intros n []. }
  split; [intros p [<-|[<-|[]]] H; discriminate H|]. split; [intros p s [<-|[<-|[]]] _; discriminate|].
  split; [|intros value; reflexivity]. exists 1%nat, (mkParm "x" PEither DDependency). split; [reflexivity|]. split; [reflexivity|]. left. split; [now right|reflexivity].
Qed.
Print Assumptions C92_by_position_refuted.

(** A dependency parameter that is positional-only: no call of the task works. *)
Theorem C92_positional_only_refuted : forall d args value, exists ps, ps = [mkParm d POnly DDependency] /\ signature ps /\
  (accepted ps [] [] /\ left_to_dependency ps [] [] d) /\
  ((forall s, d <> ("__worker_dep__" ++ s)%string) -> body_call ps args [] value = None).
Proof.
  intros d args value. eexists. split; [reflexivity|]. split; [split; cbn; repeat constructor; tauto|]. split.
  - split.
    + split; [intros i L; cbn in L; lia|intros i p _ _ _ []| |intros n []]. intros [|i] p X Dp; cbn in X; [|destruct i; discriminate X]. injection X as <-. discriminate Dp.
    + exists 0%nat, (mkParm d POnly DDependency). repeat split; [intros [_ L]; cbn in L; lia|intros []].
  - intros N. unfold body_call, task_dependencies, resolve. cbn [flat_map q_default q_name app filter fst].
    destruct (starts_with "__worker_dep__" d) eqn:S; [apply starts_spec in S; destruct S as [r ->]; now contradiction (N r)|]. cbn [negb].
    unfold merge, call, bind. cbn. destruct args as [|a [|a' args]]; cbn; rewrite ?kget_cons, ?String.eqb_refl; reflexivity.
Qed.
Print Assumptions C92_positional_only_refuted.

(** A dependency parameter with a name of that form gets the dependency object itself. *)
Theorem C92_name_refuted : exists ps d, signature ps /\ accepted ps [] [] /\ plain_stars ps /\ dependencies_by_keyword ps [] /\ left_to_dependency ps [] [] d /\
  forall value, body_call ps [] [] value = Some [(d, object)].
Proof.
  exists [mkParm "__worker_dep__x" KOnly DDependency], "__worker_dep__x"%string. split; [split; cbn; repeat constructor; tauto|]. split.
  { split; [intros i L; cbn in L; lia|intros i p _ _ _ []| |intros n []]. intros [|i] p X Dp; cbn in X; [|destruct i; discriminate X]. injection X as <-. discriminate Dp. }
  split; [intros p [<-|[]] H; discriminate H|]. split; [intros [|i] p X _; cbn in X; [injection X as <-|destruct i; discriminate X]; split; [now right|discriminate]|].
  split; [|intros value; reflexivity]. exists 0%nat, (mkParm "__worker_dep__x" KOnly DDependency). repeat split; [intros [_ L]; cbn in L; lia|intros []].
Qed.
Print Assumptions C92_name_refuted.

(** [def task(a, b=5, *rest, c=9, user=Depends(..), log=TaskLogger(), **more)]. *)
Definition rich : list parm := [mkParm "a" PEither DNone; mkParm "b" PEither (DValue (PInt 5)); mkParm "rest" PStar DNone; mkParm "c" KOnly (DValue (PInt 9));
  mkParm "user" KOnly DDependency; mkParm "log" KOnly DDependency; mkParm "more" KStar DNone].
Example C92_example_hyps : let args := [PInt 1; PInt 2; PInt 3] in let kw := [("user", PStr "me"); ("z", PInt 7)] in
  signature rich /\ call_ok kw /\ clear_names rich kw /\ accepted rich args kw /\ plain_stars rich /\ dependencies_by_keyword rich args /\ ordinary_names rich.
Proof.
  intros args kw. split; [|split; [|split; [|split; [|split; [|split]]]]].
  - split; [|unfold rich; cbn; repeat constructor; cbn; intuition discriminate]. unfold rich. cbn [in_order]. repeat split; repeat apply Forall_cons; try apply Forall_nil; unfold follows; cbn; auto; left; lia.
  - unfold call_ok, kw. cbn. repeat constructor; cbn; intuition discriminate.
  - intros p I J. unfold rich in I. cbn in I, J. repeat (destruct I as [<-|I]; [cbn in J; first [now right|now left|exfalso; intuition discriminate]|]). contradiction.
  - split.
    + intros i L. destruct i as [|[|i]]; [left; eexists; split; [reflexivity|now right]|left; eexists; split; [reflexivity|now right]|right]. exists (mkParm "rest" PStar DNone). split; [cbn; tauto|reflexivity].
    + intros i p X K L J. unfold rich in X. do 7 (destruct i as [|i]; [cbn in X; injection X as <-; cbn in J; first [discriminate K|intuition discriminate]|]). destruct i; discriminate X.
    + intros i p X Dp Sp. unfold rich in X. do 7 (destruct i as [|i]; [cbn in X; injection X as <-; cbn in Dp, Sp; first [discriminate Dp|discriminate Sp|left; split; [now right|cbn; lia]]|]). destruct i; discriminate X.
    + intros n J. right. exists (mkParm "more" KStar DNone). split; [cbn; tauto|reflexivity].
  - intros p I. unfold rich in I. cbn in I. repeat (destruct I as [<-|I]; [cbn; intros; first [discriminate|reflexivity]|]). contradiction.
  - intros i p X Dp. unfold rich in X. do 7 (destruct i as [|i]; [cbn in X; injection X as <-; cbn in Dp; first [discriminate Dp|split; [now right|discriminate]]|]). destruct i; discriminate X.
  - intros p s I Dp. unfold rich in I. cbn in I. repeat (destruct I as [<-|I]; [cbn in Dp; cbn; first [discriminate Dp|discriminate]|]). contradiction.
Qed.
Example C92_example_call : body_call rich [PInt 1; PInt 2; PInt 3] [("user", PStr "me"); ("z", PInt 7)] (fun n => PStr ("dep " ++ n)) =
  Some [("a", PInt 1); ("b", PInt 2); ("rest", PTup [PInt 3]); ("c", PInt 9); ("user", PStr "me"); ("log", PStr "dep log"); ("more", dict [("z", PInt 7)])]%string.
Proof. reflexivity. Qed.
