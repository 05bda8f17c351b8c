(** Proofs about arguments (C78, C79). *)
From Verif Require Import Base Text Strike Bind SpecBind.

(** ** Dictionaries *)
Lemma kget_In kw n v : kget kw n = Some v -> In (n, v) kw.
Proof.
  unfold kget. destruct (find _ kw) as [[m w]|] eqn:F; [|discriminate]. cbn. intros E. injection E as <-.
  apply find_some in F. destruct F as [I E]. cbn in E. apply String.eqb_eq in E. now subst m.
Qed.
Lemma kget_None kw n : kget kw n = None <-> ~ In n (map fst kw).
Proof.
  unfold kget. induction kw as [|[m w] kw IH]; cbn; [tauto|].
  destruct (String.eqb_spec m n) as [->|N]; cbn; [split; [discriminate|tauto]|]. rewrite IH. tauto.
Qed.
Lemma kget_some kw n : is_some (kget kw n) = true <-> In n (map fst kw).
Proof. rewrite is_some_true. destruct (kget kw n) as [v|] eqn:E; split; intros H; eauto.
  - apply in_map_iff. exists (n, v). split; [reflexivity|now apply kget_In].
  - now destruct H.
  - exfalso. now apply kget_None in E. Qed.
Lemma kget_In_iff kw n v : NoDup (map fst kw) -> (kget kw n = Some v <-> In (n, v) kw).
Proof.
  intros D. split; [apply kget_In|]. intros I. destruct (kget kw n) as [w|] eqn:E.
  - apply kget_In in E. f_equal. clear -D I E. induction kw as [|[m u] kw IH]; [contradiction|]. cbn in D. inversion D as [|? ? N D']; subst.
    destruct I as [I|I], E as [E|E].
    + congruence.
    + injection I as -> ->. exfalso. apply N. apply in_map_iff. now exists (n, w).
    + injection E as -> ->. exfalso. apply N. apply in_map_iff. now exists (n, v).
    + now apply IH.
  - apply kget_None in E. exfalso. apply E. apply in_map_iff. now exists (n, v).
Qed.
Lemma kget_app a b n : kget (a ++ b) n = match kget a n with Some v => Some v | None => kget b n end.
Proof. unfold kget. induction a as [|[m w] a IH]; cbn; [reflexivity|]. destruct (String.eqb m n); [reflexivity|exact IH]. Qed.
Lemma kget_cons m w b n : kget ((m, w) :: b) n = if String.eqb m n then Some w else kget b n.
Proof. unfold kget. cbn. now destruct (String.eqb m n). Qed.
Lemma kget_kdel kw m n : kget (kdel kw m) n = if String.eqb n m then None else kget kw n.
Proof.
  unfold kget, kdel. induction kw as [|[k w] kw IH]; cbn; [now destruct (String.eqb n m)|].
  destruct (String.eqb_spec k m) as [->|N]; cbn.
  - rewrite IH. destruct (String.eqb_spec n m) as [E|N]; [reflexivity|]. now rewrite (eqb_neq_string m n) by congruence.
  - destruct (String.eqb_spec k n) as [E|N']; [|exact IH]. subst k. now rewrite (eqb_neq_string n m N).
Qed.
Lemma filter_filter_and {A} (f g : A -> bool) l : filter f (filter g l) = filter (fun x => g x && f x) l.
Proof. induction l as [|x l IH]; cbn; [reflexivity|]. destruct (g x); cbn; [destruct (f x)|]; now rewrite IH. Qed.

(** ** The second loop *)
Definition keywordable (p : parm) : bool := match q_kind p with PEither | KOnly => true | _ => false end.
Definition claims (ps : list parm) (n : string) : bool := existsb (fun p => keywordable p && String.eqb (q_name p) n) ps.
Definition extras (ps : list parm) (kw : kwargs) : kwargs := filter (fun e => negb (claims ps (fst e))) kw.

Lemma keywordable_spec p : keywordable p = true <-> by_keyword p.
Proof. unfold keywordable, by_keyword. destruct (q_kind p); intuition congruence. Qed.
Lemma claims_spec ps n : claims ps n = true <-> taken ps n.
Proof.
  unfold claims, taken. rewrite existsb_exists. split; intros (p & I & H).
  - apply andb_true_iff in H. destruct H as [K E]. exists p. split; [exact I|]. split; [now apply keywordable_spec|now apply String.eqb_eq].
  - exists p. split; [exact I|]. destruct H as [K <-]. apply andb_true_iff. split; [now apply keywordable_spec|apply String.eqb_refl].
Qed.

Lemma keywords_spec ps : NoDup (map q_name ps) -> forall kw b ks over, bind_keywords ps kw = Some (b, ks, over) ->
  (forall p, In p ps -> kget b (q_name p) = if keywordable p then kget kw (q_name p) else None) /\
  (forall n, ~ In n (map q_name ps) -> kget b n = None) /\
  over = extras ps kw /\
  (forall p, In p ps -> q_kind p = POnly -> kget kw (q_name p) = None) /\
  (forall p, In p ps -> star (q_kind p) = false -> q_default p = DNone -> is_some (kget kw (q_name p)) = true) /\
  ((ks = None /\ forall p, In p ps -> q_kind p <> KStar) \/ exists p, In p ps /\ q_kind p = KStar /\ ks = Some (q_name p)).
Proof.
  induction ps as [|p ps IH]; intros D kw b ks over H.
  - cbn in H. injection H as <- <- <-. repeat split; try (intros ? []); [|left; split; [reflexivity|intros ? []]].
    unfold extras. cbn. symmetry. apply filter_all. reflexivity.
  - cbn in D. inversion D as [|? ? N D']; subst. specialize (IH D').
    assert (NE : forall q, In q ps -> q_name q <> q_name p) by (intros q I E; apply N; rewrite <- E; now apply in_map).
    cbn [bind_keywords] in H.
    assert (CL : keywordable p = false -> forall kw, extras (p :: ps) kw = extras ps kw).
    { intros K kw0. unfold extras. apply filter_ext. intros e. cbn. now rewrite K. }
    destruct (q_kind p) eqn:Kp.
    + (* POnly *)
      destruct (kget kw (q_name p)) eqn:G; [discriminate|]. destruct (has_default p) eqn:Df; [|discriminate].
      destruct (IH _ _ _ _ H) as (A & B & C & E & F & S). assert (Kw : keywordable p = false) by (unfold keywordable; now rewrite Kp).
      repeat split.
      * intros q [<-|I]; [rewrite Kw; now apply B|now apply A].
      * intros n Hn. apply B. cbn in Hn. tauto.
      * now rewrite CL.
      * intros q [<-|I] Kq; [exact G|now apply E].
      * intros q [<-|I] Sq Dq; [unfold has_default in Df; now rewrite Dq in Df|now apply F].
      * destruct S as [[S1 S2]|(q & I & S)]; [left; split; [exact S1|]; intros q [<-|I]; [congruence|now apply S2]|right; exists q; split; [now right|exact S]].
    + (* PEither *)
      assert (Kw : keywordable p = true) by (unfold keywordable; now rewrite Kp).
      destruct (kget kw (q_name p)) as [v|] eqn:G.
      * destruct (bind_keywords ps (kdel kw (q_name p))) as [[[b' ks'] over']|] eqn:H'; [|discriminate]. injection H as <- <- <-.
        destruct (IH _ _ _ _ H') as (A & B & C & E & F & S). repeat split.
        -- intros q [<-|I]; rewrite kget_cons.
           ++ now rewrite String.eqb_refl, Kw, G.
           ++ rewrite (eqb_neq_string (q_name p) (q_name q)) by (intros X; now apply (NE q I)). rewrite (A q I), kget_kdel.
              now rewrite (eqb_neq_string _ _ (NE q I)).
        -- intros n Hn. rewrite kget_cons, (eqb_neq_string (q_name p) n) by (intros X; apply Hn; now left). apply B. intros X; apply Hn; now right.
        -- rewrite C. unfold extras, kdel. rewrite filter_filter_and. apply filter_ext. intros e. cbn. rewrite Kw. cbn [andb orb].
           rewrite negb_orb, (String.eqb_sym (q_name p) (fst e)). reflexivity.
        -- intros q [<-|I] Kq; [congruence|]. specialize (E q I Kq). rewrite kget_kdel, (eqb_neq_string _ _ (NE q I)) in E. exact E.
        -- intros q [<-|I] Sq Dq; [now rewrite G|]. specialize (F q I Sq Dq). rewrite kget_kdel, (eqb_neq_string _ _ (NE q I)) in F. exact F.
        -- destruct S as [[S1 S2]|(q & I & S)]; [left; split; [exact S1|]; intros q [<-|I]; [congruence|now apply S2]|right; exists q; split; [now right|exact S]].
      * destruct (has_default p) eqn:Df; [|discriminate]. destruct (IH _ _ _ _ H) as (A & B & C & E & F & S). repeat split.
        -- intros q [<-|I]; [rewrite Kw, G; now apply B|now apply A].
        -- intros n Hn. apply B. intros X; apply Hn; now right.
        -- rewrite C. unfold extras. apply filter_ext_in. intros e Ie. cbn. rewrite Kw. cbn [andb].
           rewrite (eqb_neq_string (q_name p) (fst e)); [reflexivity|]. intros X. apply kget_None in G. apply G. rewrite X. now apply in_map.
        -- intros q [<-|I] Kq; [congruence|now apply E].
        -- intros q [<-|I] Sq Dq; [unfold has_default in Df; now rewrite Dq in Df|now apply F].
        -- destruct S as [[S1 S2]|(q & I & S)]; [left; split; [exact S1|]; intros q [<-|I]; [congruence|now apply S2]|right; exists q; split; [now right|exact S]].
    + (* PStar *)
      destruct (IH _ _ _ _ H) as (A & B & C & E & F & S). assert (Kw : keywordable p = false) by (unfold keywordable; now rewrite Kp).
      repeat split.
      * intros q [<-|I]; [rewrite Kw; now apply B|now apply A].
      * intros n Hn. apply B. cbn in Hn. tauto.
      * now rewrite CL.
      * intros q [<-|I] Kq; [congruence|now apply E].
      * intros q [<-|I] Sq Dq; [now rewrite Kp in Sq|now apply F].
      * destruct S as [[S1 S2]|(q & I & S)]; [left; split; [exact S1|]; intros q [<-|I]; [congruence|now apply S2]|right; exists q; split; [now right|exact S]].
    + (* KOnly *)
      assert (Kw : keywordable p = true) by (unfold keywordable; now rewrite Kp).
      destruct (kget kw (q_name p)) as [v|] eqn:G.
      * destruct (bind_keywords ps (kdel kw (q_name p))) as [[[b' ks'] over']|] eqn:H'; [|discriminate]. injection H as <- <- <-.
        destruct (IH _ _ _ _ H') as (A & B & C & E & F & S). repeat split.
        -- intros q [<-|I]; rewrite kget_cons.
           ++ now rewrite String.eqb_refl, Kw, G.
           ++ rewrite (eqb_neq_string (q_name p) (q_name q)) by (intros X; now apply (NE q I)). rewrite (A q I), kget_kdel.
              now rewrite (eqb_neq_string _ _ (NE q I)).
        -- intros n Hn. rewrite kget_cons, (eqb_neq_string (q_name p) n) by (intros X; apply Hn; now left). apply B. intros X; apply Hn; now right.
        -- rewrite C. unfold extras, kdel. rewrite filter_filter_and. apply filter_ext. intros e. cbn. rewrite Kw. cbn [andb orb].
           rewrite negb_orb, (String.eqb_sym (q_name p) (fst e)). reflexivity.
        -- intros q [<-|I] Kq; [congruence|]. specialize (E q I Kq). rewrite kget_kdel, (eqb_neq_string _ _ (NE q I)) in E. exact E.
        -- intros q [<-|I] Sq Dq; [now rewrite G|]. specialize (F q I Sq Dq). rewrite kget_kdel, (eqb_neq_string _ _ (NE q I)) in F. exact F.
        -- destruct S as [[S1 S2]|(q & I & S)]; [left; split; [exact S1|]; intros q [<-|I]; [congruence|now apply S2]|right; exists q; split; [now right|exact S]].
      * destruct (has_default p) eqn:Df; [|discriminate]. destruct (IH _ _ _ _ H) as (A & B & C & E & F & S). repeat split.
        -- intros q [<-|I]; [rewrite Kw, G; now apply B|now apply A].
        -- intros n Hn. apply B. intros X; apply Hn; now right.
        -- rewrite C. unfold extras. apply filter_ext_in. intros e Ie. cbn. rewrite Kw. cbn [andb].
           rewrite (eqb_neq_string (q_name p) (fst e)); [reflexivity|]. intros X. apply kget_None in G. apply G. rewrite X. now apply in_map.
        -- intros q [<-|I] Kq; [congruence|now apply E].
        -- intros q [<-|I] Sq Dq; [unfold has_default in Df; now rewrite Dq in Df|now apply F].
        -- destruct S as [[S1 S2]|(q & I & S)]; [left; split; [exact S1|]; intros q [<-|I]; [congruence|now apply S2]|right; exists q; split; [now right|exact S]].
    + (* KStar *)
      destruct (bind_keywords ps kw) as [[[b' ks'] over']|] eqn:H'; [|discriminate]. injection H as <- <- <-.
      destruct (IH _ _ _ _ H') as (A & B & C & E & F & S). assert (Kw : keywordable p = false) by (unfold keywordable; now rewrite Kp).
      repeat split.
      * intros q [<-|I]; [rewrite Kw; now apply B|now apply A].
      * intros n Hn. apply B. cbn in Hn. tauto.
      * now rewrite CL.
      * intros q [<-|I] Kq; [congruence|now apply E].
      * intros q [<-|I] Sq Dq; [now rewrite Kp in Sq|now apply F].
      * right. exists p. split; [now left|]. split; [exact Kp|reflexivity].
Qed.

Lemma keywords_complete ps : NoDup (map q_name ps) -> forall kw,
  (forall p, In p ps -> q_kind p = POnly -> kget kw (q_name p) = None) ->
  (forall p, In p ps -> star (q_kind p) = false -> q_default p = DNone -> is_some (kget kw (q_name p)) = true) ->
  exists r, bind_keywords ps kw = Some r.
Proof.
  induction ps as [|p ps IH]; intros D kw E F; [now eexists|].
  cbn in D. inversion D as [|? ? N D']; subst. specialize (IH D').
  assert (NE : forall q, In q ps -> q_name q <> q_name p) by (intros q I X; apply N; rewrite <- X; now apply in_map).
  assert (Same : forall kw', (forall q, In q ps -> kget kw' (q_name q) = kget kw (q_name q)) -> exists r, bind_keywords ps kw' = Some r).
  { intros kw' S. apply IH.
    - intros q I K. rewrite S by exact I. apply E; [now right|exact K].
    - intros q I K X. rewrite S by exact I. apply F; [now right|exact K|exact X]. }
  assert (Keep : exists r, bind_keywords ps kw = Some r) by (now apply Same).
  assert (Del : exists r, bind_keywords ps (kdel kw (q_name p)) = Some r).
  { apply Same. intros q I. now rewrite kget_kdel, (eqb_neq_string _ _ (NE q I)). }
  destruct Keep as ([[b ks] over] & Keep), Del as ([[b' ks'] over'] & Del).
  cbn [bind_keywords]. specialize (E p (or_introl eq_refl)). specialize (F p (or_introl eq_refl)).
  destruct (q_kind p) eqn:Kp; cbn [star] in F.
  - rewrite (E eq_refl) in *. unfold has_default. destruct (q_default p) eqn:Dp; [now specialize (F eq_refl eq_refl)| |]; eexists; exact Keep.
  - destruct (kget kw (q_name p)); [rewrite Del; now eexists|]. unfold has_default. destruct (q_default p) eqn:Dp; [now specialize (F eq_refl eq_refl)| |]; eexists; exact Keep.
  - eexists; exact Keep.
  - destruct (kget kw (q_name p)); [rewrite Del; now eexists|]. unfold has_default. destruct (q_default p) eqn:Dp; [now specialize (F eq_refl eq_refl)| |]; eexists; exact Keep.
  - rewrite Keep. now eexists.
Qed.

(** ** The first loop *)
Lemma after_star p r : Forall (follows p) r -> q_kind p = PStar -> forall q, In q r -> q_kind q = KOnly \/ q_kind q = KStar.
Proof.
  intros Fo K q I. rewrite Forall_forall in Fo. destruct (Fo q I) as [R|[_ R]]; rewrite K in R; cbn in R; [|discriminate].
  destruct (q_kind q); cbn in R; try lia; auto.
Qed.
Lemma after_keyword p r : Forall (follows p) r -> q_kind p = KOnly \/ q_kind p = KStar -> forall q, In q r -> q_kind q = KOnly \/ q_kind q = KStar.
Proof.
  intros Fo K q I. rewrite Forall_forall in Fo. destruct (Fo q I) as [R|[R _]].
  - destruct K as [K|K]; rewrite K in R; destruct (q_kind q); cbn in R; try lia; auto.
  - now rewrite <- R.
Qed.

Definition seen (args : list pv) (kw : kwargs) (b : kwargs) (rest : list parm) (i : nat) (p : parm) : Prop :=
  (~ In p rest /\ by_position p /\ (i < length args)%nat /\ kget b (q_name p) = nth_error args i /\ (q_kind p = PEither -> kget kw (q_name p) = None)) \/
  (~ In p rest /\ q_kind p = PStar) \/
  (In p rest /\ kget b (q_name p) = None /\ (by_position p -> (length args <= i)%nat)).

Lemma positional_spec ps : in_order ps -> NoDup (map q_name ps) -> forall args kw b rest, bind_positional ps args kw = Some (b, rest) ->
  (forall i p, nth_error ps i = Some p -> seen args kw b rest i p) /\
  incl rest ps /\ NoDup (map q_name rest) /\ (forall n, ~ In n (map q_name ps) -> kget b n = None) /\
  (forall i, (i < length args)%nat -> (exists p, nth_error ps i = Some p /\ by_position p) \/ (exists p, In p ps /\ q_kind p = PStar)).
Proof.
  induction ps as [|p ps IH]; intros O D args kw b rest H.
  - destruct args; [|discriminate]. cbn in H. injection H as <- <-. split; [intros [|i] q X; discriminate X|].
    split; [intros x []|]. split; [constructor|]. split; [reflexivity|]. cbn. intros i L. lia.
  - destruct O as [Fo O]. pose proof D as D0. cbn in D. inversion D as [|? ? N D']; subst. specialize (IH O D').
    assert (NE : forall q, In q ps -> q_name q <> q_name p) by (intros q I X; apply N; rewrite <- X; now apply in_map).
    assert (Nin : ~ In p ps) by (intros X; now apply (NE p X)).
    cbn [bind_positional] in H. destruct args as [|a args].
    + (* no arguments *)
      assert (Cases : (q_kind p = PStar /\ b = [] /\ rest = ps) \/ (b = [] /\ rest = p :: ps)).
      { destruct (q_kind p); repeat match type of H with (if ?c then _ else _) = _ => destruct c; try discriminate end; injection H as <- <-; auto. }
      destruct Cases as [(Kp & -> & ->)|(-> & ->)].
      * split.
        { intros [|i] q X; cbn in X; [injection X as <-; right; left; now split|].
          right; right. split; [now apply nth_error_In in X|]. split; [reflexivity|]. intros _. cbn. lia. }
        split; [now apply incl_tl, incl_refl|]. split; [exact D'|]. split; [reflexivity|]. cbn. intros i L. lia.
      * split.
        { intros i q X. right; right. split; [now apply nth_error_In in X|]. split; [reflexivity|]. intros _. cbn. lia. }
        split; [apply incl_refl|]. split; [exact D0|]. split; [reflexivity|]. cbn. intros i L. lia.
    + assert (Cases : (q_kind p = PStar /\ b = [(q_name p, PTup (a :: args))] /\ rest = ps) \/
        (by_position p /\ (q_kind p = PEither -> kget kw (q_name p) = None) /\
         exists b', bind_positional ps args kw = Some (b', rest) /\ b = (q_name p, a) :: b')).
      { unfold by_position. destruct (q_kind p); try discriminate.
        - right. destruct (bind_positional ps args kw) as [[b' r']|]; [|discriminate]. injection H as <- <-. split; [now left|]. split; [discriminate|]. now exists b'.
        - right. destruct (kget kw (q_name p)) eqn:G; [discriminate|]. cbn in H. destruct (bind_positional ps args kw) as [[b' r']|]; [|discriminate]. injection H as <- <-. split; [now right|]. split; [reflexivity|]. now exists b'.
        - injection H as <- <-. left. auto. }
      destruct Cases as [(Kp & -> & ->)|(Po & Ei & b' & H' & ->)].
      * split.
        { intros [|i] q X; cbn in X; [injection X as <-; right; left; now split|].
          right; right. apply nth_error_In in X. split; [exact X|]. rewrite kget_cons, (eqb_neq_string (q_name p) (q_name q)) by (intros Y; now apply (NE q X)).
          split; [reflexivity|]. destruct (after_star p ps Fo Kp q X) as [K|K]; intros [Q|Q]; congruence. }
        split; [now apply incl_tl, incl_refl|]. split; [exact D'|]. split.
        { intros n Hn. rewrite kget_cons, (eqb_neq_string (q_name p) n); [reflexivity|]. intros X. apply Hn. now left. }
        intros i _. right. exists p. split; [now left|exact Kp].
      * destruct (IH _ _ _ _ H') as (A & B & C & E & F). split.
        { intros [|i] q X; cbn in X.
          - injection X as <-. left. split; [intros Y; apply Nin; now apply B|]. split; [exact Po|]. split; [cbn; lia|].
            split; [now rewrite kget_cons, String.eqb_refl|exact Ei].
          - specialize (A i q X). apply nth_error_In in X. unfold seen in *. rewrite kget_cons, (eqb_neq_string (q_name p) (q_name q)) by (intros Y; now apply (NE q X)).
            cbn [nth_error length]. destruct A as [(A1 & A2 & A3 & A4)|[A|(A1 & A2 & A3)]]; [left|right; now left|right; right].
            + split; [exact A1|]. split; [exact A2|]. split; [lia|exact A4].
            + split; [exact A1|]. split; [exact A2|]. intros Y. specialize (A3 Y). lia. }
        split; [now apply incl_tl|]. split; [exact C|]. split.
        { intros n Hn. rewrite kget_cons, (eqb_neq_string (q_name p) n) by (intros X; apply Hn; now left). apply E. intros X; apply Hn; now right. }
        intros [|i] L; [left; exists p; now split|]. cbn in L. destruct (F i ltac:(lia)) as [(q & Q)|(q & I & Q)]; [left; now exists q|right; exists q; split; [now right|exact Q]].
Qed.

Lemma positional_complete ps : in_order ps -> forall args kw,
  (forall i, (i < length args)%nat -> (exists p, nth_error ps i = Some p /\ by_position p) \/ (exists p, In p ps /\ q_kind p = PStar)) ->
  (forall i p, nth_error ps i = Some p -> q_kind p = PEither -> (i < length args)%nat -> ~ In (q_name p) (map fst kw)) ->
  (forall i p, nth_error ps i = Some p -> q_default p = DNone -> star (q_kind p) = false ->
    (by_position p /\ (i < length args)%nat) \/ (by_keyword p /\ In (q_name p) (map fst kw))) ->
  (forall p, In p ps -> In (q_name p) (map fst kw) -> by_keyword p) ->
  exists r, bind_positional ps args kw = Some r.
Proof.
  induction ps as [|p ps IH]; intros O args kw Room Once Given Clear.
  - destruct args as [|a args]; [now eexists|]. exfalso. destruct (Room 0%nat ltac:(cbn; lia)) as [(q & Q & _)|(q & [] & _)]. discriminate.
  - destruct O as [Fo O]. cbn [bind_positional]. destruct args as [|a args].
    + specialize (Given 0%nat p eq_refl). specialize (Clear p (or_introl eq_refl)). cbn in Given.
      assert (Df : star (q_kind p) = false -> is_some (kget kw (q_name p)) || has_default p = true).
      { intros S. unfold has_default. destruct (q_default p) eqn:Dp; [|now rewrite orb_true_r|now rewrite orb_true_r].
        destruct (Given eq_refl S) as [[_ L]|[_ I]]; [lia|]. apply kget_some in I. now rewrite I. }
      destruct (q_kind p) eqn:Kp; cbn [star] in Df.
      * destruct (is_some (kget kw (q_name p))) eqn:G.
        -- exfalso. apply kget_some in G. destruct (Clear G) as [Q|Q]; congruence.
        -- specialize (Df eq_refl). cbn in Df. rewrite Df. now eexists.
      * rewrite (Df eq_refl). now eexists.
      * now eexists.
      * rewrite (Df eq_refl). now eexists.
      * now eexists.
    + assert (Go : by_position p -> exists r, bind_positional ps args kw = Some r).
      { intros Po. apply IH; [exact O| | | |].
        - intros i L. destruct (Room (S i) ltac:(cbn; lia)) as [(q & Q)|(q & [<-|I] & Q)].
          + left. now exists q.
          + exfalso. destruct Po; congruence.
          + right. now exists q.
        - intros i q X K L. apply (Once (S i) q X K). cbn. lia.
        - intros i q X Dq Sq. destruct (Given (S i) q X Dq Sq) as [[Y L]|Y]; [left; split; [exact Y|cbn in L; lia]|now right].
        - intros q I. apply Clear. now right. }
      assert (Bad : q_kind p = KOnly \/ q_kind p = KStar -> False).
      { intros K. destruct (Room 0%nat ltac:(cbn; lia)) as [(q & Q & Po)|(q & [<-|I] & Q)].
        - injection Q as <-. destruct Po, K; congruence.
        - destruct K; congruence.
        - destruct (after_keyword p ps Fo K q I); congruence. }
      destruct (q_kind p) eqn:Kp; try (exfalso; apply Bad; auto; fail).
      * destruct Go as [[b r] ->]; [now left|]. now eexists.
      * destruct (is_some (kget kw (q_name p))) eqn:G.
        -- exfalso. apply kget_some in G. now apply (Once 0%nat p eq_refl Kp ltac:(cbn; lia)).
        -- destruct Go as [[b r] ->]; [now right|]. now eexists.
      * now eexists.
Qed.

(** ** Both loops *)
Lemma same_name ps p q : NoDup (map q_name ps) -> In p ps -> In q ps -> q_name p = q_name q -> p = q.
Proof.
  induction ps as [|x ps IH]; intros D I J E; [contradiction|]. cbn in D. inversion D as [|? ? N D']; subst.
  destruct I as [->|I], J as [->|J]; [reflexivity| | |now apply IH].
  - exfalso. apply N. rewrite E. now apply in_map.
  - exfalso. apply N. rewrite <- E. now apply in_map.
Qed.

Definition by_pos (p : parm) : bool := match q_kind p with POnly | PEither => true | _ => false end.
Lemma by_pos_spec p : by_pos p = true <-> by_position p.
Proof. unfold by_pos, by_position. destruct (q_kind p); intuition congruence. Qed.

(** What a parameter that is no star is bound to. *)
Definition bound (args : list pv) (kw : kwargs) (i : nat) (p : parm) : option pv :=
  match (if by_pos p then nth_error args i else None) with
  | Some v => Some v
  | None => if keywordable p then kget kw (q_name p) else None
  end.

Lemma bind_spec ps args kw b : signature ps -> bind ps args kw = Some b ->
  (forall i p, nth_error ps i = Some p -> star (q_kind p) = false -> kget b (q_name p) = bound args kw i p) /\
  (forall n, ~ In n (map q_name ps) -> kget b n = None) /\
  accepted ps args kw.
Proof.
  intros [O D] H. unfold bind in H.
  destruct (bind_positional ps args kw) as [[b1 rest]|] eqn:H1; [|discriminate].
  destruct (bind_keywords rest kw) as [[[b2 ks] over]|] eqn:H2; [|discriminate].
  destruct (positional_spec ps O D _ _ _ _ H1) as (A & B & C & E & F).
  destruct (keywords_spec rest C _ _ _ _ H2) as (A2 & B2 & C2 & E2 & F2 & S).
  assert (Ex : exists tl, b = b1 ++ b2 ++ tl /\ (tl = [] \/ exists q, In q ps /\ q_kind q = KStar /\ tl = [(q_name q, dict over)])).
  { destruct over as [|e over]; [injection H as <-; exists []; now rewrite app_nil_r; auto|]. destruct ks as [n|]; [|discriminate].
    injection H as <-. exists [(n, dict (e :: over))]. split; [reflexivity|right]. destruct S as [[S _]|(q & I & K & S)]; [discriminate|]. injection S as ->. exists q. auto. }
  destruct Ex as (tl & Eb & Tl).
  assert (Ktl : forall n, (forall q, In q ps -> q_kind q = KStar -> q_name q <> n) -> kget tl n = None).
  { intros n Hn. destruct Tl as [->|(q & I & K & ->)]; [reflexivity|]. rewrite kget_cons, (eqb_neq_string _ _ (Hn q I K)). reflexivity. }
  assert (NoName : forall p, In p ps -> ~ In p rest -> ~ In (q_name p) (map q_name rest)).
  { intros p I Nr X. apply in_map_iff in X. destruct X as (q & Eq & J). apply Nr. now rewrite (same_name ps p q D I (B q J) (eq_sym Eq)). }
  split; [|split].
  - intros i p X Sp. pose proof (nth_error_In _ _ X) as I. rewrite Eb, !kget_app.
    assert (Kt : kget tl (q_name p) = None).
    { apply Ktl. intros q J K Y. rewrite (same_name ps q p D J I Y) in K. now rewrite K in Sp. }
    unfold bound. destruct (A i p X) as [(A1 & A3 & A4 & A5 & A6)|[[A1 A3]|(A1 & A3 & A4)]].
    + rewrite A5. apply by_pos_spec in A3. rewrite A3. destruct (nth_error args i) eqn:G; [reflexivity|]. apply nth_error_None in G. lia.
    + now rewrite A3 in Sp.
    + rewrite A3, (A2 p A1), Kt. destruct (by_pos p) eqn:Bp.
      * apply by_pos_spec in Bp. rewrite (proj2 (nth_error_None args i)) by now apply A4. now destruct (if keywordable p then kget kw (q_name p) else None).
      * now destruct (if keywordable p then kget kw (q_name p) else None).
  - intros n Hn. rewrite Eb, !kget_app, (E n Hn), B2, Ktl; [reflexivity| |].
    + intros q I K X. apply Hn. rewrite <- X. now apply in_map.
    + intros X. apply Hn. apply in_map_iff in X. destruct X as (q & <- & J). apply in_map. now apply B.
  - split.
    + exact F.
    + intros i p X K L. destruct (A i p X) as [(A1 & A3 & A4 & A5 & A6)|[[A1 A3]|(A1 & A3 & A4)]]; [|congruence|].
      * apply kget_None. now apply A6.
      * exfalso. specialize (A4 (or_intror K)). lia.
    + intros i p X Dp Sp. destruct (A i p X) as [(A1 & A3 & A4 & _)|[[A1 A3]|(A1 & A3 & A4)]]; [left; now split|now rewrite A3 in Sp|].
      right. pose proof (F2 p A1 Sp Dp) as G. split; [|now apply kget_some].
      destruct (q_kind p) eqn:K; try discriminate Sp; [|now left|now right]. now rewrite (E2 p A1 K) in G.
    + intros n I. destruct (claims rest n) eqn:Cl.
      * left. apply claims_spec in Cl. destruct Cl as (p & J & K). exists p. split; [now apply B|exact K].
      * right. apply in_map_iff in I. destruct I as ([n' v] & En & I). cbn in En. subst n'.
        assert (J : In (n, v) over). { rewrite C2. apply filter_In. split; [exact I|]. cbn. now rewrite Cl. }
        destruct over as [|e over]; [contradiction|]. destruct ks as [k|]; [|discriminate].
        destruct S as [[S _]|(q & Iq & K & S)]; [discriminate|]. exists q. split; [now apply B|exact K].
Qed.

Lemma bind_complete ps args kw : signature ps -> clear_names ps kw -> accepted ps args kw -> exists b, bind ps args kw = Some b.
Proof.
  intros [O D] Cl [Room Once Given Known]. unfold bind.
  destruct (positional_complete ps O args kw Room Once Given Cl) as [[b1 rest] H1]. rewrite H1.
  destruct (positional_spec ps O D _ _ _ _ H1) as (A & B & C & E & F).
  destruct (keywords_complete rest C kw) as [[[b2 ks] over] H2].
  - intros p I K. apply kget_None. intros X. destruct (Cl p (B p I) X); congruence.
  - intros p I S Dp. apply kget_some. destruct (In_nth_error ps p (B p I)) as [i X].
    destruct (Given i p X Dp S) as [[Po L]|[_ Y]]; [|exact Y].
    exfalso. destruct (A i p X) as [(A1 & _)|[[A1 _]|(_ & _ & A1)]]; [now apply A1|now apply A1|]. specialize (A1 Po). lia.
  - rewrite H2. destruct (keywords_spec rest C _ _ _ _ H2) as (A2 & B2 & C2 & E2 & F2 & S).
    destruct over as [|[n v] over]; [now eexists|]. destruct ks as [k|]; [now eexists|]. exfalso.
    destruct S as [[_ S]|(q & _ & _ & S)]; [|discriminate].
    assert (I : In (n, v) (extras rest kw)) by (rewrite <- C2; now left). apply filter_In in I. destruct I as [I Nc]. cbn in Nc. apply negb_true_iff in Nc.
    destruct (Known n) as [(p & J & Bk & En)|(p & J & K)]; [apply in_map_iff; now exists (n, v)| |].
    + destruct (In_nth_error ps p J) as [i X]. destruct (A i p X) as [(A1 & A3 & A4 & A5 & A6)|[[A1 A3]|(A1 & A3 & A4)]].
      * destruct Bk as [Bk|Bk]; [|destruct A3; congruence]. specialize (A6 Bk). apply kget_None in A6. apply A6. rewrite En. apply in_map_iff. now exists (n, v).
      * destruct Bk; congruence.
      * assert (claims rest n = true) by (apply claims_spec; now exists p). congruence.
    + destruct (In_nth_error ps p J) as [i X]. destruct (A i p X) as [(A1 & A3 & _)|[[A1 A3]|(A1 & A3 & A4)]]; [destruct A3; congruence|congruence|now apply (S p)].
Qed.

Theorem bind_iff ps args kw : signature ps -> clear_names ps kw -> (bind ps args kw <> None <-> accepted ps args kw).
Proof.
  intros Sg Cl. split.
  - destruct (bind ps args kw) as [b|] eqn:H; [|congruence]. intros _. now apply (bind_spec ps args kw b).
  - intros Ac. destruct (bind_complete ps args kw Sg Cl Ac) as [b ->]. discriminate.
Qed.

(** ** The arguments a strike sees *)
Lemma defaults_In ps b n v : In (n, v) (apply_defaults ps b) <-> exists p, In p ps /\ In (n, v) (with_default b p).
Proof. unfold apply_defaults. rewrite in_flat_map. reflexivity. Qed.
Lemma with_default_name b p n v : In (n, v) (with_default b p) -> n = q_name p.
Proof. unfold with_default. destruct (kget b (q_name p)); [|destruct (q_kind p), (q_default p)]; cbn; intuition congruence. Qed.

Lemma arguments_spec ps args kw l : signature ps -> call_ok kw -> clear_names ps kw -> all_arguments ps args kw = Some l ->
  forall n v, no_star ps n -> ~ left_to_dependency ps args kw n ->
  (In (n, v) l <-> gets ps args kw n v \/ gets_extra ps kw n v).
Proof.
  intros Sg Ok Cl H n v Ns Nd. pose proof Sg as [O D]. unfold all_arguments in H. destruct (bind ps args kw) as [b|] eqn:Hb; [|discriminate].
  injection H as <-. destruct (bind_spec ps args kw b Sg Hb) as (A & B & [Room Once Given Known]).
  rewrite in_app_iff, filter_In. cbn [fst].
  split.
  - intros [I|[I G]].
    + left. apply defaults_In in I. destruct I as (p & I & W). pose proof (with_default_name _ _ _ _ W) as En. subst n.
      destruct (In_nth_error ps p I) as [i X]. pose proof (Ns p I eq_refl) as Sp. unfold with_default in W. rewrite (A i p X Sp) in W.
      exists i, p. split; [exact X|]. split; [reflexivity|]. unfold bound in W.
      destruct (by_pos p) eqn:Bp.
      * apply by_pos_spec in Bp. destruct (nth_error args i) as [w|] eqn:Nt.
        -- destruct W as [W|[]]. injection W as ->. left. now split.
        -- apply nth_error_None in Nt. destruct (keywordable p) eqn:Kp.
           ++ apply keywordable_spec in Kp. destruct (kget kw (q_name p)) as [w|] eqn:G.
              ** destruct W as [W|[]]. injection W as ->. right; left. split; [exact Kp|now apply kget_In].
              ** right; right. apply kget_None in G. destruct (q_default p) as [|w|] eqn:Dp.
                 --- exfalso. destruct (q_kind p); cbn in W; try contradiction; discriminate Sp.
                 --- assert (v = w) by (destruct (q_kind p); cbn in W; try discriminate Sp; destruct W as [W|[]]; congruence). subst w.
                     split; [exact Sp|]. split; [intros [_ L]; lia|]. split; [exact G|reflexivity].
                 --- exfalso. apply Nd. exists i, p. split; [exact X|]. split; [reflexivity|]. split; [exact Dp|]. split; [exact Sp|]. split; [intros [_ L]; lia|exact G].
           ++ right; right. assert (G : ~ In (q_name p) (map fst kw)).
              { intros G. apply (Cl p I) in G. apply keywordable_spec in G. congruence. }
              destruct (q_default p) as [|w|] eqn:Dp.
                 --- exfalso. destruct (q_kind p); cbn in W; try contradiction; discriminate Sp.
                 --- assert (v = w) by (destruct (q_kind p); cbn in W; try discriminate Sp; destruct W as [W|[]]; congruence). subst w.
                     split; [exact Sp|]. split; [intros [_ L]; lia|]. split; [exact G|reflexivity].
                 --- exfalso. apply Nd. exists i, p. split; [exact X|]. split; [reflexivity|]. split; [exact Dp|]. split; [exact Sp|]. split; [intros [_ L]; lia|exact G].
      * assert (Kp : keywordable p = true) by (unfold by_pos in Bp; unfold keywordable; destruct (q_kind p); try discriminate; reflexivity).
        assert (Np : ~ by_position p) by (intros Y; apply by_pos_spec in Y; congruence).
        rewrite Kp in W. apply keywordable_spec in Kp. destruct (kget kw (q_name p)) as [w|] eqn:G.
        -- destruct W as [W|[]]. injection W as ->. right; left. split; [exact Kp|now apply kget_In].
        -- right; right. apply kget_None in G. destruct (q_default p) as [|w|] eqn:Dp.
           --- exfalso. destruct (q_kind p); cbn in W; try contradiction; discriminate Sp.
           --- assert (v = w) by (destruct (q_kind p); cbn in W; try discriminate Sp; destruct W as [W|[]]; congruence). subst w.
               split; [exact Sp|]. split; [tauto|]. split; [exact G|reflexivity].
           --- exfalso. apply Nd. exists i, p. split; [exact X|]. split; [reflexivity|]. split; [exact Dp|]. split; [exact Sp|]. split; [tauto|exact G].
    + right. assert (Nt : ~ taken ps n).
      { intros (p & J & Bk & En). destruct (In_nth_error ps p J) as [i X]. pose proof (Ns p J En) as Sp. pose proof (A i p X Sp) as Ab.
        apply negb_true_iff, is_some_false, kget_None in G. apply G. rewrite in_map_iff.
        assert (exists w, kget b (q_name p) = Some w) as [w Hw].
        { rewrite Ab. unfold bound. destruct (if by_pos p then nth_error args i else None) as [w|]; [now exists w|].
          rewrite (proj2 (keywordable_spec p) Bk), En. exists v. now apply kget_In_iff. }
        exists (n, w). split; [reflexivity|]. apply defaults_In. exists p. split; [exact J|]. unfold with_default. rewrite Hw, En. now left. }
      split; [|split; [exact I|exact Nt]].
      destruct (Known n) as [T|T]; [apply in_map_iff; now exists (n, v)|contradiction|exact T].
  - intros [(i & p & X & En & Gt)|((q & J & K) & I & Nt)].
    + left. pose proof (nth_error_In _ _ X) as J. apply defaults_In. exists p. split; [exact J|]. subst n. pose proof (Ns p J eq_refl) as Sp.
      unfold with_default. rewrite (A i p X Sp). unfold bound. destruct Gt as [[Bp Nt]|[[Bk I]|(_ & Np & Ni & Dp)]].
      * rewrite (proj2 (by_pos_spec p) Bp), Nt. now left.
      * assert (Z0 : (if by_pos p then nth_error args i else None) = None).
        { destruct (by_pos p) eqn:Bp; [|reflexivity]. apply nth_error_None. apply by_pos_spec in Bp. destruct (Nat.le_gt_cases (length args) i) as [L|L]; [exact L|exfalso].
          assert (q_kind p = PEither) by (destruct Bp, Bk; congruence). apply (Once i p X); [assumption|exact L|]. apply in_map_iff. now exists (q_name p, v). }
        rewrite Z0, (proj2 (keywordable_spec p) Bk), (proj2 (kget_In_iff kw (q_name p) v Ok) I). now left.
      * assert (Z0 : (if by_pos p then nth_error args i else None) = None).
        { destruct (by_pos p) eqn:Bp; [|reflexivity]. apply nth_error_None. apply by_pos_spec in Bp. destruct (Nat.le_gt_cases (length args) i) as [L|L]; [exact L|exfalso]. now apply Np. }
        rewrite Z0. apply kget_None in Ni. rewrite Ni, Dp. destruct (keywordable p), (q_kind p); try discriminate Sp; now left.
    + right. split; [exact I|]. apply negb_true_iff, is_some_false, kget_None. intros Y. apply in_map_iff in Y. destruct Y as ([m w] & Em & Y). cbn in Em. subst m.
      apply defaults_In in Y. destruct Y as (p & Jp & W). apply with_default_name in W. apply Nt. exists p. split; [exact Jp|].
      split; [|now symmetry]. apply (Cl p Jp). rewrite <- W. apply in_map_iff. now exists (n, v).
Qed.
