From Verif Require Import Base Text Strike Bind SpecBind BindProofs BodyCall SpecBodyCall.

Lemma starts_spec p : forall s, starts_with p s = true <-> exists r, s = (p ++ r)%string.
Proof.
  induction p as [|a p IH]; intros s; cbn.
  - split; [intros _; now exists s|reflexivity].
  - destruct s as [|b s]; cbn.
    + split; [discriminate|intros [r E]; discriminate].
    + rewrite andb_true_iff, Ascii.eqb_eq, IH. split.
      * intros [-> [r ->]]. now exists r.
      * intros [r E]. injection E as -> ->. split; [reflexivity|now exists r].
Qed.

Lemma kget_flat_map (f : parm -> kwargs) ps p : NoDup (map q_name ps) -> (forall q e, In e (f q) -> fst e = q_name q) ->
  In p ps -> kget (flat_map f ps) (q_name p) = kget (f p) (q_name p).
Proof.
  intros D F I. induction ps as [|q ps IH]; [contradiction|]. cbn in D. inversion D as [|? ? N D']; subst. cbn [flat_map]. rewrite kget_app.
  destruct I as [->|I].
  - destruct (kget (f p) (q_name p)) eqn:E; [reflexivity|]. apply kget_None. intros X. apply in_map_iff in X. destruct X as (e & Ee & X).
    apply in_flat_map in X. destruct X as (q & J & X). apply F in X. apply N. rewrite <- Ee, X. now apply in_map.
  - rewrite IH by assumption. replace (kget (f q) (q_name p)) with (@None pv); [reflexivity|]. symmetry. apply kget_None.
    intros X. apply in_map_iff in X. destruct X as (e & Ee & X). apply F in X. apply N. rewrite <- X, Ee. now apply in_map.
Qed.

Lemma resolve_name kw value q e :
  In e (match q_default q with DDependency => [(q_name q, match kget kw (q_name q) with Some v => v | None => value (q_name q) end)] | _ => [] end) -> fst e = q_name q.
Proof. destruct (q_default q); cbn; intros H; try contradiction. destruct H as [<-|[]]. reflexivity. Qed.

Lemma kget_resolve ps kw value p : NoDup (map q_name ps) -> In p ps ->
  kget (resolve ps kw value) (q_name p) =
  match q_default p with DDependency => Some (match kget kw (q_name p) with Some v => v | None => value (q_name p) end) | _ => None end.
Proof.
  intros D I. unfold resolve. rewrite kget_flat_map; [|exact D|intros q e; apply resolve_name|exact I].
  destruct (q_default p); try reflexivity. now rewrite kget_cons, String.eqb_refl.
Qed.
Lemma resolve_names ps kw value n : In n (map fst (resolve ps kw value)) -> exists p, In p ps /\ q_default p = DDependency /\ q_name p = n.
Proof.
  intros X. apply in_map_iff in X. destruct X as (e & <- & X). apply in_flat_map in X. destruct X as (p & I & X). pose proof (resolve_name _ _ _ _ X) as E.
  exists p. split; [exact I|]. destruct (q_default p); try contradiction. now split.
Qed.

Lemma tasks_all ps kw value : ordinary_names ps -> task_dependencies (resolve ps kw value) = resolve ps kw value.
Proof.
  intros O. unfold task_dependencies. apply filter_all. intros e I. apply negb_true_iff. destruct (starts_with "__worker_dep__" (fst e)) eqn:S; [|reflexivity].
  apply starts_spec in S. destruct S as [r E]. assert (J : In (fst e) (map fst (resolve ps kw value))) by now apply in_map.
  apply resolve_names in J. destruct J as (p & Ip & Dp & En). exfalso. apply (O p r Ip Dp). congruence.
Qed.

Lemma kget_map (f : string -> pv -> pv) a n : kget (map (fun e => (fst e, f (fst e) (snd e))) a) n = option_map (f n) (kget a n).
Proof.
  induction a as [|[m w] a IH]; [reflexivity|]. cbn [map fst snd]. rewrite !kget_cons. destruct (String.eqb_spec m n) as [->|]; [reflexivity|exact IH].
Qed.
Lemma kget_filter_out a b n : kget (filter (fun e => negb (is_some (kget a (fst e)))) b) n = match kget a n with Some _ => None | None => kget b n end.
Proof.
  induction b as [|[m w] b IH]; [now destruct (kget a n)|]. cbn [filter fst]. destruct (kget a m) eqn:E; cbn [is_some negb].
  - rewrite IH, kget_cons. destruct (String.eqb_spec m n) as [->|]; [now rewrite E|reflexivity].
  - rewrite !kget_cons, IH. destruct (String.eqb_spec m n) as [->|]; [now rewrite E|reflexivity].
Qed.
Lemma kget_merge a b n : kget (merge a b) n = match kget b n with Some w => Some w | None => kget a n end.
Proof.
  unfold merge. rewrite kget_app, kget_filter_out.
  pose proof (kget_map (fun m w => match kget b m with Some w' => w' | None => w end) a n) as M. cbv beta in M. rewrite M.
  destruct (kget a n); cbn; destruct (kget b n); reflexivity.
Qed.

(** What the keywords are in the end. *)
Lemma final_keyword ps kw value n : NoDup (map q_name ps) -> ordinary_names ps ->
  kget (merge kw (task_dependencies (resolve ps kw value))) n =
  match kget kw n with
  | Some v => Some v
  | None => if existsb (fun p => match q_default p with DDependency => String.eqb (q_name p) n | _ => false end) ps then Some (value n) else None
  end.
Proof.
  intros D O. rewrite tasks_all by exact O. rewrite kget_merge.
  destruct (existsb _ ps) eqn:E.
  - apply existsb_exists in E. destruct E as (p & I & E). destruct (q_default p) eqn:Dp; try discriminate. apply String.eqb_eq in E. subst n.
    rewrite (kget_resolve ps kw value p D I), Dp. now destruct (kget kw (q_name p)).
  - destruct (kget (resolve ps kw value) n) as [w|] eqn:R; [|now destruct (kget kw n)]. exfalso.
    assert (J : In n (map fst (resolve ps kw value))) by (apply kget_some; now rewrite R). apply resolve_names in J. destruct J as (p & I & Dp & <-).
    assert (X : existsb (fun q => match q_default q with DDependency => String.eqb (q_name q) (q_name p) | _ => false end) ps = true); [|congruence].
    apply existsb_exists. exists p. split; [exact I|]. rewrite Dp. apply String.eqb_refl.
Qed.

(** ** Stars *)
Lemma star_positional ps : in_order ps -> NoDup (map q_name ps) -> forall args kw b rest i p, bind_positional ps args kw = Some (b, rest) ->
  nth_error ps i = Some p -> q_kind p = PStar ->
  kget b (q_name p) = match skipn i args with [] => None | l => Some (PTup l) end.
Proof.
  induction ps as [|q ps IH]; intros O D args kw b rest i p H X K; [destruct i; discriminate|].
  destruct O as [Fo O]. cbn in D. inversion D as [|? ? N D']; subst. cbn [bind_positional] in H.
  destruct args as [|a args].
  - rewrite skipn_nil. assert (b = []) as ->; [|reflexivity].
    destruct (q_kind q); repeat match type of H with (if ?c then _ else _) = _ => destruct c; try discriminate end; now injection H as <- <-.
  - destruct i as [|i]; cbn in X.
    + injection X as <-. rewrite K in H. injection H as <- <-. cbn [skipn]. now rewrite kget_cons, String.eqb_refl.
    + cbn [skipn]. assert (Nq : q_name q <> q_name p) by (intros E; apply N; rewrite E; apply in_map; now apply nth_error_In in X).
      assert (G : match bind_positional ps args kw with Some (b, rest) => Some ((q_name q, a) :: b, rest) | None => None end = Some (b, rest)).
      { pose proof (proj1 (Forall_forall _ _) Fo p (nth_error_In _ _ X)) as [L|[E _]]; rewrite K in *.
        - destruct (q_kind q); cbn in L; try lia; [exact H|]. destruct (is_some (kget kw (q_name q))); [discriminate|exact H].
        - rewrite E in H. exfalso. pose proof (proj1 (Forall_forall _ _) Fo p (nth_error_In _ _ X)) as [L|[_ S]]; rewrite E, ?K in *; [cbn in L; lia|discriminate]. }
      destruct (bind_positional ps args kw) as [[b' rest']|] eqn:Hp; [|discriminate]. injection G as <- <-. rewrite kget_cons, (eqb_neq_string _ _ Nq).
      now apply (IH O D' args kw b' rest').
Qed.

Lemma bind_stars ps args kw b : signature ps -> bind ps args kw = Some b ->
  (forall i p, nth_error ps i = Some p -> q_kind p = PStar -> kget b (q_name p) = match skipn i args with [] => None | l => Some (PTup l) end) /\
  (forall p, In p ps -> q_kind p = KStar -> exists l, kget b (q_name p) = match l with [] => None | _ => Some (dict l) end /\
     forall n v, In (n, v) l <-> In (n, v) kw /\ ~ taken ps n).
Proof.
  intros [O D] H. pose proof (bind_spec ps args kw b (conj O D) H) as (_ & _ & Ac). unfold bind in H.
  destruct (bind_positional ps args kw) as [[b1 rest]|] eqn:H1; [|discriminate].
  destruct (bind_keywords rest kw) as [[[b2 ks] over]|] eqn:H2; [|discriminate].
  destruct (positional_spec ps O D _ _ _ _ H1) as (A & B & C & E & F).
  destruct (keywords_spec rest C _ _ _ _ H2) as (A2 & B2 & C2 & E2 & F2 & S).
  assert (K2 : forall p, In p ps -> star (q_kind p) = true -> kget b2 (q_name p) = None).
  { intros p I Sp. destruct (in_dec string_dec (q_name p) (map q_name rest)) as [J|J]; [|now apply B2].
    apply in_map_iff in J. destruct J as (q & Eq & Jq). rewrite (same_name ps p q D I (B q Jq) (eq_sym Eq)) in *.
    rewrite (A2 q Jq). unfold keywordable. now destruct (q_kind q). }
  assert (Ex : exists tl, b = b1 ++ b2 ++ tl /\ ((over = [] /\ tl = []) \/ exists q, In q ps /\ q_kind q = KStar /\ tl = [(q_name q, dict over)] /\ over <> [])).
  { destruct over as [|e over]; [injection H as <-; exists []; rewrite app_nil_r; auto|]. destruct ks as [n|]; [|discriminate].
    injection H as <-. exists [(n, dict (e :: over))]. split; [reflexivity|right]. destruct S as [[S _]|(q & I & K & S)]; [discriminate|]. injection S as ->. exists q. repeat split; auto. discriminate. }
  destruct Ex as (tl & -> & Tl). split.
  - intros i p X K. rewrite !kget_app, (star_positional ps O D _ _ _ _ i p H1 X K). destruct (skipn i args); [|reflexivity].
    rewrite K2 by (try (now apply nth_error_In in X); now rewrite K). destruct Tl as [[_ ->]|(q & I & Kq & -> & _)]; [reflexivity|].
    rewrite kget_cons, eqb_neq_string; [reflexivity|]. intros Y. pose proof (same_name ps q p D I (nth_error_In _ _ X) Y) as Z0. congruence.
  - intros p I K. exists over. split.
    + rewrite !kget_app, K2 by (try exact I; now rewrite K).
      assert (K1 : kget b1 (q_name p) = None).
      { destruct (In_nth_error ps p I) as [i X]. destruct (A i p X) as [(_ & Bp & _)|[[_ Kp]|(_ & G & _)]]; [destruct Bp; congruence|congruence|exact G]. }
      rewrite K1. destruct Tl as [[-> ->]|(q & J & Kq & -> & No)]; [reflexivity|]. rewrite kget_cons.
      assert (Pq : p = q). { assert (Two : forall ps, in_order ps -> forall p q, In p ps -> In q ps -> q_kind p = KStar -> q_kind q = KStar -> p = q).
        { clear. induction ps as [|x ps IH]; intros O p q I J K L; [contradiction|]. destruct O as [Fo O]. rewrite Forall_forall in Fo.
          destruct I as [->|I], J as [->|J]; [reflexivity| | |now apply IH].
          - destruct (Fo q J) as [R|[_ R]]; rewrite K, ?L in R; [cbn in R; lia|discriminate].
          - destruct (Fo p I) as [R|[_ R]]; rewrite L, ?K in R; [cbn in R; lia|discriminate]. }
        now apply (Two ps O). }
      subst q. rewrite String.eqb_refl. destruct over; [now contradiction No|reflexivity].
    + intros n v. rewrite C2. unfold extras. rewrite filter_In. cbn [fst]. split.
      * intros [Iv N]. split; [exact Iv|]. apply negb_true_iff in N. intros (q & Jq & Bk & En). destruct (In_nth_error ps q Jq) as [i X].
        destruct (A i q X) as [(_ & A3 & A4 & _)|[[_ Kq]|(J & _)]].
        -- assert (Kq : q_kind q = PEither) by (destruct A3, Bk; congruence). apply (ac_once _ _ _ Ac i q X Kq A4). rewrite En. apply in_map_iff. now exists (n, v).
        -- destruct Bk; congruence.
        -- assert (claims rest n = true) by (apply claims_spec; now exists q). congruence.
      * intros [Iv N]. split; [exact Iv|]. apply negb_true_iff. destruct (claims rest n) eqn:Cl; [|reflexivity]. apply claims_spec in Cl. destruct Cl as (q & J & Q).
        exfalso. apply N. exists q. split; [now apply B|exact Q].
Qed.
