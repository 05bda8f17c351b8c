(** What any sequence of strikes and restores blocks, mixed or not. *)
From Verif Require Import Base ZSet Model GInv Strike SpecStrike StrikeProofs.
From Coq Require Import String.
Import ListNotations.
Local Open Scope list_scope.

Lemma sl_run_hashable l l0 : sl_run l0 l = sl_run l0 (filter (fun i => hashable (in_val i)) l).
Proof.
  revert l0; induction l as [|i l IH]; intros l0; [reflexivity|]. cbn [filter].
  destruct (hashable (in_val i)) eqn:E; [exact (IH (sl_update l0 i))|].
  cbn. unfold sl_update at 2. rewrite E. apply IH.
Qed.

Record NE (l : slist) : Prop := {
  ne_set : forall f ts p, sl_tasks l f = Some ts -> dget ts p <> Some [];
  ne_ent : forall f ts e, sl_tasks l f = Some ts -> In e ts -> snd e <> [];
  ne_par : forall p, dget (sl_params l) p <> Some [] }.

Lemma in_dpop d p e : In e (dpop d p) -> In e d.
Proof. unfold dpop. rewrite filter_In. tauto. Qed.

Lemma ne_update l i : NE l -> NE (sl_update l i).
Proof.
  intros [I1 I2 I3]. unfold sl_update. destruct (hashable (in_val i)); [|now split].
  destruct (in_strike i); unfold do_strike, do_restore;
    destruct (given (in_fn i)) as [f|] eqn:Ef, (given (in_param i)) as [p|] eqn:Ep; try (split; assumption).
  - split; cbn [sl_tasks sl_params]; [| |assumption].
    + intros g ts q. unfold upd; sbool; [|apply I1]. intros [= <-]. rewrite dget_dset. sbool.
      * intros E; injection E as E; exact (sadd_ne _ _ E).
      * destruct (sl_tasks l f) eqn:Et; [eapply I1; eassumption|discriminate].
    + intros g ts e. unfold upd; sbool; [|apply I2]. intros [= <-]. unfold dset. intros [<-|Hi].
      * cbn [snd]. apply sadd_ne.
      * apply in_dpop in Hi. destruct (sl_tasks l f) eqn:Et; [eapply I2; eassumption|destruct Hi].
  - destruct (sl_tasks l f) eqn:Et; [split; assumption|].
    split; cbn [sl_tasks sl_params]; [| |assumption].
    + intros g ts q. unfold upd; sbool; [|apply I1]. intros [= <-]. discriminate.
    + intros g ts e. unfold upd; sbool; [|apply I2]. intros [= <-] [].
  - split; cbn [sl_tasks sl_params]; [assumption|assumption|].
    intros q. rewrite dget_dset. sbool; [|apply I3]. intros E; injection E as E; exact (sadd_ne _ _ E).
  - destruct (sl_tasks l f) as [ts|] eqn:Et; [|split; assumption].
    destruct (dget ts p) as [ps|] eqn:Eps; [|split; assumption].
    destruct (sremove ps (in_op i, in_val i)) as [|c r] eqn:Er; (split; cbn [sl_tasks sl_params]; [| |assumption]).
    + intros g ts' q. unfold upd; sbool; [|apply I1].
      assert (G : dget (dpop ts p) q <> Some []) by (rewrite dget_dpop; sbool; [discriminate|eapply I1; eassumption]).
      destruct (dpop ts p); [discriminate|]. intros [= <-]; exact G.
    + intros g ts' e. unfold upd; sbool; [|apply I2]. intros E He.
      eapply I2; [exact Et|]. apply (in_dpop ts p). destruct (dpop ts p); [discriminate|]. injection E as <-. exact He.
    + intros g ts' q. unfold upd; sbool; [|apply I1]. intros [= <-]. rewrite dget_dset; sbool; [discriminate|eapply I1; eassumption].
    + intros g ts' e. unfold upd; sbool; [|apply I2]. intros [= <-]. unfold dset. intros [<-|Hi]; [discriminate|].
      apply in_dpop in Hi. eapply I2; eassumption.
  - destruct (sl_tasks l f) as [[|e ts]|] eqn:Et; try (split; assumption).
    split; cbn [sl_tasks sl_params]; [| |assumption]; intros g ts' e; unfold upd; sbool; try discriminate; [apply I1|apply I2].
  - destruct (dget (sl_params l) p) as [ps|] eqn:Eps; [|split; assumption].
    destruct (sremove ps (in_op i, in_val i)); (split; cbn [sl_tasks sl_params]; [assumption|assumption|]);
      intros q; rewrite ?dget_dpop, ?dget_dset; sbool; try discriminate; apply I3.
Qed.

Lemma ne_run l : NE (sl_run sl_empty l).
Proof.
  induction l as [|i l IH] using rev_ind; [split; simpl; try discriminate|].
  rewrite sl_run_snoc; now apply ne_update.
Qed.

(** A function's dict is empty of conditions only if it is absent or empty. *)
Lemma has_cond l f e ts : NE l -> sl_tasks l f = Some (e :: ts) -> exists p c, In c (tconds l f p).
Proof.
  intros I E. destruct e as [p [|c s]]; [exfalso; exact (ne_ent l I f _ _ E (or_introl eq_refl) eq_refl)|].
  exists p, c. unfold tconds. rewrite E; cbn [default]. unfold dget; cbn [find fst]. rewrite String.eqb_refl. now left.
Qed.

(** Conditions on a function's parameters: added by their strike, removed by their restore. *)
Lemma tconds_update l i f p c : hashable (in_val i) = true ->
  (In c (tconds (sl_update l i) f p) <->
   ((given (in_fn i) = Some f /\ given (in_param i) = Some p /\ c = (in_op i, in_val i)) /\ in_strike i = true) \/
   (~ (given (in_fn i) = Some f /\ given (in_param i) = Some p /\ c = (in_op i, in_val i)) /\ In c (tconds l f p))).
Proof.
  intros Hh. unfold sl_update; rewrite Hh.
  assert (Z : forall A B : Prop, ~ A -> (B <-> (A /\ in_strike i = true) \/ (~ A /\ B))) by tauto.
  destruct (given (in_fn i)) as [g|] eqn:Ef, (given (in_param i)) as [q|] eqn:Ep.
  - destruct (in_strike i) eqn:Es.
    + unfold do_strike; rewrite Ef, Ep. unfold tconds at 1; cbn [sl_tasks]. rewrite default_upd.
      destruct (String.eqb_spec f g) as [->|Ng]; [|apply Z; intros ([= E] & _); congruence].
      rewrite dget_dset. destruct (String.eqb_spec p q) as [->|Nq]; [|apply Z; intros (_ & [= E] & _); congruence].
      cbn [default]. rewrite in_sadd. unfold tconds.
      destruct (cond_eqb c (in_op i, in_val i)) eqn:D.
      * apply cond_eqb_iff in D. tauto.
      * assert (c <> (in_op i, in_val i)) by (intros ->; assert (cond_eqb (in_op i, in_val i) (in_op i, in_val i) = true) by (now apply cond_eqb_iff); congruence).
        tauto.
    + unfold do_restore; rewrite Ef, Ep.
      pose proof (removed (default [] (sl_tasks l g)) q (in_op i, in_val i)) as R.
      assert (Z' : forall A B : Prop, (~ A /\ B) <-> (A /\ false = true) \/ (~ A /\ B)) by (intros A B; split; [tauto|intros [[_ X]|X]; [discriminate|exact X]]).
      rewrite <- Z'. clear Z'.
      assert (Habs : ~ (exists ps, dget (default [] (sl_tasks l g)) q = Some ps) ->
        (In c (tconds l f p) <-> ~ (Some g = Some f /\ Some q = Some p /\ c = (in_op i, in_val i)) /\ In c (tconds l f p))).
      { intros N. split; [|tauto]. intros H; split; [|exact H]. intros ([= ->] & [= ->] & _).
        unfold tconds in H. destruct (dget (default [] (sl_tasks l f)) p) eqn:E; [apply N; eauto|destruct H]. }
      destruct (sl_tasks l g) as [ts|] eqn:Et; cbn [default] in R; [|apply Habs; intros [ps E]; discriminate].
      cbn [default] in Habs.
      destruct (dget ts q) as [ps|] eqn:Eps; [|apply Habs; intros [ps E]; congruence].
      destruct (sremove ps (in_op i, in_val i)) as [|y r] eqn:Er; unfold tconds at 1; cbn [sl_tasks];
        rewrite ?default_shrunk, ?default_upd; (destruct (String.eqb_spec f g) as [->|Ng];
        [|split; [intros H; split; [intros ([= E] & _); congruence|exact H]|tauto]]).
      all: rewrite R; unfold tconds; rewrite Et; cbn [default].
      all: split; intros [A B]; (split; [|exact B]); intros X; apply A; [destruct X as (_ & [= <-] & ->)|destruct X as (-> & ->)]; auto.
  - assert (E : default [] (sl_tasks (if in_strike i then do_strike l i else do_restore l i) f) = default [] (sl_tasks l f)).
    { destruct (in_strike i); unfold do_strike, do_restore; rewrite Ef, Ep; destruct (sl_tasks l g) as [[|e ts]|] eqn:Et; try reflexivity;
        cbn [sl_tasks]; unfold upd; sbool; try reflexivity; now rewrite Et. }
    unfold tconds; rewrite E. apply Z. intros (_ & ? & _); discriminate.
  - assert (E : sl_tasks (if in_strike i then do_strike l i else do_restore l i) = sl_tasks l).
    { destruct (in_strike i); unfold do_strike, do_restore; rewrite Ef, Ep; [reflexivity|].
      destruct (dget (sl_params l) q) as [ps|]; [|reflexivity]. destruct (sremove ps _); reflexivity. }
    unfold tconds; rewrite E. apply Z. intros (? & _); discriminate.
  - replace (if in_strike i then do_strike l i else do_restore l i) with l
      by (unfold do_strike, do_restore; rewrite Ef, Ep; now destruct (in_strike i)).
    apply Z. intros (? & _); discriminate.
Qed.

Lemma in_force_nil i : ~ in_force [] i.
Proof. intros (l1 & j & l2 & E & _). destruct l1; discriminate. Qed.

Lemma same_param j i f p : given (in_fn j) = Some f -> given (in_param j) = Some p ->
  (same_strike j i <-> given (in_fn i) = Some f /\ given (in_param i) = Some p /\ (in_op j, in_val j) = (in_op i, in_val i)).
Proof.
  intros Ef Ep. unfold same_strike; rewrite Ef, Ep. split.
  - intros (E1 & E2 & E3). repeat split; auto. destruct E3 as [-> ->]; [congruence|reflexivity].
  - intros (E1 & E2 & [= -> ->]). repeat split; auto.
Qed.

Lemma tconds_run l j f p : all_hashable l -> given (in_fn j) = Some f -> given (in_param j) = Some p ->
  (In (in_op j, in_val j) (tconds (sl_run sl_empty l) f p) <-> in_force l j).
Proof.
  intros H Ef Ep. induction l as [|i l IH] using rev_ind.
  - split; [intros []|intros X; destruct (in_force_nil _ X)].
  - rewrite sl_run_snoc, tconds_update, in_force_snoc, IH, (same_param j i f p Ef Ep); [reflexivity| |].
    + intros k Hk; apply H, in_or_app; now left.
    + apply H, in_or_app; simpl; auto.
Qed.

Lemma whole_snoc l i f : wholly_struck (l ++ [i]) f <->
  (in_strike i = true /\ given (in_fn i) = Some f /\ given (in_param i) = None /\
    (forall j, given (in_fn j) = Some f -> given (in_param j) <> None -> ~ in_force l j)) \/
  (wholly_struck l f /\ (given (in_fn i) = Some f -> if in_strike i then given (in_param i) = None else given (in_param i) <> None)).
Proof.
  split.
  - intros (l1 & x & l2 & E & Hs & Hf & Hp & Hn & Hl). destruct (exists_last_or l2) as [->|(l3 & y & ->)].
    + apply app_inj_tail in E; destruct E as [-> ->]. left; auto.
    + assert (E' : l ++ [i] = (l1 ++ x :: l3) ++ [y]) by (rewrite E; rewrite <- app_assoc; reflexivity).
      apply app_inj_tail in E'; destruct E' as [-> ->]. right. split.
      * exists l1, x, l3. do 5 (split; [solve [assumption | reflexivity]|]). intros j' Hj'; apply Hl, in_or_app; now left.
      * apply Hl, in_or_app; simpl; auto.
  - intros [(Hs & Hf & Hp & Hn)|[(l1 & x & l2 & -> & Hs & Hf & Hp & Hn & Hl) Hi]].
    + exists l, i, []. do 5 (split; [solve [assumption | reflexivity]|]). intros j' [].
    + exists l1, x, (l2 ++ [i]). rewrite <- app_assoc. do 5 (split; [solve [assumption | reflexivity]|]).
      intros j' Hj'. apply in_app_or in Hj'. destruct Hj' as [Hj'|[<-|[]]]; [now apply Hl|assumption].
Qed.

Lemma given_idem o s : given o = Some s -> given (Some s) = Some s.
Proof. destruct o as [[|a r]|]; simpl; intros [= <-]; reflexivity. Qed.

Lemma whole_run l f : all_hashable l -> (sl_tasks (sl_run sl_empty l) f = Some [] <-> wholly_struck l f).
Proof.
  induction l as [|i l IH] using rev_ind; intros H.
  - split; [discriminate|]. intros (l1 & j & l2 & E & _). destruct l1; discriminate.
  - assert (Hl : all_hashable l) by (intros k Hk; apply H, in_or_app; now left).
    assert (Hi : hashable (in_val i) = true) by (apply H, in_or_app; simpl; auto).
    specialize (IH Hl). rewrite sl_run_snoc, whole_snoc, <- IH.
    pose proof (gs_run l) as G. pose proof (ne_run l) as N.
    pose proof (tconds_run l) as T.
    set (s := sl_run sl_empty l) in *.
    assert (Hnone : sl_tasks s f = None \/ sl_tasks s f = Some [] -> forall j, given (in_fn j) = Some f -> given (in_param j) <> None -> ~ in_force l j).
    { intros D j Ef Ep X. destruct (given (in_param j)) as [p|] eqn:Eq; [|congruence].
      apply (T j f p Hl Ef Eq) in X. unfold tconds in X. destruct D as [D|D]; rewrite D in X; exact X. }
    assert (Hsome : forall e ts, given (in_fn i) = Some f -> sl_tasks s f = Some (e :: ts) -> ~ (forall j, given (in_fn j) = Some f -> given (in_param j) <> None -> ~ in_force l j)).
    { intros e ts Ei E X. destruct (has_cond s f e ts N E) as (p & [o v] & Hc).
      assert (Np : p <> EmptyString) by (intros ->; unfold tconds in Hc; rewrite E in Hc; cbn [default] in Hc; rewrite (gs_fp s G _ _ E) in Hc; exact Hc).
      apply (X (mkInstr true (Some f) (Some p) o v)).
      - exact (given_idem _ _ Ei).
      - cbn [in_param]. rewrite (ne_good _ Np). discriminate.
      - apply (T (mkInstr true (Some f) (Some p) o v) f p Hl); [exact (given_idem _ _ Ei)|exact (ne_good _ Np)|exact Hc]. }
    unfold sl_update; rewrite Hi.
    destruct (given (in_fn i)) as [g|] eqn:Ef.
    2:{ replace (sl_tasks (if in_strike i then do_strike s i else do_restore s i)) with (sl_tasks s).
        - split; [intros E; right; split; [exact E|discriminate]|]. intros [(_ & X & _)|[E _]]; [discriminate|exact E].
        - unfold do_strike, do_restore; rewrite Ef. destruct (in_strike i), (given (in_param i)) as [p|]; try reflexivity.
          destruct (dget (sl_params s) p) as [ps|]; [|reflexivity]. destruct (sremove ps _); reflexivity. }
    destruct (string_dec f g) as [->|Ng].
    2:{ replace (sl_tasks (if in_strike i then do_strike s i else do_restore s i) f) with (sl_tasks s f).
        - split; [intros E; right; split; [exact E|intros [= X]; congruence]|]. intros [(_ & [= X] & _)|[E _]]; [congruence|exact E].
        - unfold do_strike, do_restore; rewrite Ef. destruct (in_strike i), (given (in_param i)) as [p|]; cbn [sl_tasks]; rewrite ?upd_neq by assumption; try reflexivity.
          + destruct (sl_tasks s g); [reflexivity|]. cbn [sl_tasks]; now rewrite upd_neq.
          + destruct (sl_tasks s g) as [ts|]; [|reflexivity]. destruct (dget ts p) as [ps|]; [|reflexivity].
            destruct (sremove ps _); cbn [sl_tasks]; now rewrite upd_neq.
          + destruct (sl_tasks s g) as [[|]|]; cbn [sl_tasks]; rewrite ?upd_neq by assumption; reflexivity. }
    destruct (in_strike i) eqn:Es; unfold do_strike, do_restore; rewrite Ef; destruct (given (in_param i)) as [p|] eqn:Ep.
    + cbn [sl_tasks]. rewrite upd_eq. split; [discriminate|].
      intros [(_ & _ & X & _)|[_ X]]; [discriminate|]. now specialize (X eq_refl).
    + destruct (sl_tasks s g) as [[|e ts]|] eqn:Et; cbn [sl_tasks]; rewrite ?upd_eq, ?Et.
      * split; auto.
      * split; [discriminate|]. intros [(_ & _ & _ & X)|[X _]]; [|discriminate]. destruct (Hsome e ts eq_refl eq_refl X).
      * split; [|reflexivity]. intros _; left. repeat split. apply Hnone; now left.
    + destruct (sl_tasks s g) as [ts|] eqn:Et.
      2:{ rewrite Et. split; [discriminate|]. intros [(X & _)|[X _]]; discriminate. }
      destruct (dget ts p) as [ps|] eqn:Eps.
      * assert (Nts : ts <> []) by (intros ->; discriminate).
        split; [|intros [(X & _)|[[= X] _]]; [discriminate|contradiction]].
        destruct (sremove ps _); cbn [sl_tasks]; rewrite upd_eq; [|discriminate]. destruct (dpop ts p); discriminate.
      * rewrite Et. split; [intros E; right; split; [exact E|discriminate]|]. intros [(X & _)|[E _]]; [discriminate|exact E].
    + destruct (sl_tasks s g) as [[|e ts]|] eqn:Et; cbn [sl_tasks]; rewrite ?upd_eq, ?Et.
      * split; [discriminate|]. intros [(X & _)|[_ X]]; [discriminate|]. now specialize (X eq_refl).
      * split; [discriminate|]. intros [(X & _)|[X _]]; discriminate.
      * split; [discriminate|]. intros [(X & _)|[X _]]; discriminate.
Qed.

Lemma in_force_in l j : in_force l j -> exists i, In i l /\ same_strike j i /\ in_strike i = true /\ in_force l i.
Proof.
  intros (l1 & i & l2 & -> & Hs & Hj & Hl). exists i. split; [apply in_or_app; right; now left|]. split; [exact Hj|]. split; [exact Hs|].
  exists l1, i, l2. split; [reflexivity|]. split; [exact Hs|]. split; [apply same_refl|].
  intros j' Hi Hsm. apply Hl; [exact Hi|]. destruct Hj as (A1 & A2 & A3), Hsm as (B1 & B2 & B3).
  split; [congruence|]. split; [congruence|]. intros N. destruct (A3 N) as [-> ->]. apply B3. congruence.
Qed.

(** What a sequence of instructions blocks, without any restriction on it. *)
Lemma any_sequence l t : all_hashable l ->
  (stricken (sl_run sl_empty l) t = true <->
   wholly_struck l (tg_fn t) \/ exists i, In i l /\ in_force l i /\ given (in_param i) <> None /\ describes i t).
Proof.
  intros H. rewrite <- (whole_run l (tg_fn t) H).
  pose proof (gs_run l) as G. pose proof (tconds_run l) as T.
  assert (D := fun args => dict_blocked_iff l args H). unfold dict_stricken in D.
  unfold stricken. set (s := sl_run sl_empty l) in *.
  assert (E : (sl_tasks s (tg_fn t) = Some [] \/
      exists args, tg_args t = Some args /\ existsb (fun a => strikes_on (default [] (sl_tasks s (tg_fn t))) (fst a) (snd a) || strikes_on (sl_params s) (fst a) (snd a)) args = true)
      <-> sl_tasks s (tg_fn t) = Some [] \/ (exists i, In i l /\ in_force l i /\ given (in_param i) <> None /\ describes i t)).
  { apply or_iff_compat_l. split.
    - intros (args & Ea & Hx). rewrite existsb_exists in Hx. destruct Hx as ([p v] & Hin & Hx). cbn [fst snd] in Hx. apply orb_true_iff in Hx.
      destruct Hx as [Hx|Hx].
      + apply strikes_on_iff in Hx; destruct Hx as ([o w] & Hc & Hm); cbn [fst snd] in Hm.
        assert (Nf : tg_fn t <> EmptyString) by (intros X; rewrite X, (gs_fn s G) in Hc; exact Hc).
        assert (Np : p <> EmptyString).
        { intros ->. destruct (sl_tasks s (tg_fn t)) as [ts|] eqn:Et; [|exact Hc]. cbn [default] in Hc. rewrite (gs_fp s G _ _ Et) in Hc; exact Hc. }
        apply (T (mkInstr true (Some (tg_fn t)) (Some p) o w) (tg_fn t) p H (ne_good _ Nf) (ne_good _ Np)) in Hc.
        apply in_force_in in Hc. destruct Hc as (i & Hi & Hs & _ & Hf).
        apply (same_param (mkInstr true (Some (tg_fn t)) (Some p) o w) i (tg_fn t) p (ne_good _ Nf) (ne_good _ Np)) in Hs. destruct Hs as (E1 & E2 & [= E3 E4]).
        exists i. split; [exact Hi|]. split; [exact Hf|]. split; [congruence|].
        unfold describes. rewrite E1, E2, <- E3, <- E4. split; [now right|]. eauto.
      + assert (Hd : existsb (fun a => strikes_on (sl_params s) (fst a) (snd a)) args = true)
          by (rewrite existsb_exists; exists (p, v); auto).
        apply D in Hd. destruct Hd as (i & p' & v' & Hi & Hf & E1 & E2 & Hin' & Hm).
        exists i. split; [exact Hi|]. split; [exact Hf|]. split; [congruence|].
        unfold describes. rewrite E1, E2. split; [now left|]. eauto.
    - intros (i & Hi & Hf & Np & Hd). unfold describes in Hd.
      destruct (given (in_param i)) as [p|] eqn:Ep; [|congruence].
      assert (Hd' : (given (in_fn i) = None \/ given (in_fn i) = Some (tg_fn t)) /\
        exists args v, tg_args t = Some args /\ In (p, v) args /\ is_match v (in_op i) (in_val i) = true) by (destruct (given (in_fn i)); exact Hd).
      destruct Hd' as [Hfn (args & v & Ea & Hin & Hm)]. exists args. split; [exact Ea|].
      destruct Hfn as [Hfn|Hfn].
      + assert (Hx : existsb (fun a => strikes_on (sl_params s) (fst a) (snd a)) args = true) by (apply D; exists i, p, v; auto 10).
        rewrite existsb_exists in Hx |- *. destruct Hx as (a & Ha & Hx). exists a. split; [exact Ha|]. rewrite Hx. apply orb_true_r.
      + apply (T i (tg_fn t) p H Hfn Ep) in Hf. rewrite existsb_exists. exists (p, v). split; [exact Hin|]. cbn [fst snd].
        apply orb_true_iff; left. apply strikes_on_iff. exists (in_op i, in_val i). split; [exact Hf|exact Hm]. }
  rewrite <- E. destruct (sl_tasks s (tg_fn t)) as [[|e ts]|] eqn:Et.
  - split; auto.
  - split.
    + intros X; right. destruct (tg_args t) as [args|]; [eauto|discriminate].
    + intros [X|(args & Ea & X)]; [discriminate|]. now rewrite Ea.
  - split.
    + intros X; right. destruct (tg_args t) as [args|]; [eauto|discriminate].
    + intros [X|(args & Ea & X)]; [discriminate|]. now rewrite Ea.
Qed.
