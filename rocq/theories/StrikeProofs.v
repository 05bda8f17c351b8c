(** Lemmas about the strike list. *)
From Verif Require Import Base Strike SpecStrike.

Lemma pv_ind' (P : pv -> Prop) :
  (forall z, P (PInt z)) -> (forall s, P (PStr s)) ->
  (forall l, Forall P l -> P (PTup l)) -> (forall l, Forall P l -> P (PList l)) -> forall v, P v.
Proof.
  intros H1 H2 H3 H4. fix IH 1. intros [z|s|l|l]; [apply H1|apply H2|apply H3|apply H4];
    (induction l as [|x l IHl]; constructor; [apply IH|exact IHl]).
Qed.

Lemma list_eqb_iff l : Forall (fun a => forall b, pv_eqb a b = true <-> a = b) l ->
  forall l', list_eqb pv pv_eqb l l' = true <-> l = l'.
Proof.
  induction 1 as [|x l H Hl IH]; intros [|y l']; simpl; try (split; congruence).
  rewrite andb_true_iff, H, IH; split; [intros [-> ->]; reflexivity|intros [= -> ->]; tauto].
Qed.

Lemma pv_eqb_iff a : forall b, pv_eqb a b = true <-> a = b.
Proof.
  induction a as [z|s|l IH|l IH] using pv_ind'; intros [z'|s'|l'|l']; simpl; try (split; discriminate).
  - rewrite Z.eqb_eq; split; congruence.
  - rewrite String.eqb_eq; split; congruence.
  - rewrite (list_eqb_iff l IH); split; congruence.
  - rewrite (list_eqb_iff l IH); split; congruence.
Qed.

Lemma op_eqb_iff a b : op_eqb a b = true <-> a = b.
Proof. destruct a, b; simpl; split; congruence. Qed.

Lemma cond_eqb_iff a b : cond_eqb a b = true <-> a = b.
Proof.
  unfold cond_eqb; destruct a as [o v], b as [o' v']; cbn [fst snd].
  rewrite andb_true_iff, op_eqb_iff, pv_eqb_iff; split; [intros [-> ->]; reflexivity|intros [= -> ->]; tauto].
Qed.

Lemma in_sadd s x c : In c (sadd s x) <-> c = x \/ In c s.
Proof.
  unfold sadd; destruct (existsb (cond_eqb x) s) eqn:E; simpl; [|intuition].
  apply existsb_exists in E; destruct E as (y & Hy & E); apply cond_eqb_iff in E; subst y.
  split; [tauto|intros [E|H]; [now rewrite E|assumption]].
Qed.

Lemma in_sremove s x c : In c (sremove s x) <-> c <> x /\ In c s.
Proof.
  unfold sremove; rewrite filter_In, negb_true_iff.
  split; intros [H1 H2]; (split; try assumption).
  - intros ->. assert (E : cond_eqb x x = true) by now apply cond_eqb_iff. congruence.
  - destruct (cond_eqb x c) eqn:E; [apply cond_eqb_iff in E; congruence|reflexivity].
Qed.

Lemma sadd_ne s x : sadd s x <> [].
Proof. intros E. assert (H : In x (sadd s x)) by (apply in_sadd; now left). now rewrite E in H. Qed.

Lemma dget_dpop d p p' : dget (dpop d p) p' = if String.eqb p' p then None else dget d p'.
Proof.
  unfold dget, dpop; induction d as [|[q s] d IH]; simpl; [now destruct (String.eqb p' p)|].
  destruct (String.eqb_spec q p) as [->|N]; cbn [negb].
  - rewrite IH; destruct (String.eqb_spec p' p) as [E|N']; [reflexivity|].
    rewrite (eqb_neq_string p p') by congruence. reflexivity.
  - simpl. destruct (String.eqb_spec q p') as [E|N'].
    + subst q. now rewrite (eqb_neq_string p' p).
    + exact IH.
Qed.

Lemma dget_dset d p s p' : dget (dset d p s) p' = if String.eqb p' p then Some s else dget d p'.
Proof.
  unfold dset. destruct (String.eqb_spec p' p) as [->|N].
  - unfold dget; simpl; now rewrite String.eqb_refl.
  - assert (E : dget ((p, s) :: dpop d p) p' = dget (dpop d p) p')
      by (unfold dget; simpl; rewrite (eqb_neq_string p p') by congruence; reflexivity).
    rewrite E, dget_dpop, (eqb_neq_string p' p) by assumption. reflexivity.
Qed.

(** The strikes a list holds, by instruction. *)
Definition tconds (l : slist) f p := default [] (dget (default [] (sl_tasks l f)) p).
Definition pconds (l : slist) p := default [] (dget (sl_params l) p).
Definition holds (l : slist) (i : instr) : Prop :=
  match given (in_fn i), given (in_param i) with
  | Some f, Some p => In (in_op i, in_val i) (tconds l f p)
  | Some f, None => sl_tasks l f = Some []
  | None, Some p => In (in_op i, in_val i) (pconds l p)
  | None, None => False
  end.

Definition fits (full : string -> bool) (i : instr) : Prop :=
  forall f, given (in_fn i) = Some f -> full f = is_some (given (in_param i)) -> False.

(** Functions are split into those with full strikes and those with strikes on
    parameters; the latter's dicts, and all sets, are never empty. *)
Record SInv (full : string -> bool) (l : slist) : Prop := {
  si_full : forall f ts, sl_tasks l f = Some ts -> (ts = [] <-> full f = true);
  si_set : forall f ts p, sl_tasks l f = Some ts -> dget ts p <> Some [];
  si_param : forall p, dget (sl_params l) p <> Some [] }.

Lemma same_refl i : same_strike i i.
Proof. repeat split. Qed.

Lemma sinv_empty full : SInv full sl_empty.
Proof. split; simpl; try discriminate. Qed.

Ltac sbool := repeat match goal with
  | |- context [String.eqb ?a ?b] => destruct (String.eqb_spec a b); subst
  | H : context [String.eqb ?a ?b] |- _ => destruct (String.eqb_spec a b); subst
  end.

Lemma sinv_update full l i : SInv full l -> fits full i -> SInv full (sl_update l i).
Proof.
  intros I F; unfold sl_update; destruct (hashable (in_val i)); [|assumption].
  unfold fits in F.
  destruct (in_strike i).
  - unfold do_strike. destruct (given (in_fn i)) as [f|] eqn:Ef, (given (in_param i)) as [p|] eqn:Ep; try assumption.
    + specialize (F f eq_refl). cbn [is_some] in F.
      split; cbn [sl_tasks sl_params].
      * intros g ts. unfold upd; sbool; [|apply I]. intros [= <-]. split; [discriminate|tauto].
      * intros g ts p'. unfold upd; sbool; [|apply I]. intros [= <-]. rewrite dget_dset. sbool.
        -- intros E; injection E as E; exact (sadd_ne _ _ E).
        -- destruct (sl_tasks l f) eqn:Et; cbn [default]; [eapply (si_set full l I); eassumption|discriminate].
      * apply I.
    + specialize (F f eq_refl). cbn [is_some] in F.
      destruct (sl_tasks l f) eqn:Et; [assumption|].
      split; cbn [sl_tasks sl_params]; [| |apply I].
      * intros g ts. unfold upd; sbool; [|apply I]. intros [= <-]. split; [|reflexivity].
        intros _. destruct (full f); [reflexivity|exfalso; auto].
      * intros g ts p'. unfold upd; sbool; [|apply I]. intros [= <-]. discriminate.
    + split; cbn [sl_tasks sl_params]; [apply I|apply I|].
      intros p'. rewrite dget_dset. sbool; [|apply I]. intros E; injection E as E; exact (sadd_ne _ _ E).
  - unfold do_restore. destruct (given (in_fn i)) as [f|] eqn:Ef, (given (in_param i)) as [p|] eqn:Ep; try assumption.
    + specialize (F f eq_refl). cbn [is_some] in F.
      destruct (sl_tasks l f) as [ts|] eqn:Et; [|assumption].
      destruct (dget ts p) as [ps|] eqn:Eps; [|assumption].
      destruct (sremove ps (in_op i, in_val i)) as [|c r] eqn:Er.
      * split; cbn [sl_tasks sl_params]; [| |apply I].
        -- intros g ts'. unfold upd; sbool; [|apply I]. destruct (dpop ts p); [discriminate|]. intros [= <-]. split; [discriminate|tauto].
        -- intros g ts' p'. unfold upd; sbool; [|apply I].
           assert (G : dget (dpop ts p) p' <> Some [])
             by (rewrite dget_dpop; sbool; [discriminate|eapply (si_set full l I); eassumption]).
           destruct (dpop ts p); [discriminate|]. intros [= <-]. exact G.
      * split; cbn [sl_tasks sl_params]; [| |apply I].
        -- intros g ts'. unfold upd; sbool; [|apply I]. intros [= <-]. split; [discriminate|tauto].
        -- intros g ts' p'. unfold upd; sbool; [|apply I]. intros [= <-]. rewrite dget_dset. sbool; [discriminate|].
           eapply (si_set full l I); eassumption.
    + destruct (sl_tasks l f) as [[|e ts]|] eqn:Et; try assumption.
      split; cbn [sl_tasks sl_params]; [| |apply I]; intros g ts'; unfold upd; sbool; try apply I; discriminate.
    + destruct (dget (sl_params l) p) as [ps|] eqn:Eps; [|assumption].
      destruct (sremove ps (in_op i, in_val i)) as [|c r] eqn:Er;
        (split; cbn [sl_tasks sl_params]; [apply I|apply I|]; intros p'; rewrite ?dget_dpop, ?dget_dset; sbool; try discriminate; apply I).
Qed.

(** Restoring removes exactly the one condition. *)
Lemma removed ts p x : 
  (match dget ts p with None => True | Some ps =>
     forall p' c, In c (default [] (dget (match sremove ps x with [] => dpop ts p | ps' => dset ts p ps' end) p'))
       <-> ~ (p' = p /\ c = x) /\ In c (default [] (dget ts p')) end).
Proof.
  destruct (dget ts p) as [ps|] eqn:E; [|exact I]. intros p' c.
  destruct (sremove ps x) as [|y r] eqn:Er.
  - rewrite dget_dpop; sbool.
    + rewrite E; cbn [default]. split; [contradiction|]. intros [N H].
      assert (G : In c (sremove ps x)) by (apply in_sremove; split; [intros ->; apply N; auto|assumption]).
      now rewrite Er in G.
    + tauto.
  - rewrite dget_dset; sbool.
    + rewrite E; cbn [default]. rewrite <- Er, in_sremove. tauto.
    + tauto.
Qed.

Lemma default_shrunk l f (ts : pstrikes) g :
  default [] (upd (sl_tasks l) f (match ts with [] => None | _ => Some ts end) g)
  = if String.eqb g f then ts else default [] (sl_tasks l g).
Proof. unfold upd; sbool; [destruct ts; reflexivity|reflexivity]. Qed.

Lemma default_upd l f (ts : pstrikes) g :
  default [] (upd (sl_tasks l) f (Some ts) g) = if String.eqb g f then ts else default [] (sl_tasks l g).
Proof. unfold upd; sbool; reflexivity. Qed.

Lemma holds_update full l i j : SInv full l -> fits full i -> fits full j -> hashable (in_val i) = true ->
  given (in_fn j) <> None \/ given (in_param j) <> None ->
  (holds (sl_update l i) j <-> (same_strike j i /\ in_strike i = true) \/ (~ same_strike j i /\ holds l j)).
Proof.
  intros I F Fj Hh N. unfold sl_update; rewrite Hh.
  assert (Z : forall A B : Prop, ~ A -> (B <-> (A /\ in_strike i = true) \/ (~ A /\ B))) by tauto.
  (* parts that concern different places *)
  destruct (given (in_fn i)) as [f|] eqn:Ef, (given (in_param i)) as [p|] eqn:Ep.
  - (* parameter of a function *)
    pose proof (F f Ef) as Ff. rewrite Ep in Ff; cbn [is_some] in Ff.
    assert (Hsame : same_strike j i <-> (given (in_fn j) = Some f /\ given (in_param j) = Some p /\ (in_op j, in_val j) = (in_op i, in_val i))).
    { unfold same_strike; rewrite Ef, Ep. split.
      - intros (E1 & E2 & E3). repeat split; auto. destruct E3 as [-> ->]; [congruence|reflexivity].
      - intros (E1 & E2 & [= -> ->]). repeat split; auto. }
    destruct (in_strike i).
    + unfold do_strike; rewrite Ef, Ep. unfold holds. cbn [sl_tasks sl_params].
      destruct (given (in_fn j)) as [g|] eqn:Eg, (given (in_param j)) as [q|] eqn:Eq.
      * unfold tconds; cbn [sl_tasks]. rewrite default_upd, Hsame.
        destruct (String.eqb_spec g f) as [->|Ng].
        -- rewrite dget_dset. destruct (String.eqb_spec q p) as [->|Nq].
           ++ cbn [default]. rewrite in_sadd. split.
              ** intros [E|H]; [left; auto|].
                 destruct (cond_eqb (in_op j, in_val j) (in_op i, in_val i)) eqn:D.
                 { apply cond_eqb_iff in D; left; auto. }
                 right; split; [|exact H]. intros (_ & _ & E); apply cond_eqb_iff in E; congruence.
              ** intros [[(_ & _ & E) _]|[_ H]]; auto.
           ++ apply Z. intros (_ & E & _); congruence.
        -- apply Z. intros (E & _ & _); congruence.
      * unfold upd. destruct (String.eqb_spec g f) as [->|Ng].
        -- exfalso. specialize (Fj f Eg). rewrite Eq in Fj. cbn in Fj. destruct (full f); auto.
        -- apply Z. rewrite Hsame. intros (E & _ & _); congruence.
      * unfold pconds; cbn [sl_params]. apply Z. rewrite Hsame. intros (E & _ & _); congruence.
      * destruct N; congruence.
    + unfold do_restore; rewrite Ef, Ep.
      pose proof (removed (default [] (sl_tasks l f)) p (in_op i, in_val i)) as R.
      destruct (sl_tasks l f) as [ts|] eqn:Et; cbn [default] in R.
      * destruct (dget ts p) as [ps|] eqn:Eps.
        -- assert (HT : forall g q c, In c (tconds (match sremove ps (in_op i, in_val i) with [] => mkSlist (upd (sl_tasks l) f (match dpop ts p with [] => None | _ => Some (dpop ts p) end)) (sl_params l) | ps0 => mkSlist (upd (sl_tasks l) f (Some (dset ts p ps0))) (sl_params l) end) g q)
               <-> ~ (g = f /\ q = p /\ c = (in_op i, in_val i)) /\ In c (tconds l g q)).
           { intros g q c. destruct (sremove ps (in_op i, in_val i)) as [|y r] eqn:Er; unfold tconds at 1; cbn [sl_tasks];
               rewrite ?default_shrunk, ?default_upd; destruct (String.eqb_spec g f) as [->|Ng].
             1, 3: rewrite R; unfold tconds; rewrite Et; cbn [default]; split; [intros [A B]; split; [tauto|exact B]|intros [A B]; split; [tauto|exact B]].
             all: unfold tconds; split; [intros B; split; [tauto|exact B]|tauto]. }
           assert (HP : sl_params (match sremove ps (in_op i, in_val i) with [] => mkSlist (upd (sl_tasks l) f (match dpop ts p with [] => None | _ => Some (dpop ts p) end)) (sl_params l) | ps0 => mkSlist (upd (sl_tasks l) f (Some (dset ts p ps0))) (sl_params l) end) = sl_params l)
             by (destruct (sremove ps (in_op i, in_val i)); reflexivity).
           assert (HF : forall g, g <> f -> sl_tasks (match sremove ps (in_op i, in_val i) with [] => mkSlist (upd (sl_tasks l) f (match dpop ts p with [] => None | _ => Some (dpop ts p) end)) (sl_params l) | ps0 => mkSlist (upd (sl_tasks l) f (Some (dset ts p ps0))) (sl_params l) end) g = sl_tasks l g)
             by (intros g Ng; destruct (sremove ps (in_op i, in_val i)); cbn [sl_tasks]; now rewrite upd_neq).
           cbv zeta. set (l' := match sremove ps (in_op i, in_val i) with [] => _ | _ => _ end) in *.
           clearbody l'.
           unfold holds. destruct (given (in_fn j)) as [g|] eqn:Eg, (given (in_param j)) as [q|] eqn:Eq.
           ++ rewrite HT, Hsame. split.
              ** intros [A B]; right; split; [|exact B]. intros (E1 & E2 & E3); apply A; repeat split; congruence.
              ** intros [[_ A]|[A B]]; [discriminate|]. split; [|exact B]. intros (E1 & E2 & E3); apply A; repeat split; congruence.
           ++ destruct (string_dec g f) as [->|Ng].
              ** exfalso. specialize (Fj f Eg). rewrite Eq in Fj. cbn in Fj. destruct (full f); auto.
              ** rewrite HF by assumption. apply Z. rewrite Hsame. intros (E & _ & _); congruence.
           ++ unfold pconds. rewrite HP. apply Z. rewrite Hsame. intros (E & _ & _); congruence.
           ++ destruct N; congruence.
        -- split; [|intros [[_ A]|[_ A]]; [discriminate|exact A]]. intros A; right; split; [|exact A].
           rewrite Hsame. intros (E1 & E2 & E3). unfold holds in A; rewrite E1, E2 in A. unfold tconds in A. rewrite Et in A. cbn [default] in A. now rewrite Eps in A.
      * split; [|intros [[_ A]|[_ A]]; [discriminate|exact A]]. intros A; right; split; [|exact A].
        rewrite Hsame. intros (E1 & E2 & E3). unfold holds in A; rewrite E1, E2 in A. unfold tconds in A. now rewrite Et in A.
  - (* a whole function *)
    pose proof (F f Ef) as Ff. rewrite Ep in Ff; cbn [is_some] in Ff.
    assert (Hfull : full f = true) by (destruct (full f); [reflexivity|exfalso; auto]).
    assert (Hsame : same_strike j i <-> (given (in_fn j) = Some f /\ given (in_param j) = None)).
    { unfold same_strike; rewrite Ef, Ep. split; [tauto|]. intros (E1 & E2); repeat split; auto; congruence. }
    assert (Hj : forall q, given (in_fn j) = Some f -> given (in_param j) = Some q -> False).
    { intros q E1 E2. apply (Fj f E1). rewrite E2. exact Hfull. }
    destruct (in_strike i).
    + unfold do_strike; rewrite Ef, Ep.
      destruct (sl_tasks l f) as [ts|] eqn:Et.
      * assert (Ets : ts = []) by (now apply (si_full full l I f ts Et)). subst ts.
        split; [|intros [[A _]|[_ A]]; [|exact A]].
        -- intros A. destruct (given (in_fn j)) as [g|] eqn:Eg, (given (in_param j)) as [q|] eqn:Eq.
           1, 3: right; split; [rewrite Hsame; intros (? & ?); congruence|exact A].
           ++ destruct (string_dec g f) as [->|Ng]; [left; split; [apply Hsame; auto|reflexivity]|right; split; [rewrite Hsame; intros (? & ?); congruence|exact A]].
           ++ destruct N; congruence.
        -- apply Hsame in A; destruct A as [E1 E2]; unfold holds; now rewrite E1, E2.
      * unfold holds; destruct (given (in_fn j)) as [g|] eqn:Eg, (given (in_param j)) as [q|] eqn:Eq.
        -- unfold tconds; cbn [sl_tasks]; rewrite upd_neq; [apply Z; rewrite Hsame; intros (? & ?); congruence|].
           intros ->; exact (Hj q eq_refl eq_refl).
        -- cbn [sl_tasks]; destruct (string_dec g f) as [->|Ng].
           ++ rewrite upd_eq. split; [intros _; left; split; [apply Hsame; auto|reflexivity]|reflexivity].
           ++ rewrite upd_neq by assumption. apply Z; rewrite Hsame; intros (? & ?); congruence.
        -- unfold pconds; cbn [sl_params]. apply Z; rewrite Hsame; intros (? & ?); congruence.
        -- destruct N; congruence.
    + unfold do_restore; rewrite Ef, Ep.
      destruct (sl_tasks l f) as [[|e ts]|] eqn:Et.
      * unfold holds; destruct (given (in_fn j)) as [g|] eqn:Eg, (given (in_param j)) as [q|] eqn:Eq.
        -- unfold tconds; cbn [sl_tasks]; rewrite upd_neq; [apply Z; rewrite Hsame; intros (? & ?); congruence|].
           intros ->; exact (Hj q eq_refl eq_refl).
        -- cbn [sl_tasks]; destruct (string_dec g f) as [->|Ng].
           ++ rewrite upd_eq. split; [discriminate|]. intros [[_ A]|[A _]]; [discriminate|]. exfalso; apply A, Hsame; auto.
           ++ rewrite upd_neq by assumption. apply Z; rewrite Hsame; intros (? & ?); congruence.
        -- unfold pconds; cbn [sl_params]. apply Z; rewrite Hsame; intros (? & ?); congruence.
        -- destruct N; congruence.
      * assert (B : e :: ts = []) by (now apply (si_full full l I f _ Et)). discriminate.
      * split; [|intros [[_ A]|[_ A]]; [discriminate|exact A]]. intros A; right; split; [|exact A].
        rewrite Hsame. intros (E1 & E2). unfold holds in A; rewrite E1, E2 in A. congruence.
  - (* a parameter of any function *)
    assert (Hsame : same_strike j i <-> (given (in_fn j) = None /\ given (in_param j) = Some p /\ (in_op j, in_val j) = (in_op i, in_val i))).
    { unfold same_strike; rewrite Ef, Ep. split.
      - intros (E1 & E2 & E3). repeat split; auto. destruct E3 as [-> ->]; [congruence|reflexivity].
      - intros (E1 & E2 & [= -> ->]). repeat split; auto. }
    destruct (in_strike i).
    + unfold do_strike; rewrite Ef, Ep. unfold holds. cbn [sl_tasks sl_params].
      destruct (given (in_fn j)) as [g|] eqn:Eg, (given (in_param j)) as [q|] eqn:Eq.
      * apply Z; rewrite Hsame; intros (? & ? & ?); congruence.
      * apply Z; rewrite Hsame; intros (? & ? & ?); congruence.
      * unfold pconds; cbn [sl_params]. rewrite Hsame. rewrite dget_dset. destruct (String.eqb_spec q p) as [->|Nq].
        -- cbn [default]. rewrite in_sadd. split.
           ++ intros [E|H]; [left; auto|].
              destruct (cond_eqb (in_op j, in_val j) (in_op i, in_val i)) eqn:D.
              { apply cond_eqb_iff in D; left; auto. }
              right; split; [|exact H]. intros (_ & _ & E); apply cond_eqb_iff in E; congruence.
           ++ intros [[(_ & _ & E) _]|[_ H]]; auto.
        -- apply Z. intros (_ & E & _); congruence.
      * destruct N; congruence.
    + unfold do_restore; rewrite Ef, Ep.
      pose proof (removed (sl_params l) p (in_op i, in_val i)) as R.
      destruct (dget (sl_params l) p) as [ps|] eqn:Eps.
      * assert (HT : forall q c, In c (pconds (match sremove ps (in_op i, in_val i) with [] => mkSlist (sl_tasks l) (dpop (sl_params l) p) | ps0 => mkSlist (sl_tasks l) (dset (sl_params l) p ps0) end) q)
               <-> ~ (q = p /\ c = (in_op i, in_val i)) /\ In c (pconds l q)).
        { intros q c. rewrite <- R. unfold pconds. destruct (sremove ps (in_op i, in_val i)); cbn [sl_params]; reflexivity. }
        assert (HF : sl_tasks (match sremove ps (in_op i, in_val i) with [] => mkSlist (sl_tasks l) (dpop (sl_params l) p) | ps0 => mkSlist (sl_tasks l) (dset (sl_params l) p ps0) end) = sl_tasks l)
          by (destruct (sremove ps (in_op i, in_val i)); reflexivity).
        set (l' := match sremove ps (in_op i, in_val i) with [] => _ | _ => _ end) in *. clearbody l'.
        unfold holds, tconds. rewrite HF.
        destruct (given (in_fn j)) as [g|] eqn:Eg, (given (in_param j)) as [q|] eqn:Eq.
        -- apply Z; rewrite Hsame; intros (? & ? & ?); congruence.
        -- apply Z; rewrite Hsame; intros (? & ? & ?); congruence.
        -- rewrite HT, Hsame. split.
           ++ intros [A B]; right; split; [|exact B]. intros (E1 & E2 & E3); apply A; split; congruence.
           ++ intros [[_ A]|[A B]]; [discriminate|]. split; [|exact B]. intros (E2 & E3); apply A; repeat split; congruence.
        -- destruct N; congruence.
      * split; [|intros [[_ A]|[_ A]]; [discriminate|exact A]]. intros A; right; split; [|exact A].
        rewrite Hsame. intros (E1 & E2 & E3). unfold holds in A; rewrite E1, E2 in A. unfold pconds in A. now rewrite Eps in A.
  - (* nothing named *)
    assert (E : (if in_strike i then do_strike l i else do_restore l i) = l)
      by (unfold do_strike, do_restore; rewrite Ef, Ep; now destruct (in_strike i)).
    rewrite E. apply Z. unfold same_strike. rewrite Ef, Ep. intros (E1 & E2 & _). destruct N; congruence.
Qed.

Lemma same_dec i j : {same_strike i j} + {~ same_strike i j}.
Proof.
  unfold same_strike.
  destruct (given (in_fn i)) as [f|], (given (in_fn j)) as [g|]; try (right; intros (? & _); discriminate).
  1: destruct (string_dec f g) as [->|N]; [|right; intros (? & _); congruence].
  all: destruct (given (in_param i)) as [p|], (given (in_param j)) as [q|]; try (right; intros (_ & ? & _); discriminate); try (left; repeat split; congruence).
  all: destruct (string_dec p q) as [->|N]; [|right; intros (_ & ? & _); congruence].
  all: destruct (cond_eqb (in_op i, in_val i) (in_op j, in_val j)) eqn:E;
    [apply cond_eqb_iff in E; injection E as E1 E2; left; repeat split; auto|
     right; intros (_ & _ & H); destruct H as [H1 H2]; [congruence|]; rewrite H1, H2 in E; assert (X : cond_eqb (in_op j, in_val j) (in_op j, in_val j) = true) by (now apply cond_eqb_iff); congruence].
Qed.

Lemma exists_last_or {A} (l : list A) : l = [] \/ exists l' x, l = l' ++ [x].
Proof.
  destruct l as [|a l]; [now left|right].
  destruct (exists_last (l := a :: l)) as (l' & x & E); [discriminate|eauto].
Qed.

Lemma in_force_snoc l i j : in_force (l ++ [i]) j <->
  (same_strike j i /\ in_strike i = true) \/ (~ same_strike j i /\ in_force l j).
Proof.
  split.
  - intros (l1 & x & l2 & E & Hs & Hj & Hl). destruct (exists_last_or l2) as [->|(l3 & y & ->)].
    + apply app_inj_tail in E; destruct E as [-> ->]. left; auto.
    + assert (E' : l ++ [i] = (l1 ++ x :: l3) ++ [y]) by (rewrite E; rewrite <- app_assoc; reflexivity).
      apply app_inj_tail in E'; destruct E' as [-> ->].
      destruct (same_dec j y) as [D|D].
      * left; split; [exact D|]. apply Hl; [apply in_or_app; right; simpl; auto|exact D].
      * right; split; [exact D|]. exists l1, x, l3. split; [reflexivity|]. split; [exact Hs|]. split; [exact Hj|].
        intros j' Hj'. apply Hl. apply in_or_app; now left.
  - intros [[Hs Hi]|[Hn (l1 & x & l2 & -> & Hs & Hj & Hl)]].
    + exists l, i, []. split; [reflexivity|]. split; [exact Hi|]. split; [exact Hs|]. intros j' [].
    + exists l1, x, (l2 ++ [i]). rewrite <- app_assoc. split; [reflexivity|]. split; [exact Hs|]. split; [exact Hj|].
      intros j' Hj'. apply in_app_or in Hj'. destruct Hj' as [Hj'|[<-|[]]]; [now apply Hl|contradiction].
Qed.

Lemma sl_run_snoc l is_ i : sl_run l (is_ ++ [i]) = sl_update (sl_run l is_) i.
Proof. unfold sl_run; now rewrite fold_left_app. Qed.

Lemma sinv_run full l : (forall i, In i l -> fits full i) -> SInv full (sl_run sl_empty l).
Proof.
  induction l as [|i l IH] using rev_ind; intros F; [apply sinv_empty|].
  rewrite sl_run_snoc; apply sinv_update; [apply IH; intros; apply F; apply in_or_app; auto|apply F; apply in_or_app; simpl; auto].
Qed.

Lemma holds_run full l j : (forall i, In i l -> fits full i) -> all_hashable l -> fits full j ->
  given (in_fn j) <> None \/ given (in_param j) <> None ->
  (holds (sl_run sl_empty l) j <-> in_force l j).
Proof.
  intros F H Fj N; induction l as [|i l IH] using rev_ind.
  - split.
    + unfold holds; simpl. destruct (given (in_fn j)), (given (in_param j)); simpl; intros HH; try contradiction; discriminate.
    + intros (l1 & x & l2 & E & _). destruct l1; discriminate.
  - rewrite sl_run_snoc, (holds_update full), in_force_snoc, IH; [reflexivity|..]; auto.
    all: try (intros k Hk; (apply F || apply H); apply in_or_app; now left).
    + apply sinv_run. intros k Hk; apply F, in_or_app; now left.
    + apply F, in_or_app; simpl; auto.
    + apply H, in_or_app; simpl; auto.
Qed.

Lemma strikes_on_iff d p v : strikes_on d p v = true <-> exists c, In c (default [] (dget d p)) /\ is_match v (fst c) (snd c) = true.
Proof. unfold strikes_on. now rewrite existsb_exists. Qed.

Lemma given_given o s : given o = Some s -> given (Some s) = Some s.
Proof. destruct o as [[|a r]|]; simpl; intros [= <-]; reflexivity. Qed.

(** A list strikes a call if and only if one of the strikes it holds describes it. *)
Definition named (j : instr) : Prop := given (in_fn j) <> None \/ given (in_param j) <> None.

(** Names are never empty. *)
Definition good (o : string) := given (Some o) = Some o.

Lemma dget_In d p s : dget d p = Some s -> exists q, In (q, s) d /\ q = p.
Proof.
  unfold dget. destruct (find _ d) as [[q s']|] eqn:E; [|discriminate]. intros [= <-].
  apply find_some in E; cbn [fst] in E; destruct E as [E1 E2]. apply String.eqb_eq in E2. eauto.
Qed.

(** No entry of the list is under an empty name. *)
Record GInvS (l : slist) : Prop := {
  gs_fn : sl_tasks l EmptyString = None;
  gs_fp : forall f ts, sl_tasks l f = Some ts -> dget ts EmptyString = None;
  gs_p : dget (sl_params l) EmptyString = None }.

Lemma given_ne o : given o <> Some EmptyString.
Proof. destruct o as [[|]|]; simpl; congruence. Qed.

Lemma gs_update l i : GInvS l -> GInvS (sl_update l i).
Proof.
  intros I. unfold sl_update. destruct (hashable (in_val i)); [|exact I].
  pose proof (given_ne (in_fn i)) as Nf. pose proof (given_ne (in_param i)) as Np.
  destruct I as [I1 I2 I3].
  destruct (in_strike i); unfold do_strike, do_restore;
    destruct (given (in_fn i)) as [f|] eqn:Ef, (given (in_param i)) as [p|] eqn:Ep; try (split; assumption).
  - split; cbn [sl_tasks sl_params]; [rewrite upd_neq by congruence; assumption| |assumption].
    intros g ts. unfold upd; sbool; [|apply I2]. intros [= <-]. rewrite dget_dset. sbool; [congruence|].
    destruct (sl_tasks l f) eqn:Et; [eapply I2; eassumption|reflexivity].
  - destruct (sl_tasks l f) eqn:Et; [split; assumption|].
    split; cbn [sl_tasks sl_params]; [rewrite upd_neq by congruence; assumption| |assumption].
    intros g ts. unfold upd; sbool; [|apply I2]. intros [= <-]. reflexivity.
  - split; cbn [sl_tasks sl_params]; [assumption|assumption|]. rewrite dget_dset. sbool; [congruence|assumption].
  - destruct (sl_tasks l f) as [ts|] eqn:Et; [|split; assumption].
    destruct (dget ts p) as [ps|] eqn:Eps; [|split; assumption].
    destruct (sremove ps (in_op i, in_val i)); (split; cbn [sl_tasks sl_params]; [rewrite upd_neq by congruence; assumption| |assumption]).
    + intros g ts'. unfold upd; sbool; [|apply I2].
      assert (G : dget (dpop ts p) EmptyString = None) by (rewrite dget_dpop; sbool; [reflexivity|eapply I2; eassumption]).
      destruct (dpop ts p); [discriminate|]. intros [= <-]; exact G.
    + intros g ts'. unfold upd; sbool; [|apply I2]. intros [= <-]. rewrite dget_dset; sbool; [congruence|eapply I2; eassumption].
  - destruct (sl_tasks l f) as [[|e ts]|] eqn:Et; try (split; assumption).
    split; cbn [sl_tasks sl_params]; [rewrite upd_neq by congruence; assumption| |assumption].
    intros g ts'. unfold upd; sbool; [discriminate|apply I2].
  - destruct (dget (sl_params l) p) as [ps|] eqn:Eps; [|split; assumption].
    destruct (sremove ps (in_op i, in_val i)); (split; cbn [sl_tasks sl_params]; [assumption|assumption|]);
      rewrite ?dget_dpop, ?dget_dset; sbool; congruence.
Qed.

Lemma gs_run l : GInvS (sl_run sl_empty l).
Proof.
  induction l as [|i l IH] using rev_ind; [split; simpl; try reflexivity; discriminate|].
  rewrite sl_run_snoc; now apply gs_update.
Qed.

Lemma ne_good s : s <> EmptyString -> given (Some s) = Some s.
Proof. destruct s; simpl; congruence. Qed.

Lemma stricken_iff full l t : SInv full l -> GInvS l ->
  (stricken l t = true <-> exists j, holds l j /\ describes j t /\ fits full j /\ named j).
Proof.
  intros I G. unfold stricken. split.
  - intros H.
    assert (Hargs : sl_tasks l (tg_fn t) <> Some [] ->
      exists args, tg_args t = Some args /\ existsb (fun a => strikes_on (default [] (sl_tasks l (tg_fn t))) (fst a) (snd a) || strikes_on (sl_params l) (fst a) (snd a)) args = true).
    { intros N. destruct (sl_tasks l (tg_fn t)) as [[|e ts]|]; [exfalso; apply N; reflexivity| |]; (destruct (tg_args t) as [args|]; [|discriminate]); eauto. }
    destruct (sl_tasks l (tg_fn t)) as [[|e ts]|] eqn:Et.
    + assert (Ne : tg_fn t <> EmptyString) by (intros E; rewrite E, (gs_fn l G) in Et; discriminate).
      exists (mkInstr true (Some (tg_fn t)) None OpEq (PInt 0)).
      unfold holds, describes, named, fits; cbn [in_fn in_param]. rewrite (ne_good _ Ne). change (given None) with (@None string). cbn [is_some]. cbn iota.
      split; [exact Et|]. split; [reflexivity|]. split; [|left; congruence].
      intros f [= <-] Hf. assert (X : full (tg_fn t) = true) by (now apply (si_full full l I _ _ Et)). congruence.
    + specialize (Hargs ltac:(discriminate)). destruct Hargs as (args & Ea & Hx).
      apply existsb_exists in Hx. destruct Hx as ([p v] & Hin & Hx). cbn [fst snd] in Hx. apply orb_true_iff in Hx.
      destruct Hx as [Hx|Hx]; apply strikes_on_iff in Hx; destruct Hx as ([o w] & Hc & Hm); cbn [fst snd] in Hm.
      * assert (Ne : tg_fn t <> EmptyString) by (intros E; rewrite E, (gs_fn l G) in Et; discriminate).
        assert (Np : p <> EmptyString) by (intros ->; cbn [default] in Hc; rewrite (gs_fp l G _ _ Et) in Hc; exact Hc).
        exists (mkInstr true (Some (tg_fn t)) (Some p) o w).
        unfold holds, describes, named, fits; cbn [in_fn in_param in_op in_val]. rewrite (ne_good _ Ne), (ne_good _ Np).
        split; [unfold tconds; now rewrite Et|]. split; [eauto 10|]. split; [|left; congruence].
        cbn [is_some]. intros f [= <-] Hf. apply (si_full full l I _ _ Et) in Hf; discriminate.
      * assert (Np : p <> EmptyString) by (intros ->; rewrite (gs_p l G) in Hc; exact Hc).
        exists (mkInstr true None (Some p) o w).
        unfold holds, describes, named, fits; cbn [in_fn in_param in_op in_val]. rewrite (ne_good _ Np). change (given None) with (@None string). cbn iota.
        split; [exact Hc|]. split; [eauto 10|]. split; [discriminate|right; congruence].
    + specialize (Hargs ltac:(discriminate)). destruct Hargs as (args & Ea & Hx).
      apply existsb_exists in Hx. destruct Hx as ([p v] & Hin & Hx). cbn [fst snd] in Hx. apply orb_true_iff in Hx.
      destruct Hx as [Hx|Hx]; apply strikes_on_iff in Hx; destruct Hx as ([o w] & Hc & Hm); cbn [fst snd] in Hm; [destruct Hc|].
      assert (Np : p <> EmptyString) by (intros ->; rewrite (gs_p l G) in Hc; exact Hc).
      exists (mkInstr true None (Some p) o w).
      unfold holds, describes, named, fits; cbn [in_fn in_param in_op in_val]. rewrite (ne_good _ Np). change (given None) with (@None string). cbn iota.
      split; [exact Hc|]. split; [eauto 10|]. split; [discriminate|right; congruence].
  - intros (j & Hh & Hd & Hf & Hn). unfold holds in Hh. unfold describes in Hd.
    assert (Hargs : forall args, tg_args t = Some args ->
      existsb (fun a => strikes_on (default [] (sl_tasks l (tg_fn t))) (fst a) (snd a) || strikes_on (sl_params l) (fst a) (snd a)) args = true ->
      match sl_tasks l (tg_fn t) with Some [] => true | o => match tg_args t with None => false | Some args => existsb (fun a => strikes_on (default [] o) (fst a) (snd a) || strikes_on (sl_params l) (fst a) (snd a)) args end end = true).
    { intros args -> Hx. destruct (sl_tasks l (tg_fn t)) as [[|e ts]|]; auto. }
    destruct (given (in_fn j)) as [f|] eqn:Ef, (given (in_param j)) as [p|] eqn:Ep.
    + destruct Hd as ([E|E] & args & v & Ea & Hin & Hm); [discriminate|]. injection E as ->.
      apply (Hargs args Ea). apply existsb_exists. exists (p, v); split; [exact Hin|]. cbn [fst snd].
      apply orb_true_iff; left. apply strikes_on_iff. exists (in_op j, in_val j). split; [exact Hh|exact Hm].
    + subst f. now rewrite Hh.
    + destruct Hd as (_ & args & v & Ea & Hin & Hm).
      apply (Hargs args Ea). apply existsb_exists. exists (p, v); split; [exact Hin|]. cbn [fst snd].
      apply orb_true_iff; right. apply strikes_on_iff. exists (in_op j, in_val j). split; [exact Hh|exact Hm].
    + destruct Hn; congruence.
Qed.

(** The split of functions that an unmixed list makes. *)
Definition split_of (l : list instr) (f : string) : bool :=
  existsb (fun i => match given (in_fn i), given (in_param i) with Some g, None => String.eqb g f | _, _ => false end) l.

Lemma split_fits l i : unmixed l -> In i l -> fits (split_of l) i.
Proof.
  intros U Hi f Ef. destruct (given (in_param i)) as [p|] eqn:Ep; cbn [is_some]; intros E.
  - unfold split_of in E. apply existsb_exists in E. destruct E as (j & Hj & E).
    destruct (given (in_fn j)) as [g|] eqn:Eg; [|discriminate]. destruct (given (in_param j)) eqn:Eq; [discriminate|].
    apply String.eqb_eq in E; subst g. destruct (U i j f Hi Hj Ef Eg) as [_ X]. specialize (X Eq). congruence.
  - assert (X : split_of l f = true).
    { unfold split_of. apply existsb_exists. exists i; split; [exact Hi|]. now rewrite Ef, Ep, String.eqb_refl. }
    congruence.
Qed.

Lemma in_force_like l j : in_force l j -> exists i, In i l /\ same_strike j i /\ in_force l i.
Proof.
  intros (l1 & x & l2 & -> & Hs & Hj & Hl). exists x. split; [apply in_or_app; simpl; auto|]. split; [exact Hj|].
  exists l1, x, l2. split; [reflexivity|]. split; [exact Hs|]. split; [apply same_refl|]. intros j' Hj' E. apply Hl; [exact Hj'|].
  destruct Hj as (A1 & A2 & A3), E as (B1 & B2 & B3).
  split; [congruence|]. split; [congruence|]. intros N. destruct (A3 N). rewrite A2 in N. destruct (B3 N). split; congruence.
Qed.

Lemma same_sym i j : same_strike i j -> same_strike j i.
Proof.
  intros (A & B & C). split; [congruence|]. split; [congruence|]. intros N. rewrite <- B in N. destruct (C N); split; congruence.
Qed.

Lemma describes_same i j t : same_strike i j -> describes i t -> describes j t.
Proof.
  intros (A & B & C). unfold describes. rewrite <- A, <- B.
  destruct (given (in_param i)) as [p|]; [|tauto]. destruct C as [<- <-]; [congruence|]. tauto.
Qed.

(** The strike list blocks exactly what the strikes in force describe. *)
Lemma blocked_iff l t : unmixed l -> all_hashable l ->
  (stricken (sl_run sl_empty l) t = true <-> exists i, In i l /\ in_force l i /\ describes i t).
Proof.
  intros U H. pose proof (split_fits l) as F.
  assert (I : SInv (split_of l) (sl_run sl_empty l)) by (apply sinv_run; intros; now apply F).
  rewrite (stricken_iff (split_of l) _ t I (gs_run l)). split.
  - intros (j & Hh & Hd & Hf & Hn).
    apply (holds_run (split_of l)) in Hh; auto.
    destruct (in_force_like l j Hh) as (i & Hi & Hs & Hif). exists i. repeat split; auto. now apply (describes_same j).
  - intros (i & Hi & Hif & Hd).
    assert (Hn : named i).
    { unfold named. unfold describes in Hd. destruct (given (in_fn i)), (given (in_param i)); [left|left|right|contradiction]; congruence. }
    exists i. repeat split; auto; try apply F; auto.
    apply (holds_run (split_of l)); auto.
Qed.

(** ** Several processes *)
(** The direction of the last instruction about [j]. *)
Fixpoint last_dir (l : list instr) (j : instr) : option bool :=
  match l with
  | [] => None
  | i :: l => match last_dir l j with Some d => Some d | None => if same_dec j i then Some (in_strike i) else None end
  end.

Lemma last_dir_none l j : last_dir l j = None <-> forall i, In i l -> ~ same_strike j i.
Proof.
  induction l as [|i l IH]; simpl; [tauto|].
  destruct (last_dir l j); [|destruct (same_dec j i)].
  - split; [discriminate|]. intros H. exfalso. assert (X : Some b = None) by (apply IH; intros; apply H; auto). discriminate.
  - split; [discriminate|]. intros H. exfalso; apply (H i); auto.
  - split; [|reflexivity]. intros _ k [<-|Hk]; [assumption|]. apply IH; auto.
Qed.

Lemma last_dir_snoc l i j : last_dir (l ++ [i]) j = if same_dec j i then Some (in_strike i) else last_dir l j.
Proof.
  induction l as [|x l IH]; simpl; [destruct (same_dec j i); reflexivity|].
  rewrite IH. destruct (same_dec j i); [reflexivity|]. reflexivity.
Qed.

Lemma in_force_last l j : in_force l j <-> last_dir l j = Some true.
Proof.
  induction l as [|i l IH] using rev_ind.
  - split; [intros ([|] & x & l2 & E & _); discriminate|discriminate].
  - rewrite in_force_snoc, last_dir_snoc, IH. destruct (same_dec j i) as [S|S].
    + split; [intros [[_ ->]|[N _]]; [reflexivity|contradiction]|intros [= E]; auto].
    + tauto.
Qed.

Lemma skipn_nth (L : list instr) n i : nth_error L n = Some i -> skipn n L = i :: skipn (S n) L.
Proof.
  revert n; induction L as [|x L IH]; intros [|n]; simpl; try discriminate; [congruence|]. intros H. now rewrite (IH n H).
Qed.

Lemma nth_skipn_In (L : list instr) n j i : nth_error L j = Some i -> (n <= j)%nat -> In i (skipn n L).
Proof.
  revert n j; induction L as [|x L IH]; intros [|n] [|j]; simpl; try discriminate; try lia.
  - intros [= ->] _; auto.
  - intros H _. right. apply nth_error_In in H; assumption.
  - intros H Hl. apply (IH n j); [assumption|lia].
Qed.

Lemma last_dir_played L evs j : forall n, applied_early L n evs -> last_dir (played L n evs) j = last_dir (skipn n L) j.
Proof.
  induction evs as [|[|k] evs IH]; intros n H; simpl in *.
  - subst n. now rewrite skipn_all.
  - destruct H as [Hn H]. destruct (nth_error L n) as [i|] eqn:E; [|apply nth_error_None in E; lia].
    rewrite (skipn_nth L n i E). simpl. now rewrite (IH (S n) H).
  - destruct H as [Hn H]. destruct (nth_error L k) as [i|] eqn:E; [|apply nth_error_None in E; lia].
    simpl. rewrite (IH n H). destruct (last_dir (skipn n L) j) eqn:D; [reflexivity|].
    destruct (same_dec j i) as [S|S]; [|reflexivity]. exfalso.
    apply last_dir_none with (i := i) in D; [contradiction|]. apply (nth_skipn_In L n k i E); lia.
Qed.

Lemma played_In L evs i : forall n, In i (played L n evs) -> In i L.
Proof.
  induction evs as [|[|k] evs IH]; intros n; simpl; [tauto| |].
  - destruct (nth_error L n) eqn:E; simpl; [intros [<-|H]|]; eauto using nth_error_In.
  - destruct (nth_error L k) eqn:E; simpl; [intros [<-|H]|]; eauto using nth_error_In.
Qed.

Lemma reader_early L : forall n, (n <= length L)%nat -> applied_early L n (repeat SRead (length L - n)).
Proof.
  intros n H. remember (length L - n)%nat as d eqn:E. revert n H E. induction d as [|d IH]; intros n H E; simpl; [lia|].
  split; [lia|]. apply IH; lia.
Qed.

Lemma played_reader L : forall n, played L n (repeat SRead (length L - n)) = skipn n L.
Proof.
  intros n. remember (length L - n)%nat as d eqn:E. revert n E. induction d as [|d IH]; intros n E; simpl.
  - symmetry; apply skipn_all2; lia.
  - destruct (nth_error L n) as [i|] eqn:Ei; [|apply nth_error_None in Ei; lia].
    rewrite (skipn_nth L n i Ei). f_equal. apply IH; lia.
Qed.

Lemma in_force_transfer l1 l2 t : (forall j, last_dir l1 j = last_dir l2 j) ->
  (exists i, In i l1 /\ in_force l1 i /\ describes i t) -> (exists i, In i l2 /\ in_force l2 i /\ describes i t).
Proof.
  intros E (i & Hi & Hf & Hd). apply in_force_last in Hf. rewrite E in Hf. apply in_force_last in Hf.
  destruct (in_force_like l2 i Hf) as (k & Hk & Hs & Hkf). exists k; repeat split; auto. now apply (describes_same i).
Qed.

Lemma agree L evs t : unmixed L -> all_hashable L -> applied_early L 0 evs ->
  stricken (sl_run sl_empty (played L 0 evs)) t = stricken (sl_run sl_empty L) t.
Proof.
  intros U H A.
  assert (Hin : forall i, In i (played L 0 evs) -> In i L) by (intros i; apply played_In).
  assert (E : forall j, last_dir (played L 0 evs) j = last_dir L j) by (intros j; now rewrite (last_dir_played L evs j 0 A)).
  assert (B1 := blocked_iff (played L 0 evs) t). assert (B2 := blocked_iff L t).
  apply eq_true_iff_eq. rewrite B1, B2; auto.
  - split; apply in_force_transfer; auto.
  - intros i j f Hi Hj. apply U; auto.
  - intros i Hi; apply H; auto.
Qed.

(** ** Wire *)
Lemma op_round o : op_parse (op_text o) = Some o.
Proof. destruct o; reflexivity. Qed.

Lemma wire_round i : sfrom_message (sas_message i) = Some (mkInstr (in_strike i) (given (in_fn i)) (given (in_param i)) (in_op i) (in_val i)).
Proof.
  unfold sas_message. destruct (given (in_fn i)) as [f|], (given (in_param i)) as [p|]; unfold sfrom_message, sfield; simpl;
    rewrite op_round; now destruct (in_strike i).
Qed.

(** ** Restoring, and parameter dicts *)
Lemma restored l i t : unmixed (l ++ [i]) -> all_hashable (l ++ [i]) -> in_strike i = false ->
  (stricken (sl_run sl_empty (l ++ [i])) t = true <->
   exists j, In j l /\ in_force l j /\ ~ same_strike j i /\ describes j t).
Proof.
  intros U H Hi. rewrite (blocked_iff _ t U H). split.
  - intros (j & Hj & Hf & Hd). apply in_force_snoc in Hf. destruct Hf as [[_ E]|[N Hf]]; [congruence|].
    exists j. repeat split; auto. apply in_app_or in Hj. destruct Hj as [Hj|[<-|[]]]; [exact Hj|]. elim N; apply same_refl.
  - intros (j & Hj & Hf & N & Hd). exists j. split; [apply in_or_app; auto|]. split; [|exact Hd]. apply in_force_snoc; auto.
Qed.

Lemma struck_more l i t : unmixed (l ++ [i]) -> all_hashable (l ++ [i]) -> in_strike i = true ->
  (stricken (sl_run sl_empty (l ++ [i])) t = true <->
   describes i t \/ stricken (sl_run sl_empty l) t = true).
Proof.
  intros U H Hi. rewrite (blocked_iff _ t U H).
  assert (U' : unmixed l) by (intros a b f Ha Hb; apply U; apply in_or_app; auto).
  assert (H' : all_hashable l) by (intros a Ha; apply H; apply in_or_app; auto).
  rewrite (blocked_iff l t U' H'). split.
  - intros (j & Hj & Hf & Hd). apply in_force_snoc in Hf. destruct Hf as [[Hs _]|[N Hf]].
    + left. now apply (describes_same j).
    + right. exists j. repeat split; auto. apply in_app_or in Hj. destruct Hj as [Hj|[<-|[]]]; [exact Hj|]. elim N; apply same_refl.
  - intros [Hd|(j & Hj & Hf & Hd)].
    + exists i. split; [apply in_or_app; simpl; auto|]. split; [|exact Hd]. apply in_force_snoc. left; split; [apply same_refl|exact Hi].
    + exists j. split; [apply in_or_app; auto|]. split; [|exact Hd]. apply in_force_snoc.
      destruct (same_dec j i); auto.
Qed.

Definition nofn (i : instr) : bool := negb (is_some (given (in_fn i))).

Lemma params_only l : sl_params (sl_run sl_empty l) = sl_params (sl_run sl_empty (filter nofn l)).
Proof.
  induction l as [|i l IH] using rev_ind; [reflexivity|]. rewrite filter_app', sl_run_snoc. simpl. unfold nofn at 2.
  destruct (given (in_fn i)) as [f|] eqn:Ef; cbn [is_some negb].
  - rewrite app_nil_r, <- IH. unfold sl_update, do_strike, do_restore. destruct (hashable _); [|reflexivity].
    rewrite Ef. repeat match goal with |- context [match ?x with _ => _ end] => destruct x end; reflexivity.
  - rewrite sl_run_snoc. unfold sl_update, do_strike, do_restore. destruct (hashable _); [|exact IH].
    rewrite Ef, <- IH. destruct (in_strike i), (given (in_param i)) as [p|]; cbn [sl_params]; try exact IH; try reflexivity.
    destruct (dget (sl_params (sl_run sl_empty l)) p); [|exact IH]. destruct (sremove _ _); reflexivity.
Qed.

Lemma nofn_tasks l f : sl_tasks (sl_run sl_empty (filter nofn l)) f = None.
Proof.
  induction l as [|i l IH] using rev_ind; [reflexivity|]. rewrite filter_app'. simpl. unfold nofn at 2.
  destruct (given (in_fn i)) as [g|] eqn:Ef; cbn [is_some negb]; [now rewrite app_nil_r|].
  rewrite sl_run_snoc. unfold sl_update, do_strike, do_restore. destruct (hashable _); [|exact IH].
  rewrite Ef. repeat match goal with |- context [match ?x with _ => _ end] => destruct x end; exact IH.
Qed.

Lemma last_dir_nofn l j : given (in_fn j) = None -> last_dir (filter nofn l) j = last_dir l j.
Proof.
  intros E. induction l as [|i l IH]; [reflexivity|]. simpl. unfold nofn at 1.
  destruct (given (in_fn i)) as [g|] eqn:Ei; cbn [is_some negb].
  - rewrite IH. destruct (last_dir l j); [reflexivity|]. destruct (same_dec j i) as [(S & _)|]; [congruence|reflexivity].
  - simpl. now rewrite IH.
Qed.

Lemma dict_blocked_iff l ps : all_hashable l ->
  (dict_stricken (sl_run sl_empty l) ps = true <->
   exists i p v, In i l /\ in_force l i /\ given (in_fn i) = None /\ given (in_param i) = Some p /\ In (p, v) ps /\ is_match v (in_op i) (in_val i) = true).
Proof.
  intros H. set (F := filter nofn l).
  assert (N : forall i, In i F <-> In i l /\ given (in_fn i) = None).
  { intros i. unfold F. rewrite filter_In. unfold nofn. rewrite negb_true_iff, is_some_false. reflexivity. }
  assert (E : dict_stricken (sl_run sl_empty l) ps = stricken (sl_run sl_empty F) (mkTarget EmptyString (Some ps))).
  { unfold dict_stricken, stricken. cbn [tg_fn tg_args]. unfold F. rewrite nofn_tasks, params_only. cbn [default].
    induction ps as [|a ps IH]; [reflexivity|]. cbn [existsb]. rewrite IH. f_equal. }
  rewrite E, blocked_iff.
  - split.
    + intros (i & Hi & Hf & Hd). apply N in Hi. destruct Hi as [Hi En]. apply in_force_last in Hf. unfold F in Hf. rewrite last_dir_nofn in Hf by assumption.
      unfold describes in Hd. rewrite En in Hd. destruct (given (in_param i)) as [p|] eqn:Ep; [|contradiction].
      destruct Hd as (_ & args & v & [= <-] & Hin & Hm). exists i, p, v. repeat split; auto. now apply in_force_last.
    + intros (i & p & v & Hi & Hf & En & Ep & Hin & Hm). exists i. split; [now apply N|]. split.
      * apply in_force_last. unfold F. rewrite last_dir_nofn by assumption. now apply in_force_last.
      * unfold describes. rewrite En, Ep. split; [auto|]. cbn [tg_args]. eauto.
  - intros i j f Hi Hj Ei. apply N in Hi. destruct Hi; congruence.
  - intros i Hi. apply H. apply N in Hi; tauto.
Qed.

(** ** The order of values *)
Lemma str_ltb_refl a : str_ltb a a = false.
Proof. induction a as [|c a IH]; cbn; [reflexivity|]. now rewrite N.ltb_irrefl. Qed.
Lemma text_before_cons u v : text_before u v -> forall c a d b, u = String c a -> v = String d b ->
  (Ascii.N_of_ascii c < Ascii.N_of_ascii d)%N \/ (c = d /\ text_before a b).
Proof.
  intros [p x s|p x y s t L] c a d b Eu Ev.
  - destruct p as [|q p]; [discriminate|]. injection Eu as E1 E2. injection Ev as E3 E4. right. split; [congruence|]. subst a b. constructor.
  - destruct p as [|q p]; injection Eu as E1 E2; injection Ev as E3 E4; [left; congruence|]. right. split; [congruence|]. subst a b. now constructor.
Qed.
Lemma str_ltb_iff a : forall b, str_ltb a b = true <-> text_before a b.
Proof.
  induction a as [|c a IH]; intros [|d b]; cbn [str_ltb].
  - split; [discriminate|]. intros H. inversion H as [p x s E1 E2|p x y s t L E1 E2]; destruct p; discriminate.
  - split; [|reflexivity]. intros _. exact (tb_end "" d b).
  - split; [discriminate|]. intros H. inversion H as [p x s E1 E2|p x y s t L E1 E2]; destruct p; discriminate.
  - destruct (N.ltb_spec (Ascii.N_of_ascii c) (Ascii.N_of_ascii d)) as [L|L]; [split; [intros _; exact (tb_at "" c d a b L)|reflexivity]|].
    destruct (N.ltb_spec (Ascii.N_of_ascii d) (Ascii.N_of_ascii c)) as [M|M].
    + split; [discriminate|]. intros H. destruct (text_before_cons _ _ H c a d b eq_refl eq_refl) as [L'|[-> _]]; lia.
    + assert (E : c = d) by (rewrite <- (Ascii.ascii_N_embedding c), <- (Ascii.ascii_N_embedding d); f_equal; lia). subst d. rewrite IH. split.
      * intros H. destruct H as [p x s|p x y s t Lt]; [exact (tb_end (String c p) x s)|exact (tb_at (String c p) x y s t Lt)].
      * intros H. destruct (text_before_cons _ _ H c a c b eq_refl eq_refl) as [L'|[_ H']]; [lia|exact H'].
Qed.
Lemma pv_eqb_refl a : pv_eqb a a = true.
Proof. now apply pv_eqb_iff. Qed.
Lemma lex_refl l : lex_lt pv_eqb pv_lt l l = Some false.
Proof. induction l as [|x l IH]; cbn; [reflexivity|]. now rewrite pv_eqb_refl. Qed.
Lemma pv_lt_refl a : pv_lt a a = Some false.
Proof. destruct a as [z|s|l|l]; cbn; [now rewrite Z.ltb_irrefl|now rewrite str_ltb_refl|apply lex_refl|apply lex_refl]. Qed.
Lemma lex_app p l l' : lex_lt pv_eqb pv_lt (p ++ l) (p ++ l') = lex_lt pv_eqb pv_lt l l'.
Proof. induction p as [|x p IH]; cbn; [reflexivity|]. now rewrite pv_eqb_refl. Qed.
Lemma lex_split l : Forall (fun a => forall b, pv_lt a b = Some true -> before a b) l -> forall l', lex_lt pv_eqb pv_lt l l' = Some true ->
  (exists x s, l' = l ++ x :: s) \/ (exists p x y s t, l = p ++ x :: s /\ l' = p ++ y :: t /\ before x y).
Proof.
  induction 1 as [|a l Ha _ IH]; intros [|b l'] E; cbn in E; try discriminate E.
  - left. now exists b, l'.
  - destruct (pv_eqb a b) eqn:Q; [apply pv_eqb_iff in Q; subst b|].
    + destruct (IH l' E) as [(x & s & ->)|(p & x & y & s & t & -> & -> & B)]; [left; now exists x, s|right; exists (a :: p), x, y, s, t; now repeat split].
    + right. exists [], a, b, l, l'. repeat split. now apply Ha.
Qed.
Lemma pv_lt_iff a b : pv_lt a b = Some true <-> before a b.
Proof.
  split.
  - revert b. induction a as [z|s|l IH|l IH] using pv_ind'; intros [z'|s'|l'|l'] E; cbn in E; try discriminate E.
    + constructor. injection E as E. lia.
    + constructor. injection E as E. now apply str_ltb_iff.
    + destruct (lex_split l IH l' E) as [(x & s & ->)|(p & x & y & s & t & -> & -> & B)]; now constructor.
    + destruct (lex_split l IH l' E) as [(x & s & ->)|(p & x & y & s & t & -> & -> & B)]; now constructor.
  - assert (At_ : forall p x y s t, pv_lt x y = Some true -> lex_lt pv_eqb pv_lt (p ++ x :: s) (p ++ y :: t) = Some true).
    { intros p x y s t L. rewrite lex_app. cbn. destruct (pv_eqb x y) eqn:Q; [|exact L]. apply pv_eqb_iff in Q. subst y. rewrite pv_lt_refl in L. discriminate. }
    assert (End_ : forall p x s, lex_lt pv_eqb pv_lt p (p ++ x :: s) = Some true) by (intros p x s; rewrite <- (app_nil_r p) at 1; now rewrite lex_app).
    intros H. induction H as [a b L|a b T|p x s|p x y s t B IHB|p x s|p x y s t B IHB]; cbn [pv_lt]; auto.
    + f_equal. lia.
    + f_equal. now apply str_ltb_iff.
Qed.
Lemma le_iff a b : truth (pv_le a b) = true <-> a = b \/ before a b.
Proof.
  unfold pv_le. destruct (pv_eqb a b) eqn:Q; [apply pv_eqb_iff in Q; cbn; split; auto|]. rewrite <- pv_lt_iff. destruct (pv_lt a b) as [[|]|]; cbn; (split; [intros; try discriminate; auto|intros [E|E]; [apply pv_eqb_iff in E; congruence|auto; discriminate]]).
Qed.
Lemma lt_iff a b : truth (pv_lt a b) = true <-> before a b.
Proof. rewrite <- pv_lt_iff. destruct (pv_lt a b) as [[|]|]; cbn; split; auto; discriminate. Qed.
