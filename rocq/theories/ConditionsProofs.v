From Verif Require Import Base Conditions SpecConditions.
From Coq Require Import Lia.

Lemma after_snoc l o : conds_after (l ++ [o]) = cstep (conds_after l) o.
Proof. unfold conds_after. now rewrite fold_left_app. Qed.

Lemma snoc_split {A} (l : list A) o l1 x l2 : l ++ [o] = l1 ++ x :: l2 ->
  (l2 = [] /\ l1 = l /\ x = o) \/ exists l2', l2 = l2' ++ [o] /\ l = l1 ++ x :: l2'.
Proof.
  destruct l2 as [|y l2] using rev_ind.
  - intros H. apply app_inj_tail in H as [-> ->]. auto.
  - intros H. right. exists l2. change (l1 ++ x :: l2 ++ [y]) with (l1 ++ (x :: l2) ++ [y]) in H. rewrite app_assoc in H.
    apply app_inj_tail in H as [-> ->]. auto.
Qed.

Lemma calls_snoc l o : calls (l ++ [o]) = (if is_begin o then S (calls l) else calls l).
Proof. unfold calls. rewrite filter_app, app_length. cbn. destruct (is_begin o); cbn; lia. Qed.

(** Running calls after one more operation. *)
Lemma running_snoc l o i w lim l2 : running (l ++ [o]) i w lim l2 <->
  (o = CBegin w lim /\ l2 = [] /\ i = calls l) \/
  (exists l2', l2 = l2' ++ [o] /\ running l i w lim l2' /\ o <> CEnd i).
Proof.
  split.
  - intros (l1 & E & C & N). apply snoc_split in E as [(-> & -> & <-)|(l2' & -> & ->)].
    + left. auto.
    + right. exists l2'. split; [reflexivity|]. rewrite in_app_iff in N. cbn in N. split; [|intuition]. exists l1. intuition.
  - intros [(-> & -> & ->)|(l2' & -> & (l1 & -> & C & N) & D)].
    + exists l. auto.
    + exists l1. rewrite <- app_assoc. split; [reflexivity|]. split; [exact C|]. rewrite in_app_iff. cbn. intuition.
Qed.

Lemma running_lt l i w lim l2 : running l i w lim l2 -> (i < calls l)%nat.
Proof. intros (l1 & -> & <- & _). unfold calls. rewrite filter_app, app_length. cbn. lia. Qed.

Lemma running_unique l : forall i w lim l2 w' lim' l2', running l i w lim l2 -> running l i w' lim' l2' -> w' = w /\ lim' = lim /\ l2' = l2.
Proof.
  induction l as [|o l IH] using rev_ind; intros i w lim l2 w' lim' l2' H H'.
  - destruct H as (l1 & E & _). destruct l1; discriminate.
  - apply running_snoc in H as [(-> & -> & ->)|(a & -> & H & D)]; apply running_snoc in H' as [(E & -> & E')|(a' & -> & H' & D')].
    + injection E as -> ->. auto.
    + apply running_lt in H'. lia.
    + subst. apply running_lt in H. lia.
    + destruct (IH _ _ _ _ _ _ _ H H') as (-> & -> & ->). auto.
Qed.

Definition ids (l : list cond) : list nat := flat_map (fun c => match c with KLimit i _ _ => [i] | KBase => [] end) l.
Lemma ids_In i l : In i (ids l) <-> exists w lim, In (KLimit i w lim) l.
Proof.
  unfold ids. rewrite in_flat_map. split.
  - intros ([|j w lim] & H & E); cbn in E; [contradiction|]. destruct E as [->|[]]. eauto.
  - intros (w & lim & H). exists (KLimit i w lim). cbn. auto.
Qed.
Lemma remove_In i l c : NoDup (ids l) -> In c (remove_cond i l) <-> In c l /\ (forall w lim, c <> KLimit i w lim).
Proof.
  induction l as [|[|j w lim] l IH]; cbn [ids flat_map app remove_cond]; intros N.
  - cbn. tauto.
  - cbn [In]. rewrite (IH N). split; [intros [<-|H]; [split; [auto|intros; discriminate]|tauto]|tauto].
  - inversion N as [|? ? N1 N2]; subst. destruct (Nat.eqb_spec j i) as [->|D]; cbn [In].
    + split.
      * intros H. split; [auto|]. intros w' lim' ->. apply N1, ids_In. eauto.
      * intros [[<-|H] X]; [exfalso; now apply (X w lim)|exact H].
    + rewrite (IH N2). split; [intros [<-|[H X]]; [split; [auto|congruence]|tauto]|tauto].
Qed.
Lemma ids_remove i l : NoDup (ids l) -> NoDup (ids (remove_cond i l)).
Proof.
  induction l as [|[|j w lim] l IH]; cbn [ids flat_map app remove_cond]; intros N; [constructor|auto|].
  inversion N as [|? ? N1 N2]; subst. destruct (Nat.eqb_spec j i) as [->|D]; [exact N2|].
  cbn. constructor; [|now apply IH]. intros H. apply ids_In in H as (w' & lim' & H). apply remove_In in H as [H _]; [|exact N2].
  apply N1, ids_In. eauto.
Qed.
Lemma find_In i l w : find_cond i l = Some w -> exists lim, In (KLimit i w lim) l.
Proof.
  induction l as [|[|j v lim] l IH]; cbn; intros H; [discriminate|destruct (IH H) as [x X]; eauto|].
  destruct (Nat.eqb_spec j i) as [->|D]; [injection H as ->; eauto|]. destruct (IH H) as [x X]; eauto.
Qed.
Lemma find_None i l : find_cond i l = None -> forall w lim, ~ In (KLimit i w lim) l.
Proof.
  induction l as [|[|j v lim] l IH]; cbn; intros H w' lim' X; [exact X|destruct X as [X|X]; [discriminate|eapply IH; eauto]|].
  destruct (Nat.eqb_spec j i) as [->|D]; [discriminate|]. destruct X as [X|X]; [congruence|eapply IH; eauto].
Qed.
Lemma remove_base i l : In KBase l -> In KBase (remove_cond i l).
Proof.
  induction l as [|[|j w lim] l IH]; cbn; [tauto|tauto|]. intros [H|H]; [discriminate|]. destruct (Nat.eqb j i); [exact H|cbn; auto].
Qed.

Record CI (l : list cop) : Prop := {
  ci_calls : c_calls (conds_after l) = calls l;
  ci_base : In KBase (c_list (conds_after l));
  ci_nodup : NoDup (ids (c_list (conds_after l)));
  ci_run : forall i w lim, In (KLimit i w lim) (c_list (conds_after l)) <-> exists l2, running l i w lim l2;
}.

Lemma ids_lt l : (forall i w lim, In (KLimit i w lim) (c_list (conds_after l)) <-> exists l2, running l i w lim l2) ->
  ~ In (calls l) (ids (c_list (conds_after l))).
Proof. intros H X. apply ids_In in X as (w & lim & X). apply H in X as [l2 X]. apply running_lt in X. lia. Qed.

Lemma CI_all l : CI l.
Proof.
  induction l as [|o l [I1 I2 I3 I4]] using rev_ind.
  - constructor; cbn; auto; [constructor|]. intros i w lim. split; [intros [H|[]]; discriminate|]. intros (l2 & l1 & E & _). destruct l1; discriminate.
  - pose proof (ids_lt l I4) as NL. constructor; rewrite after_snoc.
    + rewrite calls_snoc. destruct o as [w lim|i|w k]; cbn; [now rewrite I1| |].
      * destruct (find_cond i _); exact I1.
      * destruct (c_counts _ w k); exact I1.
    + destruct o as [w lim|i|w k]; cbn; [auto| |].
      * destruct (find_cond i _); [now apply remove_base|exact I2].
      * destruct (c_counts _ w k); exact I2.
    + destruct o as [w lim|i|w k]; cbn.
      * constructor; [now rewrite I1|exact I3].
      * destruct (find_cond i _); [now apply ids_remove|exact I3].
      * destruct (c_counts _ w k); exact I3.
    + intros j v lim'. destruct o as [w lim|i|w k]; cbn [cstep c_list].
      * cbn [In]. rewrite I1, I4. split.
        -- intros [[= <- <- <-]|[l2 H]]; [exists []|exists (l2 ++ [CBegin w lim])]; apply running_snoc; [left; auto|right].
           exists l2. split; [reflexivity|]. split; [exact H|discriminate].
        -- intros (l2 & H). apply running_snoc in H as [([= -> ->] & _ & ->)|(l2' & _ & H & _)]; [auto|right; eauto].
      * destruct (find_cond i (c_list (conds_after l))) as [w|] eqn:F; cbn [c_list].
        -- rewrite remove_In by exact I3. rewrite I4. split.
           ++ intros [[l2 H] X]. exists (l2 ++ [CEnd i]). apply running_snoc. right. exists l2. split; [reflexivity|]. split; [exact H|].
              intros [= ->]. now apply (X v lim').
           ++ intros (l2 & H). apply running_snoc in H as [(E & _)|(l2' & _ & H & D)]; [discriminate|]. split; [eauto|]. intros ? ? [= -> _ _]. congruence.
        -- pose proof (find_None _ _ F) as NF. rewrite I4. split.
           ++ intros [l2 H]. exists (l2 ++ [CEnd i]). apply running_snoc. right. exists l2. split; [reflexivity|]. split; [exact H|].
              intros [= ->]. apply (NF v lim'), I4. eauto.
           ++ intros (l2 & H). apply running_snoc in H as [(E & _)|(l2' & _ & H & D)]; [discriminate|eauto].
      * assert (Q : c_list (match c_counts (conds_after l) w k with
                            | Some n => mkConds (c_list (conds_after l)) (upd (c_counts (conds_after l)) w (upd (c_counts (conds_after l) w) k (Some (n + 1)))) (c_calls (conds_after l))
                            | None => conds_after l end) = c_list (conds_after l)) by (destruct (c_counts _ w k); reflexivity).
        rewrite Q, I4. split.
        -- intros [l2 H]. exists (l2 ++ [CCount w k]). apply running_snoc. right. exists l2. split; [reflexivity|]. split; [exact H|discriminate].
        -- intros (l2 & H). apply running_snoc in H as [(E & _)|(l2' & _ & H & D)]; [discriminate|eauto].
Qed.

Lemma one_each_snoc l o : one_each (l ++ [o]) -> one_each l /\ forall w lim, o = CBegin w lim -> forall i lim' l3, ~ running l i w lim' l3.
Proof.
  intros H. split.
  - intros l1 w lim l2 ->. apply (H l1 w lim (l2 ++ [o])). now rewrite <- app_assoc.
  - intros w lim ->. apply (H l w lim []). reflexivity.
Qed.

Lemma one_each_same l : one_each l -> forall i w lim l2 j lim' l3, running l i w lim l2 -> running l j w lim' l3 -> j = i.
Proof.
  induction l as [|o l IH] using rev_ind; intros O i w lim l2 j lim' l3 H H'.
  - destruct H as (l1 & E & _). destruct l1; discriminate.
  - destruct (one_each_snoc l o O) as [O1 O2].
    apply running_snoc in H as [(-> & -> & ->)|(a & -> & H & D)]; apply running_snoc in H' as [(E & -> & E')|(a' & -> & H' & D')].
    + exact E'.
    + exfalso. eapply O2; eauto.
    + subst. exfalso. eapply O2; eauto.
    + eapply IH; eauto.
Qed.

Lemma times_snoc w k l o : times w k (l ++ [o]) = times w k l + match o with CCount w' k' => if String.eqb w' w && String.eqb k' k then 1 else 0 | _ => 0 end.
Proof. unfold times. rewrite filter_app, app_length. cbn. destruct o as [| |w' k']; cbn; try lia. destruct (_ && _)%bool; cbn; lia. Qed.

Lemma counts_all l : one_each l -> forall i w lim l2, running l i w lim l2 ->
  forall k, c_counts (conds_after l) w k = match lim k with None => None | Some _ => Some (times w k l2) end.
Proof.
  induction l as [|o l IH] using rev_ind; intros O i w lim l2 H k.
  - destruct H as (l1 & E & _). destruct l1; discriminate.
  - destruct (one_each_snoc l o O) as [O1 O2]. rewrite after_snoc.
    apply running_snoc in H as [(-> & -> & ->)|(a & -> & H & D)].
    + cbn. rewrite upd_eq. reflexivity.
    + specialize (IH O1 _ _ _ _ H). rewrite times_snoc. destruct o as [v lim'|j|v k']; cbn.
      * rewrite upd_neq; [rewrite IH, Z.add_0_r; reflexivity|]. intros ->. eapply O2; eauto.
      * rewrite Z.add_0_r. destruct (find_cond j _) as [v|] eqn:F; [|apply IH]. cbn. apply find_In in F as [lim' F].
        apply (ci_run _ (CI_all l)) in F as [l3 F]. rewrite upd_neq; [apply IH|]. intros ->.
        assert (j = i) by (eapply one_each_same; eauto). congruence.
      * destruct (String.eqb_spec v w) as [->|Nv]; cbn [andb].
        -- rewrite IH. destruct (lim k') as [m|] eqn:Lk'; cbn.
           ++ rewrite upd_eq. destruct (String.eqb_spec k' k) as [->|Nk].
              ** rewrite upd_eq, Lk'. f_equal.
              ** rewrite upd_neq by congruence. rewrite IH, Z.add_0_r. reflexivity.
           ++ destruct (String.eqb_spec k' k) as [->|Nk]; [now rewrite IH, Lk'|rewrite IH, Z.add_0_r; reflexivity].
        -- rewrite Z.add_0_r. destruct (c_counts (conds_after l) v k'); [cbn; rewrite upd_neq by congruence|]; apply IH.
Qed.

Lemma any_spec s base k l : (forall c, In c l -> holds_for s base k c <> None) ->
  exists b, any_holds s base k l = AVerdict b /\ (b = true <-> exists c, In c l /\ holds_for s base k c = Some true).
Proof.
  induction l as [|c l IH]; intros H; cbn.
  - exists false. split; [reflexivity|]. split; [discriminate|]. intros (c & [] & _).
  - destruct (holds_for s base k c) as [[]|] eqn:E; [|destruct IH as (b & E1 & E2); [intros; apply H; cbn; auto|]|exfalso; eapply H; eauto; cbn; auto].
    + exists true. split; [reflexivity|]. split; [|reflexivity]. intros _. exists c. auto.
    + exists b. split; [exact E1|]. rewrite E2. split; [intros (x & X1 & X2); eauto|intros (x & [<-|X1] & X2); [congruence|eauto]].
Qed.

Lemma none_running l : (forall i w lim l2, ~ running l i w lim l2) -> forall base k, is_stricken (conds_after l) base k = AVerdict base.
Proof.
  intros H base k. destruct (CI_all l) as [_ B _ R]. unfold is_stricken.
  assert (A : forall c, In c (c_list (conds_after l)) -> c = KBase).
  { intros [|i w lim] X; [reflexivity|]. apply R in X as [l2 X]. exfalso. eapply H; eauto. }
  destruct (any_spec (conds_after l) base k (c_list (conds_after l))) as (b & E1 & E2).
  { intros c X. rewrite (A c X). discriminate. }
  rewrite E1. f_equal. destruct base.
  - apply E2. exists KBase. auto.
  - destruct b; [|reflexivity]. destruct (proj1 E2 eq_refl) as (c & X1 & X2). rewrite (A c X1) in X2. discriminate X2.
Qed.

Lemma verdict l : one_each l -> forall base k, exists b, is_stricken (conds_after l) base k = AVerdict b /\ (b = true <-> base = true \/ limit_reached l k).
Proof.
  intros O base k. destruct (CI_all l) as [_ B _ R]. pose proof (counts_all l O) as N. unfold is_stricken.
  destruct (any_spec (conds_after l) base k (c_list (conds_after l))) as (b & E1 & E2).
  { intros [|i w lim] X; cbn; [discriminate|]. apply R in X as [l2 X]. rewrite (N _ _ _ _ X). destruct (lim k); discriminate. }
  exists b. split; [exact E1|]. rewrite E2. split.
  - intros ([|i w lim] & X & Y); cbn in Y; [injection Y as ->; auto|]. right. apply R in X as [l2 X]. rewrite (N _ _ _ _ X) in Y.
    destruct (lim k) as [n|] eqn:L; [|discriminate]. injection Y as Y. exists i, w, lim, l2, n. split; [exact X|]. split; [exact L|lia].
  - intros [-> |(i & w & lim & l2 & n & X & L & Y)]; [exists KBase; auto|]. exists (KLimit i w lim). split; [apply R; eauto|].
    cbn. rewrite L, (N _ _ _ _ X), L. f_equal. lia.
Qed.
