(** C91: worker-scoped lifecycles of dependencies. *)
From Verif Require Import Base Lifecycle SpecLifecycle.

(** ** Proofs *)
Lemma exb_in c l : existsb (String.eqb c) l = true <-> In c l.
Proof. rewrite existsb_exists. split; [intros (x & H & E); apply String.eqb_eq in E; now subst|intros H; exists c; split; [exact H|apply String.eqb_refl]]. Qed.
Lemma consider_in h o d c : In c (consider h o d) <-> In c o \/ exists x, d = Some x /\ d_cls x = c /\ h c = true.
Proof.
  destruct d as [x|]; cbn; [|split; [now left|intros [H|(x & E & _)]; [exact H|discriminate]]].
  destruct (existsb (String.eqb (d_cls x)) o) eqn:E; cbn.
  - split; [now left|]. intros [H|(y & Ey & Ec & _)]; [exact H|]. injection Ey as <-. rewrite <- Ec. now apply exb_in.
  - destruct (h (d_cls x)) eqn:Eh; cbn.
    + rewrite in_app_iff. split; intros [H|H]; auto; [destruct H as [<-|[]]; right; exists x; auto|]. destruct H as (y & Ey & Ec & _). injection Ey as <-. right. now left.
    + split; [now left|]. intros [H|(y & Ey & Ec & Hc)]; [exact H|]. injection Ey as <-. congruence.
Qed.
Lemma consider_nodup h o d : NoDup o -> NoDup (consider h o d).
Proof.
  intros N. destruct d as [x|]; cbn; [|exact N]. destruct (existsb (String.eqb (d_cls x)) o) eqn:E; cbn; [exact N|]. destruct (h (d_cls x)); cbn; [|exact N].
  rewrite <- (rev_involutive (o ++ [d_cls x])). apply NoDup_rev. rewrite rev_app_distr. cbn. constructor; [|now apply NoDup_rev].
  rewrite <- in_rev. intros I. apply exb_in in I. congruence.
Qed.
Lemma fold_in h l : forall o c, In c (fold_left (consider h) l o) <-> In c o \/ exists x, In (Some x) l /\ d_cls x = c /\ h c = true.
Proof.
  induction l as [|d l IH]; intros o c; cbn; [split; [now left|intros [H|(x & [] & _)]; exact H]|]. rewrite IH, consider_in. split.
  - intros [[H|(x & E & Q)]|(x & I & Q)]; [now left|right; exists x; split; [now left|exact Q]|right; exists x; split; [now right|exact Q]].
  - intros [H|(x & [E|I] & Q)]; [left; now left|left; right; now exists x|right; now exists x].
Qed.
Lemma fold_nodup h l : forall o, NoDup o -> NoDup (fold_left (consider h) l o).
Proof. induction l as [|d l IH]; intros o N; [exact N|]. cbn. apply IH. now apply consider_nodup. Qed.
Lemma some_in (x : dep) t : In (Some x) (tf_defaults t ++ map Some (concat (tf_annotations t))) <-> declared t x.
Proof.
  rewrite in_app_iff. unfold declared. split; intros [H|H]; auto; right.
  - apply in_map_iff in H. destruct H as (y & E & I). injection E as ->. apply in_concat in I. destruct I as (l & A & B). now exists l.
  - destruct H as (l & A & B). apply in_map_iff. exists x. split; [reflexivity|]. apply in_concat. now exists l.
Qed.
Lemma classes_in h tasks wd c : In c (lifecycle_classes h tasks wd) <-> h c = true /\ exists x, d_cls x = c /\ ((exists t, In t tasks /\ declared t x) \/ In x wd).
Proof.
  unfold lifecycle_classes. rewrite fold_in.
  assert (X : forall tasks o, In c (fold_left (fun ordered t => fold_left (consider h) (tf_defaults t ++ map Some (concat (tf_annotations t))) ordered) tasks o) <-> In c o \/ exists t x, In t tasks /\ declared t x /\ d_cls x = c /\ h c = true).
  { clear. induction tasks as [|t tasks IH]; intros o; cbn [fold_left]; [split; [now left|intros [H|(t & x & [] & _)]; exact H]|]. rewrite IH, fold_in. split.
    - intros [[H|(x & I & Q)]|(t' & x & I & Q)]; [now left|right; exists t, x; split; [now left|]; apply some_in in I; tauto|right; exists t', x; split; [now right|exact Q]].
    - intros [H|(t' & x & [<-|I] & D & Q)]; [left; now left|left; right; exists x; split; [now apply some_in|exact Q]|right; now exists t', x]. }
  rewrite X. split.
  - intros [[[]|(t & x & I & D & E & H)]|(x & I & E & H)]; (split; [exact H|]); exists x; (split; [exact E|]); [left; now exists t|right; apply in_map_iff in I; destruct I as (y & Ey & Iy); now injection Ey as ->].
  - intros [H (x & E & [(t & I & D)|I])]; [left; right; now exists t, x|right; exists x; split; [now apply in_map|now split]].
Qed.
Lemma classes_nodup h tasks wd : NoDup (lifecycle_classes h tasks wd).
Proof.
  unfold lifecycle_classes. apply fold_nodup. assert (X : forall tasks o, NoDup o -> NoDup (fold_left (fun ordered t => fold_left (consider h) (tf_defaults t ++ map Some (concat (tf_annotations t))) ordered) tasks o)).
  { clear. induction tasks as [|t tasks IH]; intros o N; [exact N|]. cbn [fold_left]. apply IH. now apply fold_nodup. }
  apply X. constructor.
Qed.
Lemma entering_all fails cs : (forall c, In c cs -> fails c = false) -> forall dn, entering fails cs dn = (map LEnter cs, rev cs ++ dn).
Proof.
  induction cs as [|c cs IH]; intros F dn; [reflexivity|]. cbn [entering]. rewrite (F c (or_introl eq_refl)), IH by (intros x I; apply F; now right). cbn. now rewrite <- app_assoc.
Qed.
Lemma entered_app c a : forall b, entered c (a ++ b) = (entered c a + entered c b)%nat.
Proof. induction a as [|[d|d|d] a IH]; intros b; cbn; auto. rewrite IH. lia. Qed.
Lemma entered_exit c l : entered c (map LExit l) = O.
Proof. induction l; auto. Qed.
Lemma entered_enter c l : NoDup l -> entered c (map LEnter l) = if existsb (String.eqb c) l then 1%nat else 0%nat.
Proof.
  induction 1 as [|d l N _ IH]; [reflexivity|]. cbn [map entered existsb]. rewrite IH. destruct (String.eqb_spec c d) as [->|]; cbn; [|reflexivity].
  destruct (existsb (String.eqb d) l) eqn:E; [apply exb_in in E; contradiction|reflexivity].
Qed.

(** ** C91 *)

(** When no dependency is itself built from dependencies and no entering fails, each run of
    the worker's loop enters exactly the lifecycles of the classes in use, once each. *)
Theorem C91_once_partial h tasks wd fails c : flat tasks wd -> (forall c, fails c = false) ->
  (entered c (session fails (lifecycle_classes h tasks wd)) <= 1)%nat /\
  (entered c (session fails (lifecycle_classes h tasks wd)) = 1 <-> h c = true /\ exists d, used tasks wd d /\ d_cls d = c)%nat.
Proof.
  intros F NF. unfold session. rewrite entering_all by (intros; apply NF). rewrite app_nil_r, entered_app, entered_exit, entered_enter by apply classes_nodup.
  rewrite Nat.add_0_r. assert (U : In c (lifecycle_classes h tasks wd) <-> h c = true /\ exists d, used tasks wd d /\ d_cls d = c).
  { rewrite classes_in. split; intros [H (x & A & B)]; (split; [exact H|]).
    - exists x. split; [exists x; split; [exact B|apply rc_self]|exact A].
    - exists x. split; [exact B|]. destruct A as (e & A & R). assert (Ue : used tasks wd e) by (exists e; split; [exact A|apply rc_self]). pose proof (F e Ue) as Fe.
      inversion R; subst; [exact A|]. rewrite Fe in *. contradiction. }
  rewrite <- U, <- exb_in. destruct (existsb (String.eqb c) (lifecycle_classes h tasks wd)); split; try split; try lia; try congruence; auto; discriminate.
Qed.
Print Assumptions C91_once_partial.

(** Whatever fails, and however often the worker reconnects, what was entered is left, in
    reverse order. *)
Theorem C91_left h wd sessions : nested [] (lifetime h wd sessions) = Some [].
Proof.
  assert (A : forall a o b, nested o (a ++ b) = match nested o a with Some o => nested o b | None => None end).
  { induction a as [|[c|c|c] a IH]; intros o b; cbn; auto. destruct o as [|d o]; [reflexivity|]. destruct (String.eqb c d); auto. }
  assert (X : forall l, nested l (map LExit l) = Some []) by (induction l as [|c l IH]; cbn; [reflexivity|now rewrite String.eqb_refl]).
  assert (E : forall fails cs dn, nested dn (fst (entering fails cs dn)) = Some (snd (entering fails cs dn))).
  { intros fails. induction cs as [|c cs IH]; intros dn; [reflexivity|]. cbn [entering]. destruct (fails c); [reflexivity|]. specialize (IH (c :: dn)). destruct (entering fails cs (c :: dn)). exact IH. }
  unfold lifetime. induction sessions as [|[tasks fails] sessions IH]; [reflexivity|]. cbn [map concat fst snd]. rewrite A. unfold session.
  specialize (E fails (lifecycle_classes h tasks wd) []). destruct (entering fails (lifecycle_classes h tasks wd) []) as [l dn]. cbn [fst snd] in E. rewrite A, E, X. exact IH.
Qed.
Print Assumptions C91_left.

(** A class used only inside another dependency is never entered. *)
Theorem C91_inner_refuted : exists h tasks d, used tasks [] d /\ h (d_cls d) = true /\
  forall fails, entered (d_cls d) (session fails (lifecycle_classes h tasks [])) = O.
Proof.
  pose (d := mkDep "ConcurrencyLimit" []). pose (o := mkDep "Depends" [d]). pose (h := fun c => String.eqb c "ConcurrencyLimit"). exists h, [mkTaskFn [Some o] []], d.
  split; [exists o; split; [left; exists (mkTaskFn [Some o] []); split; [now left|left; now left]|apply (rc_inner o d d); [now left|apply rc_self]]|]. split; [reflexivity|]. intros fails. reflexivity.
Qed.
Print Assumptions C91_inner_refuted.

(** Nor is one whose first task is registered after the loop began; and after a
    disconnection all are entered again ("at most once per worker lifetime", worker.py:577). *)
Theorem C91_lifetime_refuted : exists h t d, declared t d /\ h (d_cls d) = true /\ forall fails,
  entered (d_cls d) (lifetime h [] [([], fails)]) = O /\
  (fails (d_cls d) = false -> entered (d_cls d) (lifetime h [] [([t], fails); ([t], fails)]) = 2%nat).
Proof.
  pose (d := mkDep "ConcurrencyLimit" []). pose (h := fun c => String.eqb c "ConcurrencyLimit"). exists h, (mkTaskFn [Some d] []), d. split; [left; now left|]. split; [reflexivity|].
  intros fails. split; [reflexivity|]. intros F. cbn in F. unfold lifetime, session, h. cbn. rewrite F. reflexivity.
Qed.
Print Assumptions C91_lifetime_refuted.

Example C91_case :
  let h := fun c => String.eqb c "ConcurrencyLimit" || String.eqb c "Watch" in
  let limit := mkDep "ConcurrencyLimit" [] in
  let tasks := [mkTaskFn [None; Some (mkDep "Retry" [])] [[limit]]; mkTaskFn [Some limit; Some (mkDep "Watch" [])] []] in
  flat tasks [] /\ session (fun _ => false) (lifecycle_classes h tasks []) = [LEnter "ConcurrencyLimit"; LEnter "Watch"; LExit "Watch"; LExit "ConcurrencyLimit"].
Proof.
  cbv zeta. split; [|reflexivity]. intros d (e & [(t & I & D)|[]] & R).
  assert (E : d_inner e = []). { destruct I as [<-|[<-|[]]]; destruct D as [D|(l & A & B)]; cbn in *; repeat match goal with H : _ \/ _ |- _ => destruct H | H : False |- _ => destruct H | H : None = _ |- _ => discriminate H | H : Some _ = Some _ |- _ => injection H as <- | H : [_] = _ |- _ => subst l end; try reflexivity; cbn in B; destruct B as [<-|[]]; reflexivity. }
  inversion R; subst; [exact E|]. rewrite E in *. contradiction.
Qed.
