From Verif Require Import Base ZSet Heartbeat SpecHeartbeat HeartbeatProofs Departed SpecDeparted.

Lemma change_from i f : forall l y', In y' (change i f l) -> exists y, In y l /\ (y' = y \/ y' = f y).
Proof.
  induction i as [|i IH]; intros [|y l] y' H; try destruct H as [H|H]; try contradiction.
  - exists y. cbn. auto.
  - exists y'. cbn. auto.
  - exists y'. cbn. subst. auto.
  - destruct (IH _ _ H) as (z & Hz & Ez). exists z. cbn. auto.
Qed.
Lemma change_into i f : forall l y, In y l -> In y (change i f l) \/ In (f y) (change i f l).
Proof.
  induction i as [|i IH]; intros [|z l] y H; try destruct H as [->|H]; try contradiction; cbn; auto. destruct (IH _ _ H); auto.
Qed.
Lemma drop_at_In {A} n (l : list A) e : In e (drop_at n l) -> In e l.
Proof.
  unfold drop_at. rewrite in_app_iff. intros [H|H].
  - rewrite <- (firstn_skipn n l). apply in_or_app. now left.
  - rewrite <- (firstn_skipn (S n) l). apply in_or_app. now right.
Qed.

Definition knows (w n : string) (s : dep) : Prop := exists y, named w s y /\ In n (st_tasks y).
Lemma knows_step age w n s e : knows w n s -> knows w n (dstep age s e).
Proof.
  intros (y & [Hy Ny] & Hn).
  assert (Q : forall i f, (forall y, st_name (f y) = st_name y /\ (forall n, In n (st_tasks y) -> In n (st_tasks (f y)))) -> knows w n (with_stays s (change i f (dp_stays s)))).
  { intros i f P. destruct (change_into i f _ _ Hy) as [H|H]; [exists y|exists (f y)]; split; auto; [split; auto| |apply P; auto].
    split; [exact H|]. rewrite <- Ny. apply P. }
  assert (R : knows w n s) by (exists y; repeat split; auto).
  destruct e; cbn [dstep].
  - exists y. split; [|exact Hn]. split; [|exact Ny]. cbn. apply in_or_app. now left.
  - apply Q. intros z. cbn. split; [reflexivity|]. intros m H. apply in_or_app. now left.
  - apply Q. intros z. destruct (st_on z); cbn; auto.
  - apply Q. intros z. cbn. auto.
  - destruct (nth_error _ _) as [z|]; [|exact R]. destruct (st_on z); exact R.
  - destruct (nth_error _ _) as [[[w' t] names]|]; exact R.
  - exact R.
  - apply Q. intros z. cbn. auto.
  - destruct (nth_error _ _) as [z|]; [|exact R]. destruct (_ && _); exact R.
  - exact R.
  - exact R.
Qed.

(** Whoever is on the board of a task, or on its way to it, knows the task. *)
Record Kn (s : dep) : Prop := mkKn {
  kn_board : forall n t w, In (t, w) (on_board (dp_hb s) (BTask n)) -> knows w n s;
  kn_air : forall w t names n, In (w, t, names) (dp_air s) -> In n names -> knows w n s }.

Lemma Kn_step age s e : Kn s -> Kn (dstep age s e).
Proof.
  intros K. pose proof K as [B A].
  assert (Q : forall h air, dstep age s e = mkDep h air (dp_stays (dstep age s e)) ->
     (forall n t w, In (t, w) (on_board h (BTask n)) -> knows w n s) -> (forall w t names n, In (w, t, names) air -> In n names -> knows w n s) -> Kn (dstep age s e)).
  { intros h air E H1 H2. constructor; rewrite E; cbn [dp_hb dp_air].
    - intros n t w H. apply H1 in H. apply (knows_step age _ _ _ e) in H. rewrite E in H. exact H.
    - intros w t names n H Hn. apply (H2 _ _ _ _ H) in Hn. apply (knows_step age _ _ _ e) in Hn. rewrite E in Hn. exact Hn. }
  destruct e; try (apply (Q (dp_hb s) (dp_air s)); [reflexivity|exact B|exact A]).
  - cbn [dstep]. destruct (nth_error (dp_stays s) i) as [y|] eqn:E; [|exact K]. destruct (st_on y); [|exact K]. constructor; cbn [dp_hb dp_air].
    + exact B.
    + intros w t0 names n H Hn. apply in_app_iff in H as [H|[H|[]]]; [apply (A _ _ _ _ H Hn)|]. injection H as <- <- <-.
      exists y. split; [|exact Hn]. split; [now apply nth_error_In in E|reflexivity].
  - destruct (nth_error (dp_air s) n) as [[[w t] names]|] eqn:E; [|cbn [dstep]; rewrite E; exact K]. pose proof E as E'. apply nth_error_In in E'.
    apply (Q (beat (dp_hb s) age w t names) (drop_at n (dp_air s))).
    + cbn [dstep]. rewrite E. reflexivity.
    + intros m t0 w0 H. apply board_beat in H. destruct (concerns _ _) eqn:C; [|now apply B in H].
      destruct H as [H|(H & _)]; [|now apply B in H]. injection H as -> ->. cbn in C. apply existsb_eqb in C. apply (A _ _ _ _ E' C).
    + intros w0 t0 names0 m H Hm. apply drop_at_In in H. apply (A _ _ _ _ H Hm).
  - apply (Q (dp_hb s) (drop_at n (dp_air s))); [reflexivity|exact B|]. intros w0 t0 names0 m H Hm. apply drop_at_In in H. apply (A _ _ _ _ H Hm).
  - cbn [dstep]. destruct (nth_error (dp_stays s) i) as [y|] eqn:E; [|exact K]. destruct (_ && _); [|exact K]. constructor; cbn [dp_hb dp_air with_hb]; [|exact A].
    intros n t w H. apply board_remove in H. destruct (concerns _ _); [destruct H as [H _]|]; now apply B in H.
  - apply (Q (fst (hstep (dp_hb s) (HTick dt))) (dp_air s)); [reflexivity| |exact A]. intros n t w H. apply (B n t). cbn [hstep] in H. destruct (0 <=? dt); exact H.
  - apply (Q (fst (hstep (dp_hb s) (HPurge b age t))) (dp_air s)); [reflexivity| |exact A]. intros n t0 w H. apply (B n t0). now apply board_purge in H.
Qed.
Lemma Kn_run age l : forall s, Kn s -> Kn (drun age s l).
Proof. induction l as [|e l IH]; intros s K; [exact K|]. apply IH. now apply Kn_step. Qed.
Lemma Kn_init : Kn dep_init.
Proof. constructor; cbn; contradiction. Qed.

(** Gone: at rest and on no board. *)
Definition Away (w : string) (s : dep) : Prop := at_rest w s /\ forall b t, ~ In (t, w) (on_board (dp_hb s) b).
Lemma at_rest_change w s i f : (forall y, st_name (f y) = st_name y /\ (st_on y = false -> st_on (f y) = false)) ->
  at_rest w s -> at_rest w (with_stays s (change i f (dp_stays s))).
Proof.
  intros P [R1 R2]. split; [|exact R2]. intros y [Hy Ny]. cbn in Hy. apply change_from in Hy as (z & Hz & [->| ->]).
  - apply R1. split; auto.
  - apply P. apply R1. split; [exact Hz|]. now rewrite <- (proj1 (P z)).
Qed.
Lemma Away_step age w s e : Away w s -> not_coming w e -> Away w (dstep age s e).
Proof.
  intros W N. pose proof W as [[R1 R2] B]. destruct e; cbn [dstep].
  - split; [|exact B]. split; [|exact R2]. intros y [Hy Ny]. cbn in Hy. apply in_app_iff in Hy as [Hy|[<-|[]]]; [apply R1; split; auto|].
    cbn in Ny. subst. exfalso. now apply (N names).
  - split; [|exact B]. apply at_rest_change; [cbn; auto|now split].
  - split; [|exact B]. apply at_rest_change; [|now split]. intros y. destruct (st_on y) eqn:E; cbn; split; auto; congruence.
  - split; [|exact B]. apply at_rest_change; [cbn; auto|now split].
  - destruct (nth_error _ _) as [y|] eqn:E; [|exact W]. destruct (st_on y) eqn:Oy; [|exact W]. apply nth_error_In in E.
    split; [|exact B]. split; [exact R1|]. cbn. intros t0 names H. apply in_app_iff in H as [H|[H|[]]]; [now apply R2 in H|].
    injection H as H _ _. rewrite R1 in Oy; [discriminate|]. split; auto.
  - destruct (nth_error _ _) as [[[w' t] names]|] eqn:E; [|exact W]. apply nth_error_In in E. split.
    + split; [exact R1|]. cbn. intros t0 names0 H. apply drop_at_In in H. now apply R2 in H.
    + intros b t0 H. cbn [dp_hb fst hstep] in H. apply board_beat in H. destruct (concerns _ _); [|now apply B in H].
      destruct H as [H|(H & _)]; [|now apply B in H]. injection H as -> ->. now apply R2 in E.
  - split; [|exact B]. split; [exact R1|]. cbn. intros t0 names0 H. apply drop_at_In in H. now apply R2 in H.
  - split; [|exact B]. apply at_rest_change; [cbn; auto|now split].
  - destruct (nth_error _ _) as [y|]; [|exact W]. destruct (_ && _); [|exact W]. split; [now split|]. intros b t H. cbn [with_hb dp_hb] in H.
    apply board_remove in H. destruct (concerns _ _); [destruct H as [H _]|]; now apply B in H.
  - split; [now split|]. intros b t H. apply (B b t). cbn [with_hb dp_hb hstep] in H. destruct (0 <=? dt); destruct b; exact H.
  - split; [now split|]. intros b' t' H. cbn [with_hb dp_hb] in H. apply board_purge in H as [H _]. now apply B in H.
Qed.
Lemma Away_run age w l : forall s, Away w s -> Forall (not_coming w) l -> Away w (drun age s l).
Proof. induction l as [|e l IH]; intros s W F; [exact W|]. inversion F; subst. apply IH; auto. now apply Away_step. Qed.

Lemma drun_app age l1 l2 : forall s, drun age s (l1 ++ l2) = drun age (drun age s l1) l2.
Proof. induction l1 as [|e l IH]; intros s; [reflexivity|]. apply IH. Qed.

(** Clock readings of a worker on the boards or on their way are ones it sent. *)
Definition Told (w : string) (ts : list Z) (s : dep) : Prop :=
  (forall b t, In (t, w) (on_board (dp_hb s) b) -> In t ts) /\ (forall t names, In (w, t, names) (dp_air s) -> In t ts).
Lemma Told_run age w l : forall s ts, Told w ts s -> Told w (ts ++ sent age w s l) (drun age s l).
Proof.
  induction l as [|e l IH]; intros s ts T; [cbn; now rewrite app_nil_r|]. cbn [drun sent]. rewrite app_assoc. apply IH.
  assert (T' : forall us, Told w (ts ++ us) s).
  { intros us. destruct T as [T1 T2]. split; intros; apply in_or_app; left; eauto. }
  destruct e; cbn [dstep]; rewrite ?app_nil_r; try exact T.
  - destruct (nth_error _ _) as [y|]; [|rewrite app_nil_r; exact T]. destruct (st_on y); cbn [andb]; [|rewrite app_nil_r; exact T].
    destruct T as [T1 T2]. split; cbn [dp_hb dp_air]; intros; [apply in_or_app; left; eauto|].
    apply in_app_iff in H as [H|[H|[]]]; [apply in_or_app; left; eauto|]. injection H as <- <- _. rewrite String.eqb_refl. apply in_or_app. right. now left.
  - destruct (nth_error _ _) as [[[w' t] names]|] eqn:E; [|exact T]. apply nth_error_In in E. destruct T as [T1 T2]. split; cbn [dp_hb dp_air fst hstep].
    + intros b t0 H. apply board_beat in H. destruct (concerns _ _); [|eauto]. destruct H as [H|(H & _)]; [|eauto]. injection H as -> ->. eauto.
    + intros t0 names0 H. apply drop_at_In in H. eauto.
  - destruct T as [T1 T2]. split; [exact T1|]. intros t0 names0 H. apply drop_at_In in H. eauto.
  - destruct (nth_error _ _) as [y|]; [|exact T]. destruct (_ && _); [|exact T]. destruct T as [T1 T2]. split; [|exact T2]. intros b t H. cbn [with_hb dp_hb] in H.
    apply board_remove in H. destruct (concerns _ _); [destruct H as [H _]|]; eauto.
  - destruct T as [T1 T2]. split; [|exact T2]. intros b t H. apply (T1 b t). cbn [with_hb dp_hb hstep] in H. destruct (0 <=? dt); destruct b; exact H.
  - destruct T as [T1 T2]. split; [|exact T2]. intros b' t' H. cbn [with_hb dp_hb] in H. apply board_purge in H as [H _]. eauto.
Qed.
