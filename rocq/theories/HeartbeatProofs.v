(** Proofs about heartbeats. *)
From Verif Require Import Base ZSet Heartbeat SpecHeartbeat.

Lemma beat_set_In age w t z p : In p (beat_set age w t z) <-> p = (t, w) \/ (In p z /\ snd p <> w /\ ~ (0 <= fst p <= t - age)).
Proof. unfold beat_set. rewrite zadd_In, zremrangebyscore_In. tauto. Qed.
Lemma beat_set_nodup age w t z : znodup z -> znodup (beat_set age w t z).
Proof. intros H. apply zadd_nodup, zremrangebyscore_nodup, H. Qed.
Lemma existsb_eqb n l : existsb (String.eqb n) l = true <-> In n l.
Proof. rewrite existsb_exists. split; [intros (x & H & E); apply String.eqb_eq in E; now subst|intros H; exists n; split; [exact H|apply String.eqb_refl]]. Qed.

Lemma beats_other age w t names n : forall f, ~ In n names -> fold_left (fun f n => upd f n (beat_set age w t (f n))) names f n = f n.
Proof. induction names as [|m l IH]; intros f H; cbn; [reflexivity|]. cbn in H. rewrite IH by tauto. apply upd_neq. intros ->. tauto. Qed.
Lemma beats_In age w t names n : forall f, In n names -> forall p,
  In p (fold_left (fun f n => upd f n (beat_set age w t (f n))) names f n) <-> p = (t, w) \/ (In p (f n) /\ snd p <> w /\ ~ (0 <= fst p <= t - age)).
Proof.
  induction names as [|m l IH]; intros f H p; [destruct H|]. cbn.
  assert (First : forall p, In p (upd f m (beat_set age w t (f m)) n) <-> (if string_dec n m then p = (t, w) \/ (In p (f n) /\ snd p <> w /\ ~ (0 <= fst p <= t - age)) else In p (f n))).
  { intros q. destruct (string_dec n m) as [->|N]; [rewrite upd_eq; apply beat_set_In|rewrite upd_neq by exact N; reflexivity]. }
  destruct (in_dec string_dec n l) as [I|I].
  - rewrite IH by exact I. rewrite First. destruct (string_dec n m); tauto.
  - rewrite beats_other by exact I. rewrite First. destruct (string_dec n m); [tauto|]. destruct H; [congruence|contradiction].
Qed.
Lemma beats_nodup age w t names n : forall f, znodup (f n) -> znodup (fold_left (fun f n => upd f n (beat_set age w t (f n))) names f n).
Proof.
  induction names as [|m l IH]; intros f H; cbn; [exact H|]. apply IH. destruct (upd_spec f m n (beat_set age w t (f m))) as [[-> ->]|[_ ->]]; [now apply beat_set_nodup|exact H].
Qed.
Lemma rems_other w names n : forall f, ~ In n names -> fold_left (fun f n => upd f n (zrem w (f n))) names f n = f n.
Proof. induction names as [|m l IH]; intros f H; cbn; [reflexivity|]. cbn in H. rewrite IH by tauto. apply upd_neq. intros ->. tauto. Qed.
Lemma rems_In w names n : forall f, In n names -> forall p, In p (fold_left (fun f n => upd f n (zrem w (f n))) names f n) <-> In p (f n) /\ snd p <> w.
Proof.
  induction names as [|m l IH]; intros f H p; [destruct H|]. cbn.
  destruct (in_dec string_dec n l) as [I|I].
  - rewrite IH by exact I. destruct (upd_spec f m n (zrem w (f m))) as [[-> ->]|[_ ->]]; [rewrite zrem_In; tauto|tauto].
  - rewrite rems_other by exact I. destruct H as [->|H]; [|contradiction]. rewrite upd_eq. apply zrem_In.
Qed.
Lemma rems_nodup w names n : forall f, znodup (f n) -> znodup (fold_left (fun f n => upd f n (zrem w (f n))) names f n).
Proof.
  induction names as [|m l IH]; intros f H; cbn; [exact H|]. apply IH. destruct (upd_spec f m n (zrem w (f m))) as [[-> ->]|[_ ->]]; [now apply zrem_nodup|exact H].
Qed.

(** What each event does to a board. *)
Lemma board_beat s b age w t names p : In p (on_board (beat s age w t names) b) <->
  (if concerns b names then p = (t, w) \/ (In p (on_board s b) /\ snd p <> w /\ ~ (0 <= fst p <= t - age)) else In p (on_board s b)).
Proof.
  destruct b as [|n]; cbn; [apply beat_set_In|]. destruct (existsb (String.eqb n) names) eqn:E.
  - apply existsb_eqb in E. now apply beats_In.
  - rewrite beats_other; [reflexivity|]. intros H. apply existsb_eqb in H. congruence.
Qed.
Lemma board_remove s b w names p : In p (on_board (fst (hstep s (HRemove w names))) b) <-> (if concerns b names then In p (on_board s b) /\ snd p <> w else In p (on_board s b)).
Proof.
  destruct b as [|n]; cbn; [apply zrem_In|]. destruct (existsb (String.eqb n) names) eqn:E.
  - apply existsb_eqb in E. now apply rems_In.
  - rewrite rems_other; [reflexivity|]. intros H. apply existsb_eqb in H. congruence.
Qed.
Definition board_eqb (a b : board) : bool := match a, b with BAll, BAll => true | BTask n, BTask m => String.eqb n m | _, _ => false end.
Lemma board_purge s b b' age t p : In p (on_board (fst (hstep s (HPurge b' age t))) b) <->
  In p (on_board s b) /\ (board_eqb b' b = true -> ~ (0 <= fst p <= t - age)).
Proof.
  destruct b' as [|m], b as [|n]; cbn.
  - rewrite zremrangebyscore_In. tauto.
  - intuition discriminate.
  - intuition discriminate.
  - destruct (String.eqb_spec m n) as [->|N]; [rewrite upd_eq, zremrangebyscore_In; tauto|rewrite upd_neq by congruence; intuition discriminate].
Qed.
Lemma board_nodup s e b : znodup (on_board s b) -> znodup (on_board (fst (hstep s e)) b).
Proof.
  intros H. destruct e as [dt|age w t names|w names|[|m] age t|b'|w]; cbn [hstep]; try exact H.
  - destruct (0 <=? dt), b; exact H.
  - destruct b as [|n]; cbn in *; [now apply beat_set_nodup|now apply beats_nodup].
  - destruct b as [|n]; cbn in *; [now apply zrem_nodup|now apply rems_nodup].
  - destruct b as [|n]; cbn in *; [now apply zremrangebyscore_nodup|exact H].
  - destruct b as [|n]; cbn in *; [exact H|]. destruct (upd_spec (hb_task s) m n (zremrangebyscore 0 (t - age) (hb_task s m))) as [[-> ->]|[_ ->]]; [now apply zremrangebyscore_nodup|exact H].
Qed.
Lemma boards_nodup b l : forall s, znodup (on_board s b) -> znodup (on_board (hrun s l) b).
Proof. induction l as [|e l IH]; intros s H; cbn; [exact H|]. apply IH, board_nodup, H. Qed.

(** What a steady history keeps: an entry is the last heartbeat, and a heartbeat that is
    young enough is there. *)
Record HInv (b : board) (age lo : Z) (seen : string -> option Z) (s : hb) : Prop := mkHInv {
  hi_true : forall w t, In (t, w) (on_board s b) -> seen w = Some t;
  hi_kept : forall w t, seen w = Some t -> lo - age < t -> In (t, w) (on_board s b);
  hi_past : forall w t, seen w = Some t -> 0 <= t <= lo }.

Lemma HInv_later b age lo lo' seen s : HInv b age lo seen s -> lo <= lo' -> HInv b age lo' seen s.
Proof. intros [A B C] L. constructor; [exact A|intros; apply B; [assumption|lia]|intros w t H; specialize (C w t H); lia]. Qed.

Lemma HInv_same b age lo seen s s' : on_board s' b = on_board s b -> HInv b age lo seen s -> HInv b age lo seen s'.
Proof. intros E [A B C]. constructor; rewrite ?E; auto. Qed.

Lemma HInv_run b age l : forall lo hi seen s, 0 < age -> 0 <= lo -> HInv b age lo seen s -> steady age lo hi l ->
  HInv b age hi (fun w => last_beat b w (seen w) l) (hrun s l) /\ lo <= hi.
Proof.
  induction l as [|e l IH]; intros lo hi seen s Ha L0 I St.
  - cbn in *. split; [now apply (HInv_later _ _ lo)|exact St].
  - destruct e as [dt|a w t names|w names|b' a t|b'|w]; cbn [steady last_beat hrun] in *.
    + apply (IH lo); try assumption. apply (HInv_same _ _ _ _ s); [|exact I]. cbn [hstep]. destruct (0 <=? dt), b; reflexivity.
    + destruct St as (-> & Lt & St). destruct (IH t hi (fun w0 => if String.eqb w w0 && concerns b names then Some t else seen w0) (beat s age w t names)) as [R Q]; try assumption; try lia.
      2: { split; [exact R|lia]. }
      destruct I as [I1 I2 I3]. constructor.
      * intros w0 t0 H. apply board_beat in H. destruct (concerns b names); [|rewrite andb_false_r; now apply I1].
        destruct H as [[= -> ->]|(H & N & _)]; [now rewrite String.eqb_refl|]. cbn in N. rewrite eqb_neq_string by congruence. now apply I1.
      * intros w0 t0 H K. apply board_beat. destruct (concerns b names); [|rewrite andb_false_r in H; apply I2; [exact H|lia]].
        destruct (String.eqb_spec w w0) as [->|N]; cbn in H; [left; congruence|]. right. split; [apply I2; [exact H|lia]|]. cbn. split; [congruence|lia].
      * intros w0 t0 H. destruct (String.eqb w w0 && concerns b names); [injection H as <-; lia|]. specialize (I3 w0 t0 H). lia.
    + apply (IH lo); try assumption. destruct I as [I1 I2 I3]. constructor.
      * intros w0 t0 H. apply board_remove in H. destruct (concerns b names); [|rewrite andb_false_r; now apply I1].
        destruct H as [H N]. cbn in N. rewrite eqb_neq_string by congruence. now apply I1.
      * intros w0 t0 H K. apply board_remove. destruct (concerns b names); [|rewrite andb_false_r in H; now apply I2].
        destruct (String.eqb_spec w w0) as [->|N]; cbn in H; [discriminate|]. split; [now apply I2|cbn; congruence].
      * intros w0 t0 H. destruct (String.eqb w w0 && concerns b names); [discriminate|now apply (I3 w0)].
    + destruct St as (-> & Lt & St). destruct (IH t hi seen (fst (hstep s (HPurge b' age t)))) as [R Q]; try assumption; try lia.
      2: { split; [exact R|lia]. }
      destruct I as [I1 I2 I3]. constructor.
      * intros w0 t0 H. apply board_purge in H. now apply I1.
      * intros w0 t0 H K. apply board_purge. split; [apply I2; [exact H|lia]|]. intros _. cbn. lia.
      * intros w0 t0 H. specialize (I3 w0 t0 H). lia.
    + now apply (IH lo).
    + now apply (IH lo).
Qed.

(** After a purge at [t] nothing older than the allowed age is there, now or later. *)
Lemma young_kept b age t l : 0 < age -> forall lo hi s, t <= lo -> 0 <= t -> steady age lo hi l ->
  (forall p, In p (on_board s b) -> t - age < fst p) -> forall p, In p (on_board (hrun s l) b) -> t - age < fst p.
Proof.
  intros Ha. induction l as [|e l IH]; intros lo hi s L L0 St Y p Hp; cbn in Hp; [now apply Y|].
  destruct e as [dt|a w t' names|w names|b' a t'|b'|w]; cbn [steady] in St; try destruct St as (-> & Lt & St); (eapply IH; [| |exact St| |exact Hp]); try lia.
  - replace (on_board _ b) with (on_board s b) by (cbn [hstep]; destruct (0 <=? dt), b; reflexivity). exact Y.
  - intros q Hq. apply board_beat in Hq. destruct (concerns b names); [|now apply Y]. destruct Hq as [->|[Hq _]]; [cbn; lia|now apply Y].
  - intros q Hq. apply board_remove in Hq. destruct (concerns b names); apply Y; tauto.
  - intros q Hq. apply board_purge in Hq. apply Y, Hq.
  - exact Y.
  - exact Y.
Qed.

Lemma hrun_app l : forall l' s, hrun s (l ++ l') = hrun (hrun s l) l'.
Proof. induction l as [|e l IH]; intros l' s; cbn; [reflexivity|apply IH]. Qed.
Lemma steady_app age l : forall l' lo hi, steady age lo hi (l ++ l') -> exists mid, steady age lo mid l /\ steady age mid hi l'.
Proof.
  induction l as [|e l IH]; intros l' lo hi H; cbn in H; [exists lo; split; [cbn; lia|exact H]|].
  destruct e; cbn; try (apply IH, H); destruct H as (-> & L & H); destruct (IH _ _ _ H) as (m & A & B); exists m; auto.
Qed.
Lemma steady_le age l : forall lo hi, steady age lo hi l -> lo <= hi.
Proof. induction l as [|e l IH]; intros lo hi H; cbn in H; [exact H|]. destruct e; try (apply IH, H); destruct H as (_ & L & H); apply IH in H; lia. Qed.
Lemma steady_ext age l : forall lo hi hi', steady age lo hi l -> hi <= hi' -> steady age lo hi' l.
Proof. induction l as [|e l IH]; intros lo hi hi' H L; cbn in *; [lia|]. destruct e; eauto; destruct H as (? & ? & H); eauto. Qed.
Lemma steady_app_intro age l : forall l' lo mid hi, steady age lo mid l -> steady age mid hi l' -> steady age lo hi (l ++ l').
Proof.
  induction l as [|e l IH]; intros l' lo mid hi H H'; cbn in *.
  - revert lo H. induction l' as [|e' l' IH']; intros lo H; cbn in *; [lia|]. destruct e'; eauto; destruct H' as (? & ? & H'); repeat split; auto; lia.
  - destruct e; eauto; destruct H as (? & ? & H); eauto.
Qed.
Lemma last_beat_app b w l : forall l' acc, last_beat b w acc (l ++ l') = last_beat b w (last_beat b w acc l) l'.
Proof. induction l as [|e l IH]; intros l' acc; cbn; [reflexivity|]. destruct e; apply IH. Qed.

(** ** Names *)
Lemma sadd_In old new n : In n (sadd old new) <-> In n old \/ In n new.
Proof.
  unfold sadd. rewrite in_app_iff, filter_In, nodup_In, negb_true_iff. destruct (existsb (String.eqb n) old) eqn:E.
  - apply existsb_eqb in E. intuition discriminate.
  - assert (~ In n old) by (intros H; apply existsb_eqb in H; congruence). intuition.
Qed.
Lemma announced_mono w n l : forall A B : Prop, (A -> B) -> announced w n A l -> announced w n B l.
Proof. induction l as [|e l IH]; intros A B H; cbn; [exact H|]. destruct e; apply IH; tauto. Qed.
Lemma names_announced w n l : forall s (A : Prop), (In n (members s w) -> A) -> In n (members (hrun s l) w) -> announced w n A l.
Proof.
  induction l as [|e l IH]; intros s A H; cbn [hrun announced]; [exact H|]. destruct e as [dt|age w' t names|w' names|[|m] age t|b'|w']; cbn [hstep fst]; try (apply IH; exact H).
  - destruct (Z.leb_spec 0 dt) as [L|L]; cbn [fst]; apply IH; [|exact H]. intros K. apply H. revert K. unfold members. cbn. destruct (hb_names s w) as [[ns e]|]; [|auto].
    destruct (Z.ltb_spec (hb_now s + dt) e), (Z.ltb_spec (hb_now s) e); auto; try lia. intros [].
  - apply IH. unfold members at 1. cbn [beat hb_names hb_now]. destruct (String.eqb_spec w' w) as [->|N].
    + rewrite upd_eq. destruct (_ <? _); [|intros []]. rewrite sadd_In. intros [K|K]; [left; now apply H|right; auto].
    + rewrite upd_neq by congruence. intros K. left. apply H. exact K.
  - apply IH. unfold members. cbn. destruct (String.eqb_spec w' w) as [->|N]; [rewrite upd_eq; intros []|]. rewrite upd_neq by congruence. intros K. split; [exact N|]. apply H, K.
Qed.

Definition names_fresh (w : string) (s : hb) (acc : option (list string * Z * Z)) : Prop :=
  match acc with
  | Some (ns, age, e) => exists all exp, hb_names s w = Some (all, exp) /\ exp = hb_now s - e + names_ttl age /\ (forall n, In n ns -> In n all)
  | None => True
  end.
Lemma names_fresh_run w l : forall s acc, names_fresh w s acc -> names_fresh w (hrun s l) (since_beat w acc l).
Proof.
  induction l as [|e l IH]; intros s acc H; cbn [hrun since_beat]; [exact H|].
  destruct e as [dt|age w' t names|w' names|[|m] age t|b'|w']; cbn [hstep fst]; try (apply IH; exact H).
  - destruct (0 <=? dt); cbn [fst]; apply IH; [|exact H]. destruct acc as [[[ns a] e]|]; [|exact Logic.I]. destruct H as (all & exp & H1 & H2 & H3). exists all, exp. cbn [hb_now hb_names]. repeat split; auto. lia.
  - apply IH. destruct (String.eqb_spec w' w) as [->|N].
    + cbn [names_fresh beat hb_now hb_names]. rewrite upd_eq. eexists. eexists. split; [reflexivity|]. split; [lia|]. intros n Hn. apply sadd_In. auto.
    + destruct acc as [[[ns a] e]|]; [|exact Logic.I]. cbn. rewrite upd_neq by congruence. exact H.
  - apply IH. destruct (String.eqb_spec w' w) as [->|N]; [exact Logic.I|]. destruct acc as [[[ns a] e]|]; [|exact Logic.I]. cbn. rewrite upd_neq by congruence. exact H.
Qed.
