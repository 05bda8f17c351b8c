(** C46: worker listings. *)
From Verif Require Import Base ZSet Heartbeat SpecHeartbeat HeartbeatProofs.

(** If all dockets allow the same age and the clock readings never go back: a listing
    that drops the stale entries at [t] and reads the set at any later moment shows each
    worker at most once; who is shown has sent the heartbeat it is shown with, has not
    withdrawn, and was live at [t]; who is live at the time of the reading is shown,
    whatever the other workers and listings do. *)
Theorem C46_listed_partial b age l t l2 t2 z : 0 < age -> steady age 0 t2 (l ++ HPurge b age t :: l2) ->
  snd (hstep (hrun hb_init (l ++ HPurge b age t :: l2)) (HRange b)) = HListed z ->
  NoDup (map snd z) /\
  (forall w t', In (t', w) z -> last_beat b w None (l ++ l2) = Some t' /\ t - age < t') /\
  (forall w t', last_beat b w None (l ++ l2) = Some t' -> t2 - age < t' -> In (t', w) z).
Proof.
  intros Ha St E. cbn in E. injection E as <-.
  assert (Lb : forall w, last_beat b w None (l ++ HPurge b age t :: l2) = last_beat b w None (l ++ l2)) by (intros w; now rewrite !last_beat_app).
  assert (H0 : HInv b age 0 (fun _ => None) hb_init).
  { constructor; [destruct b; intros w x []|discriminate|discriminate]. }
  destruct (HInv_run b age _ 0 t2 _ hb_init Ha (Z.le_refl 0) H0 St) as [[I1 I2 I3] _].
  split; [|split].
  - apply boards_nodup. destruct b; constructor.
  - intros w t' H. split; [rewrite <- Lb; now apply I1|]. rewrite hrun_app in H. cbn [hrun] in H.
    destruct (steady_app _ _ _ _ _ St) as (m & S1 & S2). cbn in S2. destruct S2 as (_ & L & S2). pose proof (steady_le _ _ _ _ S1) as L1.
    assert (Y : t - age < fst (t', w)); [|exact Y]. eapply (young_kept b age t l2 Ha); [| |exact S2| |exact H]; [lia|lia|].
    intros [x w0] Hp. apply board_purge in Hp as [Hp Q]. specialize (Q ltac:(destruct b; cbn; auto using String.eqb_refl)). cbn in Q |- *.
    destruct (HInv_run b age _ 0 m _ hb_init Ha (Z.le_refl 0) H0 S1) as [[J1 J2 J3] _].
    specialize (J3 w0 x (J1 _ _ Hp)). lia.
  - intros w t' H K. rewrite <- Lb in H. now apply I2.
Qed.
Print Assumptions C46_listed_partial.

(** With nothing in between: exactly the workers whose last heartbeat is young enough. *)
Theorem C46_exactly_live_partial b age l t z : 0 < age -> steady age 0 t l ->
  snd (hstep (hrun hb_init (l ++ [HPurge b age t])) (HRange b)) = HListed z ->
  forall w t', In (t', w) z <-> last_beat b w None l = Some t' /\ t - age < t'.
Proof.
  intros Ha St E w t'. assert (S2 : steady age 0 t (l ++ [HPurge b age t])) by (apply (steady_app_intro age l _ 0 t t); [exact St|cbn; lia]).
  destruct (C46_listed_partial b age l t [] t z Ha S2 E) as (_ & A & B). rewrite app_nil_r in *. split; [apply A|]. intros [H K]. now apply B.
Qed.
Print Assumptions C46_exactly_live_partial.

(** The names shown for a worker are names it has announced and not withdrawn; while the
    key lives, the names of its last heartbeat are among them. *)
Theorem C46_names_partial w l ns :
  snd (hstep (hrun hb_init l) (HMembers w)) = HNames ns ->
  (forall n, In n ns -> announced w n False l) /\
  (forall last age e, since_beat w None l = Some (last, age, e) -> e < 1000000 * Z.max 1 (age / 1000000) -> forall n, In n last -> In n ns).
Proof.
  cbn [hstep snd]. intros [= <-]. split.
  - intros n. apply names_announced. intros [].
  - intros last age e S L n Hn. pose proof (names_fresh_run w l hb_init None Logic.I) as F. rewrite S in F. destruct F as (all & exp & H1 & H2 & H3).
    unfold members. rewrite H1. unfold names_ttl in H2. destruct (Z.ltb_spec (hb_now (hrun hb_init l)) exp); [now apply H3|lia].
Qed.
Print Assumptions C46_names_partial.

(** A worker without a heartbeat for the allowed age (in whole seconds, at least one) is
    shown with no tasks. *)
Theorem C46_names_gone w l ns last age e :
  snd (hstep (hrun hb_init l) (HMembers w)) = HNames ns ->
  since_beat w None l = Some (last, age, e) -> 1000000 * Z.max 1 (age / 1000000) <= e -> ns = [].
Proof.
  cbn [hstep snd]. intros [= <-] S L. pose proof (names_fresh_run w l hb_init None Logic.I) as F. rewrite S in F. destruct F as (all & exp & H1 & H2 & _).
  unfold members. rewrite H1. unfold names_ttl in H2. destruct (Z.ltb_spec (hb_now (hrun hb_init l)) exp); [lia|reflexivity].
Qed.
Print Assumptions C46_names_gone.
Example C46_names_gone_case : let l := [HBeat 2500000 "a" 0 ["f"]; HTick 2000000]%string in
  since_beat "a" None l = Some (["f"]%string, 2500000, 2000000) /\ 1000000 * Z.max 1 (2500000 / 1000000) <= 2000000.
Proof. split; [reflexivity|vm_compute; discriminate]. Qed.

(** Two workers, one falls silent, one withdraws and comes back. *)
Definition ex_beats : list hev :=
  [HBeat 10000000 "a" 0 ["f"; "g"]; HBeat 10000000 "b" 1000000 ["f"]; HTick 2000000; HBeat 10000000 "a" 2000000 ["f"; "g"];
   HRemove "a" ["f"; "g"]; HTick 8500000; HBeat 10000000 "c" 10500000 ["g"]; HBeat 10000000 "a" 10900000 ["f"; "g"]].
Example C46_case : steady 10000000 0 11000000 ex_beats /\
  houts (hrun hb_init ex_beats) [HPurge BAll 10000000 11000000; HRange BAll; HPurge (BTask "g") 10000000 11000000; HRange (BTask "g"); HMembers "a"; HMembers "b"] =
    [HDone; HListed [(10500000, "c"); (10900000, "a")]; HDone; HListed [(10500000, "c"); (10900000, "a")]; HNames ["f"; "g"]; HNames []] /\
  last_beat BAll "a" None ex_beats = Some 10900000 /\ last_beat BAll "b" None ex_beats = Some 1000000 /\
  since_beat "a" None ex_beats = Some (["f"; "g"], 10000000, 0).
Proof. split; [vm_compute; repeat split; discriminate|]. repeat split; vm_compute; reflexivity. Qed.

(** A docket that allows a shorter age removes a worker that is live by its own setting,
    so that even a listing with the worker's own setting misses it. *)
Definition ex_short : list hev := [HBeat 10000000 "a" 0 ["f"]; HBeat 1000000 "b" 5000000 ["f"]].
Theorem C46_shorter_age_refuted : exists l w t age,
  last_beat BAll w None l = Some t /\ snd (hstep (hrun hb_init (l ++ [HPurge BAll age (t + age - 1)])) (HRange BAll)) = HListed [(5000000, "b")] /\ w <> "b".
Proof. exists ex_short, "a", 0, 10000000. split; [reflexivity|]. split; [vm_compute; reflexivity|discriminate]. Qed.
Print Assumptions C46_shorter_age_refuted.

(** So does a listing whose clock is ahead. *)
Definition ex_ahead : list hev := [HBeat 10000000 "a" 1000000000 ["f"]; HPurge BAll 10000000 1010000000].
Theorem C46_clock_ahead_refuted : exists l w t age,
  last_beat BAll w None l = Some t /\ snd (hstep (hrun hb_init (l ++ [HPurge BAll age t])) (HRange BAll)) = HListed [].
Proof. exists ex_ahead, "a", 1000000000, 10000000. split; vm_compute; reflexivity. Qed.
Print Assumptions C46_clock_ahead_refuted.

(** A worker that restarts under its name without withdrawing (a crash) with fewer tasks
    is still shown with the old ones: SADD only adds, and each heartbeat renews the key.
    The sorted set of the dropped task empties by age, worker-tasks never does. *)
Definition ex_stale : list hev :=
  [HBeat 10000000 "a" 0 ["f"; "old"]; HTick 2000000; HBeat 10000000 "a" 2000000 ["f"]; HTick 9000000; HBeat 10000000 "a" 11000000 ["f"]; HTick 9000000; HBeat 10000000 "a" 20000000 ["f"]].
Theorem C46_stale_names_refuted : exists l w last age,
  since_beat w None l = Some (last, age, 0) /\ ~ In "old" last /\
  houts (hrun hb_init l) [HMembers w; HPurge (BTask "old") age 20000000; HRange (BTask "old")] = [HNames ["f"; "old"]; HDone; HListed []].
Proof.
  exists ex_stale, "a", ["f"], 10000000. split; [vm_compute; reflexivity|]. split; [|vm_compute; reflexivity]. intros [H|[]]. discriminate.
Qed.
Print Assumptions C46_stale_names_refuted.

(** The key of the names expires after whole seconds, so with an allowed age of 2.5
    seconds a live worker can be shown with no tasks. *)
Definition ex_fraction : list hev := [HBeat 2500000 "a" 0 ["f"]; HTick 2200000].
Theorem C46_names_expire_refuted : exists l w age t, last_beat BAll w None l = Some 0 /\ t - age < 0 /\
  houts (hrun hb_init l) [HPurge BAll age t; HRange BAll; HMembers w] = [HDone; HListed [(0, w)]; HNames []].
Proof. exists ex_fraction, "a", 2500000, 2200000. split; [reflexivity|]. split; [lia|vm_compute; reflexivity]. Qed.
Print Assumptions C46_names_expire_refuted.
