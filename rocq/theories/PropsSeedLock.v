(** C113: the passes that seed automatic tasks exclude each other, and each worker's tasks
    are seeded. *)
From Verif Require Import Base SeedLock.

Record LkInv (s : lks) : Prop := mkLkInv {
  li_pass : forall w p, lk_pass s w = Some p -> lp_token p < lk_fresh s /\ lp_at p <= lk_now s /\
    (lp_at p + lock_timeout <= lk_now s \/ lk_lock s = Some (lp_token p, lp_at p + lock_timeout));
  li_tokens : forall w1 w2 p1 p2, w1 <> w2 -> lk_pass s w1 = Some p1 -> lk_pass s w2 = Some p2 -> lp_token p1 <> lp_token p2;
  li_apart : forall w1 w2 p1 p2, w1 <> w2 -> lk_pass s w1 = Some p1 -> lk_pass s w2 = Some p2 ->
    lp_at p1 + lock_timeout <= lp_at p2 \/ lp_at p2 + lock_timeout <= lp_at p1 }.

Lemma LkInv_init : LkInv lk_init.
Proof. constructor; cbn; discriminate. Qed.

Lemma upd_inv {A} (f : string -> option A) w o w' p : upd f w o w' = Some p -> (w' = w /\ o = Some p) \/ (w' <> w /\ f w' = Some p).
Proof. destruct (string_dec w' w) as [->|N]; [rewrite upd_eq|rewrite upd_neq by exact N]; auto. Qed.

(** A pass ends and lets go of its own lock at most. *)
Lemma LkInv_leave s w p : LkInv s -> lk_pass s w = Some p ->
  LkInv (mkLks (lk_now s) (lk_fresh s) (release s (lp_token p)) (upd (lk_pass s) w None) (lk_live s)).
Proof.
  intros [I1 I2 I3] H. constructor; cbn.
  - intros w' q E. apply upd_inv in E as [[_ E]|[N E]]; [discriminate|]. destruct (I1 _ _ E) as (A1 & A2 & [A3|A3]); [auto|].
    split; [exact A1|]. split; [exact A2|]. unfold release, lock_now. rewrite A3. destruct (Z.ltb_spec (lk_now s) (lp_at q + lock_timeout)); [|left; lia].
    right. pose proof (I2 _ _ _ _ N E H). destruct (Z.eqb_spec (lp_token q) (lp_token p)); [contradiction|reflexivity].
  - intros w1 w2 p1 p2 N E1 E2. apply upd_inv in E1 as [[_ E1]|[_ E1]]; [discriminate|]. apply upd_inv in E2 as [[_ E2]|[_ E2]]; [discriminate|]. eauto.
  - intros w1 w2 p1 p2 N E1 E2. apply upd_inv in E1 as [[_ E1]|[_ E1]]; [discriminate|]. apply upd_inv in E2 as [[_ E2]|[_ E2]]; [discriminate|]. eauto.
Qed.

Lemma LkInv_step s o : LkInv s -> LkInv (fst (lkstep s o)).
Proof.
  intros I. pose proof I as [I1 I2 I3]. destruct o as [dt|w keys|w|w|w|w|k]; cbn [lkstep].
  - destruct (Z.leb_spec 0 dt); [|exact I]. constructor; cbn; eauto. intros w p E. destruct (I1 _ _ E) as (A1 & A2 & [A3|A3]); repeat split; auto; lia.
  - destruct (lk_pass s w) eqn:Ew; [exact I|]. destruct (lock_now s) eqn:El; [exact I|].
    assert (Old : forall w' q, lk_pass s w' = Some q -> lp_at q + lock_timeout <= lk_now s).
    { intros w' q E. destruct (I1 _ _ E) as (_ & _ & [A3|A3]); [exact A3|]. unfold lock_now in El. rewrite A3 in El.
      destruct (Z.ltb_spec (lk_now s) (lp_at q + lock_timeout)); [discriminate|lia]. }
    constructor; cbn.
    + intros w' q E. apply upd_inv in E as [[_ E]|[N E]].
      * injection E as <-. cbn. repeat split; try lia. right. reflexivity.
      * destruct (I1 _ _ E) as (A1 & A2 & _). specialize (Old _ _ E). repeat split; try lia.
    + intros w1 w2 p1 p2 N E1 E2. apply upd_inv in E1 as [[-> E1]|[_ E1]]; apply upd_inv in E2 as [[-> E2]|[_ E2]]; try contradiction; eauto.
      * injection E1 as <-. destruct (I1 _ _ E2). cbn. lia.
      * injection E2 as <-. destruct (I1 _ _ E1). cbn. lia.
    + intros w1 w2 p1 p2 N E1 E2. apply upd_inv in E1 as [[-> E1]|[_ E1]]; apply upd_inv in E2 as [[-> E2]|[_ E2]]; try contradiction; eauto.
      * injection E1 as <-. right. cbn. eauto.
      * injection E2 as <-. left. cbn. eauto.
  - destruct (lk_pass s w) as [[tok [|k rest] a]|] eqn:Ew; try exact I.
    assert (Q : forall w' q, upd (lk_pass s) w (Some (mkLp tok rest a)) w' = Some q -> exists q', lk_pass s w' = Some q' /\ lp_token q' = lp_token q /\ lp_at q' = lp_at q).
    { intros w' q E. apply upd_inv in E as [[-> E]|[N E]]; [injection E as <-; rewrite Ew|]; eauto. }
    constructor; cbn.
    + intros w' q E. apply Q in E as (q' & E & <- & <-). eauto.
    + intros w1 w2 p1 p2 N E1 E2. apply Q in E1 as (q1 & E1 & <- & _). apply Q in E2 as (q2 & E2 & <- & _). eauto.
    + intros w1 w2 p1 p2 N E1 E2. apply Q in E1 as (q1 & E1 & _ & <-). apply Q in E2 as (q2 & E2 & _ & <-). eauto.
  - destruct (lk_pass s w) as [[tok [|k rest] a]|] eqn:Ew; try exact I. apply (LkInv_leave s w _ I Ew).
  - destruct (lk_pass s w) as [p|] eqn:Ew; [|exact I]. now apply LkInv_leave.
  - constructor; cbn.
    + intros w' q E. apply upd_inv in E as [[_ E]|[N E]]; [discriminate|eauto].
    + intros w1 w2 p1 p2 N E1 E2. apply upd_inv in E1 as [[_ E1]|[_ E1]]; [discriminate|]. apply upd_inv in E2 as [[_ E2]|[_ E2]]; [discriminate|]. eauto.
    + intros w1 w2 p1 p2 N E1 E2. apply upd_inv in E1 as [[_ E1]|[_ E1]]; [discriminate|]. apply upd_inv in E2 as [[_ E2]|[_ E2]]; [discriminate|]. eauto.
  - constructor; cbn; eauto.
Qed.
Lemma LkInv_run l : forall s, LkInv s -> LkInv (lkrun s l).
Proof. induction l as [|o l IH]; intros s I; [exact I|]. apply IH. now apply LkInv_step. Qed.
Lemma lkrun_app l : forall s l', lkrun s (l ++ l') = lkrun (lkrun s l) l'.
Proof. induction l as [|o l IH]; intros s l'; cbn; auto. Qed.

(** Two passes are in course together only if one had the lock for its whole lifetime
    before the other got it.
    Missing from the full statement: passes that take longer; there it is false. *)
Theorem C113_exclusive_partial l w1 w2 p1 p2 : let s := lkrun lk_init l in
  w1 <> w2 -> lk_pass s w1 = Some p1 -> lk_pass s w2 = Some p2 ->
  lk_now s < Z.min (lp_at p1) (lp_at p2) + lock_timeout -> False.
Proof.
  intros s N E1 E2 H. pose proof (LkInv_run l lk_init LkInv_init) as [I1 _ I3]. fold s in I1, I3.
  destruct (I1 _ _ E1) as (_ & A1 & _). destruct (I1 _ _ E2) as (_ & A2 & _). destruct (I3 _ _ _ _ N E1 E2); lia.
Qed.
Print Assumptions C113_exclusive_partial.

(** What [w] did when it got the lock last: nothing ended its pass since. *)
Definition own (w : string) (o : lkop) : bool :=
  match o with LTry w' _ | LDone w' | LFail w' | LCrash w' => String.eqb w' w | _ => false end.
Definition got (l1 : list lkop) (w : string) (keys : list string) : Prop := snd (lkstep (lkrun lk_init l1) (LTry w keys)) = LkGot.

(** The lock is refused only if somebody got it less than its lifetime ago: neither a
    crash nor a pass that goes on for ever keeps it. *)
Theorem C113_frees l w keys : snd (lkstep (lkrun lk_init l) (LTry w keys)) = LkTaken ->
  exists l1 w' keys' l2, l = l1 ++ LTry w' keys' :: l2 /\ got l1 w' keys' /\ lk_now (lkrun lk_init l) < lk_now (lkrun lk_init l1) + lock_timeout.
Proof.
  assert (X : forall tok e, lk_lock (lkrun lk_init l) = Some (tok, e) -> exists l1 w' keys' l2, l = l1 ++ LTry w' keys' :: l2 /\ got l1 w' keys' /\ e = lk_now (lkrun lk_init l1) + lock_timeout).
  { induction l as [|o l IH] using rev_ind; [discriminate|]. intros tok e. rewrite lkrun_app. cbn [lkrun]. set (s := lkrun lk_init l) in *.
    assert (Y : lk_lock s = Some (tok, e) -> exists l1 w' keys' l2, l ++ [o] = l1 ++ LTry w' keys' :: l2 /\ got l1 w' keys' /\ e = lk_now (lkrun lk_init l1) + lock_timeout).
    { intros H. destruct (IH _ _ H) as (l1 & w' & keys' & l2 & -> & H1 & H2). exists l1, w', keys', (l2 ++ [o]). rewrite <- app_assoc. auto. }
    assert (Z : forall tk, release s tk = Some (tok, e) -> lk_lock s = Some (tok, e)).
    { intros tk. unfold release, lock_now. destruct (lk_lock s) as [[a b]|]; [|discriminate]. destruct (lk_now s <? b); [|discriminate]. destruct (a =? tk); [discriminate|auto]. }
    destruct o as [dt|w0 k0|w0|w0|w0|w0|k0]; cbn [lkstep].
    - destruct (0 <=? dt); exact Y.
    - destruct (lk_pass s w0) eqn:Ew; [exact Y|]. destruct (lock_now s) eqn:El; [exact Y|]. cbn. intros H. injection H as _ <-.
      exists l, w0, k0, []. split; [reflexivity|]. split; [|reflexivity]. unfold got. fold s. cbn [lkstep]. rewrite Ew, El. reflexivity.
    - destruct (lk_pass s w0) as [[tk [|k rest] a]|]; exact Y.
    - destruct (lk_pass s w0) as [[tk [|k rest] a]|]; try exact Y. cbn. intros H. eauto.
    - destruct (lk_pass s w0) as [p|]; [|exact Y]. cbn. intros H. eauto.
    - exact Y.
    - exact Y. }
  cbn [lkstep]. destruct (lk_pass _ w); [discriminate|]. unfold lock_now. destruct (lk_lock _) as [[tok e]|]; [|discriminate].
  destruct (Z.ltb_spec (lk_now (lkrun lk_init l)) e); [|discriminate]. intros _. destruct (X tok e eq_refl) as (l1 & w' & k' & l2 & H1 & H2 & ->). eauto 8.
Qed.
Print Assumptions C113_frees.

(** A pass that gets the lock and comes to its end has met each of its worker's automatic
    tasks with a live schedule, its own or one it found. *)
Theorem C113_pass_seeds l1 w keys l2 k : got l1 w keys -> forallb (fun o => negb (own w o)) l2 = true ->
  snd (lkstep (lkrun lk_init (l1 ++ LTry w keys :: l2)) (LDone w)) = LkOk -> In k keys ->
  exists l3 l4, l2 = l3 ++ l4 /\ lk_live (lkrun lk_init (l1 ++ LTry w keys :: l3)) k = true.
Proof.
  unfold got. set (s0 := lkrun lk_init l1). intros G N D Hk.
  set (s := fst (lkstep s0 (LTry w keys))).
  assert (E : forall l, lkrun lk_init (l1 ++ LTry w keys :: l) = lkrun s l) by (intros l; rewrite lkrun_app; reflexivity).
  rewrite E in D. setoid_rewrite E.
  assert (P : exists tok a, lk_pass s w = Some (mkLp tok keys a)).
  { subst s. cbn [lkstep] in G |- *. destruct (lk_pass s0 w); [discriminate|]. destruct (lock_now s0); [discriminate|]. cbn. rewrite upd_eq. eauto. }
  clearbody s. clear s0 G E l1. destruct P as (tok & a & P). revert s keys P N D Hk.
  induction l2 as [|o l2 IH]; intros s keys P N D Hk.
  - cbn in D. rewrite P in D. destruct keys; [contradiction|discriminate].
  - cbn [forallb] in N. apply andb_prop in N as [N1 N2]. cbn [lkrun] in D.
    destruct (lk_live (fst (lkstep s o)) k) eqn:L.
    { exists [o], l2. split; [reflexivity|exact L]. }
    assert (S : exists keys', lk_pass (fst (lkstep s o)) w = Some (mkLp tok keys' a) /\ In k keys').
    { destruct o as [dt|w0 k0|w0|w0|w0|w0|k0]; cbn [lkstep own] in *; try (destruct (String.eqb_spec w0 w); [discriminate|]).
      - destruct (0 <=? dt); eauto.
      - destruct (lk_pass s w0); [eauto|]. destruct (lock_now s); [eauto|]. cbn. rewrite upd_neq by congruence. eauto.
      - destruct (string_dec w0 w) as [->|Nw].
        + rewrite P in *. destruct keys as [|k1 rest]; [contradiction|]. cbn in L |- *. rewrite upd_eq. exists rest. split; [reflexivity|].
          destruct Hk as [->|Hk]; [rewrite upd_eq in L; discriminate|exact Hk].
        + destruct (lk_pass s w0) as [[tk [|k1 rest] a1]|]; [eauto| |eauto]. cbn. rewrite upd_neq by congruence. eauto.
      - destruct (lk_pass s w0) as [[tk [|k1 rest] a1]|]; [|eauto|eauto]. cbn. rewrite upd_neq by congruence. eauto.
      - destruct (lk_pass s w0); [|eauto]. cbn. rewrite upd_neq by congruence. eauto.
      - cbn. rewrite upd_neq by congruence. eauto.
      - cbn. eauto. }
    destruct S as (keys' & S1 & S2). destruct (IH _ keys' S1 N2 D S2) as (l3 & l4 & -> & H). exists (o :: l3), l4. split; [reflexivity|exact H].
Qed.
Print Assumptions C113_pass_seeds.

(** "a" crashes with the lock in the middle of its pass; "b" is refused, and gets it when
    the lock has expired. *)
Definition ex_lock : list lkop := [LTry "a" ["k"; "j"]; LNext "a"; LCrash "a"; LTick 9999999]%string.
Example C113_case :
  let l2 := [LNext "b"; LEnds "k"; LNext "b"]%string in
  snd (lkstep (lkrun lk_init ex_lock) (LTry "b" ["k"; "j"]%string)) = LkTaken /\
  got (ex_lock ++ [LTick 1]) "b" ["k"; "j"]%string /\
  snd (lkstep (lkrun lk_init ((ex_lock ++ [LTick 1]) ++ LTry "b" ["k"; "j"]%string :: l2)) (LDone "b")) = LkOk.
Proof. repeat split; vm_compute; reflexivity. Qed.
Example C113_exclusive_case :
  let s := lkrun lk_init [LTry "a" ["k"]; LTick 10000000; LTry "b" ["k"]; LTick 9000000]%string in
  lk_pass s "a" = Some (mkLp 0 ["k"%string] 0) /\ lk_pass s "b" = Some (mkLp 1 ["k"%string] 10000000) /\
  lk_lock (lkrun s [LNext "a"; LDone "a"]%string) = Some (1, 20000000).
Proof. repeat split; vm_compute; reflexivity. Qed.

(** A pass that is slower than the lifetime of the lock does not keep others out. *)
Theorem C113_slow_pass_refuted : exists l w1 w2 p1 p2, w1 <> w2 /\ lk_pass (lkrun lk_init l) w1 = Some p1 /\ lk_pass (lkrun lk_init l) w2 = Some p2.
Proof. exists [LTry "a" ["k"]; LTick 10000000; LTry "b" ["k"]]%string, "a"%string, "b"%string. do 2 eexists. split; [discriminate|]. split; reflexivity. Qed.
Print Assumptions C113_slow_pass_refuted.

(** Whoever finds the lock taken gives the pass up, though the holder may not know its
    tasks.  An old worker and a new one, which alone knows the automatic task "new", make
    their passes at start and every minute after, the new one each time 10 ms after the
    old: the new one's task is never seeded, for as long as one likes. *)
Fixpoint minutes (n : nat) : list lkop :=
  match n with
  | O => []
  | S n => minutes n ++ [LTry "old" ["k"]; LTick 10000; LTry "new" ["k"; "new"]; LTick 10000; LNext "old"; LDone "old"; LTick 59980000]%string
  end.
Fixpoint lk_along (P : lks -> lkop -> Prop) (s : lks) (l : list lkop) : Prop :=
  match l with [] => True | o :: l => P s o /\ lk_along P (fst (lkstep s o)) l end.
Definition shut_out (s : lks) (o : lkop) : Prop :=
  lk_live s "new" = false /\ forall keys, o = LTry "new"%string keys -> snd (lkstep s o) = LkTaken.
Lemma lk_along_app P l : forall s l', lk_along P s l -> lk_along P (lkrun s l) l' -> lk_along P s (l ++ l').
Proof. induction l as [|o l IH]; intros s l' A B; [exact B|]. destruct A as [A1 A2]. split; [exact A1|]. now apply IH. Qed.

Theorem C113_shut_out_refuted n : (0 < n)%nat ->
  lk_along shut_out lk_init (minutes n) /\
    length (filter (fun o => match o with LTry w keys => String.eqb w "new" && existsb (String.eqb "new") keys | _ => false end) (minutes n)) = n /\
    let s := lkrun lk_init (minutes n) in
  lk_now s = 60000000 * Z.of_nat n /\ lk_pass s "new" = None /\ lk_live s "new" = false /\ lk_live s "k" = true.
Proof.
  assert (X : lk_along shut_out lk_init (minutes n) /\
    length (filter (fun o => match o with LTry w keys => String.eqb w "new" && existsb (String.eqb "new") keys | _ => false end) (minutes n)) = n /\
    let s := lkrun lk_init (minutes n) in
    lk_now s = 60000000 * Z.of_nat n /\ lk_pass s "new" = None /\ lk_pass s "old" = None /\ lk_lock s = None /\ lk_live s "new" = false /\ ((0 < n)%nat -> lk_live s "k" = true)).
  { induction n as [|n (A & B & C)]; [cbn; repeat split; auto; lia|]. cbv zeta in C. destruct C as (C1 & C2 & C3 & C4 & C5 & _).
    cbn [minutes]. rewrite filter_app, app_length, B, lkrun_app. set (s := lkrun lk_init (minutes n)) in *.
    set (m := [LTry "old" ["k"]; LTick 10000; LTry "new" ["k"; "new"]; LTick 10000; LNext "old"; LDone "old"; LTick 59980000]%string).
    destruct s as [now fr lock pass live] eqn:Es. cbn [lk_now lk_pass lk_lock lk_live] in C1, C2, C3, C4, C5. subst lock.
    set (s0 := mkLks now fr None pass live).
    set (s1 := (mkLks now (fr + 1) (Some (fr, now + lock_timeout)) (upd pass "old" (Some (mkLp fr ["k"] now))) live)%string).
    set (s2 := mkLks (now + 10000) (fr + 1) (lk_lock s1) (lk_pass s1) live).
    set (s4 := mkLks (now + 10000 + 10000) (fr + 1) (lk_lock s1) (lk_pass s1) live).
    set (s5 := (mkLks (now + 10000 + 10000) (fr + 1) (lk_lock s1) (upd (lk_pass s1) "old" (Some (mkLp fr [] now))) (upd live "k" true))%string).
    set (s6 := (mkLks (now + 10000 + 10000) (fr + 1) None (upd (lk_pass s5) "old" None) (upd live "k" true))%string).
    set (s7 := (mkLks (now + 10000 + 10000 + 59980000) (fr + 1) None (lk_pass s6) (upd live "k" true))%string).
    assert (E1 : lkstep s0 (LTry "old" ["k"]%string) = (s1, LkGot)) by (cbn [lkstep lk_pass s0]; rewrite C3; reflexivity).
    assert (E2 : lkstep s1 (LTick 10000) = (s2, LkOk)) by reflexivity.
    assert (E3 : lkstep s2 (LTry "new" ["k"; "new"]%string) = (s2, LkTaken)).
    { cbn [lkstep]. change (lk_pass s2 "new"%string) with (pass "new"%string). rewrite C2. unfold lock_now. cbn [lk_lock lk_now s1 s2].
      replace (now + 10000 <? now + lock_timeout) with true by (symmetry; unfold lock_timeout; lia). reflexivity. }
    assert (E4 : lkstep s2 (LTick 10000) = (s4, LkOk)) by reflexivity.
    assert (E5 : lkstep s4 (LNext "old") = (s5, LkOk)) by reflexivity.
    assert (E6 : lkstep s5 (LDone "old") = (s6, LkOk)).
    { cbn [lkstep]. change (lk_pass s5 "old"%string) with (Some (mkLp fr [] now)). cbn iota beta. unfold release, lock_now. cbn [lk_lock lk_now s1 s5].
      replace (now + 10000 + 10000 <? now + lock_timeout) with true by (symmetry; unfold lock_timeout; lia). rewrite Z.eqb_refl. reflexivity. }
    assert (E7 : lkstep s6 (LTick 59980000) = (s7, LkOk)) by reflexivity.
    assert (R : lkrun s0 m = s7) by (cbn [lkrun m]; rewrite E1; cbn [fst]; rewrite E2; cbn [fst]; rewrite E3; cbn [fst]; rewrite E4; cbn [fst]; rewrite E5; cbn [fst]; rewrite E6; cbn [fst]; rewrite E7; reflexivity).
    assert (O : forall s o, lk_live s "new" = false -> (forall keys, o <> LTry "new"%string keys) -> shut_out s o) by (intros s_ o H1 H2; split; [exact H1|intros keys ->; now destruct (H2 keys)]).
    split; [|split; [cbn; lia|]].
    + apply lk_along_app; [exact A|]. fold s. rewrite Es. fold s0. cbn [lk_along m].
      rewrite E1; cbn [fst]; rewrite E2; cbn [fst]; rewrite E3; cbn [fst]; rewrite E4; cbn [fst]; rewrite E5; cbn [fst]; rewrite E6; cbn [fst].
      repeat (split; [first [apply O; [exact C5|discriminate] | split; [exact C5|intros keys _; rewrite E3; reflexivity]]|]). exact Logic.I.
    + fold m s0. rewrite R. cbv zeta. split; [cbn [lk_now s7]; rewrite Nat2Z.inj_succ; lia|]. split; [exact C2|]. split; [reflexivity|]. split; [reflexivity|].
      split; [exact C5|]. intros _. reflexivity. }
  intros N. destruct X as (A & B & C1 & C2 & C3 & C4 & C5 & C6). repeat (split; auto).
Qed.
Print Assumptions C113_shut_out_refuted.
