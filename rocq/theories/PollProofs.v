From Verif Require Import Base Model WorkerLoop SpecLoop LoopProofs Poll SpecPoll.

Definition TInv (n : Z) (s : tloop) : Prop :=
  LInv n (tl s) /\ tl_in s <= tl_now s /\ forall l, l_pc (tl s) = PProc l -> Z.of_nat (length l) <= Z.max 0 n.

Lemma completed_len n s : LInv n s -> Z.of_nat (length (completed s)) <= Z.max 0 n.
Proof.
  intros I. pose proof (li_len _ _ I). enough (length (completed s) <= length (l_active s))%nat by lia.
  unfold completed. generalize (l_active s). intros l. induction l as [|i l IH]; cbn; [lia|]. destruct (match find_task _ _ with Some _ => _ | None => _ end); cbn; lia.
Qed.
Lemma still n f s e : moves e = false -> l_pc (fst (lstep n f s e)) = l_pc s.
Proof.
  destruct e; try discriminate; intros _; cbn [lstep].
  - destruct (find_task _ _) as [[? ? []]|]; reflexivity.
  - destruct (find_task _ _) as [t|]; [|reflexivity]. destruct (is_done t); reflexivity.
  - destruct (l_bykey s k) as [i|]; [|reflexivity]. destruct (find_task _ _) as [[? ? []]|]; reflexivity.
  - reflexivity.
Qed.
Lemma refused_same n f s e : moves e = true -> refused (snd (lstep n f s e)) = true -> fst (lstep n f s e) = s.
Proof.
  destruct e; try discriminate; intros _; cbn [lstep].
  - unfold go, ask. repeat match goal with |- context [match ?x with _ => _ end] => destruct x end; cbn; intros; try discriminate; reflexivity.
  - destruct (l_pc s); try reflexivity. destruct (_ && _); [reflexivity|discriminate].
  - destruct (l_pc s); try reflexivity; discriminate.
  - destruct (l_pc s); try reflexivity; discriminate.
  - destruct (l_pc s); try reflexivity; discriminate.
  - destruct (l_pc s); try reflexivity; discriminate.
Qed.

(** Where one move of the loop leads. *)
Inductive leads (n : Z) (f : bool) (s : loop) : pc -> Prop :=
| ld_end x : ended x -> leads n f s x
| ld_top : l_pc s = PTop -> l_stop s = false -> f = true \/ l_work s = true \/ l_active s <> [] -> leads n f s (PProc (completed s))
| ld_proc i l : l_pc s = PProc (i :: l) -> leads n f s (PProc l)
| ld_room : l_pc s = PProc [] -> leads n f s PRoom
| ld_full : l_pc s = PRoom -> n <= Z.of_nat (length (l_active s)) -> leads n f s PTop
| ld_look c : l_pc s = PRoom -> 0 < c <= Z.max 0 n -> leads n f s (PAsk true c)
| ld_reply src c ms : l_pc s = PAsk src c -> Z.of_nat (length ms) <= Z.max 0 n -> leads n f s (PStart src ms)
| ld_next src m ms : l_pc s = PStart src (m :: ms) -> leads n f s (PStart src ms)
| ld_read c : l_pc s = PStart true [] -> leads n f s (PAsk false c)
| ld_after src : l_pc s = PStart src [] -> leads n f s PAfter
| ld_check : l_pc s = PAfter -> leads n f s PCheck
| ld_again : l_pc s = PAfter -> leads n f s PTop
| ld_checked : l_pc s = PCheck -> leads n f s PTop.

Lemma move_leads n f s e : LInv n s -> moves e = true -> e <> LRestart -> refused (snd (lstep n f s e)) = false -> ~ ended (l_pc s) ->
  leads n f s (l_pc (fst (lstep n f s e))).
Proof.
  intros I M Nr R E. destruct e; try discriminate M; try congruence; cbn [lstep] in *.
  - unfold go, ask in *. destruct (l_pc s) as [| [|i l]| | src c | src [|[| |k] ms] | | | | | | | |] eqn:P; cbn in R |- *; try discriminate R; try (exfalso; apply E; exact Logic.I).
    + destruct (_ && _) eqn:C; cbn; [|apply ld_end; exact Logic.I]. apply andb_true_iff in C as [C1 C2]. apply ld_top; [exact P|now apply negb_true_iff in C2|].
      apply orb_true_iff in C1 as [C1|C1]; [apply orb_true_iff in C1; tauto|]. right; right. intros Z. rewrite Z in C1. discriminate.
    + now apply ld_room.
    + destruct (raises s i); cbn; [apply ld_end; exact Logic.I|]. now apply ld_proc with i.
    + destruct (Z.leb_spec (n - Z.of_nat (length (l_active s))) 0) as [L|L]; cbn; [apply ld_full; [exact P|lia]|]. apply ld_look; [exact P|lia].
    + destruct (_ || _) eqn:C; cbn; [now apply ld_after with src|]. apply orb_false_iff in C as [_ C]. destruct src; [|discriminate]. now apply ld_read.
    + apply ld_next with MEmpty. exact P.
    + apply ld_end. exact Logic.I.
    + apply ld_next with (MTask k). exact P.
    + destruct (_ && _); cbn; [now apply ld_check|now apply ld_again].
  - destruct (l_pc s) eqn:P; try discriminate R. destruct (_ && _) eqn:C; [discriminate R|]. cbn. apply ld_reply with count; [exact P|].
    destruct (li_ask _ _ I _ _ P) as [Pc Ec]. assert (Er := li_room _ _ I src (or_introl (ex_intro _ _ P))).
    assert (0 <? count = true) by lia. rewrite H in C. cbn in C. lia.
  - destruct (l_pc s); try discriminate R; cbn; apply ld_end; exact Logic.I.
  - destruct (l_pc s) eqn:P; try discriminate R. cbn. now apply ld_checked.
  - destruct (l_pc s); try discriminate R; cbn; apply ld_end; exact Logic.I.
Qed.

Lemma ended_dec x : {ended x} + {~ ended x}.
Proof. destruct x; cbn; auto. Qed.
Lemma ended_stays n f s e : ended (l_pc s) -> e <> LRestart -> ended (l_pc (fst (lstep n f s e))).
Proof.
  intros E Nr. destruct (moves e) eqn:M; [|now rewrite still].
  destruct e; try discriminate M; try congruence; cbn [lstep]; unfold go, ask; destruct (l_pc s) as [| [|i l]| | src c | src qs | | | | |[|i l] | | |] eqn:P; try (exfalso; exact E); cbn; try (rewrite P; exact Logic.I); try exact Logic.I.
  - destruct (forallb _ _); cbn; [exact Logic.I|rewrite P; exact Logic.I].
  - destruct (raises s i); cbn; exact Logic.I.
  - destruct (forallb _ _); cbn; [exact Logic.I|rewrite P; exact Logic.I].
Qed.

Lemma TInv_init n : TInv n tl_init.
Proof. split; [apply LInv_init|]. split; [cbn; lia|discriminate]. Qed.
Lemma tstep_tl n f s e : tl (fst (tstep n f s (TDo e))) = fst (lstep n f (tl s) e).
Proof. cbn [tstep]. now destruct (lstep n f (tl s) e). Qed.
Lemma tstep_now n f s e : tl_now (fst (tstep n f s (TDo e))) = tl_now s.
Proof. cbn [tstep]. now destruct (lstep n f (tl s) e). Qed.
Lemma tstep_in n f s e : tl_in (fst (tstep n f s (TDo e))) = if moves e && negb (refused (snd (lstep n f (tl s) e))) then tl_now s else tl_in s.
Proof. cbn [tstep]. now destruct (lstep n f (tl s) e). Qed.
Lemma tstep_out n f s e : snd (tstep n f s (TDo e)) = snd (lstep n f (tl s) e).
Proof. cbn [tstep]. now destruct (lstep n f (tl s) e). Qed.

(** Does the loop go on to somewhere else? *)
Definition onward (n : Z) (f : bool) (s : tloop) (e : levent) : bool := moves e && negb (refused (snd (lstep n f (tl s) e))).
Lemma stays n f s e : onward n f s e = false -> l_pc (fst (lstep n f (tl s) e)) = l_pc (tl s).
Proof.
  unfold onward. destruct (moves e) eqn:M; cbn [andb]; [|intros _; now apply still]. intros R. apply negb_false_iff in R. now rewrite refused_same.
Qed.

Lemma restart_pc n f s : refused (snd (lstep n f s LRestart)) = false -> l_pc (fst (lstep n f s LRestart)) = PTop.
Proof. cbn [lstep]. destruct (l_pc s); cbn; intros; try discriminate; reflexivity. Qed.

Lemma ended_moves n f s e l : ended (l_pc s) -> l_pc (fst (lstep n f s e)) = PProc l -> False.
Proof.
  intros E P. destruct (moves e) eqn:M; [|rewrite still in P by exact M; rewrite P in E; exact E].
  destruct (refused (snd (lstep n f s e))) eqn:R; [rewrite refused_same in P by auto; rewrite P in E; exact E|].
  assert (D : e = LRestart \/ e <> LRestart) by (destruct e; auto; right; discriminate). destruct D as [->|D]; [rewrite restart_pc in P by exact R; discriminate|].
  apply (ended_stays n f s e E) in D. rewrite P in D. exact D.
Qed.

Lemma TInv_step n f s e : TInv n s -> TInv n (fst (tstep n f s e)).
Proof.
  intros (I & T & Q). destruct e as [dt|e].
  - cbn [tstep]. destruct (Z.leb_spec 0 dt); cbn [fst]; [|now split]. split; [exact I|]. split; [cbn; lia|exact Q].
  - unfold TInv. rewrite tstep_tl, tstep_now, tstep_in. split; [now apply LInv_step|]. split; [destruct (_ && _); lia|].
    intros l P. destruct (onward n f s e) eqn:O; [|rewrite stays in P by exact O; now apply Q].
    apply andb_true_iff in O as [M R]. apply negb_true_iff in R.
    destruct (ended_dec (l_pc (tl s))) as [E|E]; [exfalso; eapply ended_moves; eauto|].
    assert (D : e = LRestart \/ e <> LRestart) by (destruct e; auto; right; discriminate). destruct D as [->|D]; [rewrite restart_pc in P by exact R; discriminate|].
    pose proof (move_leads n f (tl s) e I M D R E) as L. rewrite P in L. inversion L; subst.
    + destruct H.
    + now apply completed_len.
    + specialize (Q _ H0). cbn [length] in Q. lia.
Qed.
Lemma TInv_run n f l : forall s, TInv n s -> TInv n (trun n f s l).
Proof. induction l as [|e l IH]; intros s I; [exact I|]. apply IH. now apply TInv_step. Qed.
Lemma trun_app n f l l' : forall s, trun n f s (l ++ l') = trun n f (trun n f s l) l'.
Proof. induction l as [|e l IH]; intros s; [reflexivity|]. apply IH. Qed.
Lemma paced_app p n f l l' : forall s, paced p n f s (l ++ l') <-> paced p n f s l /\ paced p n f (trun n f s l) l'.
Proof. induction l as [|e l IH]; intros s; cbn; [tauto|]. rewrite IH. tauto. Qed.
Lemma now_run n f l : forall s, tl_now (trun n f s l) = tl_now s + lasts l.
Proof.
  induction l as [|e l IH]; intros s; cbn [trun lasts]; [lia|]. rewrite IH. destruct e as [dt|e].
  - cbn [tstep]. destruct (Z.leb_spec 0 dt); cbn; lia.
  - rewrite tstep_now. lia.
Qed.
Lemma lasts_app l l' : lasts (l ++ l') = lasts l + lasts l'.
Proof. induction l as [|[dt|e] l IH]; cbn; lia. Qed.

Section Lap.
Variables (p : pace) (n : Z) (f : bool).
Hypothesis Hs : sane_pace p.
Hypothesis Hc : 1000 <= pa_check p.
Let B := pa_busy p. Let A := pa_net p. Let N := Z.max 0 n. Let K := pa_check p + A. Let I := pa_check p + B.

Lemma block_bound : allow p (PAsk false 0) = Some (block_ms p * 1000 + pa_net p) /\ block_ms p * 1000 <= pa_check p.
Proof.
  unfold allow, block_ms. pose proof (Z.div_le_lower_bound (pa_check p) 1000 1 ltac:(lia) ltac:(lia)). pose proof (Z.mul_div_le (pa_check p) 1000 ltac:(lia)).
  assert (pa_check p / 1000 =? 0 = false) by lia. rewrite H1. split; [reflexivity|lia].
Qed.
Lemma allow_bound x : ~ ended x -> exists a, allow p x = Some a /\
  a <= match x with PTop => I | PProc _ | PRoom | PStart _ _ | PAfter => B | PAsk false _ => K | _ => A end.
Proof.
  intros E. destruct block_bound as [E1 E2]. unfold K, I, B, A in *. destruct x as [| | |[]| | | | | | | | |]; cbn [allow] in *; try (exfalso; apply E; exact Logic.I); try (eexists; split; [reflexivity|lia]).
  rewrite E1. eexists; split; [reflexivity|]. lia.
Qed.

(** Time left until the head of the loop. *)
Definition to_top (x : pc) : Z :=
  match x with
  | PTop => I
  | PCheck => A + I
  | PAfter => B + A + I
  | PStart false ms => (Z.of_nat (length ms) + 1) * B + B + A + I
  | PAsk false _ => K + (N + 1) * B + B + A + I
  | PStart true ms => (Z.of_nat (length ms) + 1) * B + K + (N + 1) * B + B + A + I
  | PAsk true _ => A + (N + 1) * B + K + (N + 1) * B + B + A + I
  | PRoom => B + A + (N + 1) * B + K + (N + 1) * B + B + A + I
  | PProc l => (Z.of_nat (length l) + 1) * B + B + A + (N + 1) * B + K + (N + 1) * B + B + A + I
  | _ => 0
  end.
(** Time left until the worker looks for abandoned messages. *)
Definition to_look (x : pc) : Z :=
  match x with
  | PRoom => B
  | PProc l => (Z.of_nat (length l) + 1) * B + B
  | PTop => I + (N + 2) * B
  | PCheck => A + I + (N + 2) * B
  | PAfter => B + A + I + (N + 2) * B
  | PStart false ms => (Z.of_nat (length ms) + 1) * B + B + A + I + (N + 2) * B
  | PAsk false _ => K + (N + 1) * B + B + A + I + (N + 2) * B
  | PStart true ms => (Z.of_nat (length ms) + 1) * B + K + (N + 1) * B + B + A + I + (N + 2) * B
  | PAsk true _ => A + (N + 1) * B + K + (N + 1) * B + B + A + I + (N + 2) * B
  | _ => 0
  end.
Lemma to_top_le x : (forall l, x = PProc l -> Z.of_nat (length l) <= N) -> (forall b ms, x = PStart b ms -> Z.of_nat (length ms) <= N) -> to_top x <= lap p n.
Proof.
  destruct Hs as (H1 & H2 & H3). unfold to_top, lap, K, I, A, B. fold N. assert (0 <= N) by (unfold N; lia). intros P1 P2.
  destruct x as [|l| |[]|[] ms| | | | | | | |]; try specialize (P1 _ eq_refl); try specialize (P2 _ _ eq_refl); nia.
Qed.
Lemma to_look_le x : (forall l, x = PProc l -> Z.of_nat (length l) <= N) -> (forall b ms, x = PStart b ms -> Z.of_nat (length ms) <= N) -> to_look x <= lap p n.
Proof.
  destruct Hs as (H1 & H2 & H3). unfold to_look, lap, K, I, A, B. fold N. assert (0 <= N) by (unfold N; lia). intros P1 P2.
  destruct x as [|l| |[]|[] ms| | | | | | | |]; try specialize (P1 _ eq_refl); try specialize (P2 _ _ eq_refl); nia.
Qed.

Lemma top_down s x a : l_stop s = true -> leads n f s x -> allow p (l_pc s) = Some a -> ~ ended (l_pc s) -> ended x \/ to_top x + a <= to_top (l_pc s).
Proof.
  intros St L Ea E. destruct (allow_bound _ E) as (a' & Ea' & La). rewrite Ea in Ea'. injection Ea' as <-.
  destruct Hs as (H1 & H2 & H3). assert (HN : 0 <= N) by (unfold N; lia). assert (0 <= N * B) by (unfold B; nia).
  inversion L; subst; [now left|congruence|..]; right;
    try match goal with Y : l_pc s = _ |- _ => rewrite Y in *; cbn [to_top length] in *; unfold K, I in La |- *; fold B in H2; fold A in H3 end;
    rewrite ?Nat2Z.inj_succ in *; try nia.
  - destruct src; match goal with Y : _ <= Z.max 0 n |- _ => fold N in Y end; nia.
  - destruct src; nia.
  - destruct src; nia.
Qed.

Lemma look_down s x a : LInv n s -> (forall c, x <> PAsk true c) -> ~ (l_pc s = PRoom /\ n <= Z.of_nat (length (l_active s))) ->
  leads n f s x -> allow p (l_pc s) = Some a -> ~ ended (l_pc s) -> ended x \/ to_look x + a <= to_look (l_pc s).
Proof.
  intros Li Nl Nf L Ea E. destruct (allow_bound _ E) as (a' & Ea' & La). rewrite Ea in Ea'. injection Ea' as <-.
  destruct Hs as (H1 & H2 & H3). assert (HN : 0 <= N) by (unfold N; lia). assert (0 <= N * B) by (unfold B; nia).
  pose proof (completed_len _ _ Li) as Cl. fold N in Cl.
  inversion L; subst; [now left|..]; right;
    try match goal with Y : l_pc s = _ |- _ => rewrite Y in *; cbn [to_look length] in *; unfold K, I in La |- *; fold B in H2; fold A in H3 end;
    rewrite ?Nat2Z.inj_succ in *; try nia; try (exfalso; now apply Nf); try (exfalso; eapply Nl; reflexivity).
  - destruct src; match goal with Y : _ <= Z.max 0 n |- _ => fold N in Y end; nia.
  - destruct src; nia.
  - destruct src; nia.
Qed.
End Lap.

Lemma allow_le_top p n x a : sane_pace p -> 1000 <= pa_check p -> ~ ended x -> allow p x = Some a -> a <= to_top p n x.
Proof.
  intros S C E Ea. destruct (allow_bound p n C _ E) as (a' & Ea' & La). rewrite Ea in Ea'. injection Ea' as <-.
  destruct S as (H1 & H2 & H3). assert (0 <= Z.max 0 n * pa_busy p) by nia.
  destruct x as [|l| |[]|[] ms| | | | | | | |]; cbn [to_top] in *; try (exfalso; apply E; exact Logic.I); nia.
Qed.
Lemma allow_le_look p n x a : sane_pace p -> 1000 <= pa_check p -> ~ ended x -> allow p x = Some a -> a <= to_look p n x.
Proof.
  intros S C E Ea. destruct (allow_bound p n C _ E) as (a' & Ea' & La). rewrite Ea in Ea'. injection Ea' as <-.
  destruct S as (H1 & H2 & H3). assert (0 <= Z.max 0 n * pa_busy p) by nia.
  destruct x as [|l| |[]|[] ms| | | | | | | |]; cbn [to_look] in *; try (exfalso; apply E; exact Logic.I); nia.
Qed.
Lemma stop_stays n f s e : e <> LRestart -> l_stop s = true -> l_stop (fst (lstep n f s e)) = true.
Proof.
  intros Nr St. destruct e; try congruence; cbn [lstep]; unfold go, ask, pop_task, start_task, cancel_all;
    repeat match goal with |- context [match ?x with _ => _ end] => destruct x end; cbn; auto.
Qed.
Lemma in_pace_init p : sane_pace p -> in_pace p tl_init.
Proof. intros (H1 & H2 & H3). cbn. lia. Qed.
Lemma paced_end p n f l : forall s, in_pace p s -> paced p n f s l -> in_pace p (trun n f s l).
Proof. induction l as [|e l IH]; intros s H P; [exact H|]. destruct P. now apply IH. Qed.

Lemma start_bound n s : TInv n s -> forall b ms, l_pc (tl s) = PStart b ms -> Z.of_nat (length ms) <= Z.max 0 n.
Proof.
  intros (I & _ & _) b ms P. pose proof (li_some _ _ I _ _ P). assert (Er := li_room _ _ I b (or_intror (ex_intro _ _ P))). lia.
Qed.

Lemma stop_run p n f t0 l : sane_pace p -> 1000 <= pa_check p -> forall s, TInv n s -> in_pace p s -> paced p n f s l -> l_stop (tl s) = true ->
  (forall e, In e l -> e <> TDo LRestart) -> ended (l_pc (tl s)) \/ tl_in s + to_top p n (l_pc (tl s)) <= t0 ->
  let s' := trun n f s l in ended (l_pc (tl s')) \/ tl_now s' <= t0.
Proof.
  intros S C. induction l as [|e l IH]; intros s TI IP P St Nr J.
  - cbn. destruct J as [J|J]; [now left|]. destruct (ended_dec (l_pc (tl s))) as [E|E]; [now left|]. right.
    destruct (allow_bound p n C _ E) as (a & Ea & _). unfold in_pace in IP. rewrite Ea in IP. pose proof (allow_le_top p n _ _ S C E Ea). lia.
  - destruct P as [P1 P2]. cbn [trun]. apply IH; auto.
    + now apply TInv_step.
    + destruct e as [dt|e]; [cbn [tstep]; destruct (0 <=? dt); exact St|]. rewrite tstep_tl. apply stop_stays; [|exact St]. intros ->. now apply (Nr (TDo LRestart)); [left|].
    + intros e' H. apply Nr. now right.
    + destruct e as [dt|e]; [cbn [tstep]; destruct (0 <=? dt); exact J|].
      assert (Ne : e <> LRestart) by (intros ->; now apply (Nr (TDo LRestart)); [left|]).
      destruct (ended_dec (l_pc (tl s))) as [E|E]; [left; rewrite tstep_tl; now apply ended_stays|]. destruct J as [J|J]; [tauto|].
      rewrite tstep_tl, tstep_in. fold (onward n f s e). destruct (onward n f s e) eqn:O; [|right; rewrite stays by exact O; exact J].
      apply andb_true_iff in O as [M R]. apply negb_true_iff in R. destruct (allow_bound p n C _ E) as (a & Ea & _).
      destruct (top_down p n f S C (tl s) _ a St (move_leads n f (tl s) e (proj1 TI) M Ne R E) Ea E) as [D|D]; [now left|right].
      unfold in_pace in IP. rewrite Ea in IP. lia.
Qed.

(** Something of interest happens on the way. *)
Definition seen (n : Z) (f : bool) (s : tloop) (l : list tevent) : Prop :=
  exists la lb, l = la ++ lb /\
    (ended (l_pc (tl (trun n f s la))) \/ full n (trun n f s la) \/ exists e lc, lb = e :: lc /\ looks (snd (tstep n f (trun n f s la) e))).
Lemma seen_cons n f s e l : seen n f (fst (tstep n f s e)) l -> seen n f s (e :: l).
Proof. intros (la & lb & -> & H). exists (e :: la), lb. split; [reflexivity|exact H]. Qed.
Lemma look_out n f s e c : l_pc s <> PAsk true c -> l_pc (fst (lstep n f s e)) = PAsk true c -> looks (snd (lstep n f s e)).
Proof.
  intros N P. destruct (moves e) eqn:M; [|rewrite still in P by exact M; contradiction].
  destruct e; try discriminate M; cbn [lstep] in *; unfold go, ask in *;
    repeat match goal with |- context [match ?x with _ => _ end] => destruct x eqn:?; cbn in * end; try congruence; try discriminate; try (eexists; reflexivity).
Qed.
Lemma full_dec n s : {full n s} + {~ full n s}.
Proof.
  unfold full. destruct (l_pc (tl s)); try (right; intros [H _]; discriminate). destruct (Z_le_dec n (Z.of_nat (length (l_active (tl s))))); [left; auto|right; intros [_ H]; auto].
Qed.

Lemma look_run p n f t0 l : sane_pace p -> 1000 <= pa_check p -> forall s, TInv n s -> in_pace p s -> paced p n f s l ->
  tl_in s + to_look p n (l_pc (tl s)) <= t0 -> seen n f s l \/ tl_now (trun n f s l) <= t0.
Proof.
  intros S C. induction l as [|e l IH]; intros s TI IP P J.
  - destruct (ended_dec (l_pc (tl s))) as [E|E]; [left; exists [], []; split; [reflexivity|now left]|]. right. cbn.
    destruct (allow_bound p n C _ E) as (a & Ea & _). unfold in_pace in IP. rewrite Ea in IP. pose proof (allow_le_look p n _ _ S C E Ea). lia.
  - destruct P as [P1 P2]. destruct (ended_dec (l_pc (tl s))) as [E|E]; [left; exists [], (e :: l); split; [reflexivity|now left]|].
    destruct (full_dec n s) as [F|F]; [left; exists [], (e :: l); split; [reflexivity|right; now left]|].
    assert (G : seen n f s (e :: l) \/ tl_in (fst (tstep n f s e)) + to_look p n (l_pc (tl (fst (tstep n f s e)))) <= t0).
    { destruct e as [dt|e]; [right; cbn [tstep]; destruct (0 <=? dt); exact J|].
      rewrite tstep_tl, tstep_in. fold (onward n f s e). destruct (onward n f s e) eqn:O; [|right; rewrite stays by exact O; exact J].
      apply andb_true_iff in O as [M R]. apply negb_true_iff in R.
      assert (Ne : e <> LRestart). { intros ->. apply E. cbn [lstep] in R. destruct (l_pc (tl s)); try discriminate R; exact Logic.I. }
      destruct (allow_bound p n C _ E) as (a & Ea & _). pose proof (move_leads n f (tl s) e (proj1 TI) M Ne R E) as L.
      assert (X : (exists c, l_pc (fst (lstep n f (tl s) e)) = PAsk true c) \/ (forall c, l_pc (fst (lstep n f (tl s) e)) <> PAsk true c)).
      { destruct (l_pc (fst (lstep n f (tl s) e))) as [| | |[] c| | | | | | | | |]; try (right; discriminate). left. eauto. }
      destruct X as [[c X]|X].
      - left. exists [], (TDo e :: l). split; [reflexivity|]. right; right. exists (TDo e), l. split; [reflexivity|]. cbn [trun]. rewrite tstep_out.
        apply look_out with c; [|exact X]. intros Y. rewrite X in L. inversion L; subst; congruence || (destruct H).
      - destruct (look_down p n f S C (tl s) _ a (proj1 TI) X F L Ea E) as [D|D].
        + left. apply seen_cons. exists [], l. split; [reflexivity|]. left. cbn [trun]. now rewrite tstep_tl.
        + right. unfold in_pace in IP. rewrite Ea in IP. lia. }
    destruct G as [G|G]; [now left|]. destruct (IH _ (TInv_step n f s e TI) P1 P2 G) as [H|H]; [left; now apply seen_cons|right; exact H].
Qed.

(** An empty docket: time left until the loop ends. *)
Definition to_end (p : pace) (work : bool) (x : pc) : Z :=
  let I := pa_check p + pa_busy p in let B := pa_busy p in let A := pa_net p in let K := pa_check p + pa_net p in
  match x with
  | PTop => if work then I + 5 * B + 2 * A + K + I else I
  | PProc _ => 5 * B + 2 * A + K + I
  | PRoom => 4 * B + 2 * A + K + I
  | PAsk true _ => 3 * B + 2 * A + K + I
  | PStart true _ => 3 * B + A + K + I
  | PAsk false _ => 2 * B + A + K + I
  | PStart false _ => 2 * B + A + I
  | PAfter => B + A + I
  | PCheck => A + I
  | _ => 0
  end.
Definition idle (s : loop) : Prop :=
  l_active s = [] /\ match l_pc s with PProc l => l = [] | PStart _ ms => ms = [] | _ => True end.

Arguments to_end : simpl never.
Ltac fin := unfold to_end in *; cbn [l_pc l_work set_pc fst] in *; cbv zeta in *; lia.
Lemma idle_step n s e : 0 < n -> nothing_there (TDo e) -> idle s -> ~ ended (l_pc s) -> LInv n s -> moves e = true -> refused (snd (lstep n false s e)) = false ->
  let s' := fst (lstep n false s e) in
  ended (l_pc s') \/ (idle s' /\ forall p a, sane_pace p -> 1000 <= pa_check p -> allow p (l_pc s) = Some a -> to_end p (l_work s') (l_pc s') + a <= to_end p (l_work s) (l_pc s)).
Proof.
  intros Hn Nt (Ea & Ip) E Li M R.
  assert (Q : forall x, ~ ended x -> forall p a, sane_pace p -> 1000 <= pa_check p -> allow p x = Some a ->
    a <= match x with PTop => pa_check p + pa_busy p | PProc _ | PRoom | PStart _ _ | PAfter => pa_busy p | PAsk false _ => pa_check p + pa_net p | _ => pa_net p end).
  { intros x Ex p a S C X. destruct (allow_bound p 0 C _ Ex) as (a' & Ea' & La). rewrite X in Ea'. injection Ea' as <-. exact La. }
  specialize (Q _ E).
  destruct e; try discriminate M; try contradiction; cbn [lstep] in *.
  - unfold go, ask in *. destruct (l_pc s) as [| l | | src c | src ms | | | | | | | |] eqn:P; cbn in R |- *; try discriminate R; try (exfalso; apply E; exact Logic.I).
    + rewrite Ea. cbn. destruct (l_work s) eqn:W; cbn; [|left; exact Logic.I]. destruct (l_stop s); cbn; [left; exact Logic.I|right].
      split; [split; cbn; [exact Ea|unfold completed; now rewrite Ea]|]. intros p a S C X. specialize (Q p a S C X). fin.
    + subst l. right. split; [split; cbn; auto|]. intros p a S C X. specialize (Q p a S C X). fin.
    + rewrite Ea. cbn [length]. destruct (Z.leb_spec (n - Z.of_nat 0) 0) as [L|L]; [lia|]. cbn. right. split; [split; cbn; auto|]. intros p a S C X. specialize (Q p a S C X). fin.
    + subst ms. cbn. pose proof (li_room _ _ Li src (or_intror (ex_intro _ _ P))) as Av. rewrite Ea in Av. cbn [length] in Av.
      destruct (Z.leb_spec (l_avail s) 0) as [L|L]; [lia|]. cbn [orb]. right. destruct src; cbn; (split; [split; cbn; auto|]); intros p a S C X; specialize (Q p a S C X); fin.
    + rewrite Ea. cbn. right. split; [split; cbn; auto|]. intros p a S C X. specialize (Q p a S C X). fin.
  - cbn in Nt. subst ms. destruct (l_pc s) eqn:P; try discriminate R. destruct (_ && _); [discriminate R|]. cbn. right. split; [split; cbn; auto|].
    intros p a S C X. specialize (Q p a S C X). destruct src; fin.
  - destruct Nt as [-> ->]. destruct (l_pc s) eqn:P; try discriminate R. cbn. right. split; [split; cbn; auto|].
    intros p a S C X. specialize (Q p a S C X). fin.
Qed.

Lemma idle_run p n t0 l : 0 < n -> sane_pace p -> 1000 <= pa_check p -> Forall nothing_there l ->
  forall s, TInv n s -> in_pace p s -> paced p n false s l ->
  ended (l_pc (tl s)) \/ (idle (tl s) /\ tl_in s + to_end p (l_work (tl s)) (l_pc (tl s)) <= t0) ->
  let s' := trun n false s l in ended (l_pc (tl s')) \/ tl_now s' <= t0.
Proof.
  intros Hn S C F. induction F as [|e l Ne F IH]; intros s TI IP P J.
  - cbn. destruct (ended_dec (l_pc (tl s))) as [E|E]; [now left|]. destruct J as [J|[_ J]]; [tauto|]. right.
    destruct (allow_bound p n C _ E) as (a & Ea & La). unfold in_pace in IP. rewrite Ea in IP.
    enough (a <= to_end p (l_work (tl s)) (l_pc (tl s))) by lia. destruct S as (H1 & H2 & H3).
    destruct (l_pc (tl s)) as [| | |[]|[]| | | | | | | |]; unfold to_end in *; cbv zeta in *; try (exfalso; apply E; exact Logic.I); try lia. destruct (l_work (tl s)); lia.
  - destruct P as [P1 P2]. cbn [trun]. apply IH; auto; [now apply TInv_step|].
    destruct e as [dt|e]; [cbn [tstep]; destruct (0 <=? dt); exact J|]. rewrite tstep_tl, tstep_in. fold (onward n false s e).
    destruct (ended_dec (l_pc (tl s))) as [E|E]; [left; apply ended_stays; [exact E|intros ->; exact Ne]|]. destruct J as [J|[J1 J2]]; [tauto|].
    assert (M : moves e = true) by (destruct e; try contradiction; reflexivity).
    destruct (onward n false s e) eqn:O.
    + apply andb_true_iff in O as [_ R]. apply negb_true_iff in R. destruct (allow_bound p n C _ E) as (a & Ea & _).
      destruct (idle_step n (tl s) e Hn Ne J1 E (proj1 TI) M R) as [D|[D1 D2]]; [now left|right]. split; [exact D1|].
      specialize (D2 p a S C Ea). unfold in_pace in IP. rewrite Ea in IP. lia.
    + right. unfold onward in O. rewrite M in O. cbn [andb] in O. apply negb_false_iff in O. rewrite refused_same by auto. auto.
Qed.
