(** Proofs about the worker loop. *)
From Verif Require Import Base Model WorkerLoop SpecLoop.

Lemma lrun_app n f l : forall s l', lrun n f s (l ++ l') = lrun n f (lrun n f s l) l'.
Proof. induction l as [|e l IH]; intros s l'; [reflexivity|]. cbn. apply IH. Qed.

Lemma find_task_spec l i t : find_task l i = Some t -> In t l /\ t_id t = i.
Proof. intros H. apply find_some in H as [H E]. split; [exact H|lia]. Qed.
Lemma find_task_In l t : NoDup (map t_id l) -> In t l -> find_task l (t_id t) = Some t.
Proof.
  unfold find_task. induction l as [|a l IH]; intros N H; [contradiction|]. cbn in N. inversion N; subst. cbn. destruct H as [->|H]; [now rewrite Z.eqb_refl|].
  destruct (Z.eqb_spec (t_id a) (t_id t)) as [E|E]; [|now apply IH]. exfalso. apply H2. rewrite E. now apply in_map.
Qed.
Lemma set_st_ids l i x : map t_id (set_st l i x) = map t_id l.
Proof. unfold set_st. rewrite map_map. apply map_ext. intros t. destruct (Z.eqb_spec (t_id t) i); cbn; auto. Qed.
Lemma set_st_In l i x t : In t (set_st l i x) -> (In t l /\ t_id t <> i) \/ (exists u, In u l /\ t_id u = i /\ t = mkTask i (t_key u) x).
Proof.
  unfold set_st. rewrite in_map_iff. intros (u & E & H). destruct (Z.eqb_spec (t_id u) i) as [D|D]; subst t; [right; eauto|left; auto].
Qed.

(** The invariant: a task that has not ended is in active_tasks. *)
Record LInv (n : Z) (s : loop) : Prop := mkLInv {
  li_ids : NoDup (map t_id (l_tasks s));
  li_next : forall t, In t (l_tasks s) -> t_id t < l_next s;
  li_act : NoDup (l_active s);
  li_mem : forall i, In i (l_active s) -> exists t, In t (l_tasks s) /\ t_id t = i;
  li_fly : forall t, In t (l_tasks s) -> is_done t = false -> In (t_id t) (l_active s);
  li_len : Z.of_nat (length (l_active s)) <= Z.max 0 n;
  li_todo : forall l, (l_pc s = PProc l \/ l_pc s = PDrainProc l) -> forall i, In i l -> forall t, In t (l_tasks s) -> t_id t = i -> is_done t = true;
  li_exit : (l_pc s = PExit \/ exists l, l_pc s = PDrainProc l) -> forall t, In t (l_tasks s) -> is_done t = true;
  li_ask : forall b c, l_pc s = PAsk b c -> 0 < c /\ c = l_avail s;
  li_room : forall b, (exists c, l_pc s = PAsk b c) \/ (exists ms, l_pc s = PStart b ms) -> l_avail s = n - Z.of_nat (length (l_active s));
  li_some : forall b ms, l_pc s = PStart b ms -> Z.of_nat (length ms) <= l_avail s }.

Lemma inflight_le n s : LInv n s -> (length (in_flight s) <= length (l_active s))%nat.
Proof.
  intros I. unfold in_flight. rewrite <- (map_length t_id). apply NoDup_incl_length.
  - pose proof (li_ids _ _ I) as N. induction (l_tasks s) as [|t l IH]; cbn; [constructor|]. cbn in N. inversion N; subst. destruct (negb (is_done t)); cbn; [|auto].
    constructor; [|auto]. intros H. apply H1. apply in_map_iff in H as (u & E & H). apply filter_In in H as [H _]. apply in_map_iff. eauto.
  - intros i H. apply in_map_iff in H as (t & <- & H). apply filter_In in H as [H D]. apply (li_fly _ _ I); [exact H|]. destruct (is_done t); [discriminate|reflexivity].
Qed.

Lemma LInv_init n : LInv n init_loop.
Proof. constructor; cbn; try (intros; contradiction || discriminate); try constructor; try lia; intros; destruct H as [[? H]|[? H]]; discriminate. Qed.

(** A change of the program counter to a place without claims. *)
Definition plain (p : pc) : Prop := match p with PTop | PRoom | PAfter | PCheck | PBeat | PDrain | PLast | PGone => True | _ => False end.
Lemma LInv_pc n s p : LInv n s -> plain p -> LInv n (set_pc s p).
Proof.
  intros [A1 A2 A3 A4 A5 A6 A7 A8 A9 A10 A11] P. constructor; cbn; auto.
  - intros l [->| ->]; contradiction.
  - intros [->|[l ->]]; contradiction.
  - intros b c ->. contradiction.
  - intros b [[c ->]|[ms ->]]; contradiction.
  - intros b ms ->. contradiction.
Qed.

Lemma completed_done n s i : LInv n s -> In i (completed s) -> forall t, In t (l_tasks s) -> t_id t = i -> is_done t = true.
Proof.
  intros I H t Ht E. unfold completed in H. apply filter_In in H as [_ H]. subst i. rewrite (find_task_In _ _ (li_ids _ _ I) Ht) in H. exact H.
Qed.

(** Only the states of tasks change, and none that has ended. *)
Lemma LInv_tasks n s i x : LInv n s -> (forall t, In t (l_tasks s) -> t_id t = i -> is_done t = false) -> LInv n (set_tasks s (set_st (l_tasks s) i x)).
Proof.
  intros [A1 A2 A3 A4 A5 A6 A7 A8 A9 A10 A11] N. constructor; cbn; auto.
  - now rewrite set_st_ids.
  - intros t H. apply set_st_In in H as [[H _]|(u & H & E & ->)]; [auto|]. cbn. rewrite <- E. auto.
  - intros j H. destruct (A4 j H) as (t & Ht & E). assert (Hj : In j (map t_id (set_st (l_tasks s) i x))) by (rewrite set_st_ids; apply in_map_iff; eauto).
    apply in_map_iff in Hj as (u & U1 & U2). eauto.
  - intros t H D. apply set_st_In in H as [[H _]|(u & H & E & ->)]; [auto|]. cbn. rewrite <- E. apply A5; auto.
  - intros l Hl j Hj t H E. apply set_st_In in H as [[H _]|(u & H & E' & ->)]; [eauto|]. cbn in E. subst j.
    pose proof (A7 l Hl i Hj u H E'). rewrite (N u H E') in H0. discriminate.
  - intros P t H. apply set_st_In in H as [[H _]|(u & H & E & ->)]; [auto|]. pose proof (A8 P u H). rewrite (N u H E) in H0. discriminate.
Qed.

(** gather is cancelled: the tasks end, no one else is touched. *)
Lemma cancel_all_In s t : In t (l_tasks (cancel_all s)) -> exists u, In u (l_tasks s) /\ t_id t = t_id u /\ t_key t = t_key u /\
  (is_done u = true -> t = u) /\ (In (t_id u) (l_active s) -> is_done t = true) /\ (~ In (t_id u) (l_active s) -> t = u).
Proof.
  unfold cancel_all. cbn [l_tasks set_tasks]. rewrite in_map_iff. intros (u & E & H). exists u. split; [exact H|]. destruct (existsb _ _) eqn:X.
  - assert (In (t_id u) (l_active s)) by (apply existsb_exists in X as (j & J & Ej); replace (t_id u) with j by lia; exact J).
    subst t. cbn. repeat split; auto; try contradiction. + unfold is_done. destruct u as [a b []]; cbn; intros; congruence. + unfold is_done. cbn. destruct (t_st u); reflexivity.
  - assert (~ In (t_id u) (l_active s)) by (intros Q; assert (existsb (Z.eqb (t_id u)) (l_active s) = true) by (apply existsb_exists; exists (t_id u); split; [exact Q|apply Z.eqb_refl]); congruence).
    subst t. repeat split; auto.
Qed.
Lemma cancel_all_ids s : map t_id (l_tasks (cancel_all s)) = map t_id (l_tasks s).
Proof. unfold cancel_all. cbn [l_tasks set_tasks]. rewrite map_map. apply map_ext. intros t. destruct (existsb _ _); reflexivity. Qed.
Lemma LInv_cancel_all n s : LInv n s -> LInv n (set_pc (cancel_all s) PLast).
Proof.
  intros [A1 A2 A3 A4 A5 A6 A7 A8 A9 A10 A11]. constructor; cbn [l_pc set_pc]; try (intros; discriminate); auto.
  - cbn [l_tasks set_pc]. now rewrite cancel_all_ids.
  - cbn [l_tasks set_pc l_next]. intros t H. apply cancel_all_In in H as (u & H & E & _). rewrite E. auto.
  - cbn [l_tasks set_pc l_active]. intros j H. destruct (A4 j H) as (t & Ht & E). assert (Hj : In j (map t_id (l_tasks (cancel_all s)))) by (rewrite cancel_all_ids; apply in_map_iff; eauto).
    apply in_map_iff in Hj as (u & U1 & U2). eauto.
  - cbn [l_tasks set_pc l_active]. intros t H D. apply cancel_all_In in H as (u & H & E & _ & F & G & K). rewrite E. apply A5; [exact H|]. destruct (is_done u) eqn:Du; [|reflexivity].
    rewrite (F eq_refl) in D. congruence.
  - intros l [[=]|[=]].
  - intros [[=]|[l [=]]].
  - intros b [[c [=]]|[ms [=]]].
Qed.

Lemma LInv_pop n s i p : LInv n s -> (forall t, In t (l_tasks s) -> t_id t = i -> is_done t = true) ->
  plain p \/ (exists l, p = PProc l /\ l_pc s = PProc (i :: l)) \/ (exists l, p = PDrainProc l /\ l_pc s = PDrainProc (i :: l)) \/ (p = PExit /\ exists l, l_pc s = PDrainProc l) ->
  LInv n (set_pc (pop_task s i) p).
Proof.
  intros [A1 A2 A3 A4 A5 A6 A7 A8 A9 A10 A11] N P. constructor; cbn; auto.
  - now apply NoDup_filter.
  - intros j H. apply filter_In in H as [H _]. auto.
  - intros t H D. apply filter_In. split; [auto|]. destruct (Z.eqb_spec (t_id t) i) as [E|E]; [|reflexivity]. rewrite (N t H E) in D. discriminate.
  - enough (length (filter (fun j => negb (Z.eqb j i)) (l_active s)) <= length (l_active s))%nat by lia.
    clear. induction (l_active s) as [|a l IH]; cbn; [lia|]. destruct (negb _); cbn; lia.
  - intros l Hl j Hj. destruct P as [P|[(l' & P & Q)|[(l' & P & Q)|[P Q]]]].
    + destruct Hl as [->| ->]; contradiction.
    + subst p. destruct Hl as [[= ->]|[=]]. intros. eapply (A7 (i :: l)); eauto. now right.
    + subst p. destruct Hl as [[=]|[= ->]]. intros. eapply (A7 (i :: l)); eauto. now right.
    + subst p. destruct Hl as [[=]|[=]].
  - intros Q. apply A8. destruct P as [P|[(l' & P & _)|[(l' & P & R)|[P R]]]]; subst.
    + destruct Q as [->|[l ->]]; contradiction.
    + destruct Q as [[=]|[l [=]]].
    + right; eauto.
    + now right.
  - intros b c ->. destruct P as [P|[(l' & P & _)|[(l' & P & _)|[P _]]]]; [contradiction|discriminate..].
  - intros b Q. destruct P as [P|[(l' & -> & _)|[(l' & -> & _)|[-> _]]]]; destruct Q as [[c Q]|[ms Q]]; try discriminate; subst p; contradiction.
  - intros b ms ->. destruct P as [P|[(l' & P & _)|[(l' & P & _)|[P _]]]]; [contradiction|discriminate..].
Qed.

Lemma LInv_step n f s e : LInv n s -> LInv n (fst (lstep n f s e)).
Proof.
  intros I. pose proof I as [A1 A2 A3 A4 A5 A6 A7 A8 A9 A10 A11].
  destruct e; cbn [lstep].
  - unfold go. destruct (l_pc s) as [|todo| |src cnt|src ms| | | | |todo| | |] eqn:Hp; try exact I.
    + destruct (_ && _); [|now apply LInv_pc]. constructor; cbn; auto; try (intros; discriminate).
      * intros l [[= <-]|[=]] i Hi. apply (completed_done n s i I Hi).
      * intros [[=]|[l [=]]].
      * intros b [[c [=]]|[ms [=]]].
    + destruct todo as [|i todo]; [now apply LInv_pc|].
      assert (Di : forall t, In t (l_tasks s) -> t_id t = i -> is_done t = true) by (apply (A7 (i :: todo)); [now left|now left]).
      destruct (raises s i); apply LInv_pop; auto; [now left|]. right; left. eauto.
    + cbn [l_avail]. destruct (_ <=? 0) eqn:El.
      * apply (LInv_pc n (mkLoop _ _ _ _ _ _ _ _) PTop); [|exact Logic.I]. constructor; cbn; auto; try (intros; discriminate);
          repeat (intros [[=]|[=]] || intros [[=]|[? [=]]] || intros ? [[=]|[=]] || intros ? [[? [=]]|[? [=]]]).
      * constructor; cbn; auto; try (intros; discriminate).
        -- intros l [[=]|[=]].
        -- intros [[=]|[l [=]]].
        -- intros b c [= <- <-]. lia.
    + destruct ms as [|[| |k] ms].
      * destruct (_ || _) eqn:El; [now apply LInv_pc|]. cbn. constructor; cbn; auto; try (intros; discriminate).
        -- intros l [[=]|[=]].
        -- intros [[=]|[l [=]]].
        -- intros b c [= <- <-]. lia.
        -- intros b _. apply (A10 src). right. eauto.
      * cbn. constructor; cbn; auto; try (intros; discriminate).
        -- intros l [[=]|[=]].
        -- intros [[=]|[l [=]]].
        -- intros b _. apply (A10 src). right. eauto.
        -- intros b ms' [= <- <-]. specialize (A11 src _ eq_refl). cbn in A11. lia.
      * cbn. now apply LInv_pc.
      * specialize (A11 src _ eq_refl). cbn [length] in A11. pose proof (A10 src (or_intror (ex_intro _ _ eq_refl))) as Av.
        cbn. constructor; cbn; try (intros; discriminate).
        -- rewrite map_app. cbn. apply NoDup_snoc; [exact A1|]. intros H. apply in_map_iff in H as (t & E & H). apply A2 in H. lia.
        -- intros t H. apply in_app_or in H as [H|[<-|[]]]; [apply A2 in H; lia|cbn; lia].
        -- apply NoDup_snoc; [exact A3|]. intros H. apply A4 in H as (t & H & E). apply A2 in H. lia.
        -- intros i H. apply in_app_or in H as [H|[<-|[]]]; [apply A4 in H as (t & H & E); exists t; split; [apply in_or_app; now left|exact E]|].
           eexists. split; [apply in_or_app; right; left; reflexivity|reflexivity].
        -- intros t H D. apply in_or_app. apply in_app_or in H as [H|[<-|[]]]; [left; auto|right; now left].
        -- rewrite app_length. cbn. lia.
        -- intros l [[=]|[=]].
        -- intros [[=]|[l [=]]].
        -- intros b _. rewrite app_length. cbn. lia.
        -- intros b ms' [= <- <-]. lia.
    + destruct (_ && _); now apply LInv_pc.
    + now apply LInv_pc.
    + destruct (forallb _ _) eqn:Fb; [|exact I].
      assert (All : forall t, In t (l_tasks s) -> is_done t = true).
      { intros t Ht. destruct (is_done t) eqn:D; [reflexivity|]. pose proof (A5 t Ht D) as Ha. rewrite forallb_forall in Fb. specialize (Fb _ Ha).
        rewrite (find_task_In _ _ A1 Ht) in Fb. congruence. }
      cbn. constructor; cbn; auto; try (intros; discriminate). intros b [[c [=]]|[ms [=]]].
    + destruct todo as [|i todo].
      * cbn. assert (All := A8 (or_intror (ex_intro _ _ eq_refl))). constructor; cbn; auto; try (intros; discriminate). intros b [[c [=]]|[ms [=]]].
      * assert (Di : forall t, In t (l_tasks s) -> t_id t = i -> is_done t = true) by (apply (A7 (i :: todo)); [now right|now left]).
        destruct (raises s i); apply LInv_pop; auto; [right; right; right; eauto|]. right; right; left. eauto.
    + destruct (forallb _ _) eqn:Fb; [|exact I].
      assert (All : forall t, In t (l_tasks s) -> is_done t = true).
      { intros t Ht. destruct (is_done t) eqn:D; [reflexivity|]. pose proof (A5 t Ht D) as Ha. rewrite forallb_forall in Fb. specialize (Fb _ Ha).
        rewrite (find_task_In _ _ A1 Ht) in Fb. congruence. }
      cbn. constructor; cbn; auto; try (intros; discriminate). intros b [[c [=]]|[ms [=]]].
  - destruct (l_pc s) as [|todo| |src cnt|src ms'| | | | |todo| | |] eqn:Hp; try exact I. destruct (_ && _) eqn:El; [exact I|].
    destruct (A9 _ _ eq_refl) as [C1 C2]. cbn. constructor; cbn; auto; try (intros; discriminate).
    + intros l [[=]|[=]].
    + intros [[=]|[l [=]]].
    + intros b _. apply (A10 src). left. eauto.
    + intros b ms'' [= <- <-]. lia.
  - destruct (l_pc s); try exact I; now apply LInv_pc.
  - destruct (l_pc s) eqn:Hp; try exact I. cbn. constructor; cbn; auto; try (intros; discriminate).
    + intros l [[=]|[=]].
    + intros [[=]|[l [=]]].
    + intros b [[c [=]]|[ms [=]]].
  - destruct (find_task (l_tasks s) i) as [[i' k' []]|] eqn:Ft; try exact I. cbn. apply LInv_tasks; [exact I|].
    intros t H E. apply find_task_spec in Ft as [F1 F2]. cbn in F2. subst i'. 
    pose proof (find_task_In _ _ A1 H) as G. pose proof (find_task_In _ _ A1 F1) as G'. cbn in G'. rewrite E, G' in G. injection G as <-. reflexivity.
  - destruct (find_task (l_tasks s) i) as [t0|] eqn:Ft; [|exact I]. destruct (is_done t0) eqn:D; [exact I|]. cbn. apply LInv_tasks; [exact I|].
    intros t H E. apply find_task_spec in Ft as [F1 F2].
    pose proof (find_task_In _ _ A1 H) as G. pose proof (find_task_In _ _ A1 F1) as G'. rewrite F2 in G'. rewrite E, G' in G. injection G as <-. exact D.
  - destruct (l_bykey s k) as [i|]; [|exact I]. destruct (find_task (l_tasks s) i) as [[i' k' st]|] eqn:Ft; [|exact I].
    assert (X : st <> TDone true -> st <> TDone false -> forall t, In t (l_tasks s) -> t_id t = i -> is_done t = false).
    { intros N1 N2 t H E. apply find_task_spec in Ft as [F1 F2]. cbn in F2. subst i'.
      pose proof (find_task_In _ _ A1 H) as G. pose proof (find_task_In _ _ A1 F1) as G'. cbn in G'. rewrite E, G' in G. injection G as <-. destruct st as [| |[]]; cbn; congruence. }
    destruct st as [| |b]; [| |exact I]; cbn; apply LInv_tasks; auto; apply X; discriminate.
  - constructor; cbn; auto.
  - destruct (l_pc s) as [|todo| |src cnt|src ms'| | | | |todo| | |] eqn:Hp; try exact I; try (now apply LInv_pc); [now apply LInv_cancel_all|].
    assert (All := A8 (or_intror (ex_intro _ _ eq_refl))). cbn. constructor; cbn; auto; try (intros; discriminate). intros b [[c [=]]|[ms [=]]].
  - destruct (l_pc s) eqn:Hp; try exact I. assert (All := A8 (or_introl eq_refl)). cbn. constructor; cbn; auto; try (intros; discriminate); try (intros; contradiction); try constructor; try lia.
    all: try (intros t H D; rewrite (All t H) in D; discriminate).
    all: try (intros l [[=]|[=]]). all: try (intros b [[c [=]]|[ms [=]]]).
Qed.

Lemma reachable_LInv n f s : loop_reachable n f s -> LInv n s.
Proof.
  intros [l ->]. enough (H : forall s, LInv n s -> LInv n (lrun n f s l)) by (apply H, LInv_init).
  induction l as [|e l IH]; intros s I; [exact I|]. cbn. apply IH. now apply LInv_step.
Qed.

(** ** Cancellation *)

(** When no task of [k] starts beside another one in the table, the table of keys names
    the task of [k]. *)
Record KeyInv (k : key) (s : loop) : Prop := mkKeyInv {
  ki_key : forall t, In t (l_tasks s) -> t_key t = k -> In (t_id t) (l_active s) -> l_bykey s k = Some (t_id t);
  ki_todo : forall l, (l_pc s = PProc l \/ l_pc s = PDrainProc l) -> NoDup l /\ forall i, In i l -> In i (l_active s) }.

Lemma KeyInv_pc k s p : KeyInv k s -> plain p -> KeyInv k (set_pc s p).
Proof. intros [A B] P. constructor; cbn; [exact A|]. intros l [->| ->]; contradiction. Qed.

Lemma completed_ok n s : LInv n s -> NoDup (completed s) /\ forall i, In i (completed s) -> In i (l_active s).
Proof. intros I. unfold completed. split; [apply NoDup_filter, (li_act _ _ I)|]. intros i H. now apply filter_In in H. Qed.

Lemma KeyInv_pop n k s i l p : LInv n s -> KeyInv k s -> l_pc s = PProc (i :: l) \/ l_pc s = PDrainProc (i :: l) ->
  plain p \/ p = PExit \/ p = PProc l \/ p = PDrainProc l -> KeyInv k (set_pc (pop_task s i) p).
Proof.
  intros I [A B] P Q. destruct (B _ P) as [N In1]. inversion N; subst. constructor; cbn.
  - intros t Ht Kt Ha. apply filter_In in Ha as [Ha Ne]. pose proof (A t Ht Kt Ha) as E.
    destruct (find_task (l_tasks s) i) as [u|] eqn:F; [|exact E]. apply find_task_spec in F as [F1 F2].
    unfold upd. destruct (String.eqb_spec k (t_key u)) as [Ek|Ek]; [|exact E]. exfalso.
    assert (Eu : l_bykey s k = Some (t_id u)) by (apply A; [exact F1|congruence|rewrite F2; apply In1; now left]). rewrite E in Eu. injection Eu as Eu. lia.
  - intros l' Hl. assert (l' = l) by (destruct Q as [Q|[->|[->| ->]]]; destruct Hl as [Hl|Hl]; subst; try contradiction; congruence). subst l'.
    split; [assumption|]. intros j Hj. apply filter_In. split; [apply In1; now right|]. destruct (Z.eqb_spec j i); [subst; contradiction|reflexivity].
Qed.

Lemma KeyInv_st k s i x : KeyInv k s -> KeyInv k (set_tasks s (set_st (l_tasks s) i x)).
Proof.
  intros [A B]. constructor; cbn; [|exact B]. intros t H Kt Ha. apply set_st_In in H as [[H _]|(u & H & E & ->)]; [auto|]. cbn in *. subst i. auto.
Qed.

Lemma KeyInv_step n f k s e : LInv n s -> KeyInv k s ->
  (forall i, snd (lstep n f s e) = WStart i k -> forall t, In t (l_tasks s) -> In (t_id t) (l_active s) -> t_key t <> k) ->
  KeyInv k (fst (lstep n f s e)).
Proof.
  intros I K S. pose proof K as [A B].
  assert (Any : forall p, l_pc (set_pc s p) = p) by reflexivity.
  destruct e; cbn [lstep] in *.
  - unfold go in *. destruct (l_pc s) as [|todo| |src cnt|src ms| | | | |todo| | |] eqn:Hp; try exact K.
    + destruct (_ && _); [|now apply KeyInv_pc]. constructor; cbn; [exact A|]. intros l [[= <-]|[=]]. now apply (completed_ok n).
    + destruct todo as [|i todo]; [now apply KeyInv_pc|]. destruct (raises s i); eapply (KeyInv_pop n k s i todo); eauto; now left.
    + cbn [l_avail] in *. destruct (_ <=? 0); constructor; cbn; try exact A; intros l [[=]|[=]].
    + destruct ms as [|[| |k'] ms]; cbn in *.
      * destruct (_ || _); cbn; [now apply KeyInv_pc|]. constructor; cbn; [exact A|]. intros l [[=]|[=]].
      * constructor; cbn; [exact A|]. intros l [[=]|[=]].
      * now apply KeyInv_pc.
      * constructor; cbn; [|intros l [[=]|[=]]]. intros t Ht Kt Ha. unfold upd. destruct (String.eqb_spec k k') as [E|E].
        -- subst k'. f_equal. apply in_app_or in Ht as [Ht|[<-|[]]]; [exfalso|reflexivity]. pose proof (li_next _ _ I t Ht).
           apply in_app_or in Ha as [Ha|[Ha|[]]]; [|lia]. exact (S _ eq_refl t Ht Ha Kt).
        -- apply in_app_or in Ht as [Ht|[<-|[]]]; [|cbn in Kt; congruence]. pose proof (li_next _ _ I t Ht).
           apply in_app_or in Ha as [Ha|[Ha|[]]]; [auto|lia].
    + destruct (_ && _); now apply KeyInv_pc.
    + now apply KeyInv_pc.
    + destruct (forallb _ _); [|exact K]. constructor; cbn; [exact A|]. intros l [[=]|[= <-]]. now apply (completed_ok n).
    + destruct todo as [|i todo]; [constructor; cbn; [exact A|intros l [[=]|[=]]]|]. destruct (raises s i); eapply (KeyInv_pop n k s i todo); eauto.
    + destruct (forallb _ _); [|exact K]. constructor; cbn; [exact A|]. intros l [[=]|[=]].
  - destruct (l_pc s) eqn:Hp; try exact K. destruct (_ && _); [exact K|]. constructor; cbn; [exact A|]. intros l [[=]|[=]].
  - destruct (l_pc s); try exact K; now apply KeyInv_pc.
  - destruct (l_pc s); try exact K. constructor; cbn; [exact A|]. intros l [[=]|[=]].
  - destruct (find_task (l_tasks s) i) as [[i' k' []]|]; try exact K. cbn. now apply KeyInv_st.
  - destruct (find_task (l_tasks s) i) as [t0|]; [|exact K]. destruct (is_done t0); [exact K|]. now apply KeyInv_st.
  - destruct (l_bykey s k0) as [i|]; [|exact K]. destruct (find_task (l_tasks s) i) as [[i' k' []]|]; try exact K; now apply KeyInv_st.
  - constructor; cbn; auto.
  - destruct (l_pc s); try exact K; try (now apply KeyInv_pc); (constructor; [|cbn; intros l [[=]|[=]]]); cbn [set_pc l_tasks l_active l_bykey]; [|exact A].
    intros t H Kt Ha. apply cancel_all_In in H as (u & H & E & F & _). rewrite E in Ha |- *. apply A; [exact H|congruence|exact Ha].
  - destruct (l_pc s); try exact K. constructor; cbn; [intros; contradiction|]. intros l [[=]|[=]].
Qed.

Lemma KeyInv_init k : KeyInv k init_loop.
Proof. constructor; cbn; [intros; contradiction|]. intros l [[=]|[=]]. Qed.

Lemma cancel_reaches n f k s i : LInv n s -> KeyInv k s -> flying s i k -> snd (lstep n f s (LCancel k)) = WCancelled i.
Proof.
  intros I [A _] (x & H & N1 & N2).
  assert (D : is_done (mkTask i k x) = false) by (destruct x as [| |[]]; cbn; congruence).
  pose proof (A _ H eq_refl (li_fly _ _ I _ H D)) as E. cbn [t_id] in E. cbn [lstep]. rewrite E.
  pose proof (find_task_In _ _ (li_ids _ _ I) H) as F. cbn [t_id] in F. rewrite F. destruct x as [| |[]]; cbn in *; congruence.
Qed.

(** The table of keys, step by step. *)
Lemma lalong_app n f P l : forall s l', lalong n f P s (l ++ l') <-> lalong n f P s l /\ lalong n f P (lrun n f s l) l'.
Proof. induction l as [|e l IH]; intros s l'; cbn; [tauto|]. rewrite IH. tauto. Qed.

Lemma entry_start n f s e k i : snd (lstep n f s e) = WStart i k -> l_bykey (fst (lstep n f s e)) k = Some i.
Proof.
  destruct e; cbn.
  - unfold go. destruct (l_pc s) as [|[|j r]| |src c|src [|[| |k'] r]| | | | |[|j r]| | |] eqn:Ep; cbn; try discriminate.
    + destruct (_ && _); discriminate.
    + destruct (raises s j); discriminate.
    + destruct (_ <=? 0); discriminate.
    + destruct (_ || _); discriminate.
    + intros [= <- <-]. apply upd_eq.
    + destruct (_ && _); discriminate.
    + destruct (forallb _ _); discriminate.
    + destruct (raises s j); discriminate.
    + destruct (forallb _ _); discriminate.
  - destruct (l_pc s); try discriminate. destruct (_ && _); discriminate.
  - destruct (l_pc s); discriminate.
  - destruct (l_pc s); discriminate.
  - destruct (find_task _ _) as [[? ? []]|]; discriminate.
  - destruct (find_task _ _) as [t|]; [destruct (is_done t)|]; discriminate.
  - destruct (l_bykey s k0); [|discriminate]. destruct (find_task _ _) as [[? ? []]|]; discriminate.
  - discriminate.
  - destruct (l_pc s); discriminate.
  - destruct (l_pc s); discriminate.
Qed.

Lemma entry_keep n f s e k : LInv n s -> (forall i, snd (lstep n f s e) <> WStart i k) ->
  (clears k s e -> l_bykey (fst (lstep n f s e)) k = None) /\ (~ clears k s e -> l_bykey (fst (lstep n f s e)) k = l_bykey s k).
Proof.
  intros I N.
  assert (P : forall j r p, e = LGo -> l_pc s = PProc (j :: r) \/ l_pc s = PDrainProc (j :: r) ->
    (clears k s e -> l_bykey (set_pc (pop_task s j) p) k = None) /\ (~ clears k s e -> l_bykey (set_pc (pop_task s j) p) k = l_bykey s k)).
  { intros j r p E Hp. cbn. split.
    - intros (_ & i & rest & x & Hp' & Hin).
      assert (i = j) as -> by (destruct Hp as [Hp|Hp], Hp' as [Hp'|Hp']; congruence).
      pose proof (find_task_In _ _ (li_ids n s I) Hin) as F. cbn [t_id] in F. rewrite F. apply upd_eq.
    - intros Nc. destruct (find_task (l_tasks s) j) as [t|] eqn:F; [|reflexivity].
      apply find_task_spec in F. destruct F as [Hin Hid]. unfold upd. destruct (String.eqb_spec k (t_key t)) as [->|]; [|reflexivity].
      exfalso. apply Nc. split; [exact E|]. exists j, r, (t_st t). split; [exact Hp|]. subst j. destruct t; exact Hin. }
  assert (Q : ~ clears k s e -> l_bykey (fst (lstep n f s e)) k = l_bykey s k -> (clears k s e -> l_bykey (fst (lstep n f s e)) k = None) /\ (~ clears k s e -> l_bykey (fst (lstep n f s e)) k = l_bykey s k)) by tauto.
  destruct e; try (apply Q; [intros [X _]; discriminate|]); cbn in *.
  2:{ destruct (l_pc s); try reflexivity. destruct (_ && _); reflexivity. }
  2, 3: destruct (l_pc s); reflexivity.
  2:{ destruct (find_task _ _) as [[? ? []]|]; reflexivity. }
  2:{ destruct (find_task _ _) as [t|]; [destruct (is_done t)|]; reflexivity. }
  2:{ destruct (l_bykey s k0); [|reflexivity]. destruct (find_task _ _) as [[? ? []]|]; reflexivity. }
  2: reflexivity.
  2, 3: destruct (l_pc s); reflexivity.
  unfold go in *. destruct (l_pc s) as [|[|j r]| |src c|src [|[| |k'] r]| | | | |[|j r]| | |] eqn:Ep; cbn in *.
  all: try (apply Q; [intros (_ & i & rest & x & [Hp|Hp] & _); congruence|]; try reflexivity).
  - destruct (_ && _); reflexivity.
  - destruct (raises s j); cbn [fst]; exact (P j r PBeat eq_refl (or_introl eq_refl)).
  - destruct (_ <=? 0); reflexivity.
  - destruct (_ || _); reflexivity.
  - unfold upd. destruct (String.eqb_spec k k') as [->|]; [|reflexivity]. exfalso; eapply N; reflexivity.
  - destruct (_ && _); reflexivity.
  - destruct (forallb _ _); reflexivity.
  - destruct (raises s j); cbn [fst]; exact (P j r PBeat eq_refl (or_intror eq_refl)).
  - destruct (forallb _ _); reflexivity.
Qed.

Lemma clears_dec k s e : clears k s e \/ ~ clears k s e.
Proof.
  unfold clears. destruct e; try (right; intros [X _]; discriminate).
  assert (H : forall i, (exists x, In (mkTask i k x) (l_tasks s)) \/ ~ (exists x, In (mkTask i k x) (l_tasks s))).
  { intros i. destruct (existsb (fun t => (t_id t =? i) && String.eqb (t_key t) k) (l_tasks s)) eqn:E.
    - left. apply existsb_exists in E. destruct E as ([i' k' x] & Hin & E). cbn in E. apply andb_true_iff in E. destruct E as [E1 E2].
      apply Z.eqb_eq in E1. apply String.eqb_eq in E2. subst. eauto.
    - right. intros [x Hx]. assert (X : existsb (fun t => (t_id t =? i) && String.eqb (t_key t) k) (l_tasks s) = true)
        by (apply existsb_exists; exists (mkTask i k x); split; [exact Hx|cbn; now rewrite Z.eqb_refl, String.eqb_refl]). congruence. }
  destruct (l_pc s) as [|[|j r]| | | | | | | |[|j r]| | |] eqn:Ep; try (right; intros (_ & i & rest & x & [Hp|Hp] & _); congruence).
  all: destruct (H j) as [[x Hx]|N]; [left; split; [reflexivity|]; exists j, r, x; auto|right; intros (_ & i & rest & x & [Hp|Hp] & Hx); try congruence; apply N; exists x; congruence].
Qed.

Lemma starts_dec n f s e k : (exists i, snd (lstep n f s e) = WStart i k) \/ (forall i, snd (lstep n f s e) <> WStart i k).
Proof.
  destruct (snd (lstep n f s e)) as [| | |i k'| | | | | |]; try (right; intros; discriminate).
  destruct (string_dec k' k) as [->|N]; [left; eauto|right; intros i' [= _ E]; congruence].
Qed.

Lemma entry_exact n f k i l : l_bykey (lrun n f init_loop l) k = Some i <-> holds_entry n f k i l.
Proof.
  induction l as [|e l IH] using rev_ind.
  - split; [discriminate|]. intros (l1 & e & l2 & E & _). destruct l1; discriminate.
  - rewrite lrun_app. cbn [lrun]. set (s := lrun n f init_loop l) in *.
    assert (I : LInv n s) by (apply reachable_LInv with f; exists l; reflexivity).
    assert (Hh : holds_entry n f k i (l ++ [e]) <-> snd (lstep n f s e) = WStart i k \/
        (holds_entry n f k i l /\ ~ clears k s e /\ forall j, snd (lstep n f s e) <> WStart j k)).
    { split.
      - intros (l1 & e1 & l2 & E & Hs & Ha). destruct l2 as [|y0 r0] eqn:El2; [|destruct (exists_last (l := y0 :: r0)) as (l3 & y & El3); [discriminate|rewrite El3 in *]].
        + apply app_inj_tail in E; destruct E as [<- <-]. left. exact Hs.
        + assert (E' : l ++ [e] = (l1 ++ e1 :: l3) ++ [y]) by (rewrite E, <- app_assoc; reflexivity).
          apply app_inj_tail in E'; destruct E' as [-> ->]. apply lalong_app in Ha. destruct Ha as [Ha [Hy _]].
          right. rewrite <- lrun_app, <- app_assoc in Hy. split; [exists l1, e1, l3; auto|exact Hy].
      - intros [Hs|[(l1 & e1 & l2 & -> & Hs & Ha) Hy]].
        + exists l, e, []. repeat split. exact Hs.
        + exists l1, e1, (l2 ++ [e]). split; [now rewrite <- app_assoc|]. split; [exact Hs|].
          apply lalong_app. split; [exact Ha|]. split; [|exact Logic.I]. rewrite <- lrun_app, <- app_assoc. exact Hy. }
    rewrite Hh, <- IH. destruct (starts_dec n f s e k) as [[j Hj]|N].
    + rewrite (entry_start n f s e k j Hj), Hj. split; [intros [= ->]; now left|]. intros [[= ->]|(_ & _ & X)]; [reflexivity|]. now destruct (X j).
    + destruct (entry_keep n f s e k I N) as [K1 K2]. destruct (clears_dec k s e) as [C|C].
      * rewrite (K1 C). split; [discriminate|]. intros [X|(_ & X & _)]; [now destruct (N i)|contradiction].
      * rewrite (K2 C). split; [intros X; right; auto|]. intros [X|(X & _)]; [now destruct (N i)|exact X].
Qed.

Lemma tasks_kept n f s e t : In t (l_tasks s) -> exists u, In u (l_tasks (fst (lstep n f s e))) /\ t_id u = t_id t /\ t_key u = t_key t.
Proof.
  intros H.
  assert (Hs : forall i x, exists u, In u (set_st (l_tasks s) i x) /\ t_id u = t_id t /\ t_key u = t_key t).
  { intros i x. unfold set_st. exists (if t_id t =? i then mkTask i (t_key t) x else t). split; [apply (in_map (fun t => if t_id t =? i then mkTask i (t_key t) x else t)); exact H|].
    destruct (Z.eqb_spec (t_id t) i); cbn; auto. }
  assert (Hid : exists u, In u (l_tasks s) /\ t_id u = t_id t /\ t_key u = t_key t) by eauto.
  destruct e; cbn.
  - unfold go. destruct (l_pc s) as [|[|j r]| |src c|src [|[| |k'] r]| | | | |[|j r]| | |] eqn:Ep; cbn; auto.
    + destruct (_ && _); exact Hid.
    + destruct (raises s j); exact Hid.
    + destruct (_ <=? 0); exact Hid.
    + destruct (_ || _); exact Hid.
    + destruct Hid as (u & A & B). exists u. split; [apply in_or_app; now left|exact B].
    + destruct (_ && _); exact Hid.
    + destruct (forallb _ _); exact Hid.
    + destruct (raises s j); exact Hid.
    + destruct (forallb _ _); exact Hid.
  - destruct (l_pc s); try exact Hid. destruct (_ && _); exact Hid.
  - destruct (l_pc s); exact Hid.
  - destruct (l_pc s); exact Hid.
  - destruct (find_task _ _) as [[? ? []]|]; cbn; auto.
  - destruct (find_task _ _) as [t0|]; [destruct (is_done t0)|]; cbn; auto.
  - destruct (l_bykey s k); [|exact Hid]. destruct (find_task _ _) as [[? ? []]|]; cbn; auto.
  - exact Hid.
  - destruct (l_pc s); try exact Hid. cbn [fst set_pc l_tasks]. unfold cancel_all, set_tasks; cbn [l_tasks].
    exists (if existsb (Z.eqb (t_id t)) (l_active s) then mkTask (t_id t) (t_key t) (struck_down (t_st t)) else t).
    split; [apply (in_map (fun t => if existsb (Z.eqb (t_id t)) (l_active s) then mkTask (t_id t) (t_key t) (struck_down (t_st t)) else t)); exact H|].
    destruct (existsb _ _); auto.
  - destruct (l_pc s); exact Hid.
Qed.

Lemma started_in n f s e k i : snd (lstep n f s e) = WStart i k -> In (mkTask i k TPre) (l_tasks (fst (lstep n f s e))).
Proof.
  destruct e; cbn.
  - unfold go. destruct (l_pc s) as [|[|j r]| |src c|src [|[| |k'] r]| | | | |[|j r]| | |] eqn:Ep; cbn; try discriminate.
    + destruct (_ && _); discriminate.
    + destruct (raises s j); discriminate.
    + destruct (_ <=? 0); discriminate.
    + destruct (_ || _); discriminate.
    + intros [= <- <-]. apply in_or_app. right; now left.
    + destruct (_ && _); discriminate.
    + destruct (forallb _ _); discriminate.
    + destruct (raises s j); discriminate.
    + destruct (forallb _ _); discriminate.
  - destruct (l_pc s); try discriminate. destruct (_ && _); discriminate.
  - destruct (l_pc s); discriminate.
  - destruct (l_pc s); discriminate.
  - destruct (find_task _ _) as [[? ? []]|]; discriminate.
  - destruct (find_task _ _) as [t|]; [destruct (is_done t)|]; discriminate.
  - destruct (l_bykey s k0); [|discriminate]. destruct (find_task _ _) as [[? ? []]|]; discriminate.
  - discriminate.
  - destruct (l_pc s); discriminate.
  - destruct (l_pc s); discriminate.
Qed.

Lemma bykey_owner n f k l j t : l_bykey (lrun n f init_loop l) k = Some j -> find_task (l_tasks (lrun n f init_loop l)) j = Some t -> t_key t = k.
Proof.
  intros E F.
  assert (O : exists u, In u (l_tasks (lrun n f init_loop l)) /\ t_id u = j /\ t_key u = k).
  { clear F t. revert E. induction l as [|e l IH] using rev_ind; [discriminate|].
    rewrite lrun_app. cbn [lrun]. set (s := lrun n f init_loop l) in *. intros E.
    assert (I : LInv n s) by (apply reachable_LInv with f; exists l; reflexivity).
    destruct (starts_dec n f s e k) as [[i Hi]|N].
    - rewrite (entry_start n f s e k i Hi) in E. injection E as ->. exists (mkTask j k TPre). split; [now apply started_in|auto].
    - destruct (entry_keep n f s e k I N) as [K1 K2]. destruct (clears_dec k s e) as [C|C]; [rewrite (K1 C) in E; discriminate|].
      rewrite (K2 C) in E. destruct (IH E) as (u & A & B1 & B2). destruct (tasks_kept n f s e u A) as (u' & A' & C1 & C2). exists u'. split; [exact A'|]. split; congruence. }
  destruct O as (u & A & <- & <-).
  assert (I : LInv n (lrun n f init_loop l)) by (apply reachable_LInv with f; exists l; reflexivity).
  rewrite (find_task_In _ _ (li_ids n _ I) A) in F. congruence.
Qed.
