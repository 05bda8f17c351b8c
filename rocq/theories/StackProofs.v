(** Proofs about entering and leaving a docket (C96). *)
From Verif Require Import Base Stack SpecStack.

Lemma nested_app l1 : nested l1 -> forall l2, nested l2 -> nested (l1 ++ l2).
Proof.
  induction 1 as [|k n l l' H IH H' IH']; intros l2 H2; [exact H2|].
  cbn [app]. rewrite <- app_assoc. cbn [app]. constructor; auto.
Qed.
Lemma nested_wrap k n l : nested l -> nested (EOpen k n :: l ++ [EClose k n]).
Proof. intros H. apply nested_in; [exact H|constructor]. Qed.

Lemma obj_eqb_refl o : obj_eqb o o = true.
Proof. destruct o; cbn; auto using Nat.eqb_refl. Qed.
Lemma obj_eqb_eq o o' : obj_eqb o o' = true -> o = o'.
Proof. destruct o, o'; cbn; intros H; try discriminate H; try reflexivity; apply Nat.eqb_eq in H; now subst. Qed.
Lemma obj_eqb_ne o o' : o <> o' -> obj_eqb o o' = false.
Proof. intros H. destruct (obj_eqb o o') eqn:E; [|reflexivity]. apply obj_eqb_eq in E. contradiction. Qed.

(** ** What the two connection-like contexts do when nothing fails *)
Definition r_count (m : mode) : nat := match m with Standalone => 1 | Cluster => 2 | Memory => 0 end.
Definition r_opens (m : mode) (n : nat) : list ev :=
  match m with Standalone => [EOpen KPool n] | Cluster => [EOpen KCluster n; EOpen KNode (S n)] | Memory => [] end.
Definition r_closes (m : mode) (n : nat) : list ev :=
  match m with Standalone => [EClose KPool n] | Cluster => [EClose KNode (S n); EClose KCluster n] | Memory => [] end.
Definition r_cbs (m : mode) (o : obj) (n : nat) : list cb :=
  match m with
  | Standalone => [CClose KPool n; CUnset o APool]
  | Cluster => [CClose KNode (S n); CUnset o ANode; CClose KCluster n; CUnset o ACluster]
  | Memory => [CUnset o AMemory]
  end.

(** Leaving every object but those in [P] alone. *)
Definition same_stack (P : obj -> Prop) (s s' : st) : Prop := forall o, ~ P o -> st_stack s' o = st_stack s o.
Definition same_attr (P : obj -> Prop) (s s' : st) : Prop := forall o a, ~ P o -> st_attr s' o a = st_attr s o a.

(** [s'] is [s] after pushing [cs] on the stack of [o], logging [l], setting [x] on [o]. *)
Record grown (o : obj) (cs : list cb) (l : list ev) (n : nat) (x : list attr) (s s' : st) : Prop := {
  gr_stack : forall old, st_stack s o = Some old -> st_stack s' o = Some (cs ++ old);
  gr_others : same_stack (eq o) s s';
  gr_log : st_log s' = st_log s ++ l;
  gr_next : (st_next s' = st_next s + n)%nat;
  gr_gen : st_gen s' = st_gen s;
  gr_attr : forall a, st_attr s' o a = (existsb (attr_eqb a) x || st_attr s o a)%bool;
  gr_attrs : same_attr (eq o) s s' }.
Lemma grown_trans o c1 l1 n1 x1 c2 l2 n2 x2 s1 s2 s3 :
  grown o c1 l1 n1 x1 s1 s2 -> grown o c2 l2 n2 x2 s2 s3 -> grown o (c2 ++ c1) (l1 ++ l2) (n1 + n2) (x2 ++ x1) s1 s3.
Proof.
  intros [A1 B1 C1 D1 E1 F1 G1] [A2 B2 C2 D2 E2 F2 G2]. constructor.
  - intros old H. rewrite <- app_assoc. auto.
  - intros o' H. rewrite B2, B1; auto.
  - now rewrite C2, C1, app_assoc.
  - lia.
  - congruence.
  - intros a. rewrite F2, F1, existsb_app, Bool.orb_assoc. reflexivity.
  - intros o' a H. rewrite G2, G1; auto.
Qed.
Lemma grown_push o c s : st_stack s o <> None -> grown o [c] [] 0 [] s (push o c s).
Proof.
  intros H. unfold push. destruct (st_stack s o) as [cs|] eqn:E; [|contradiction]. clear H.
  constructor; unfold set_stack, same_stack, same_attr; cbn [st_attr st_stack st_gen st_next st_log existsb orb].
  - intros old H. rewrite obj_eqb_refl. cbn [app]. congruence.
  - intros o' H. now rewrite (obj_eqb_ne o o' H).
  - now rewrite app_nil_r.
  - lia.
  - reflexivity.
  - reflexivity.
  - reflexivity.
Qed.
Lemma grown_open o k s :
  grown o [] [EOpen k (st_next s)] 1 [] s (note (EOpen k (st_next s)) (St (st_attr s) (st_stack s) (st_gen s) (S (st_next s)) (st_log s))).
Proof.
  constructor; unfold note, same_stack, same_attr; cbn [st_attr st_stack st_gen st_next st_log existsb orb app]; auto. lia.
Qed.
Lemma attr_eqb_sym a b : attr_eqb a b = attr_eqb b a. Proof. now destruct a, b. Qed.
Lemma grown_set o a s : grown o [] [] 0 [a] s (set_attr o a true s).
Proof.
  constructor; unfold set_attr, same_stack, same_attr; cbn [st_attr st_stack st_gen st_next st_log existsb orb app]; auto.
  - now rewrite app_nil_r.
  - intros b. rewrite obj_eqb_refl, (attr_eqb_sym b a), Bool.orb_false_r. cbn [andb]. now destruct (attr_eqb a b).
  - intros o' b H. now rewrite (obj_eqb_ne o o' H).
Qed.
Lemma grown_some o cs l n x s s' : grown o cs l n x s s' -> st_stack s o <> None -> st_stack s' o <> None.
Proof. intros G H. destruct (st_stack s o) as [old|] eqn:E; [|contradiction]. rewrite (gr_stack _ _ _ _ _ _ _ G _ E). discriminate. Qed.
Lemma grown_make o k s : st_stack s o <> None ->
  grown o [CClose k (st_next s)] [EOpen k (st_next s)] 1 [] s (make o k s).
Proof.
  intros H. unfold make.
  exact (grown_trans _ _ _ _ _ _ _ _ _ _ _ _ (grown_open o k s) (grown_push o (CClose k (st_next s)) _ (grown_some _ _ _ _ _ _ _ (grown_open o k s) H))).
Qed.
Lemma grown_make_attr o k a s : st_stack s o <> None ->
  grown o [CClose k (st_next s); CUnset o a] [EOpen k (st_next s)] 1 [a] s (make_attr o k a s).
Proof.
  intros H. unfold make_attr.
  pose proof (grown_trans _ _ _ _ _ _ _ _ _ _ _ _ (grown_set o a s) (grown_push o (CUnset o a) _ (grown_some _ _ _ _ _ _ _ (grown_set o a s) H))) as G.
  pose proof (grown_make o k _ (grown_some _ _ _ _ _ _ _ G H)) as G2.
  pose proof (grown_trans _ _ _ _ _ _ _ _ _ _ _ _ G G2) as G3.
  rewrite (gr_next _ _ _ _ _ _ _ G), Nat.add_0_r in G3. exact G3.
Qed.

Definition r_attrs (m : mode) : list attr := match m with Standalone => [APool] | Cluster => [ANode; ACluster] | Memory => [AMemory] end.
Lemma fresh_stack o s : st_stack (set_stack o (Some []) s) o = Some [].
Proof. unfold set_stack. cbn [st_stack]. now rewrite obj_eqb_refl. Qed.
Lemma set_stack_others o v s : same_stack (eq o) s (set_stack o v s).
Proof. intros o' H. unfold set_stack. cbn [st_stack]. now rewrite (obj_eqb_ne o o' H). Qed.

Lemma redis_enter_ok m f o s : (forall o k, f_open f o k = false) -> connected o s = false ->
  exists s', redis_enter m f o s = (true, s') /\
    grown o (r_cbs m o (st_next s)) (r_opens m (st_next s)) (r_count m) (r_attrs m) (set_stack o (Some []) s) s'.
Proof.
  intros Hf Hc. unfold redis_enter. rewrite Hc, !Hf.
  assert (N : st_stack (set_stack o (Some []) s) o <> None) by (rewrite fresh_stack; discriminate).
  destruct m; eexists; (split; [reflexivity|]).
  - exact (grown_make_attr o KPool APool _ N).
  - pose proof (grown_make_attr o KCluster ACluster _ N) as G1.
    pose proof (grown_make_attr o KNode ANode _ (grown_some _ _ _ _ _ _ _ G1 N)) as G2.
    pose proof (grown_trans _ _ _ _ _ _ _ _ _ _ _ _ G1 G2) as G3.
    rewrite (gr_next _ _ _ _ _ _ _ G1), Nat.add_1_r in G3. exact G3.
  - pose proof (grown_set o AMemory (set_stack o (Some []) s)) as G1.
    pose proof (grown_push o (CUnset o AMemory) _ (grown_some _ _ _ _ _ _ _ G1 N)) as G2.
    exact (grown_trans _ _ _ _ _ _ _ _ _ _ _ _ G1 G2).
Qed.

Lemma redis_exit_ok m o n e s : st_stack s o = Some (r_cbs m o n) ->
  (forall a, match m, a with Standalone, APool | Cluster, ACluster | Cluster, ANode | Memory, AMemory => True | _, _ => st_attr s o a = false end) ->
  exists s', exit_obj (S e) o s = (true, s') /\ (forall a, st_attr s' o a = false) /\
    st_log s' = st_log s ++ r_closes m n /\ st_next s' = st_next s /\ st_gen s' = st_gen s /\
    same_stack (eq o) s s' /\ same_attr (eq o) s s'.
Proof.
  intros Hs Ha. cbn [exit_obj]. rewrite Hs.
  destruct s as [at_ sk g n' lg]. cbn [st_attr st_stack] in Ha, Hs.
  destruct m; cbn [r_cbs run_cbs r_closes]; eexists; (split; [reflexivity|]);
    unfold note, set_attr, set_stack, same_stack, same_attr;
    cbn [st_attr st_stack st_gen st_next st_log];
    rewrite <- ?app_assoc, ?app_nil_r; cbn [app]; repeat split; try reflexivity.
  all: try (intros o' H; now rewrite ?(obj_eqb_ne o o' H)).
  all: try (intros o' a H; now rewrite ?(obj_eqb_ne o o' H)).
  all: intros a; specialize (Ha a); destruct a; rewrite ?obj_eqb_refl; cbn [attr_eqb andb]; try reflexivity; exact Ha.
Qed.

(** ** Entering the docket when nothing fails *)
Record entered (o : obj) (cs : list cb) (l : list ev) (n : nat) (x : list attr) (s s' : st) : Prop := {
  en_stack : st_stack s' o = Some cs;
  en_others : same_stack (eq o) s s';
  en_log : st_log s' = st_log s ++ l;
  en_next : (st_next s' = st_next s + n)%nat;
  en_gen : st_gen s' = st_gen s;
  en_attr : forall a, st_attr s' o a = (existsb (attr_eqb a) x || st_attr s o a)%bool;
  en_attrs : same_attr (eq o) s s' }.
Lemma grown_entered o cs l n x s s' : grown o cs l n x (set_stack o (Some []) s) s' -> entered o cs l n x s s'.
Proof.
  intros [A B C D E F G]. constructor.
  - rewrite (A [] (fresh_stack o s)), app_nil_r. reflexivity.
  - intros o' H. rewrite B, set_stack_others; auto.
  - exact C.
  - exact D.
  - exact E.
  - exact F.
  - intros o' a H. rewrite G; auto.
Qed.

Definition res_cbs (m : mode) (n : nat) : list cb := match m with Standalone => [CClose KClient (S n); CClose KPool n] | _ => [] end.
Definition res_opens (m : mode) (n : nat) : list ev := match m with Standalone => [EOpen KPool n; EOpen KClient (S n)] | _ => [] end.
Definition res_closes (m : mode) (n : nat) : list ev := match m with Standalone => [EClose KClient (S n); EClose KPool n] | _ => [] end.
Definition res_count (m : mode) : nat := match m with Standalone => 2 | _ => 0 end.

Lemma result_enter_ok m f g s : (forall o k, f_open f o k = false) -> f_setup f = false ->
  (m = Cluster -> st_attr s ORedis ACluster = true) -> (m = Memory -> st_attr s ORedis AMemory = true) ->
  exists s', result_enter m f g s = (true, s') /\
    entered (OResult g) (res_cbs m (st_next s)) (res_opens m (st_next s)) (res_count m) [] s s'.
Proof.
  intros Hf Hs Hc Hm. unfold result_enter. rewrite !Hf, Hs. cbn [negb].
  set (s0 := set_stack (OResult g) (Some []) s).
  assert (N : st_stack s0 (OResult g) <> None) by (unfold s0; rewrite fresh_stack; discriminate).
  assert (Z : entered (OResult g) [] [] 0 [] s s0).
  { constructor; unfold s0.
    - apply fresh_stack.
    - apply set_stack_others.
    - cbn [st_log set_stack]. now rewrite app_nil_r.
    - cbn [st_next set_stack]. lia.
    - reflexivity.
    - reflexivity.
    - intros o a H. reflexivity. }
  destruct m.
  - eexists. split; [reflexivity|]. apply grown_entered. fold s0.
    pose proof (grown_make (OResult g) KPool s0 N) as G1.
    pose proof (grown_make (OResult g) KClient _ (grown_some _ _ _ _ _ _ _ G1 N)) as G2.
    pose proof (grown_trans _ _ _ _ _ _ _ _ _ _ _ _ G1 G2) as G3.
    rewrite (gr_next _ _ _ _ _ _ _ G1), Nat.add_1_r in G3. exact G3.
  - change (st_attr s0 ORedis ACluster) with (st_attr s ORedis ACluster). rewrite Hc by reflexivity. exists s0. now split.
  - change (st_attr s0 ORedis AMemory) with (st_attr s ORedis AMemory). rewrite Hm by reflexivity. exists s0. now split.
Qed.

Definition n1 (m : mode) (n : nat) : nat := (n + r_count m)%nat.
Definition n2 (m : mode) (n : nat) : nat := (n + r_count m + r_count m)%nat.
Definition d_opens (m : mode) (own : bool) (n : nat) : list ev :=
  r_opens m n ++ r_opens m (n1 m n) ++ [EOpen KMonitor (n2 m n)] ++ (if own then res_opens m (S (n2 m n)) else []).
Definition d_closes (m : mode) (own : bool) (n : nat) : list ev :=
  (if own then res_closes m (S (n2 m n)) else []) ++ [EClose KMonitor (n2 m n)] ++ r_closes m (n1 m n) ++ r_closes m n.
Definition d_count (m : mode) (own : bool) : nat := (r_count m + r_count m + 1 + if own then res_count m else 0)%nat.
Definition is_own (sto : storage) : bool := match sto with Own => true | _ => false end.

(** Nothing is connected, and the strike lists to come are new. *)
Record idle (s : st) : Prop := {
  id_redis : forall a, st_attr s ORedis a = false;
  id_new : forall g a, (st_gen s < g)%nat -> st_attr s (OStrikeRedis g) a = false }.

Record inside (m : mode) (own : bool) (n : nat) (s' : st) : Prop := {
  in_docket : st_stack s' ODocket = Some ((if own then [CExit (OResult (st_gen s'))] else []) ++ [CExit (OStrike (st_gen s')); CExit ORedis]);
  in_redis : st_stack s' ORedis = Some (r_cbs m ORedis n);
  in_strike : st_stack s' (OStrike (st_gen s')) = Some [CClose KMonitor (n2 m n); CExit (OStrikeRedis (st_gen s'))];
  in_sredis : st_stack s' (OStrikeRedis (st_gen s')) = Some (r_cbs m (OStrikeRedis (st_gen s')) (n1 m n));
  in_result : own = true -> st_stack s' (OResult (st_gen s')) = Some (res_cbs m (S (n2 m n)));
  in_attr : forall a, st_attr s' ORedis a = existsb (attr_eqb a) (r_attrs m);
  in_sattr : forall a, st_attr s' (OStrikeRedis (st_gen s')) a = existsb (attr_eqb a) (r_attrs m);
  in_new : forall g a, (st_gen s' < g)%nat -> st_attr s' (OStrikeRedis g) a = false }.

Lemma idle_connected o s : (forall a, st_attr s o a = false) -> connected o s = false.
Proof. intros H. unfold connected. now rewrite !H. Qed.

Lemma push_fields o c s cs : st_stack s o = Some cs -> entered o (c :: cs) [] 0 [] s (push o c s).
Proof.
  intros E. pose proof (grown_push o c s) as G. rewrite E in G. specialize (G ltac:(discriminate)). destruct G as [A B C D F X Y].
  constructor; auto. exact (A _ E).
Qed.
Lemma make_fields o k s cs : st_stack s o = Some cs -> entered o (CClose k (st_next s) :: cs) [EOpen k (st_next s)] 1 [] s (make o k s).
Proof.
  intros E. pose proof (grown_make o k s) as G. rewrite E in G. specialize (G ltac:(discriminate)). destruct G as [A B C D F X Y].
  constructor; auto. exact (A _ E).
Qed.

Lemma docket_enter_ok m sto f s : smooth f -> idle s ->
  exists s', docket_enter m sto f s = (true, s') /\ inside m (is_own sto) (st_next s) s' /\
    st_log s' = st_log s ++ d_opens m (is_own sto) (st_next s) /\ st_gen s' = S (st_gen s) /\
    (st_next s' = st_next s + d_count m (is_own sto))%nat.
Proof.
  intros [Ho Hs] [Hr Hn]. unfold docket_enter. cbv zeta.
  change (st_gen (set_stack ODocket (Some []) s)) with (st_gen s).
  change (st_attr (set_stack ODocket (Some []) s)) with (st_attr s).
  change (st_next (set_stack ODocket (Some []) s)) with (st_next s).
  change (st_log (set_stack ODocket (Some []) s)) with (st_log s).
  set (g := S (st_gen s)).
  set (s0 := St (st_attr s) (st_stack (set_stack ODocket (Some []) s)) g (st_next s) (st_log s)).
  assert (K0 : st_stack s0 ODocket = Some []) by (apply fresh_stack).
  destruct (redis_enter_ok m f ORedis s0 Ho (idle_connected ORedis s0 Hr)) as (s1 & E1 & G1).
  apply grown_entered in G1. destruct G1 as [A1 B1 C1 D1 F1 X1 Y1].
  rewrite E1. cbn [enter_context bind].
  assert (K1 : st_stack s1 ODocket = Some []) by (rewrite B1 by discriminate; exact K0).
  destruct (push_fields ODocket (CExit ORedis) s1 [] K1) as [A2 B2 C2 D2 F2 X2 Y2].
  set (s2 := push ODocket (CExit ORedis) s1) in *.
  unfold strike_enter.
  set (s3 := set_stack (OStrike g) (Some []) s2).
  assert (SA : forall a, st_attr s3 (OStrikeRedis g) a = false).
  { intros a. change (st_attr s2 (OStrikeRedis g) a = false). rewrite Y2, Y1 by discriminate. apply Hn. unfold g. lia. }
  rewrite (idle_connected _ s3 SA).
  destruct (redis_enter_ok m f (OStrikeRedis g) s3 Ho (idle_connected _ s3 SA)) as (s4 & E4 & G4).
  apply grown_entered in G4. destruct G4 as [A4 B4 C4 D4 F4 X4 Y4].
  rewrite E4. cbn [enter_context bind].
  assert (K4 : st_stack s4 (OStrike g) = Some []) by (rewrite B4 by discriminate; apply fresh_stack).
  destruct (push_fields (OStrike g) (CExit (OStrikeRedis g)) s4 [] K4) as [A5 B5 C5 D5 F5 X5 Y5].
  set (s5 := push (OStrike g) (CExit (OStrikeRedis g)) s4) in *.
  destruct (make_fields (OStrike g) KMonitor s5 _ A5) as [A6 B6 C6 D6 F6 X6 Y6].
  set (s6 := make (OStrike g) KMonitor s5) in *.
  assert (B3 : forall o, OStrike g <> o -> st_stack s3 o = st_stack s2 o) by (intros o H; now apply set_stack_others).
  assert (K6 : st_stack s6 ODocket = Some [CExit ORedis]).
  { rewrite B6, B5, B4, B3 by discriminate. exact A2. }
  destruct (push_fields ODocket (CExit (OStrike g)) s6 _ K6) as [A7 B7 C7 D7 F7 X7 Y7].
  set (s7 := push ODocket (CExit (OStrike g)) s6) in *.
  assert (N3 : st_next s3 = (st_next s + r_count m)%nat).
  { change (st_next s2 = (st_next s + r_count m)%nat). rewrite D2, D1. change (st_next s0) with (st_next s). lia. }
  change (st_next s0) with (st_next s) in *. change (st_log s0) with (st_log s) in *. change (st_gen s0) with g in *.
  change (st_log s3) with (st_log s2) in *. change (st_gen s3) with (st_gen s2) in *.
  assert (N5 : st_next s5 = n2 m (st_next s)) by (rewrite D5, D4, N3; unfold n2; lia).
  assert (GG : st_gen s7 = g) by (rewrite F7, F6, F5, F4, F2, F1; reflexivity).
  assert (R7 : st_stack s7 ORedis = Some (r_cbs m ORedis (st_next s))).
  { rewrite B7, B6, B5, B4, B3, B2 by discriminate. exact A1. }
  assert (S7 : st_stack s7 (OStrike g) = Some [CClose KMonitor (n2 m (st_next s)); CExit (OStrikeRedis g)]).
  { rewrite B7 by discriminate. rewrite A6, N5. reflexivity. }
  assert (T7 : st_stack s7 (OStrikeRedis g) = Some (r_cbs m (OStrikeRedis g) (n1 m (st_next s)))).
  { rewrite B7, B6, B5 by discriminate. rewrite A4, N3. reflexivity. }
  assert (L7 : st_log s7 = st_log s ++ r_opens m (st_next s) ++ r_opens m (n1 m (st_next s)) ++ [EOpen KMonitor (n2 m (st_next s))]).
  { rewrite C7, C6, C5, C4, C2, C1, N5, N3, !app_nil_r, <- !app_assoc. reflexivity. }
  assert (M7 : st_next s7 = S (n2 m (st_next s))) by (rewrite D7, D6, N5; lia).
  assert (AR : forall a, st_attr s7 ORedis a = existsb (attr_eqb a) (r_attrs m)).
  { intros a. rewrite Y7, Y6, Y5, Y4 by discriminate. change (st_attr s2 ORedis a = existsb (attr_eqb a) (r_attrs m)).
    rewrite Y2 by discriminate. rewrite X1. change (st_attr s0 ORedis a) with (st_attr s ORedis a). now rewrite Hr, Bool.orb_false_r. }
  assert (AS : forall a, st_attr s7 (OStrikeRedis g) a = existsb (attr_eqb a) (r_attrs m)).
  { intros a. rewrite Y7, Y6, Y5 by discriminate. rewrite X4, SA. now rewrite Bool.orb_false_r. }
  assert (AN : forall g' a, (g < g')%nat -> st_attr s7 (OStrikeRedis g') a = false).
  { intros g' a H. rewrite Y7, Y6, Y5 by discriminate. rewrite Y4 by (injection; lia). change (st_attr s2 (OStrikeRedis g') a = false).
    rewrite Y2, Y1 by discriminate. apply Hn. unfold g in H. lia. }
  destruct sto as [|setup]; cbn [is_own].
  - destruct (result_enter_ok m f g s7 Ho Hs) as (s8 & E8 & G8).
    { intros ->. rewrite AR. reflexivity. }
    { intros ->. rewrite AR. reflexivity. }
    destruct G8 as [A8 B8 C8 D8 F8 X8 Y8]. rewrite E8. cbn [enter_context].
    assert (K8 : st_stack s8 ODocket = Some [CExit (OStrike g); CExit ORedis]) by (rewrite B8 by discriminate; exact A7).
    destruct (push_fields ODocket (CExit (OResult g)) s8 _ K8) as [A9 B9 C9 D9 F9 X9 Y9].
    set (s9 := push ODocket (CExit (OResult g)) s8) in *.
    assert (G9 : st_gen s9 = g) by congruence.
    exists s9. split; [reflexivity|]. split; [|split; [|split]].
    + constructor; rewrite ?G9.
      * exact A9.
      * rewrite B9, B8 by discriminate. exact R7.
      * rewrite B9, B8 by discriminate. exact S7.
      * rewrite B9, B8 by discriminate. exact T7.
      * intros _. rewrite B9 by discriminate. rewrite A8, M7. reflexivity.
      * intros a. rewrite Y9, Y8 by discriminate. apply AR.
      * intros a. rewrite Y9, Y8 by discriminate. apply AS.
      * intros g' a H. rewrite Y9, Y8 by discriminate. now apply AN.
    + rewrite C9, C8, L7, M7, app_nil_r. unfold d_opens. rewrite <- !app_assoc. reflexivity.
    + exact G9.
    + rewrite D9, D8, M7. unfold d_count, n2. lia.
  - rewrite Hs, Bool.andb_false_r. cbn [negb]. exists s7. split; [reflexivity|]. split; [|split; [|split]].
    + constructor; rewrite ?GG; try assumption; try discriminate.
    + rewrite L7. unfold d_opens. now rewrite app_nil_r.
    + exact GG.
    + rewrite M7. unfold d_count, n2. lia.
Qed.

Lemma exit_S e o s : exit_obj (S e) o s =
  match st_stack s o with None => (false, s) | Some cs => (true, set_stack o None (run_cbs (exit_obj e) cs s)) end.
Proof. reflexivity. Qed.

Lemma docket_exit_ok m own n s : inside m own n s ->
  exists s', docket_exit s = (true, s') /\ idle s' /\ st_log s' = st_log s ++ d_closes m own n /\
    st_next s' = st_next s /\ st_gen s' = st_gen s.
Proof.
  intros [ID IR IS IT IU AR AS AN]. unfold docket_exit. rewrite exit_S, ID.
  set (g := st_gen s) in *.
  (* the result storage *)
  assert (R : exists s1, run_cbs (exit_obj 2) ((if own then [CExit (OResult g)] else []) ++ [CExit (OStrike g); CExit ORedis]) s
       = run_cbs (exit_obj 2) [CExit (OStrike g); CExit ORedis] s1 /\
     st_log s1 = st_log s ++ (if own then res_closes m (S (n2 m n)) else []) /\ st_next s1 = st_next s /\ st_gen s1 = g /\
     same_stack (eq (OResult g)) s s1 /\ (forall o a, st_attr s1 o a = st_attr s o a)).
  { destruct own.
    - cbn [app run_cbs]. rewrite (exit_S 1 (OResult g)), IU by reflexivity. cbn [snd].
      eexists. split; [reflexivity|].
      destruct m; cbn [res_cbs run_cbs res_closes]; unfold set_stack, note, same_stack;
        cbn [st_log st_next st_gen st_stack st_attr]; rewrite <- ?app_assoc, ?app_nil_r; cbn [app];
        repeat split; intros o H; now rewrite (obj_eqb_ne _ _ H).
    - exists s. rewrite app_nil_r. unfold same_stack. repeat split. }
  destruct R as (s1 & E1 & L1 & N1 & G1 & B1 & A1). rewrite E1. clear E1. cbn [run_cbs].
  (* the strike list *)
  assert (S1 : st_stack s1 (OStrike g) = Some [CClose KMonitor (n2 m n); CExit (OStrikeRedis g)]) by (rewrite B1 by discriminate; exact IS).
  rewrite (exit_S 1 (OStrike g)), S1. cbn [snd run_cbs].
  set (sm := note (EClose KMonitor (n2 m n)) s1).
  destruct (redis_exit_ok m (OStrikeRedis g) (n1 m n) 0 sm) as (s2 & E2 & A2 & L2 & N2 & G2 & B2 & Y2).
  { change (st_stack s1 (OStrikeRedis g) = Some (r_cbs m (OStrikeRedis g) (n1 m n))). rewrite B1 by discriminate. exact IT. }
  { intros a. change (st_attr sm (OStrikeRedis g)) with (st_attr s1 (OStrikeRedis g)). rewrite A1, AS. now destruct m, a. }
  rewrite E2. cbn [snd].
  set (s3 := set_stack (OStrike g) None s2).
  (* the connection *)
  assert (S3 : st_stack s3 ORedis = Some (r_cbs m ORedis n)).
  { unfold s3. rewrite set_stack_others by discriminate. rewrite B2 by discriminate. change (st_stack s1 ORedis = Some (r_cbs m ORedis n)).
    rewrite B1 by discriminate. exact IR. }
  destruct (redis_exit_ok m ORedis n 1 s3 S3) as (s4 & E4 & A4 & L4 & N4 & G4 & B4 & Y4).
  { intros a. change (st_attr s3 ORedis) with (st_attr s2 ORedis). rewrite Y2 by discriminate. change (st_attr sm ORedis a) with (st_attr s1 ORedis a).
    rewrite A1, AR. now destruct m, a. }
  rewrite E4. cbn [snd].
  exists (set_stack ODocket None s4). split; [reflexivity|]. split; [|split; [|split]].
  - constructor; cbn [set_stack st_attr st_gen].
    + exact A4.
    + intros g' a H. rewrite G4 in H. change (st_gen s3) with (st_gen s2) in H. rewrite G2 in H. change (st_gen sm) with (st_gen s1) in H.
      rewrite G1 in H. rewrite Y4 by discriminate. change (st_attr s3 (OStrikeRedis g') a) with (st_attr s2 (OStrikeRedis g') a).
      rewrite Y2 by (injection; lia). change (st_attr sm (OStrikeRedis g') a) with (st_attr s1 (OStrikeRedis g') a). rewrite A1. now apply AN.
  - cbn [set_stack st_log]. rewrite L4. change (st_log s3) with (st_log s2). rewrite L2. unfold sm. cbn [note st_log]. rewrite L1.
    unfold d_closes. rewrite <- !app_assoc. reflexivity.
  - cbn [set_stack st_next]. rewrite N4. change (st_next s3) with (st_next s2). rewrite N2. exact N1.
  - cbn [set_stack st_gen]. rewrite G4. change (st_gen s3) with (st_gen s2). rewrite G2. exact G1.
Qed.

(** ** Entering when something fails *)
Record adds (s s' : st) : Prop := {
  ad_log : exists new, st_log s' = st_log s ++ new /\ Forall (fun e => exists k n, e = EOpen k n) new;
  ad_attr : forall o a, st_attr s o a = true -> st_attr s' o a = true }.
Lemma adds_refl s : adds s s.
Proof. constructor; [exists []; rewrite app_nil_r; auto|auto]. Qed.
Lemma adds_trans s1 s2 s3 : adds s1 s2 -> adds s2 s3 -> adds s1 s3.
Proof.
  intros [(l1 & A1 & B1) C1] [(l2 & A2 & B2) C2]. constructor.
  - exists (l1 ++ l2). rewrite A2, A1, app_assoc. split; [reflexivity|]. apply Forall_app. now split.
  - auto.
Qed.
Lemma adds_set o v s : adds s (set_stack o v s).
Proof. constructor; [exists []; cbn; rewrite app_nil_r; auto|auto]. Qed.
Lemma adds_push o c s : adds s (push o c s).
Proof. unfold push. destruct (st_stack s o); [apply adds_set|apply adds_refl]. Qed.
Lemma adds_attr o a s : adds s (set_attr o a true s).
Proof.
  constructor; [exists []; cbn; rewrite app_nil_r; auto|]. intros o' a' H. cbn [set_attr st_attr].
  destruct (obj_eqb o o' && attr_eqb a a')%bool; [reflexivity|exact H].
Qed.
Lemma adds_make o k s : adds s (make o k s).
Proof.
  unfold make. eapply adds_trans; [|apply adds_push]. constructor; [|auto].
  exists [EOpen k (st_next s)]. split; [reflexivity|]. repeat constructor. eauto.
Qed.
Lemma adds_make_attr o k a s : adds s (make_attr o k a s).
Proof.
  unfold make_attr. eapply adds_trans; [apply adds_attr|]. eapply adds_trans; [apply adds_push|apply adds_make].
Qed.
Ltac adds := repeat match goal with
  | |- adds ?s ?s => apply adds_refl
  | |- adds _ (push _ _ _) => eapply adds_trans; [|apply adds_push]
  | |- adds _ (set_stack _ _ _) => eapply adds_trans; [|apply adds_set]
  | |- adds _ (set_attr _ _ true _) => eapply adds_trans; [|apply adds_attr]
  | |- adds _ (make _ _ _) => eapply adds_trans; [|apply adds_make]
  | |- adds _ (make_attr _ _ _ _) => eapply adds_trans; [|apply adds_make_attr]
  end.
Lemma adds_redis m f o s : adds s (snd (redis_enter m f o s)).
Proof.
  unfold redis_enter. destruct (connected o s); [apply adds_refl|].
  destruct m; [destruct (f_open f o KPool)|destruct (f_open f o KCluster); [|destruct (f_open f o KNode)]|]; cbn [snd];
    adds.
Qed.
Lemma adds_context o o' s r : adds s (snd r) -> adds s (snd (enter_context o o' r)).
Proof. destruct r as [[] s']; cbn [snd enter_context]; intros H; [eapply adds_trans; [exact H|apply adds_push]|exact H]. Qed.
Lemma adds_bind s r f : adds s (snd r) -> (forall s', adds s' (snd (f s'))) -> adds s (snd (bind r f)).
Proof. destruct r as [[] s']; cbn [snd bind]; intros H K; [eapply adds_trans; [exact H|apply K]|exact H]. Qed.
Lemma adds_strike m f g s : adds s (snd (strike_enter m f g s)).
Proof.
  unfold strike_enter. destruct (connected _ _); [apply adds_set|].
  eapply adds_trans; [apply adds_set|]. apply adds_bind; [apply adds_context, adds_redis|].
  intros s'. apply adds_make.
Qed.
Lemma adds_result m f g s : adds s (snd (result_enter m f g s)).
Proof.
  unfold result_enter. destruct m.
  - destruct (f_open f (OResult g) KPool); cbn [snd]; adds.
  - destruct (st_attr _ _ _); cbn [snd]; adds.
  - destruct (st_attr _ _ _); cbn [snd]; adds.
Qed.

(** The rest of the entering, after the connection. *)
Definition rest (m : mode) (sto : storage) (f : faults) (g : nat) (s : st) : bool * st :=
  bind (enter_context ODocket (OStrike g) (strike_enter m f g s)) (fun s =>
  match sto with
  | User setup => ((negb (setup && f_setup f))%bool, s)
  | Own => enter_context ODocket (OResult g) (result_enter m f g s)
  end).
Lemma adds_rest m sto f g s : adds s (snd (rest m sto f g s)).
Proof.
  unfold rest. apply adds_bind; [apply adds_context, adds_strike|]. intros s'.
  destruct sto; cbn [snd]; [apply adds_context, adds_result|apply adds_refl].
Qed.

Definition start (s : st) : st :=
  St (st_attr s) (st_stack (set_stack ODocket (Some []) s)) (S (st_gen s)) (st_next s) (st_log s).
Lemma enter_parts m sto f s :
  docket_enter m sto f s = bind (enter_context ODocket ORedis (redis_enter m f ORedis (start s))) (rest m sto f (S (st_gen s))).
Proof. reflexivity. Qed.

Lemma at_once_enter m sto f s : at_once m f -> idle s ->
  docket_enter m sto f s = (false, set_stack ORedis (Some []) (start s)).
Proof.
  intros H [Hr _]. rewrite enter_parts. unfold redis_enter.
  rewrite (idle_connected ORedis (start s) Hr). destruct m; cbn [at_once] in H; [| |destruct H]; rewrite H; reflexivity.
Qed.
Lemma connected_enter m sto f s : connected ORedis s = true -> docket_enter m sto f s = (false, start s).
Proof. intros H. rewrite enter_parts. unfold redis_enter. change (connected ORedis (start s)) with (connected ORedis s). now rewrite H. Qed.

(** An entering that gets past the first connection leaves the connection marked, and its first
    thing open. *)
Lemma late_enter m sto f s : idle s -> ~ at_once m f ->
  let s' := snd (docket_enter m sto f s) in
  adds s s' /\ connected ORedis s' = true /\ exists k, In (EOpen k (st_next s)) (st_log s').
Proof.
  intros [Hr Hn] Ho. cbv zeta. rewrite enter_parts.
  assert (A0 : adds s (start s)) by (constructor; [exists []; cbn; rewrite app_nil_r; auto|auto]).
  assert (Ac : forall s1 s2, adds s1 s2 -> connected ORedis s1 = true -> connected ORedis s2 = true).
  { intros s1 s2 [_ H]. unfold connected. rewrite !Bool.orb_true_iff. intros [[X|X]|X]; apply H in X; rewrite X; auto. }
  assert (Ai : forall s1 s2 e, adds s1 s2 -> In e (st_log s1) -> In e (st_log s2)).
  { intros s1 s2 e [(l & E & _) _] H. rewrite E. apply in_or_app. now left. }
  set (s0 := start s) in *.
  assert (N : st_stack (set_stack ORedis (Some []) s0) ORedis <> None) by (rewrite fresh_stack; discriminate).
  assert (C0 : connected ORedis s0 = false) by (apply idle_connected; exact Hr).
  assert (P : forall r, adds s0 (snd r) -> adds s (snd (bind (enter_context ODocket ORedis r) (rest m sto f (S (st_gen s)))))).
  { intros r Hr'. eapply adds_trans; [exact A0|]. apply adds_bind; [now apply adds_context|]. intros. apply adds_rest. }
  assert (Q : forall r, adds (snd r) (snd (bind (enter_context ODocket ORedis r) (rest m sto f (S (st_gen s)))))).
  { intros r. apply adds_bind; [apply adds_context, adds_refl|]. intros. apply adds_rest. }
  pose proof (adds_redis m f ORedis s0) as AR.
  split; [now apply P|].
  destruct m.
  - cbn [at_once] in Ho. unfold redis_enter in *. rewrite C0 in *. destruct (f_open f ORedis KPool); [contradiction Ho; reflexivity|].
    pose proof (grown_make_attr ORedis KPool APool _ N) as G. cbn [snd] in *.
    split.
    + eapply Ac; [apply Q|]. cbn [snd]. unfold connected. rewrite (gr_attr _ _ _ _ _ _ _ G). reflexivity.
    + exists KPool. eapply Ai; [apply Q|]. cbn [snd]. rewrite (gr_log _ _ _ _ _ _ _ G). apply in_or_app. right. left. reflexivity.
  - cbn [at_once] in Ho. unfold redis_enter in *. rewrite C0 in *. destruct (f_open f ORedis KCluster); [contradiction Ho; reflexivity|].
    pose proof (grown_make_attr ORedis KCluster ACluster _ N) as G.
    set (s1 := make_attr ORedis KCluster ACluster (set_stack ORedis (Some []) s0)) in *.
    set (r := if f_open f ORedis KNode then (false, s1) else (true, make_attr ORedis KNode ANode s1)) in *.
    assert (A1 : adds s1 (snd r)) by (unfold r; destruct (f_open f ORedis KNode); cbn [snd]; adds).
    split.
    + eapply Ac; [apply Q|]. eapply Ac; [exact A1|]. unfold connected. rewrite (gr_attr _ _ _ _ _ _ _ G).
      cbn [existsb attr_eqb orb]. apply Bool.orb_true_iff. left. apply Bool.orb_true_r.
    + exists KCluster. eapply Ai; [apply Q|]. eapply Ai; [exact A1|]. rewrite (gr_log _ _ _ _ _ _ _ G). apply in_or_app. right. left. reflexivity.
  - unfold redis_enter in *. rewrite C0 in *. cbn [snd enter_context bind] in *.
    set (s1 := push ORedis (CUnset ORedis AMemory) (set_attr ORedis AMemory true (set_stack ORedis (Some []) s0))) in *.
    assert (C1 : connected ORedis s1 = true).
    { eapply Ac; [apply adds_push|]. unfold connected, set_attr. cbn [st_attr]. apply Bool.orb_true_r. }
    assert (N1 : st_next s1 = st_next s).
    { unfold s1, push. destruct (st_stack (set_attr ORedis AMemory true (set_stack ORedis (Some []) s0)) ORedis); reflexivity. }
    assert (G1 : forall g a, (st_gen s < g)%nat -> st_attr s1 (OStrikeRedis g) a = false).
    { intros g a H. unfold s1, push. destruct (st_stack (set_attr ORedis AMemory true (set_stack ORedis (Some []) s0)) ORedis);
        cbn [set_stack set_attr st_attr obj_eqb andb]; apply Hn; exact H. }
    set (s2 := push ODocket (CExit ORedis) s1) in *.
    assert (N2 : st_next s2 = st_next s) by (unfold s2, push; destruct (st_stack s1 ODocket); exact N1).
    assert (G2 : forall a, st_attr s2 (OStrikeRedis (S (st_gen s))) a = false).
    { intros a. unfold s2, push. destruct (st_stack s1 ODocket); cbn [set_stack st_attr]; apply G1; lia. }
    split.
    + eapply Ac; [apply adds_rest|]. eapply Ac; [apply adds_push|]. exact C1.
    + exists KMonitor. unfold rest.
      set (g := S (st_gen s)) in *. unfold strike_enter.
      set (s3 := set_stack (OStrike g) (Some []) s2).
      rewrite (idle_connected (OStrikeRedis g) s3 G2). unfold redis_enter. rewrite (idle_connected (OStrikeRedis g) s3 G2).
      cbn [enter_context bind].
      set (s4 := push (OStrikeRedis g) (CUnset (OStrikeRedis g) AMemory) (set_attr (OStrikeRedis g) AMemory true (set_stack (OStrikeRedis g) (Some []) s3))).
      assert (N4 : st_next s4 = st_next s).
      { unfold s4, push. destruct (st_stack (set_attr (OStrikeRedis g) AMemory true (set_stack (OStrikeRedis g) (Some []) s3)) (OStrikeRedis g)); exact N2. }
      set (s5 := push (OStrike g) (CExit (OStrikeRedis g)) s4).
      assert (N5 : st_next s5 = st_next s) by (unfold s5, push; destruct (st_stack s4 (OStrike g)); exact N4).
      eapply Ai; [|apply (Ai (make (OStrike g) KMonitor s5)); [apply adds_push|]].
      * destruct sto; [apply adds_context, adds_result|apply adds_refl].
      * unfold make. eapply Ai; [apply adds_push|]. cbn [note st_log]. rewrite N5. apply in_or_app. right. left. reflexivity.
Qed.
