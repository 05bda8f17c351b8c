(** Proofs for the clean-up after cancellations (C108). *)
From Verif Require Import Base ZSet Model GInv KView KSim KInv KLine Spec Hist WaitProofs Steps Steps3 GuardProofs PropsHist Cleanup SpecCleanup.

(** ** A step adds only fresh entries *)

Lemma step_good c s o : GInv s -> good (s_db s) (s_db (fst (step c s o))).
Proof.
  intros H. destruct o; cbn [step]; cbv zeta; unfold set_db, set_execs; cbn [fst s_db].
  - destruct (0 <=? dt); cbn; [apply good_tick|apply good_refl].
  - unfold do_schedule. destruct (lua_schedule _ _ _ _ _ _ _) as [d r] eqn:E; cbn.
    replace d with (fst (lua_schedule (s_db s) (a_key a) (a_when a) (a_when a <=? t) false None (call_msg a))) by now rewrite E.
    apply good_schedule; reflexivity.
  - unfold do_schedule. destruct (lua_schedule _ _ _ _ _ _ _) as [d r] eqn:E; cbn.
    replace d with (fst (lua_schedule (s_db s) (a_key a) (a_when a) (a_when a <=? t) true None (call_msg a))) by now rewrite E.
    apply good_schedule; reflexivity.
  - apply good_cancel.
  - apply good_cancel_finish.
  - apply good_refl.
  - apply good_refl.
  - destruct (ready_clear s _) as [sn|]; [|apply good_refl]. destruct (clear_apply _ _ _) as [d n] eqn:E; cbn.
    replace d with (fst (clear_apply (c_ttl c) (s_db s) sn)) by now rewrite E. apply good_clear_apply.
  - destruct (lua_stream_due _ _) as [d [a b]] eqn:E; cbn.
    replace d with (fst (lua_stream_due (s_db s) t)) by now rewrite E. apply good_stream_due.
  - unfold deliver. destruct (read_group _ _) as [d o] eqn:E.
    assert (Hd : good (s_db s) d) by (replace d with (fst (read_group (s_db s) w)) by (now rewrite E); apply good_read).
    destruct o as [[i m]|]; exact Hd.
  - unfold deliver. destruct (autoclaim _ _ _ _) as [d o] eqn:E.
    assert (Hd : good (s_db s) d) by (replace d with (fst (autoclaim c (s_db s) w i)) by (now rewrite E); apply good_autoclaim).
    destruct o as [[j m]|]; exact Hd.
  - apply good_renew.
  - destruct (get_exec _ _) as [x|] eqn:G; [|apply good_refl]. destruct (x_phase x); try apply good_refl.
    destruct (lua_claim _ _ _ _ _ _) as [d r] eqn:E.
    assert (Hd : good (s_db s) d).
    { replace d with (fst (lua_claim (s_db s) (m_key (x_msg x)) (x_worker x) t (m_gen (x_msg x)) (x_mid x))) by now rewrite E. apply good_claim. }
    destruct r; exact Hd.
  - destruct (get_exec _ _) as [x|] eqn:G; [|apply good_refl]. destruct (x_phase x); apply good_refl.
  - destruct (get_exec _ _) as [x|] eqn:G; [|apply good_refl]. destruct (x_phase x); apply good_refl.
  - destruct (get_exec _ _) as [x|] eqn:G; [|apply good_refl]. destruct (x_phase x); try apply good_refl. apply good_delete_known.
  - destruct (get_exec _ _) as [x|] eqn:G; [|apply good_refl]. destruct (may_finish _ _); try apply good_refl.
    destruct (lua_terminal _ _ _ _ _ _ _ _ _) as [d r] eqn:E; cbn.
    replace d with (fst (lua_terminal (s_db s) (m_key (x_msg x)) (m_gen (x_msg x)) s0 t (c_ttl c) err res (x_mid x))) by now rewrite E.
    apply good_terminal.
  - destruct (get_exec _ _) as [x|] eqn:G; [|apply good_refl]. destruct (may_resched _); try apply good_refl. apply good_reschedule; reflexivity.
  - destruct (get_exec _ _) as [x|] eqn:G; [|apply good_refl].
    destruct (x_phase x); try apply good_refl; destruct (x_slot x); try apply good_refl.
    destruct (lua_acquire_or_park _ _ _ _ _ _ _ _ _ _) as [d b] eqn:E; cbn.
    replace d with (fst (lua_acquire_or_park (s_db s) c0 maxc (m_key (x_msg x)) t (x_redel x) (t - c_redeliver c)
      (slot_ttl c) (x_mid x) (x_msg x))) by now rewrite E. now apply good_acquire.
  - destruct (get_exec _ _) as [x|] eqn:G; [|apply good_refl].
    destruct (x_slot x) as [[cc mx]|]; [|destruct (x_phase x); apply good_refl].
    destruct (x_phase x); try apply good_refl; apply good_release.
  - destruct (get_exec _ _) as [x|] eqn:G; [|apply good_refl]. destruct (x_slot x) as [[cc mx]|]; [|apply good_refl]. apply good_take_slot.
  - apply good_scavenge.
  - apply good_cancel_cleanup.
  - apply good_refl.
Qed.

(** ** The joint machine *)

Lemma xstep_sys c g o : x_sys (fst (xstep c g o)) = match performed g o with Some o' => fst (step c (x_sys g) o') | None => x_sys g end.
Proof.
  destruct o as [o|k|w|w t|w]; cbn [xstep performed]; try reflexivity.
  - destruct o; try reflexivity; match goal with |- context [step c (x_sys g) ?o] => destruct (step c (x_sys g) o) end; reflexivity.
  - destruct (x_subs g w); reflexivity.
  - destruct (x_subs g w) as [u|]; [|reflexivity]. destruct (sub_call u t) as [o'|]; [destruct (step c (x_sys g) o')|]; reflexivity.
Qed.

Lemma xfinal_app c l1 l2 : forall g, xfinal c g (l1 ++ l2) = xfinal c (xfinal c g l1) l2.
Proof. induction l1; intros g; cbn; auto. Qed.

(** The subscriber of [w'] after a step, as a function of what it was. *)
Definition sub_told (c : cfg) (g : xsys) (o : xop) (w' : string) (u' : sub) : Prop :=
  exists u, x_subs g w' = Some u /\
    (u' = u \/ (exists k, u' = mkSub (u_inbox u ++ [k]) (u_pc u) /\ (o = XPublish k \/ exists k', k = safeguard_key k')) \/
     exists t, o = XGo w' t /\
       (u' = sub_next (s_db (x_sys g)) u \/ exists k, u_pc u = XSafePublish k /\ u' = mkSub (u_inbox u ++ [safeguard_key k]) XIdle)).

Lemma sub_after c g o w' u' : x_subs (fst (xstep c g o)) w' = Some u' -> u' = mkSub [] XIdle \/ sub_told c g o w' u'.
Proof.
  intros H.
  assert (Same : x_subs g w' = Some u' -> u' = mkSub [] XIdle \/ sub_told c g o w' u') by (intros E; right; exists u'; auto).
  assert (Tell : forall k us, tell_all k us w' = Some u' -> exists u, us w' = Some u /\ u' = mkSub (u_inbox u ++ [k]) (u_pc u)).
  { intros k us. unfold tell_all, tell. destruct (us w') as [u|]; [|discriminate]. intros [= <-]. eauto. }
  destruct o as [o|k|w|w t|w]; cbn [xstep] in H.
  - assert (H' : x_subs g w' = Some u' \/ exists w, upd (x_subs g) w None w' = Some u').
    { destruct o; revert H; try (destruct (step c (x_sys g) _)); cbn; eauto. }
    destruct H' as [H'|(w & H')]; [now apply Same|]. destruct (string_dec w' w) as [->|N]; [rewrite upd_eq in H'; discriminate|].
    rewrite upd_neq in H' by auto. now apply Same.
  - apply Tell in H as (u & H1 & H2). right. exists u. split; [exact H1|]. right. left. eauto.
  - destruct (x_subs g w) eqn:E; [now apply Same|]. cbn in H. destruct (string_dec w' w) as [->|N].
    + rewrite upd_eq in H. injection H as <-. auto.
    + rewrite upd_neq in H by auto. now apply Same.
  - destruct (x_subs g w) as [u|] eqn:E; [|now apply Same].
    assert (H' : match u_pc u with
                 | XSafePublish k => tell_all (safeguard_key k) (upd (x_subs g) w (Some (sub_next (s_db (x_sys g)) u)))
                 | _ => upd (x_subs g) w (Some (sub_next (s_db (x_sys g)) u)) end w' = Some u').
    { revert H. destruct (sub_call u t) as [o'|]; [destruct (step c (x_sys g) o')|]; cbn; auto. }
    clear H. right.
    destruct (string_dec w' w) as [->|N].
    + destruct (u_pc u) eqn:P; try (rewrite upd_eq in H'; injection H' as <-; exists u; eauto 8; fail).
      apply Tell in H' as (v & H1 & H2). rewrite upd_eq in H1. injection H1 as <-. exists u. split; [exact E|]. right. right. exists t.
      split; [reflexivity|]. right. exists k. split; [exact P|]. rewrite H2. unfold sub_next. rewrite P. reflexivity.
    + destruct (u_pc u); try (rewrite upd_neq in H' by auto; exists u'; auto; fail).
      apply Tell in H' as (v & H1 & H2). rewrite upd_neq in H1 by auto. exists v. split; [exact H1|]. right. left. eauto.
  - cbn in H. destruct (string_dec w' w) as [->|N]; [rewrite upd_eq in H; discriminate|]. rewrite upd_neq in H by auto. now apply Same.
Qed.

(** A place that a subscriber has read belongs to the key, for good. *)
Definition Own (g : xsys) : Prop :=
  GInv (x_sys g) /\
  forall w u k cc i, x_subs g w = Some u -> u_pc u = XHave k cc i ->
    i < d_next (s_db (x_sys g)) /\ forall m, In (i, m) (wids (s_db (x_sys g))) -> m_key m = k.

Lemma Own_step c g o : Own g -> Own (fst (xstep c g o)).
Proof.
  intros [G O].
  assert (Ex : GInv (x_sys (fst (xstep c g o))) /\ ext (s_db (x_sys g)) (s_db (x_sys (fst (xstep c g o))))).
  { rewrite xstep_sys. destruct (performed g o) as [o'|]; [|split; [exact G|apply ext_refl]].
    split; [now apply GInv_step|]. apply (step_good c _ o' G). apply G. }
  destruct Ex as [G' E]. split; [exact G'|]. intros w u' k cc i Hu Hp.
  assert (Old : i < d_next (s_db (x_sys g)) /\ (forall m, In (i, m) (wids (s_db (x_sys g))) -> m_key m = k)).
  { apply sub_after in Hu as [->|(u & Hu & D)]; [discriminate|].
    destruct D as [->|[(k' & -> & Hk')|(t & -> & [->|(k' & _ & ->)])]]; [now apply (O w u k cc)|now apply (O w u k cc)| |discriminate].
    unfold sub_next in Hp. destruct (u_pc u) eqn:P; try discriminate. destruct (u_inbox u) as [|k0 q]; [congruence|]. cbn in Hp.
    destruct (String.eqb k0 ""); [discriminate|]. destruct (r_wstream _) as [c0|]; [|discriminate].
    destruct (r_wid (rget (s_db (x_sys g)) k0)) as [i0|] eqn:W; [|discriminate]. injection Hp as <- <- <-.
    apply (di_wid _ (proj1 G) k0 i0 W). }
  destruct Old as [O1 O2]. pose proof (ex_next _ _ E) as N. split; [lia|]. intros m Hm.
  apply (ex_wait _ _ E) in Hm as [Hm|Hm]; [now apply O2|cbn in Hm; lia].
Qed.

Lemma Own_init : Own init_xsys.
Proof. split; [apply GInv_init|]. intros w u k cc i H. discriminate. Qed.

Lemma xreachable_ind c (P : xsys -> Prop) : P init_xsys -> (forall g o, P g -> P (fst (xstep c g o))) -> forall g, xreachable c g -> P g.
Proof.
  intros H0 HS g (l & ->). revert H0. generalize init_xsys. induction l as [|o l IH]; intros g H; cbn; auto.
Qed.
Lemma xreachable_Own c g : xreachable c g -> Own g.
Proof. apply xreachable_ind; [apply Own_init|]. intros g0 o. apply Own_step. Qed.
Lemma xreachable_sys c g : xreachable c g -> reachable c (x_sys g).
Proof.
  apply (xreachable_ind c (fun g => reachable c (x_sys g))); [exists []; reflexivity|]. intros g0 o R. rewrite xstep_sys. destruct (performed g0 o); [now apply reachable_step|exact R].
Qed.

Lemma own_place_true g w u k cc i : Own g -> x_subs g w = Some u -> u_pc u = XHave k cc i -> own_place (s_db (x_sys g)) k cc i = true.
Proof.
  intros [_ O] Hu Hp. destruct (O w u k cc i Hu Hp) as [_ H]. unfold own_place. apply forallb_forall. intros [c' [i' m]] Hin. cbn [fst snd].
  destruct (Z.eqb_spec i' i) as [->|]; [|rewrite andb_false_r; reflexivity].
  assert (Hw : In (i, m) (wids (s_db (x_sys g)))) by (change (i, m) with (snd (c', (i, m))); now apply in_map).
  rewrite (H m Hw), String.eqb_refl, orb_true_r. reflexivity.
Qed.

(** The script, in full. *)
Lemma script_step c g w u k cc i t : Own g -> x_subs g w = Some u -> u_pc u = XHave k cc i ->
  x_sys (fst (xstep c g (XGo w t))) =
    set_db (x_sys g) (hdel (del_prog (del_waiter cc i (s_db (x_sys g))) k) k rdel_waiter).
Proof.
  intros O Hu Hp. rewrite xstep_sys. cbn [performed]. rewrite Hu. unfold sub_call. rewrite Hp. cbn [step fst]. unfold cancel_cleanup.
  rewrite (own_place_true g w u k cc i O Hu Hp). reflexivity.
Qed.

(** ** Only what belongs to the key *)

Lemma sub_frame c g w t k k' : xreachable c g -> busy_with g w k -> k' <> k -> k' <> safeguard_key k ->
  same_for k' (x_sys g) (x_sys (fst (xstep c g (XGo w t)))).
Proof.
  intros R (u & Hu & B) N1 N2. pose proof (xreachable_Own c g R) as [G _]. rewrite xstep_sys. cbn [performed]. rewrite Hu. unfold sub_call.
  assert (Refl : same_for k' (x_sys g) (x_sys g)) by (repeat split; auto).
  destruct (u_pc u); [contradiction| | | |exact Refl]; subst.
  - now apply (frame c _ _ k).
  - now apply (frame c _ _ (safeguard_key k)).
  - now apply (frame c _ _ (safeguard_key k)).
Qed.

(** ** Everything is cleaned *)

Record Placed (cc : string) (i : sid) (v : ks) : Prop := mkPlaced {
  pl_idle : Idle v;
  pl_only : forall c' i' m, In (c', (i', m)) (k_wait v) -> c' = cc /\ i' = i;
  pl_mine : (r_wstream (kr v) = None /\ r_wid (kr v) = None) \/ (r_wstream (kr v) = Some cc /\ r_wid (kr v) = Some i);
  pl_rec : k_wait v = [] \/ (k_runs v <> None /\ r_wstream (kr v) = Some cc) }.

Lemma khdel_fields v f : r_wstream (f (kr v)) = r_wstream (kr v) -> r_wid (f (kr v)) = r_wid (kr v) ->
  r_wstream (kr (khdel v f)) = r_wstream (kr v) /\ r_wid (kr (khdel v f)) = r_wid (kr v).
Proof. unfold khdel, kr. cbn. destruct (k_runs v); cbn; auto. Qed.

Lemma fields_apply c k v e : kok k v e -> Idle v -> (forall r im a, e <> KSched r im a) ->
  (r_wstream (kr (kapply c v e)) = r_wstream (kr v) /\ r_wid (kr (kapply c v e)) = r_wid (kr v)) \/
  (r_wstream (kr (kapply c v e)) = None /\ r_wid (kr (kapply c v e)) = None /\ (k_runs (kapply c v e) = None \/ exists c' i', e = KCleanup c' i')).
Proof.
  intros Hok [G1 G2 G3 G4] NS. destruct e; cbn [kapply]; try (left; split; reflexivity); try (right; repeat split; auto; fail).
  - left. apply khdel_fields; reflexivity.
  - exfalso. eapply NS; reflexivity.
  - left. unfold kcancel. cbv zeta. set (v0 := kset_prog (kreplace_existing v) None).
    assert (E1 : kr v0 = kr v) by (unfold kr, v0, kreplace_existing; destruct (r_sid _); reflexivity).
    destruct (khdel_fields v0 rdel_known eq_refl eq_refl) as [E2 E3]. set (v1 := khdel v0 rdel_known) in *.
    rewrite E1 in E2, E3. destruct (r_state (kr v1)) as [[]|]; cbn; auto.
  - left. unfold kmove. rewrite G2. auto.
  - exfalso. destruct Hok as [H1 H2]. apply G4 in H1. congruence.
  - exfalso. destruct Hok as [H1 H2]. apply G4 in H1. congruence.
  - exfalso. destruct Hok as [H1 H2]. apply G4 in H1. rewrite H1 in H2. discriminate H2.
  - exfalso. destruct Hok as [H1 H2]. apply G4 in H1. rewrite H1 in H2. discriminate H2.
  - exfalso. destruct Hok as [H1 H2]. apply G4 in H1. congruence.
  - left. unfold kwake. destruct (r_state (kr v)) as [[]|]; try (split; reflexivity). now destruct G3.
  - right. unfold kcleanup, khdel, kr. cbn. destruct (k_runs v); cbn; repeat split; eauto.
Qed.

Lemma Placed_apply c k cc i v e : kok k v e -> UInv k v -> (k_runs v <> None -> k_runs (kapply c v e) <> None) ->
  (forall r im a, e <> KSched r im a) -> (forall c' i', e = KCleanup c' i' -> c' = cc /\ i' = i) ->
  Placed cc i v -> Placed cc i (kapply c v e).
Proof.
  intros Hok U K NS NC [Id On Mi Rec]. pose proof Id as [G1 G2 G3 G4].
  assert (NP : forall x c', e <> KPark x c'). { intros x c' ->. destruct Hok as [H1 H2]. apply G4 in H1. congruence. }
  pose proof (fields_apply c k v e Hok Id NS) as F.
  constructor.
  - now apply (Idle_apply c k).
  - intros c' i' m H. apply (wait_apply c k v e _ _ _ Hok) in H as [H|(x & -> & _)]; [now apply (On _ _ m)|now destruct (NP x c')].
  - destruct F as [[-> ->]|(-> & -> & _)]; auto.
  - assert (Sub : forall e', In e' (k_wait (kapply c v e)) -> In e' (k_wait v)).
    { intros [c' [i' m]] H. apply (wait_apply c k v e _ _ _ Hok) in H as [H|(x & -> & _)]; [exact H|now destruct (NP x c')]. }
    destruct Rec as [Rec|(R0 & R1)].
    { left. destruct (k_wait (kapply c v e)) as [|e' l]; [reflexivity|]. exfalso. rewrite Rec in Sub. apply (Sub e'). now left. }
    specialize (K R0). destruct F as [[-> _]|(_ & _ & [F|(c' & i' & ->)])]; [auto|contradiction|].
    left. destruct (NC c' i' eq_refl) as [-> ->].
    destruct (k_wait (kapply c v (KCleanup cc i))) as [|[c' [i' m]] l] eqn:E; [reflexivity|exfalso].
    assert (H : In (c', (i', m)) ((c', (i', m)) :: l)) by now left. rewrite <- E in H. cbn in H. apply filter_In in H as [H1 H2].
    destruct (On _ _ _ H1) as [-> ->]. cbn in H2. rewrite String.eqb_refl, Z.eqb_refl in H2. discriminate.
Qed.

Lemma Placed_step c k cc i s o : GInv s -> UInv k (kabs k s) -> keeps c k s o -> no_schedule k o ->
  (forall c' i', o = OCancelCleanup k c' i' -> c' = cc /\ i' = i) ->
  Placed cc i (kabs k s) -> Placed cc i (kabs k (fst (step c s o))).
Proof.
  intros G U K N NC. apply kept_ind; auto. intros v e Hok L U1 U2 K1 _. apply (Placed_apply c k); auto.
  - intros r im a ->. cbn in L, Hok. destruct L as (t & -> & _). destruct r; cbn in N; congruence.
  - intros c' i' ->. cbn in L. auto.
Qed.

(** Before the message of [k] reaches [w]'s subscriber ([pub] is false) and after. *)
Record Cleaning (c : cfg) (k : key) (cc : string) (i : sid) (w : string) (pub : bool) (g : xsys) : Prop := mkCleaning {
  cg_reach : reachable c (x_sys g);
  cg_own : Own g;
  cg_placed : Placed cc i (kabs k (x_sys g));
  cg_hands : forall w' u c' i', x_subs g w' = Some u -> u_pc u = XHave k c' i' -> c' = cc /\ i' = i;
  cg_sub : exists u, x_subs g w = Some u /\
    (pub = true -> In k (u_inbox u) \/ u_pc u = XHave k cc i \/ k_wait (kabs k (x_sys g)) = []) }.

Definition publishes (k : key) (o : xop) : bool := match o with XPublish k' => String.eqb k' k | _ => false end.

Lemma stays c g o w u : x_subs g w = Some u -> o <> XEnd w -> o <> XOp (OCrash w) ->
  exists u', x_subs (fst (xstep c g o)) w = Some u' /\
    match o with
    | XPublish k => u' = mkSub (u_inbox u ++ [k]) (u_pc u)
    | XGo w' _ => if String.eqb w' w then exists q, u' = mkSub (u_inbox (sub_next (s_db (x_sys g)) u) ++ q) (u_pc (sub_next (s_db (x_sys g)) u))
                  else u_pc u' = u_pc u /\ exists q, u_inbox u' = u_inbox u ++ q
    | _ => u' = u
    end.
Proof.
  intros Hu N1 N2. destruct o as [o|k|w'|w' t|w']; cbn [xstep].
  - assert (E : (fst (xstep c g (XOp o))) = g \/ exists s, x_subs (mkXsys s (match o with OCrash w0 => upd (x_subs g) w0 None | _ => x_subs g end)) = x_subs (fst (xstep c g (XOp o)))).
    { destruct o; cbn [xstep]; try (left; reflexivity); right; exists (x_sys g); match goal with |- context [step c (x_sys g) ?o] => destruct (step c (x_sys g) o) end; reflexivity. }
    exists u. split; [|reflexivity]. cbn [xstep] in E. destruct E as [->|(s & <-)]; [exact Hu|].
    destruct o; try exact Hu. cbn. rewrite upd_neq; [exact Hu|]. congruence.
  - cbn. unfold tell_all, tell. rewrite Hu. eauto.
  - exists u. split; [|reflexivity]. destruct (x_subs g w') eqn:E; [exact Hu|]. cbn. rewrite upd_neq; [exact Hu|]. congruence.
  - destruct (x_subs g w') as [u0|] eqn:E.
    2:{ exists u. split; [exact Hu|]. destruct (String.eqb_spec w' w) as [->|]; [congruence|]. split; [reflexivity|]. exists []. now rewrite app_nil_r. }
    assert (H' : forall r, x_subs (fst (let '(s, r) := match sub_call u0 t with Some o => step c (x_sys g) o | None => (x_sys g, ODone) end in
      (mkXsys s (match u_pc u0 with XSafePublish k => tell_all (safeguard_key k) (upd (x_subs g) w' (Some (sub_next (s_db (x_sys g)) u0))) | _ => upd (x_subs g) w' (Some (sub_next (s_db (x_sys g)) u0)) end), r))) w = r <->
      match u_pc u0 with XSafePublish k => tell_all (safeguard_key k) (upd (x_subs g) w' (Some (sub_next (s_db (x_sys g)) u0))) | _ => upd (x_subs g) w' (Some (sub_next (s_db (x_sys g)) u0)) end w = r).
    { intros r. destruct (sub_call u0 t) as [o'|]; [destruct (step c (x_sys g) o')|]; reflexivity. }
    destruct (String.eqb_spec w' w) as [->|Nw].
    + rewrite Hu in E. injection E as <-.
      destruct (u_pc u) eqn:P; (eexists; split; [apply H'; try (rewrite upd_eq; reflexivity); unfold tell_all, tell; rewrite upd_eq; reflexivity|]);
        try (exists []; rewrite app_nil_r; destruct (sub_next _ u); reflexivity). exists [safeguard_key k]. reflexivity.
    + destruct (u_pc u0) eqn:P; (eexists; split; [apply H'; try (rewrite upd_neq by auto; exact Hu); unfold tell_all, tell; rewrite upd_neq by auto; rewrite Hu; reflexivity|]);
        (split; [reflexivity|]); try (exists []; now rewrite app_nil_r). exists [safeguard_key k]. reflexivity.
  - cbn. exists u. split; [|reflexivity]. rewrite upd_neq; [exact Hu|]. congruence.
Qed.

Lemma wait_kept_nil c k s o : GInv s -> UInv k (kabs k s) -> no_schedule k o -> Idle (kabs k s) -> k_wait (kabs k s) = [] -> k_wait (kabs k (fst (step c s o))) = [].
Proof.
  intros G U N I E. assert (H : Idle (kabs k (fst (step c s o))) /\ k_wait (kabs k (fst (step c s o))) = []); [|apply H].
  apply (step_ind c k s o (fun v => Idle v /\ k_wait v = [])); auto. intros v e Hok L U1 _ _ [I1 E1].
  assert (NS : forall r i a, e <> KSched r i a).
  { intros r i a ->. cbn in L, Hok. destruct L as (t & -> & _). destruct r; cbn in N; congruence. }
  split; [now apply (Idle_apply c k)|]. destruct (k_wait (kapply c v e)) as [|[c' [i' m]] l] eqn:E2; [reflexivity|exfalso].
  assert (H : In (c', (i', m)) (k_wait (kapply c v e))) by (rewrite E2; now left).
  apply (wait_apply c k v e _ _ _ Hok) in H as [H|(x & -> & _)]; [rewrite E1 in H; contradiction|].
  destruct Hok as [H1 H2]. apply (id_exec _ I1) in H1. congruence.
Qed.

Lemma Cleaning_step c k cc i w pub g o : k <> ""%string -> Cleaning c k cc i w pub g -> undisturbed_cleanup c k w g o ->
  Cleaning c k cc i w (pub || publishes k o) (fst (xstep c g o)).
Proof.
  intros Nk [R O Pl Ha (u & Hu & Pb)] (N1 & N2 & N3).
  pose proof (reachable_GInv c _ R) as G. pose proof (reachable_UInv c k _ R) as U.
  assert (NC : forall o' c' i', performed g o = Some o' -> o' = OCancelCleanup k c' i' -> c' = cc /\ i' = i).
  { intros o' c' i' P ->. destruct o as [o|k'|w'|w' t|w']; cbn [performed] in P; try discriminate.
    - destruct o; discriminate.
    - destruct (x_subs g w') as [u'|] eqn:E; [|discriminate]. unfold sub_call in P. destruct (u_pc u') eqn:Q; try discriminate. injection P as -> -> ->. eauto. }
  assert (Pl' : Placed cc i (kabs k (x_sys (fst (xstep c g o))))).
  { rewrite xstep_sys. destruct (performed g o) as [o'|] eqn:P; [|exact Pl]. destruct (N3 o' eq_refl). apply Placed_step; auto. intros c' i' E. now apply (NC o'). }
  assert (Nil : k_wait (kabs k (x_sys g)) = [] -> k_wait (kabs k (x_sys (fst (xstep c g o)))) = []).
  { intros E. rewrite xstep_sys. destruct (performed g o) as [o'|] eqn:P; [|exact E]. apply wait_kept_nil; auto; [now apply N3|apply Pl]. }
  constructor.
  - rewrite xstep_sys. destruct (performed g o); [now apply reachable_step|exact R].
  - now apply Own_step.
  - exact Pl'.
  - intros w' u' c' i' Hu' Hp. apply sub_after in Hu' as [->|(v & Hv & D)]; [discriminate|].
    destruct D as [->|[(k' & -> & Hk')|(t & -> & [->|(k' & _ & ->)])]]; [eauto|eauto| |discriminate].
    unfold sub_next in Hp. destruct (u_pc v) eqn:P; try discriminate. destruct (u_inbox v) as [|k0 q]; [congruence|]. cbn in Hp.
    destruct (String.eqb k0 ""); [discriminate|]. destruct (r_wstream (rget (s_db (x_sys g)) k0)) as [c0|] eqn:W0; [|discriminate].
    destruct (r_wid (rget (s_db (x_sys g)) k0)) as [i0|] eqn:W; [|discriminate]. injection Hp as -> -> ->.
    change (r_wstream (kr (kabs k (x_sys g))) = Some c') in W0. change (r_wid (kr (kabs k (x_sys g))) = Some i') in W.
    destruct (pl_mine _ _ _ Pl) as [[M1 _]|[M1 M2]]; [congruence|]. split; congruence.
  - destruct (stays c g o w u Hu N1 N2) as (u' & Hu' & D). exists u'. split; [exact Hu'|]. intros Pt.
    apply orb_prop in Pt as [Pt|Pt].
    2:{ destruct o; try discriminate. cbn in Pt. apply String.eqb_eq in Pt. subst k0. subst u'. left. cbn. apply in_or_app. right. now left. }
    destruct (Pb Pt) as [H|[H|H]]; [| |right; right; auto].
    + (* still to come *)
      destruct o as [o|k'|w'|w' t|w']; try (subst u'; auto; fail).
      * subst u'. left. cbn. apply in_or_app. now left.
      * destruct (String.eqb_spec w' w) as [->|Nw]; [|destruct D as (_ & q & D); left; rewrite D; apply in_or_app; now left].
        destruct D as (q & ->). cbn [u_inbox u_pc]. unfold sub_next.
        destruct (u_pc u) eqn:P; try (left; cbn; apply in_or_app; now left).
        destruct (u_inbox u) as [|k0 q0] eqn:Q; [contradiction|]. destruct H as [->|H]; [|left; cbn; apply in_or_app; now left].
        cbn [u_pc u_inbox]. destruct (String.eqb_spec k ""); [contradiction|].
        change (rget (s_db (x_sys g)) k) with (kr (kabs k (x_sys g))).
        destruct (pl_rec _ _ _ Pl) as [E|(_ & E)]; [right; right; auto|].
        destruct (pl_mine _ _ _ Pl) as [[M1 _]|[M1 M2]]; [congruence|]. rewrite M1, M2. auto.
    + (* in hand *)
      destruct o as [o|k'|w'|w' t|w']; try (subst u'; auto; fail).
      destruct (String.eqb_spec w' w) as [->|Nw]; [|destruct D as (D & _); right; left; congruence].
      right. right. rewrite (script_step c g w u k cc i t O Hu H).
      match goal with |- ?x = [] => destruct x as [|[c' [i' m]] l] eqn:E end; [reflexivity|exfalso].
      assert (I : In (c', (i', m)) ((c', (i', m)) :: l)) by now left. rewrite <- E in I. apply kwait_In in I as [I Ik].
      cbn in I. apply filter_In in I as [I1 I2]. destruct (pl_only _ _ _ Pl c' i' m) as [-> ->]; [apply kwait_In; auto|].
      cbn in I2. rewrite String.eqb_refl, Z.eqb_refl in I2. discriminate.
Qed.

Lemma cleaned c k cc i w g L : xreachable c g -> k <> ""%string -> cancelled_waiter k cc i (x_sys g) ->
  (forall w' u c' i', x_subs g w' = Some u -> u_pc u = XHave k c' i' -> c' = cc /\ i' = i) ->
  x_subs g w <> None -> xalong c (undisturbed_cleanup c k w) g L -> In (XPublish k) L ->
  let g' := xfinal c g L in
  exists u, x_subs g' w = Some u /\ (~ In k (u_inbox u) -> ~ busy_with g' w k -> not_waiting k (x_sys g')).
Proof.
  intros R Nk (C1 & C2 & C3 & C4 & C5) H1 H2 A Hin g'.
  assert (F : forall L g pub, Cleaning c k cc i w pub g -> xalong c (undisturbed_cleanup c k w) g L ->
    Cleaning c k cc i w (pub || existsb (publishes k) L) (xfinal c g L)).
  { clear - Nk. induction L as [|o L IH]; intros g pub H A; cbn; [now rewrite orb_false_r|]. destruct A as [A1 A2].
    rewrite orb_assoc. apply IH; [|exact A2]. now apply Cleaning_step. }
  destruct (F L g false) as [_ _ _ _ (u & Hu & Pb)]; [|exact A|].
  - constructor.
    + now apply xreachable_sys.
    + now apply (xreachable_Own c).
    + constructor.
      * constructor.
        -- destruct (k_stream (kabs k (x_sys g))) as [|[j m] l] eqn:E; [reflexivity|exfalso].
           assert (X : In (j, m) (k_stream (kabs k (x_sys g)))) by (rewrite E; now left). apply kstream_In in X as [X1 X2].
           specialize (C4 (AtStream j) m X1 X2). discriminate.
        -- destruct (k_parked (kabs k (x_sys g))) as [m|] eqn:E; [exfalso|reflexivity]. change (d_parked (s_db (x_sys g)) k = Some m) in E.
           pose proof (di_parked _ (proj1 (reachable_GInv c _ (xreachable_sys c g R))) k m E) as Ek.
           assert (X : stored_at (x_sys g) AtFuture m) by (cbn; now rewrite Ek). specialize (C4 AtFuture m X Ek). discriminate.
        -- change (r_state (rget (s_db (x_sys g)) k) <> Some SScheduled). congruence.
        -- intros x Hx. apply kexecs_In in Hx as [X1 X2]. now apply C5.
      * intros c' i' m X. apply kwait_In in X as [X1 X2]. specialize (C4 (AtLine c' i') m X1 X2). injection C4 as -> ->. auto.
      * right. auto.
      * right. split; [|exact C2]. intros E. change (d_runs (s_db (x_sys g)) k = None) in E. unfold rget in C2. rewrite E in C2. discriminate.
    + exact H1.
    + destruct (x_subs g w) as [u|]; [|contradiction]. exists u. split; [reflexivity|discriminate].
  - exists u. split; [exact Hu|]. intros N1 N2.
    assert (Pt : (false || existsb (publishes k) L) = true).
    { cbn. apply existsb_exists. exists (XPublish k). split; [exact Hin|]. cbn. apply String.eqb_refl. }
    destruct (Pb Pt) as [H|[H|H]]; [contradiction| |].
    + exfalso. apply N2. exists u. split; [exact Hu|]. now rewrite H.
    + intros c' i' m X Xk. assert (Y : In (c', (i', m)) (k_wait (kabs k (x_sys g')))) by (apply kwait_In; auto). unfold g' in Y. rewrite H in Y. contradiction.
Qed.

(** ** Tasks whose cancellation nobody has heard of *)

Lemma unheard_step c k g o : ordinary k -> unheard k g -> o <> XPublish k -> unheard k (fst (xstep c g o)).
Proof.
  intros Or H No w u' Hu'. 
  assert (Q : ~ In k (u_inbox u') /\ match u_pc u' with XIdle => True | XHave k' _ _ | XSafe k' | XSafeFinish k' | XSafePublish k' => k' <> k end).
  2:{ destruct Q as [Q1 Q2]. split; [exact Q1|]. intros (u2 & E & B). rewrite Hu' in E. injection E as <-. destruct (u_pc u'); contradiction. }
  pose proof Hu' as Hx. apply sub_after in Hx as [->|(u & Hu & D)]; [cbn; tauto|].
  destruct (H w u Hu) as [I B].
  assert (B' : match u_pc u with XIdle => True | XHave k' _ _ | XSafe k' | XSafeFinish k' | XSafePublish k' => k' <> k end).
  { destruct (u_pc u) eqn:P; auto; intros ->; apply B; exists u; (split; [exact Hu|]); now rewrite P. }
  destruct D as [->|[(k' & -> & Hk')|(t & -> & [->|(k' & _ & ->)])]].
  - auto.
  - split; [|exact B']. cbn. intros X. apply in_app_or in X as [X|[X|[]]]; [contradiction|]. subst k'.
    destruct Hk' as [->|(k' & ->)]; [now apply No|now apply (Or k')].
  - unfold sub_next. destruct (u_pc u) eqn:P; try (cbn; auto; fail). destruct (u_inbox u) as [|k0 q] eqn:Q; [rewrite P, Q; auto|]. cbn.
    split; [intros X; apply I; now right|]. destruct (String.eqb k0 ""); [exact Logic.I|]. destruct (r_wstream _); [|exact Logic.I]. destruct (r_wid _); [|exact Logic.I].
    intros ->. apply I. now left.
  - split; [|exact Logic.I]. cbn. intros X. apply in_app_or in X as [X|[X|[]]]; [contradiction|]. now apply (Or k').
Qed.

Lemma unheard_calls k g w t o' : ordinary k -> unheard k g -> performed g (XGo w t) = Some o' -> no_calls k o'.
Proof.
  intros Or H P. cbn [performed] in P. destruct (x_subs g w) as [u|] eqn:Hu; [|discriminate]. destruct (H w u Hu) as [_ B].
  unfold sub_call in P. destruct (u_pc u) eqn:Q; try discriminate; injection P as <-; cbn.
  - intros ->. apply B. exists u. split; [exact Hu|]. now rewrite Q.
  - intros E. symmetry in E. now apply (Or k0).
  - intros E. symmetry in E. now apply (Or k0).
Qed.

Lemma xkeeping_sys c k g : xkeeping c k g -> reachable_keeping c k (x_sys g).
Proof.
  intros (l & A & ->).
  assert (H : forall l g, reachable_keeping c k (x_sys g) ->
    xalong c (fun g o => forall o', performed g o = Some o' -> keeps c k (x_sys g) o') g l -> reachable_keeping c k (x_sys (xfinal c g l))).
  { clear. induction l as [|o l IH]; intros g R A; cbn; [auto|]. destruct A as [A1 A2]. apply IH; [|exact A2].
    rewrite xstep_sys. destruct (performed g o) as [o'|]; [|exact R]. destruct R as (l0 & R1 & R2). exists (l0 ++ [o']). split.
    - rewrite along_app. split; [exact R1|]. rewrite <- R2. split; [now apply A1|exact Logic.I].
    - rewrite final_app, <- R2, final_cons. reflexivity. }
  apply H; [|exact A]. exists []. split; [exact Logic.I|reflexivity].
Qed.

Lemma in_peace c k L : ordinary k -> forall g, unheard k g -> xalong c (left_in_peace c k) g L ->
  exists l, along c (fun s o => keeps c k s o /\ no_calls k o /\ no_stale_resched k s o /\ ~ finishes k s o) (x_sys g) l /\ final c (x_sys g) l = x_sys (xfinal c g L).
Proof.
  intros Or. induction L as [|o L IH]; intros g Un A; cbn; [exists []; split; [exact Logic.I|reflexivity]|].
  destruct A as [(A1 & A2 & A3) A4]. destruct (IH (fst (xstep c g o))) as (l & B1 & B2); [now apply unheard_step|exact A4|].
  rewrite xstep_sys in B1, B2. destruct (performed g o) as [o'|] eqn:P; [|exists l; auto]. exists (o' :: l). rewrite final_cons. split; [|exact B2]. split; [|exact B1].
  destruct (A3 o' eq_refl) as (K1 & K2 & K3). repeat split; auto.
  destruct o as [o|k'|w'|w' t|w']; try discriminate; [|now apply (unheard_calls k g w' t)].
  apply A2. destruct o; try discriminate; injection P as <-; reflexivity.
Qed.

Lemma not_lost_unheard c k g a t L : xkeeping c k g -> ordinary k -> unheard k g -> a_key a = k ->
  snd (step c (x_sys g) (OAdd a t)) = ODisp DScheduled -> not_waiting k (x_sys g) -> no_leftover k (x_sys g) (OAdd a t) ->
  let g1 := fst (xstep c g (XOp (OAdd a t))) in
  xalong c (left_in_peace c k) g1 L ->
  exists m, m_key m = k /\ carries a m /\ stored (x_sys (xfinal c g1 L)) m /\ live (x_sys (xfinal c g1 L)) m.
Proof.
  intros R Or Un Ka Ac Nw Nl g1 A.
  assert (E1 : x_sys g1 = fst (step c (x_sys g) (OAdd a t))) by (unfold g1; rewrite xstep_sys; reflexivity).
  destruct (in_peace c k L Or g1) as (l & B1 & B2); [|exact A|].
  { apply unheard_step; auto. discriminate. }
  rewrite <- B2. rewrite E1 in *. apply (C05_accepted_not_lost_partial c k (x_sys g) (OAdd a t) a l); auto.
  - now apply xkeeping_sys.
  - split; [exists t; auto|exact Ac].
Qed.

(** ** The safeguard *)

Lemma not_of_keeps c g o w u : x_subs g w = Some u -> not_of w o ->
  exists u', x_subs (fst (xstep c g o)) w = Some u' /\ u_pc u' = u_pc u.
Proof.
  intros Hu N. destruct (stays c g o w u Hu) as (u' & H1 & H2).
  - intros ->. now apply N.
  - intros ->. now apply N.
  - exists u'. split; [exact H1|]. destruct o as [o|k'|w'|w' t|w']; try (now subst u'). cbn in N.
    destruct (String.eqb_spec w' w) as [->|]; [now destruct N|]. apply H2.
Qed.
Lemma not_of_keeps_all c w L : forall g u, x_subs g w = Some u -> Forall (not_of w) L ->
  exists u', x_subs (xfinal c g L) w = Some u' /\ u_pc u' = u_pc u.
Proof.
  induction L as [|o L IH]; intros g u Hu F; cbn; [eauto|]. inversion F; subst.
  destruct (not_of_keeps c g o w u Hu) as (u' & H3 & H4); auto. destruct (IH _ u' H3) as (u2 & H5 & H6); auto. exists u2. split; [exact H5|congruence].
Qed.
Lemma sub_goes c g w u t : x_subs g w = Some u -> (forall k, u_pc u <> XSafePublish k) -> x_subs (fst (xstep c g (XGo w t))) w = Some (sub_next (s_db (x_sys g)) u).
Proof.
  intros Hu N. cbn [xstep]. rewrite Hu. destruct (match sub_call u t with Some o => step c (x_sys g) o | None => (x_sys g, ODone) end) as [s r]. cbn.
  destruct (u_pc u) eqn:P; try apply upd_eq. now destruct (N k).
Qed.

Lemma safeguard_dropped c g w u k cc i t1 t2 L : x_subs g w = Some u -> u_pc u = XHave k cc i -> Forall (not_of w) L ->
  let s := x_sys (xfinal c g (XGo w t1 :: L ++ [XGo w t2])) in
  d_parked (s_db s) (safeguard_key k) = None /\ forall st, ~ In (st, safeguard_key k) (d_queue (s_db s)).
Proof.
  intros Hu Hp F s. unfold s. cbn [xfinal]. rewrite xfinal_app. cbn [xfinal].
  pose proof (sub_goes c g w u t1 Hu) as H1. rewrite Hp in H1. specialize (H1 ltac:(discriminate)).
  destruct (not_of_keeps_all c w L _ _ H1 F) as (u' & H2 & H3). unfold sub_next in H3. rewrite Hp in H3. cbn in H3.
  rewrite xstep_sys. cbn [performed]. rewrite H2. unfold sub_call. rewrite H3. cbn [step fst set_db s_db]. apply cancel_unparks.
Qed.

(** ** A task of which nothing is left does not start *)

Record Gone (v : ks) : Prop := mkGone {
  gn_stream : k_stream v = [];
  gn_parked : k_parked v = None;
  gn_wait : k_wait v = [];
  gn_exec : forall x, In x (k_execs v) -> x_phase x = PDone }.

Lemma Gone_apply c k v e : kok k v e -> UInv k v -> (forall r i a, e <> KSched r i a) -> Gone v -> Gone (kapply c v e).
Proof.
  intros Hok U N [G1 G2 G3 G4].
  assert (NE : forall x w b i, e = KResched x w b i -> False).
  { intros x w b i ->. destruct Hok as [H1 H2]. apply G4 in H1. rewrite H1 in H2. discriminate H2. }
  assert (NP : forall x cc, e = KPark x cc -> False).
  { intros x cc ->. destruct Hok as [H1 H2]. apply G4 in H1. congruence. }
  constructor.
  - destruct (k_stream (kapply c v e)) as [|[i m] l] eqn:E; [reflexivity|exfalso].
    assert (H : In (i, m) (k_stream (kapply c v e))) by (rewrite E; left; reflexivity).
    destruct (stream_apply c k v e i m Hok H) as [H1|(_ & [(t & -> & H1)|[(repl & a & -> & _)|[(x & w & b & -> & _)|(cc & wid & m0 & -> & _)]]])].
    + rewrite G1 in H1. contradiction.
    + congruence.
    + now apply (N repl true a).
    + eapply NE; reflexivity.
    + cbn in Hok. rewrite G3 in Hok. contradiction.
  - destruct (k_parked (kapply c v e)) as [m|] eqn:E; [|reflexivity]. exfalso.
    apply (parked_apply c k v e m Hok) in E as [E|[(repl & a & ->)|(x & w & b & ->)]]; [congruence|now apply (N repl false a)|eapply NE; reflexivity].
  - destruct (k_wait (kapply c v e)) as [|[c' [i' m]] l] eqn:E2; [reflexivity|exfalso].
    assert (H : In (c', (i', m)) (k_wait (kapply c v e))) by (rewrite E2; now left).
    apply (wait_apply c k v e _ _ _ Hok) in H as [H|(x & -> & _)]; [rewrite G3 in H; contradiction|]. eapply NP; reflexivity.
  - intros x H. apply (exec_apply c k v e x Hok U) in H as [(l & ->)|(y & H1 & _ & _ & _ & _ & _ & H2)].
    + destruct Hok as [Hs _]. rewrite G1 in Hs. contradiction.
    + pose proof (G4 y H1) as Py. destruct H2 as [H2|[(t & -> & E & _)|[(p & -> & _)|[(-> & E & _)|[H2 _]]]]]; try congruence.
      destruct Hok as [_ [[E _]|[E _]]]; congruence.
Qed.

Lemma Gone_final c k l : forall s, GInv s -> UInv k (kabs k s) -> along c (fun _ o => no_schedule k o) s l -> Gone (kabs k s) -> Gone (kabs k (final c s l)).
Proof.
  induction l as [|o l IH]; intros s G U A H; [exact H|]. destruct A as [A1 A2]. rewrite final_cons.
  apply IH; auto; [now apply GInv_step|now apply UInv_step|]. revert H. apply step_ind; auto. intros v e Hok L U1 _ _. apply (Gone_apply c k); auto.
  intros r i a ->. cbn in L, Hok. destruct L as (t & -> & _). destruct r; cbn in A1; congruence.
Qed.

Lemma gone_never_starts c k s l o m i : reachable c s -> Gone (kabs k s) -> along c (fun _ o => no_schedule k o) s l -> starts c (final c s l) o m i -> m_key m <> k.
Proof.
  intros R H A S E. pose proof (Gone_final c k l s (reachable_GInv c s R) (reachable_UInv c k s R) A H) as G.
  apply starts_inv in S as (h & x & -> & Hx & Hp & Em & _). apply get_exec_spec in Hx as [Hin _].
  assert (x_phase x = PDone) by (apply (gn_exec _ G), kexecs_In; split; [exact Hin|congruence]). congruence.
Qed.

(** What the script does, in full. *)
Lemma script_exact c g w u k cc i t : xreachable c g -> x_subs g w = Some u -> u_pc u = XHave k cc i ->
  let s := x_sys g in let s' := x_sys (fst (xstep c g (XGo w t))) in
  (forall m, In (cc, (i, m)) (d_wait (s_db s)) -> m_key m = k) /\
  (forall c' i' m, In (c', (i', m)) (d_wait (s_db s')) <-> In (c', (i', m)) (d_wait (s_db s)) /\ ~ (c' = cc /\ i' = i)) /\
  d_stream (s_db s') = d_stream (s_db s) /\ d_pel (s_db s') = d_pel (s_db s) /\ d_queue (s_db s') = d_queue (s_db s) /\ d_parked (s_db s') = d_parked (s_db s) /\
  d_slots (s_db s') = d_slots (s_db s) /\ d_prog (s_db s') k = None /\
  r_wstream (rget (s_db s') k) = None /\ r_wid (rget (s_db s') k) = None /\ r_state (rget (s_db s') k) = r_state (rget (s_db s) k) /\
  r_gen (rget (s_db s') k) = r_gen (rget (s_db s) k).
Proof.
  intros R Hu Hp s s'. pose proof (xreachable_Own c g R) as O.
  assert (E : s' = set_db s (hdel (del_prog (del_waiter cc i (s_db s)) k) k rdel_waiter)) by (apply (script_step c g w u); auto).
  rewrite E. clear E s'. split.
  { intros m Hm. destruct O as [_ O]. apply (O w u k cc i Hu Hp). change (i, m) with (snd (cc, (i, m))). now apply in_map. }
  split.
  { intros c' i' m. cbn. rewrite filter_In. cbn. destruct (String.eqb_spec c' cc), (Z.eqb_spec i' i); cbn; intuition congruence. }
  repeat (split; [reflexivity|]). cbn. rewrite upd_eq. split; [reflexivity|].
  assert (F : rget (hdel (del_prog (del_waiter cc i (s_db s)) k) k rdel_waiter) k = rdel_waiter (rget (s_db s) k)).
  { rewrite rget_hdel by reflexivity. rewrite String.eqb_refl. unfold rget. cbn. destruct (d_runs (s_db s) k); reflexivity. }
  rewrite F. auto.
Qed.
