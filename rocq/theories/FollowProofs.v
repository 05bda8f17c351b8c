(** Proofs of C120. *)
From Verif Require Import Base ZSet Model GInv Spec SpecEvents EventProofs GetResult Follow SpecFollow.

Lemma ffinal_app c q l l' : ffinal c q (l ++ l') = ffinal c (ffinal c q l) l'.
Proof. apply fold_left_app. Qed.
Lemma ffinal_cons c q o l : ffinal c q (o :: l) = ffinal c (fstep c q o) l.
Proof. reflexivity. Qed.

Lemma told_of_app k a b : told_of k (a ++ b) = told_of k a ++ told_of k b.
Proof. unfold told_of. now rewrite filter_app, map_app. Qed.

Lemma newest_app {A} (l : list A) x : newest (l ++ [x]) = Some x.
Proof. unfold newest. now rewrite rev_unit. Qed.

Lemma told_newest k evs : forall l st, newest l = st -> newest (l ++ told_of k evs) = told k evs st.
Proof.
  induction evs as [|[j s] evs IH]; intros l st E; cbn [told].
  - unfold told_of. cbn. now rewrite app_nil_r.
  - cbn [fst snd]. unfold told_of. cbn [filter fst]. destruct (String.eqb j k).
    + cbn [map snd]. change (s :: map snd (filter (fun e => String.eqb (fst e) k) evs)) with ([s] ++ told_of k evs).
      rewrite app_assoc. apply IH. apply newest_app.
    + apply IH. exact E.
Qed.

Lemma told_any k evs : told_of k evs <> [] -> forall a b, told k evs a = told k evs b.
Proof.
  induction evs as [|[j s] evs IH]; intros H a b; [now elim H|]. cbn [told fst snd]. unfold told_of in H. cbn [filter fst] in H.
  destruct (String.eqb j k); [reflexivity|]. apply IH. exact H.
Qed.

Lemma told_none k evs : told_of k evs = [] -> forall a, told k evs a = a.
Proof.
  induction evs as [|[j s] evs IH]; intros H a; [reflexivity|]. cbn [told fst snd]. unfold told_of in H. cbn [filter fst] in H.
  destruct (String.eqb j k); [discriminate|]. apply IH. exact H.
Qed.

Lemma fsys_reachable c l : forall q, reachable c (fs_sys q) -> reachable c (fs_sys (ffinal c q l)).
Proof.
  induction l as [|o l IH]; intros q R; [exact R|]. rewrite ffinal_cons. apply IH. destruct o as [o|]; [|exact R]. cbn [fstep fs_sys].
  destruct R as [l0 R]. exists (l0 ++ [o]). rewrite R, final_app, final_cons. reflexivity.
Qed.

Lemma fpubs c q o : reachable c (fs_sys q) -> exists evs, d_pubs (s_db (fs_sys (fstep c q o))) = d_pubs (s_db (fs_sys q)) ++ evs.
Proof.
  intros R. destruct o as [o|].
  - destruct (step_tells c (fs_sys q) o (reachable_GInv c _ R)) as (evs & P & _). exists evs. exact P.
  - exists []. now rewrite app_nil_r.
Qed.

Lemma fpubs_all c l : forall q, reachable c (fs_sys q) -> exists evs, d_pubs (s_db (fs_sys (ffinal c q l))) = d_pubs (s_db (fs_sys q)) ++ evs.
Proof.
  induction l as [|o l IH]; intros q R; [exists []; now rewrite app_nil_r|]. rewrite ffinal_cons.
  destruct (fpubs c q o R) as [e1 E1]. destruct (IH (fstep c q o) (fsys_reachable c [o] q R)) as [e2 E2]. exists (e1 ++ e2). now rewrite E2, E1, app_assoc.
Qed.

(** What a listening generator has handed over since [p0]. *)
Definition Heard (k : key) (p0 : list (key * state)) (seen0 : list state) (q : fsys) : Prop :=
  f_key (fs_f q) = k /\ exists evs n, d_pubs (s_db (fs_sys q)) = p0 ++ evs /\ (n <= length evs)%nat /\
  f_pc (fs_f q) = FListen (length p0 + n) /\ f_seen (fs_f q) = seen0 ++ told_of k (firstn n evs).

Lemma firstn_snoc {A} (l : list A) n x : nth_error l n = Some x -> firstn (S n) l = firstn n l ++ [x].
Proof.
  revert n. induction l as [|y l IH]; intros [|n] E; try discriminate.
  - cbn in E. injection E as ->. reflexivity.
  - cbn [firstn app]. f_equal. apply IH. exact E.
Qed.

Lemma Heard_step c k p0 seen0 q o : reachable c (fs_sys q) -> Heard k p0 seen0 q -> Heard k p0 seen0 (fstep c q o).
Proof.
  intros R (K & evs & n & P & L & Pc & S). destruct o as [o|].
  - split; [exact K|]. destruct (fpubs c q (FOp o) R) as [e E]. exists (evs ++ e), n. rewrite E, P, <- app_assoc. split; [reflexivity|].
    split; [rewrite app_length; lia|]. split; [exact Pc|]. cbn [fstep fs_f]. rewrite S, firstn_app.
    replace (n - length evs)%nat with 0%nat by lia. cbn [firstn]. now rewrite app_nil_r.
  - unfold fstep, fturn. rewrite Pc. cbn [fs_sys fs_f]. destruct (nth_error (d_pubs (s_db (fs_sys q))) (length p0 + n)) as [[j st]|] eqn:E.
    + assert (En : nth_error evs n = Some (j, st)).
      { rewrite P, nth_error_app2 in E by lia. now replace (length p0 + n - length p0)%nat with n in E by lia. }
      split; [exact K|]. exists evs, (Datatypes.S n). cbn [fs_sys fs_f f_pc f_seen]. split; [exact P|].
      split; [apply Nat.le_succ_l, nth_error_Some; congruence|]. split; [f_equal; lia|].
      rewrite (firstn_snoc _ _ _ En), told_of_app, app_assoc, <- S, K. unfold told_of at 1. cbn [filter fst].
      destruct (String.eqb j k); cbn [map snd]; [reflexivity|now rewrite app_nil_r].
    + split; [exact K|]. exists evs, n. auto.
Qed.

Lemma Heard_run c k p0 seen0 l : forall q, reachable c (fs_sys q) -> Heard k p0 seen0 q -> Heard k p0 seen0 (ffinal c q l).
Proof.
  induction l as [|o l IH]; intros q R H; [exact H|]. rewrite ffinal_cons. apply IH; [exact (fsys_reachable c [o] q R)|now apply Heard_step].
Qed.

Lemma relays c q l : reachable c (fs_sys q) -> f_pc (fs_f q) = FRead ->
  Heard (f_key (fs_f q)) (d_pubs (s_db (fs_sys q))) (f_seen (fs_f q)) (ffinal c q (FTurn :: l)).
Proof.
  intros R Pc. rewrite ffinal_cons. apply Heard_run; [exact R|]. unfold fstep, fturn. rewrite Pc. split; [reflexivity|].
  exists [], 0%nat. cbn [fs_sys fs_f f_pc f_seen firstn length]. rewrite !app_nil_r, Nat.add_0_r. auto.
Qed.

(** The record's state is the old one, brought up to date by the events. *)
Lemma falong_told c k l : forall q, reachable c (fs_sys q) -> falong c (tells_all c k) q l ->
  exists evs, d_pubs (s_db (fs_sys (ffinal c q l))) = d_pubs (s_db (fs_sys q)) ++ evs /\
    state_of (fs_sys (ffinal c q l)) k = told k evs (state_of (fs_sys q) k).
Proof.
  induction l as [|o l IH]; intros q R H; [exists []; split; [now rewrite app_nil_r|reflexivity]|]. destruct H as [H0 H]. rewrite ffinal_cons.
  destruct (IH (fstep c q o) (fsys_reachable c [o] q R) H) as (e2 & P2 & S2).
  assert (X : exists e1, d_pubs (s_db (fs_sys (fstep c q o))) = d_pubs (s_db (fs_sys q)) ++ e1 /\ state_of (fs_sys (fstep c q o)) k = told k e1 (state_of (fs_sys q) k)).
  { destruct o as [o|]; [|exists []; split; [now rewrite app_nil_r|reflexivity]]. destruct H0 as (A & B & C).
    destruct (step_tells c (fs_sys q) o (reachable_GInv c _ R)) as (evs & P & _ & T). exists evs. split; [exact P|].
    destruct (T k) as [X|[[_ X]|[(t & X & _)|[X _]]]]; [exact X|contradiction|exfalso; exact (A t X)|contradiction]. }
  destruct X as (e1 & P1 & S1). exists (e1 ++ e2). split; [now rewrite P2, P1, app_assoc|]. now rewrite told_app, <- S1.
Qed.

Lemma heals c q l : reachable c (fs_sys q) -> f_pc (fs_f q) = FRead -> falong c (tells_all c (f_key (fs_f q))) q (FTurn :: l) ->
  caught_up (ffinal c q (FTurn :: l)) ->
  (exists st evs, d_pubs (s_db (fs_sys (ffinal c q (FTurn :: l)))) = d_pubs (s_db (fs_sys q)) ++ evs /\ In (f_key (fs_f q), st) evs) ->
  shown (ffinal c q (FTurn :: l)) = state_of (fs_sys (ffinal c q (FTurn :: l))) (f_key (fs_f q)).
Proof.
  intros R Pc A U (st0 & e0 & P0 & I0). set (k := f_key (fs_f q)) in *.
  destruct (relays c q l R Pc) as (_ & evs & n & P & L & Pn & S). fold k in S.
  destruct (falong_told c k _ q R A) as (e2 & P2 & S2).
  rewrite P in P0, P2. apply app_inv_head in P0, P2. subst e0 e2.
  unfold caught_up in U. rewrite Pn, P, app_length in U. assert (n = length evs) by (injection U; lia). subst n. rewrite firstn_all in S.
  unfold shown. rewrite S, (told_newest k evs _ _ eq_refl), S2. apply told_any.
  intros E. assert (I : In st0 (told_of k evs)). { apply in_map_iff. exists (k, st0). split; [reflexivity|]. apply filter_In. split; [exact I0|]. cbn. apply String.eqb_refl. }
  rewrite E in I. exact I.
Qed.

Lemma docket_only_f c l : forall q, docket_only l -> fs_f (ffinal c q l) = fs_f q.
Proof.
  induction l as [|o l IH]; intros q D; [reflexivity|]. rewrite ffinal_cons. rewrite IH; [|intros I; apply D; now right].
  destruct o; [reflexivity|]. elim D. now left.
Qed.

Lemma falong_app c P l l' : forall q, falong c P q (l ++ l') <-> falong c P q l /\ falong c P (ffinal c q l) l'.
Proof. induction l as [|o l IH]; intros q; cbn [app falong]; [tauto|]. rewrite IH, ffinal_cons. tauto. Qed.

Lemma sync_state s k v st : state_of s k = Some st -> v_state (sync (s_db s) k v) = st.
Proof. unfold state_of, rget, sync. destruct (d_runs (s_db s) k); cbn; intros E; [now rewrite E|discriminate]. Qed.

Lemma undisturbed c s k v st l1 l2 : let q := begin s k v in let l := FTurn :: l1 ++ FTurn :: l2 in
  reachable c s -> state_of s k = Some st -> docket_only l1 -> falong c (tells_all c k) q l ->
  (forall st' evs, d_pubs (s_db (fs_sys (ffinal c q (FTurn :: l1)))) = d_pubs (s_db s) ++ evs -> ~ In (k, st') evs) ->
  caught_up (ffinal c q l) -> shown (ffinal c q l) = state_of (fs_sys (ffinal c q l)) k.
Proof.
  intros q l R E D A G U. set (q1 := ffinal c q (FTurn :: l1)).
  assert (El : ffinal c q l = ffinal c q1 (FTurn :: l2)). { unfold q1, l. rewrite <- ffinal_app. reflexivity. }
  assert (R1 : reachable c (fs_sys q1)) by (apply fsys_reachable; exact R).
  assert (F1 : fs_f q1 = mkFollower k (sync (s_db s) k v) FRead [st]).
  { unfold q1. rewrite ffinal_cons, docket_only_f by exact D. cbn. now rewrite (sync_state s k v st E). }
  assert (A' : falong c (tells_all c k) q (FTurn :: l1) /\ falong c (tells_all c k) q1 (FTurn :: l2)).
  { apply falong_app. exact A. }
  destruct A' as [A1 A2]. destruct (falong_told c k _ q R A1) as (e1 & P1 & S1).
  assert (N : told_of k e1 = []).
  { unfold told_of. destruct (filter (fun e => String.eqb (fst e) k) e1) as [|[j s0] r] eqn:Ef; [reflexivity|exfalso].
    assert (I : In (j, s0) e1 /\ String.eqb j k = true) by (apply (proj1 (filter_In (fun e => String.eqb (fst e) k) (j, s0) e1)); rewrite Ef; now left).
    destruct I as [I J]. apply String.eqb_eq in J. subst j. exact (G s0 e1 P1 I). }
  rewrite (told_none k e1 N) in S1. change (state_of (fs_sys q) k) with (state_of s k) in S1. fold q1 in S1.
  rewrite El in *. destruct (relays c q1 l2 R1 ltac:(now rewrite F1)) as (_ & evs & n & P & L & Pn & S).
  destruct (falong_told c k _ q1 R1 A2) as (e2 & P2 & S2). rewrite P in P2. apply app_inv_head in P2. subst e2.
  unfold caught_up in U. rewrite Pn, P, app_length in U. assert (n = length evs) by (injection U; lia). subst n. rewrite firstn_all in S.
  rewrite F1 in S. cbn [f_seen f_key] in S. unfold shown. rewrite S, S2. apply told_newest. rewrite S1, E. reflexivity.
Qed.

(** With nobody else acting, the generator gets through. *)
Lemma catches_up c m : forall q pos, f_pc (fs_f q) = FListen pos -> (pos <= length (d_pubs (s_db (fs_sys q))))%nat ->
  (length (d_pubs (s_db (fs_sys q))) - pos <= m)%nat -> caught_up (ffinal c q (repeat FTurn m)).
Proof.
  induction m as [|m IH]; intros q pos Pc B L.
  - unfold caught_up. cbn. rewrite Pc. f_equal. lia.
  - cbn [repeat]. rewrite ffinal_cons. assert (Es : fs_sys (fstep c q FTurn) = fs_sys q) by reflexivity.
    destruct (nth_error (d_pubs (s_db (fs_sys q))) pos) as [[j st]|] eqn:E.
    + apply (IH _ (S pos)); rewrite ?Es; try lia.
      * unfold fstep, fturn. rewrite Pc, E. reflexivity.
      * apply Nat.le_succ_l, nth_error_Some. congruence.
    + apply nth_error_None in E. apply (IH _ pos); rewrite ?Es; try lia. unfold fstep, fturn. rewrite Pc. rewrite (proj2 (nth_error_None _ _) E). exact Pc.
Qed.
