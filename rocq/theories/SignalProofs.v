(** Proofs about cancellation signals (C95). *)
From Verif Require Import Base Text Keys Signal SpecSignal.

Fixpoint starts (p s : string) : bool :=
  match p, s with
  | EmptyString, _ => true
  | String a p, String b s => Ascii.eqb a b && starts p s
  | _, EmptyString => false
  end.
Lemma starts_spec p s : starts p s = true <-> exists t, s = (p ++ t)%string.
Proof.
  revert s; induction p as [|a p IH]; intros s; cbn; [split; eauto|]. destruct s as [|b s].
  - split; [discriminate|intros [t E]; discriminate].
  - rewrite andb_true_iff, IH. split.
    + intros [E [t ->]]. apply Ascii.eqb_eq in E as ->. eauto.
    + intros [t E]. injection E as -> ->. split; [apply Ascii.eqb_refl|eauto].
Qed.

Lemma literal_cons a p : literal (String a p) = true ->
  Ascii.eqb a "*" = false /\ Ascii.eqb a "?" = false /\ Ascii.eqb a "[" = false /\ Ascii.eqb a "\" = false /\ literal p = true.
Proof.
  unfold literal. cbn [occurs]. intros H. apply negb_true_iff in H.
  apply orb_false_elim in H as [H H4]. apply orb_false_elim in H as [H H3]. apply orb_false_elim in H as [H1 H2].
  apply orb_false_elim in H1 as [A1 B1], H2 as [A2 B2], H3 as [A3 B3], H4 as [A4 B4].
  rewrite (Ascii.eqb_sym a "*"), (Ascii.eqb_sym a "?"), (Ascii.eqb_sym a "["), (Ascii.eqb_sym a "\"). rewrite B1, B2, B3, B4. auto.
Qed.

(** A literal beginning followed by "*" matches what starts with it. *)
Lemma glob_literal n p a s : literal (String a p) = true -> (String.length (String a p) < n)%nat ->
  glob_fuel n (String a p ++ "*") s = starts (String a p) s.
Proof.
  revert a s n. induction p as [|b p IH]; intros a s n L N.
  - destruct (literal_cons _ _ L) as (E1 & E2 & E3 & E4 & _). destruct n as [|n]; [cbn in N; lia|]. cbn [append glob_fuel starts].
    destruct s as [|c s]; [reflexivity|]. rewrite E1, E2, E3, E4. destruct (Ascii.eqb a c); [|reflexivity]. cbn [andb].
    destruct s as [|d s]; [reflexivity|]. destruct n as [|n]; [cbn in N; lia|]. reflexivity.
  - destruct (literal_cons _ _ L) as (E1 & E2 & E3 & E4 & L'). destruct n as [|n]; [cbn in N; lia|].
    change (String a (String b p) ++ "*")%string with (String a (String b p ++ "*")%string).
    cbn [glob_fuel]. destruct s as [|c s]; [reflexivity|]. rewrite E1, E2, E3.
    change (String b p ++ "*")%string with (String b (p ++ "*")%string) at 1. cbv iota. rewrite E4.
    cbn [starts]. destruct (Ascii.eqb a c); [|reflexivity]. cbn [andb].
    destruct s as [|d s].
    + cbn [stars append]. destruct (literal_cons _ _ L') as (F1 & _). now rewrite F1.
    + change (glob_fuel n (String b p ++ "*") (String d s) = starts (String b p) (String d s)). apply IH; [exact L'|cbn in N |- *; lia].
Qed.

Lemma occurs_literal n : literal n = true <-> occurs "*" n = false /\ occurs "?" n = false /\ occurs "[" n = false /\ occurs "\" n = false.
Proof. unfold literal. rewrite negb_true_iff, !orb_false_iff. tauto. Qed.

Lemma literal_app a b : literal a = true -> literal b = true -> literal (a ++ b) = true.
Proof.
  rewrite !occurs_literal. intros (A1 & A2 & A3 & A4) (B1 & B2 & B3 & B4). rewrite !occurs_app, A1, A2, A3, A4, B1, B2, B3, B4. auto.
Qed.

Lemma pattern_matches cl n s : literal n = true ->
  glob (cancel_pattern cl n) s = starts (docket_prefix cl n ++ ":cancel:") s.
Proof.
  intros L. unfold glob.
  assert (E : exists a p, (docket_prefix cl n ++ ":cancel:")%string = String a p /\ literal (String a p) = true).
  { assert (L1 : literal (docket_prefix cl n ++ ":cancel:") = true).
    { apply literal_app; [|reflexivity]. unfold docket_prefix. destruct cl; [|exact L]. apply literal_app; [reflexivity|]. now apply literal_app. }
    destruct (docket_prefix cl n ++ ":cancel:")%string as [|a p] eqn:E; [|eauto]. exfalso. revert E. unfold docket_prefix. destruct cl, n; discriminate. }
  destruct E as (a & p & E & L1).
  assert (P : cancel_pattern cl n = (String a p ++ "*")%string).
  { rewrite <- E. unfold cancel_pattern. rewrite append_assoc'. reflexivity. }
  rewrite P, E. apply glob_literal; [exact L1|].
  assert (Len : forall x y, String.length (x ++ y) = (String.length x + String.length y)%nat) by (induction x; intros; cbn; auto).
  rewrite Len. cbn. lia.
Qed.

Lemma own_channel cl n k : literal n = true -> glob (cancel_pattern cl n) (cancel_channel cl n k) = true.
Proof.
  intros L. rewrite pattern_matches by exact L. apply starts_spec. exists k. unfold cancel_channel. now rewrite append_assoc'.
Qed.
Lemma other_channel cl n n' k : plain cl n = true -> plain cl n' = true ->
  glob (cancel_pattern cl n) (cancel_channel cl n' k) = true -> n' = n.
Proof.
  unfold plain. intros P P' H. apply andb_prop in P as [L P], P' as [L' P']. apply negb_true_iff in P, P'.
  rewrite pattern_matches in H by exact L. apply starts_spec in H as [t H]. unfold cancel_channel, docket_prefix in H. rewrite append_assoc' in H.
  destruct cl.
  - cbn [append] in H. injection H as H. rewrite !append_assoc' in H. cbn [append] in H.
    destruct (split_first "}"%char n' _ n _ P' P H) as [E _]. exact E.
  - cbn [append] in H. destruct (split_first ":"%char n' _ n _ P' P H) as [E _]. exact E.
Qed.

(** ** Running *)

Lemma sig_run_snoc cl dn l e : sig_run cl dn (l ++ [e]) = sig_step cl dn (sig_run cl dn l) e.
Proof. unfold sig_run. now rewrite fold_left_app. Qed.

Lemma running_app w k l1 l2 now : running w k (l1 ++ l2) now = running w k l2 (running w k l1 now).
Proof. revert now; induction l1 as [|e l1 IH]; intros now; [reflexivity|]. destruct e; cbn; apply IH. Qed.

Lemma task_of_cons k k' h l : task_of k ((k', h) :: l) = if String.eqb k' k then Some h else task_of k l.
Proof. unfold task_of. cbn. now destruct (String.eqb k' k). Qed.
Lemma task_of_pop k k' l : task_of k (task_pop k' l) = if String.eqb k' k then None else task_of k l.
Proof.
  induction l as [|[k1 h] l IH]; [now destruct (String.eqb k' k)|].
  unfold task_pop. cbn [filter fst]. fold (task_pop k' l). destruct (String.eqb_spec k1 k') as [->|N]; cbn [negb].
  - rewrite IH, task_of_cons. now destruct (String.eqb k' k).
  - rewrite !task_of_cons, IH. destruct (String.eqb_spec k1 k) as [->|N1]; [|reflexivity]. destruct (String.eqb_spec k' k); congruence.
Qed.

(** [_tasks_by_key] is what the history says. *)
Lemma tasks_running cl dn l w k : task_of k (w_tasks (sig_run cl dn l w)) = runs_as w k l.
Proof.
  unfold runs_as. induction l as [|e l IH] using rev_ind; [reflexivity|]. rewrite sig_run_snoc, running_app, <- IH. set (s := sig_run cl dn l).
  destruct e; cbn [sig_step running].
  - unfold hear. destruct (glob _ _); [|reflexivity]. cbv zeta. destruct (w_link (s w)); cbn; destruct (w_sub (s w)); reflexivity.
  - destruct (w_link (s w0)); try reflexivity. unfold upd. destruct (String.eqb_spec w w0) as [->|]; reflexivity.
  - destruct (w_link (s w0)) as [|[|k0 q]| |]; try reflexivity. unfold upd. destruct (String.eqb_spec w w0) as [->|]; [|reflexivity].
    unfold handle. destruct (task_of k0 _); reflexivity.
  - destruct (w_link (s w0)); try reflexivity; unfold upd; destruct (String.eqb_spec w w0) as [->|]; reflexivity.
  - destruct (w_link (s w0)); try reflexivity; unfold upd; destruct (String.eqb_spec w w0) as [->|]; reflexivity.
  - unfold upd; destruct (String.eqb_spec w w0) as [->|]; reflexivity.
  - unfold upd. destruct (String.eqb_spec w w0) as [->|N].
    + cbn [with_tasks w_tasks]. rewrite String.eqb_refl, task_of_cons, task_of_pop. cbn [andb]. now destruct (String.eqb k0 k).
    + rewrite (proj2 (String.eqb_neq w0 w)) by congruence. reflexivity.
  - unfold upd. destruct (String.eqb_spec w w0) as [->|N].
    + cbn [with_tasks w_tasks]. rewrite String.eqb_refl, task_of_pop. reflexivity.
    + rewrite (proj2 (String.eqb_neq w0 w)) by congruence. reflexivity.
  - destruct (w_sub (s w0)), (w_over (s w0)); try reflexivity; unfold upd; destruct (String.eqb_spec w w0) as [->|]; reflexivity.
  - destruct (w_sub (s w0)) as [[|k0 q]|]; try reflexivity. unfold upd. destruct (String.eqb_spec w w0) as [->|]; [|reflexivity]. now destruct (String.eqb k0 "").
  - unfold upd; destruct (String.eqb_spec w w0) as [->|]; reflexivity.
Qed.

(** ** Only what was cancelled is cancelled *)

Definition came (dn : string -> string) (l : list ev) (w : string) (k : string) : Prop := In (ECancel (dn w) k) l.
Lemma came_snoc dn l e w k : came dn l w k -> came dn (l ++ [e]) w k.
Proof. unfold came. rewrite in_app_iff. auto. Qed.

Record only_inv (dn : string -> string) (l : list ev) (w : string) (x : wk) : Prop := mkOnly {
  oi_link : forall q k, w_link x = LOn q -> In k q -> came dn l w k;
  oi_sub : forall q k, w_sub x = Some q -> In k q -> came dn l w k;
  oi_can : forall h, In h (w_cancelled x) -> exists l1 l2 k, l = l1 ++ EHandle w :: l2 /\ runs_as w k l1 = Some h /\ In (ECancel (dn w) k) l1;
  oi_cln : forall k, In k (w_cleaned x) -> came dn l w k }.

Lemma only_mono dn l e w x : only_inv dn l w x -> only_inv dn (l ++ [e]) w x.
Proof.
  intros [A B C D]. constructor; eauto using came_snoc. intros h Hh. destruct (C h Hh) as (l1 & l2 & k & -> & E).
  exists l1, (l2 ++ [e]), k. rewrite <- app_assoc. auto.
Qed.
Lemma only_link dn l w x y : only_inv dn l w x -> (forall q, y = LOn q -> q = []) -> only_inv dn l w (with_link x y).
Proof. intros [A B C D] E. constructor; auto. cbn. intros q k -> Hk. rewrite (E q eq_refl) in Hk. contradiction. Qed.

Lemma only_run cl dn l w : (forall n k, In (ECancel n k) l -> plain cl n = true) -> (forall w, plain cl (dn w) = true) ->
  only_inv dn l w (sig_run cl dn l w).
Proof.
  intros P Q. revert w. induction l as [|e l IH] using rev_ind; intros w.
  { constructor; cbn; try discriminate; intros; contradiction. }
  assert (IH' : forall w, only_inv dn l w (sig_run cl dn l w)) by (apply IH; intros n k H; apply (P n k); apply in_app_iff; auto). clear IH.
  rewrite sig_run_snoc. set (s := sig_run cl dn l) in *. assert (I := only_mono dn l e w _ (IH' w)).
  destruct e; cbn [sig_step].
  - (* cancel *) unfold hear. destruct (glob _ _) eqn:G; [|exact I].
    assert (E : n = dn w) by (apply (other_channel cl (dn w) n k); auto; apply (P n k), in_app_iff; right; now left). subst n.
    assert (K : came dn (l ++ [ECancel (dn w) k]) w k) by (apply in_app_iff; right; now left).
    cbv zeta. set (x := match w_link (s w) with LOn q => with_link (s w) (LOn (q ++ [k])) | _ => s w end).
    assert (X : only_inv dn (l ++ [ECancel (dn w) k]) w x).
    { unfold x. destruct (w_link (s w)) as [|q| |] eqn:E; try exact I. destruct I as [A B C D]. constructor; auto. cbn. intros q' k' [= <-] Hk.
      apply in_app_iff in Hk as [Hk|[<-|[]]]; [now apply (A q)|exact K]. }
    destruct (w_sub x) as [q|] eqn:E; [|exact X]. destruct X as [A B C D]. constructor; auto. cbn. intros q' k' [= <-] Hk.
    apply in_app_iff in Hk as [Hk|[<-|[]]]; [now apply (B q)|exact K].
  - destruct (w_link (s w0)); try exact I. unfold upd. destruct (String.eqb_spec w w0) as [->|]; [|exact I]. apply only_link; [exact I|]. now intros q [= <-].
  - (* handle *) destruct (w_link (s w0)) as [|[|k q]| |] eqn:E; try exact I. unfold upd. destruct (String.eqb_spec w w0) as [->|]; [|exact I].
    assert (Old := IH' w0). assert (T := tasks_running cl dn l w0 k). fold s in T.
    assert (J : only_inv dn (l ++ [EHandle w0]) w0 (with_link (s w0) (LOn q))).
    { destruct I as [A B C D]. constructor; auto. cbn. intros q' k' [= <-] Hk. apply (A (k :: q)); [exact E|now right]. }
    unfold handle. cbn [with_link w_tasks]. destruct (task_of k (w_tasks (s w0))) as [h|] eqn:Th; [|exact J].
    destruct J as [A B C D]. constructor; auto. cbn. intros h' [<-|Hh]; [|now apply C]. exists l, [], k. split; [reflexivity|]. split; [congruence|].
    apply (oi_link _ _ _ _ Old (k :: q) k E). now left.
  - destruct (w_link (s w0)); try exact I; unfold upd; destruct (String.eqb_spec w w0) as [->|]; try exact I; apply only_link; try exact I; discriminate.
  - destruct (w_link (s w0)); try exact I; unfold upd; destruct (String.eqb_spec w w0) as [->|]; try exact I; apply only_link; try exact I; discriminate.
  - unfold upd; destruct (String.eqb_spec w w0) as [->|]; try exact I; apply only_link; try exact I; discriminate.
  - unfold upd. destruct (String.eqb_spec w w0) as [->|]; [|exact I]. destruct I as [A B C D]. constructor; auto.
  - unfold upd. destruct (String.eqb_spec w w0) as [->|]; [|exact I]. destruct I as [A B C D]. constructor; auto.
  - destruct (w_sub (s w0)) eqn:E1, (w_over (s w0)) eqn:E2; try exact I. unfold upd. destruct (String.eqb_spec w w0) as [->|]; [|exact I].
    destruct I as [A B C D]. constructor; auto. cbn. intros q k [= <-] [].
  - destruct (w_sub (s w0)) as [[|k q]|] eqn:E; try exact I. unfold upd. destruct (String.eqb_spec w w0) as [->|]; [|exact I].
    destruct I as [A B C D]. destruct (String.eqb k "").
    + constructor; auto. cbn. intros q' k' [= <-] Hk. apply (B (k :: q)); [exact E|now right].
    + constructor; auto; cbn.
      * intros q' k' [= <-] Hk. apply (B (k :: q)); [exact E|now right].
      * intros k' [<-|Hk]; [apply (B (k :: q)); [exact E|now left]|now apply D].
  - unfold upd. destruct (String.eqb_spec w w0) as [->|]; [|exact I]. destruct I as [A B C D]. constructor; auto; cbn; discriminate.
Qed.

(** ** The signal arrives *)

Lemma handlings_snoc w l e : handlings w (l ++ [e]) = (handlings w l + handlings w [e])%nat.
Proof. unfold handlings. now rewrite filter_app', app_length. Qed.

Lemma arrives cl dn w k h l1 l2 q : w_link (sig_run cl dn l1 w) = LOn q -> literal (dn w) = true ->
  runs_as w k l1 = Some h -> forallb (fun e => negb (disturbs w k e)) l2 = true ->
  let s := sig_run cl dn (l1 ++ ECancel (dn w) k :: l2) w in
  task_of k (w_tasks s) = Some h /\
  (In h (w_cancelled s) \/ exists q1 q2, w_link s = LOn (q1 ++ k :: q2) /\ (handlings w l2 + length q1 = length q)%nat).
Proof.
  intros E L T. induction l2 as [|e l2 IH] using rev_ind; intros D s.
  - unfold s. rewrite tasks_running. unfold runs_as in *. rewrite running_app, T. split; [reflexivity|]. right. rewrite sig_run_snoc. cbn [sig_step].
    unfold hear. rewrite own_channel by exact L. rewrite E. cbv zeta. exists q, []. split; [|reflexivity].
    cbn [with_link w_sub]. destruct (w_sub (sig_run cl dn l1 w)); reflexivity.
  - rewrite forallb_app in D. apply andb_prop in D as [D D2]. cbn [forallb] in D2. rewrite andb_true_r in D2. apply negb_true_iff in D2.
    specialize (IH D). cbv zeta in IH. unfold s. clear s.
    replace (l1 ++ ECancel (dn w) k :: l2 ++ [e]) with ((l1 ++ ECancel (dn w) k :: l2) ++ [e]) by (now rewrite <- app_assoc).
    rewrite sig_run_snoc. rewrite handlings_snoc. set (s := sig_run cl dn (l1 ++ ECancel (dn w) k :: l2)) in *. destruct IH as [Tk IH].
    assert (Same : forall x, w_tasks x = w_tasks (s w) -> w_cancelled x = w_cancelled (s w) -> w_link x = w_link (s w) -> handlings w [e] = O ->
      task_of k (w_tasks x) = Some h /\ (In h (w_cancelled x) \/ exists q1 q2, w_link x = LOn (q1 ++ k :: q2) /\ (handlings w l2 + handlings w [e] + length q1 = length q)%nat)).
    { intros x -> -> -> ->. rewrite Nat.add_0_r. auto. }
    destruct e; cbn [sig_step disturbs] in *.
    + (* another cancel *) assert (A : forall x, w_tasks (hear cl (dn w) n k0 x) = w_tasks x /\ w_cancelled (hear cl (dn w) n k0 x) = w_cancelled x /\
          w_link (hear cl (dn w) n k0 x) = match w_link x with LOn q => LOn (if glob (cancel_pattern cl (dn w)) (cancel_channel cl n k0) then q ++ [k0] else q) | y => y end).
      { intros x. unfold hear. destruct (glob _ _); [|repeat split; auto; destruct (w_link x); reflexivity]. cbv zeta.
        destruct (w_link x) eqn:Ex; cbn; destruct (w_sub x); cbn; rewrite ?Ex; auto. }
      destruct (A (s w)) as (A1 & A2 & A3). rewrite A1, A2, A3. split; [exact Tk|]. destruct IH as [IH|(q1 & q2 & E1 & E2)]; [now left|right]. rewrite E1.
      cbn [handlings filter length]. destruct (glob _ _); [exists q1, (q2 ++ [k0])|exists q1, q2]; split; try (rewrite <- app_assoc; reflexivity); try reflexivity; unfold handlings in *; cbn; lia.
    + destruct (w_link (s w0)) eqn:E0; try (apply Same; reflexivity). unfold upd. destruct (String.eqb_spec w w0) as [->|]; [|apply Same; reflexivity].
      cbn [with_link w_tasks w_cancelled w_link]. split; [exact Tk|]. destruct IH as [IH|(q1 & q2 & E1 & E2)]; [now left|congruence].
    + (* handle *) destruct (String.eqb_spec w0 w) as [->|N].
      * assert (H1 : handlings w [EHandle w] = 1%nat) by (unfold handlings; cbn; now rewrite String.eqb_refl). rewrite H1.
        destruct (w_link (s w)) as [|[|k0 q0]| |] eqn:E0.
        1,2,4,5: split; [exact Tk|]; destruct IH as [IH|(q1 & q2 & E1 & E2)]; [now left|first [discriminate E1|destruct q1; discriminate E1]].
        rewrite upd_eq. unfold handle. cbn [with_link w_tasks].
        assert (Lk : forall y, w_link (match y with Some h => with_cancelled (with_link (s w) (LOn q0)) (h :: w_cancelled (with_link (s w) (LOn q0))) | None => with_link (s w) (LOn q0) end) = LOn q0) by (intros []; reflexivity).
        assert (Tl : forall y, w_tasks (match y with Some h => with_cancelled (with_link (s w) (LOn q0)) (h :: w_cancelled (with_link (s w) (LOn q0))) | None => with_link (s w) (LOn q0) end) = w_tasks (s w)) by (intros []; reflexivity).
        rewrite Lk, Tl. split; [exact Tk|]. destruct IH as [IH|(q1 & q2 & E1 & E2)].
        -- left. destruct (task_of k0 (w_tasks (s w))); cbn; auto.
        -- destruct q1 as [|k1 q1]; cbn [app] in E1; injection E1 as -> ->.
           ++ left. rewrite Tk. cbn. now left.
           ++ right. exists q1, q2. split; [reflexivity|]. cbn in E2. lia.
      * assert (H0 : handlings w [EHandle w0] = O) by (unfold handlings; cbn; now rewrite (proj2 (String.eqb_neq _ _) N)).
        destruct (w_link (s w0)) as [|[|k0 q0]| |]; try (apply Same; auto; fail). rewrite upd_neq by congruence. apply Same; auto.
    + destruct (String.eqb_spec w0 w) as [->|N]; [discriminate|]. destruct (w_link (s w0)); try (apply Same; reflexivity); rewrite upd_neq by congruence; apply Same; reflexivity.
    + destruct (w_link (s w0)) eqn:E0; try (apply Same; reflexivity). unfold upd. destruct (String.eqb_spec w w0) as [->|]; [|apply Same; reflexivity].
      cbn [with_link w_tasks w_cancelled w_link]. split; [exact Tk|]. destruct IH as [IH|(q1 & q2 & E1 & E2)]; [now left|congruence].
    + destruct (String.eqb_spec w0 w) as [->|N]; [discriminate|]. rewrite upd_neq by congruence; apply Same; reflexivity.
    + unfold upd. destruct (String.eqb_spec w w0) as [->|]; [|apply Same; reflexivity]. rewrite String.eqb_refl in D2. cbn [andb] in D2.
      cbn [with_tasks w_tasks w_cancelled w_link]. rewrite task_of_cons, task_of_pop, D2. split; [exact Tk|]. unfold handlings in *. cbn. rewrite Nat.add_0_r. exact IH.
    + unfold upd. destruct (String.eqb_spec w w0) as [->|]; [|apply Same; reflexivity]. rewrite String.eqb_refl in D2. cbn [andb] in D2.
      cbn [with_tasks w_tasks w_cancelled w_link]. rewrite task_of_pop, D2. split; [exact Tk|]. unfold handlings in *. cbn. rewrite Nat.add_0_r. exact IH.
    + destruct (w_sub (s w0)), (w_over (s w0)); try (apply Same; reflexivity). unfold upd. destruct (String.eqb_spec w w0) as [->|]; apply Same; reflexivity.
    + destruct (w_sub (s w0)) as [[|k0 q0]|]; try (apply Same; reflexivity). unfold upd. destruct (String.eqb_spec w w0) as [->|]; [|apply Same; reflexivity].
      destruct (String.eqb k0 ""); apply Same; reflexivity.
    + unfold upd. destruct (String.eqb_spec w w0) as [->|]; apply Same; reflexivity.
Qed.

(** The subscriber of the concurrency limits, once over, cleans up nothing more. *)
Lemma over_stays cl dn w l1 l2 : w_over (sig_run cl dn l1 w) = true -> w_sub (sig_run cl dn l1 w) = None ->
  w_over (sig_run cl dn (l1 ++ l2) w) = true /\ w_sub (sig_run cl dn (l1 ++ l2) w) = None /\ w_cleaned (sig_run cl dn (l1 ++ l2) w) = w_cleaned (sig_run cl dn l1 w).
Proof.
  intros O N. induction l2 as [|e l2 IH] using rev_ind; [rewrite app_nil_r; auto|]. rewrite app_assoc, sig_run_snoc.
  set (s := sig_run cl dn (l1 ++ l2)) in *. destruct IH as (A & B & C). rewrite <- C. clear C.
  destruct e; cbn [sig_step].
  - unfold hear. destruct (glob _ _); [|auto]. cbv zeta. destruct (w_link (s w)); cbn; rewrite ?B; auto.
  - destruct (w_link (s w0)); auto. unfold upd. destruct (String.eqb_spec w w0) as [->|]; auto.
  - destruct (w_link (s w0)) as [|[|k0 q]| |]; auto. unfold upd. destruct (String.eqb_spec w w0) as [->|]; auto.
    unfold handle. destruct (task_of k0 _); auto.
  - destruct (w_link (s w0)); auto; unfold upd; destruct (String.eqb_spec w w0) as [->|]; auto.
  - destruct (w_link (s w0)); auto; unfold upd; destruct (String.eqb_spec w w0) as [->|]; auto.
  - unfold upd; destruct (String.eqb_spec w w0) as [->|]; auto.
  - unfold upd; destruct (String.eqb_spec w w0) as [->|]; auto.
  - unfold upd; destruct (String.eqb_spec w w0) as [->|]; auto.
  - destruct (w_sub (s w0)) eqn:E1, (w_over (s w0)) eqn:E2; auto. unfold upd. destruct (String.eqb_spec w w0) as [->|]; [congruence|auto].
  - destruct (w_sub (s w0)) as [[|k0 q]|] eqn:E1; auto. unfold upd. destruct (String.eqb_spec w w0) as [->|]; [congruence|auto].
  - unfold upd; destruct (String.eqb_spec w w0) as [->|]; auto.
Qed.

(** ** The listener's state is what the history says *)
Definition moods (x : link) : mood := match x with LOff => Away | LOn _ => Tuned | LPause => Resting | LLeft => Gone end.
Lemma mood_run cl dn l w : moods (w_link (sig_run cl dn l w)) = mood_of w l /\
  (forall q, w_link (sig_run cl dn l w) = LOn q -> (length q <= cancels l)%nat).
Proof.
  unfold mood_of, cancels. induction l as [|e l IH] using rev_ind; [split; [reflexivity|discriminate]|].
  rewrite sig_run_snoc, fold_left_app, filter_app', app_length. cbn [fold_left]. destruct IH as [IH1 IH2]. rewrite <- IH1. set (s := sig_run cl dn l) in *.
  assert (Same : forall x y, w_link x = w_link (s w) -> moods (w_link x) = moods (w_link (s w)) /\ (forall q, w_link x = LOn q -> (length q <= length (filter (fun e => match e with ECancel _ _ => true | _ => false end) l) + y)%nat)).
  { intros x y ->. split; [reflexivity|]. intros q E. specialize (IH2 q E). lia. }
  assert (S0 := Same (s w) O eq_refl).
  destruct e; cbn [sig_step mood_step filter length].
  - unfold hear. destruct (glob _ _); [|now apply Same]. cbv zeta. destruct (w_link (s w)) as [|q0| |] eqn:E; cbn; destruct (w_sub (s w)); cbn; rewrite ?E; try (split; [reflexivity|discriminate]);
      (split; [reflexivity|]; intros q [= <-]; rewrite app_length; cbn; specialize (IH2 q0 eq_refl); lia).
  - unfold upd. destruct (String.eqb_spec w0 w) as [->|N].
    + destruct (w_link (s w)) eqn:E; try (cbv iota; rewrite E; exact S0). rewrite String.eqb_refl. cbn. split; [reflexivity|]. intros q [= <-]. cbn. lia.
    + rewrite ?(proj2 (String.eqb_neq w0 w) N). destruct (w_link (s w0)); destruct (String.eqb_spec w w0); try congruence; (split; [destruct (moods (w_link (s w))); reflexivity|exact (proj2 S0)]).
  - destruct (w_link (s w0)) as [|[|k q0]| |] eqn:E; try (now apply Same). unfold upd. destruct (String.eqb_spec w w0) as [->|]; [|now apply Same].
    assert (Lk : w_link (handle k (with_link (s w0) (LOn q0))) = LOn q0) by (unfold handle; destruct (task_of _ _); reflexivity). rewrite Lk, E. split; [reflexivity|]. intros q [= <-]. specialize (IH2 _ E). cbn in IH2. lia.
  - unfold upd. destruct (String.eqb_spec w0 w) as [->|N].
    + destruct (w_link (s w)) eqn:E; try (cbv iota; rewrite E; exact S0); rewrite String.eqb_refl; cbn; (split; [reflexivity|discriminate]).
    + rewrite ?(proj2 (String.eqb_neq w0 w) N). destruct (w_link (s w0)); destruct (String.eqb_spec w w0); try congruence; (split; [destruct (moods (w_link (s w))); reflexivity|exact (proj2 S0)]).
  - unfold upd. destruct (String.eqb_spec w0 w) as [->|N].
    + destruct (w_link (s w)) eqn:E; try (cbv iota; rewrite E; exact S0); rewrite String.eqb_refl; cbn; (split; [reflexivity|discriminate]).
    + rewrite ?(proj2 (String.eqb_neq w0 w) N). destruct (w_link (s w0)); destruct (String.eqb_spec w w0); try congruence; (split; [destruct (moods (w_link (s w))); reflexivity|exact (proj2 S0)]).
  - unfold upd. destruct (String.eqb_spec w0 w) as [->|N].
    + rewrite String.eqb_refl. cbn. split; [reflexivity|discriminate].
    + destruct (String.eqb_spec w w0); [congruence|]. now apply Same.
  - unfold upd. destruct (String.eqb_spec w w0) as [->|]; now apply Same.
  - unfold upd. destruct (String.eqb_spec w w0) as [->|]; now apply Same.
  - destruct (w_sub (s w0)), (w_over (s w0)); try (now apply Same). unfold upd. destruct (String.eqb_spec w w0) as [->|]; now apply Same.
  - destruct (w_sub (s w0)) as [[|k0 q0]|]; try (now apply Same). unfold upd. destruct (String.eqb_spec w w0) as [->|]; [|now apply Same].
    destruct (String.eqb k0 ""); now apply Same.
  - unfold upd. destruct (String.eqb_spec w w0) as [->|]; now apply Same.
Qed.
