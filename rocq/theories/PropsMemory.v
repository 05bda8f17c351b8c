(** C81: memory servers. *)
From Verif Require Import Base Memory SpecMemory.

(** ** Proofs *)
(** What is known of a client: for which loop and URL it was made. *)
Definition owner := Z -> option (Z * string).

Record MInv (w : world) (own : owner) : Prop := {
  mi_refs : forall x, In x (wd_loops w) -> lp_ref x < wd_refs w;
  mi_one : forall x y, In x (wd_loops w) -> In y (wd_loops w) -> lp_ref x = lp_ref y -> x = y;
  mi_addr : forall x y, In x (wd_loops w) -> In y (wd_loops w) -> lp_addr x = lp_addr y -> x = y;
  mi_live : forall e, In e (wd_cache w) -> exists x, In x (wd_loops w) /\ lp_ref x = e_loop e /\ lp_addr x = e_addr e;
  mi_own : forall e, In e (wd_cache w) -> own (e_client e) = Some (e_loop e, e_url e);
  mi_new : forall c, wd_clients w <= c -> own c = None;
  mi_open : forall e, In e (wd_cache w) -> ~ In (e_client e) (wd_closed w);
  mi_old : forall c, In c (wd_closed w) -> c < wd_clients w;
  mi_inj : forall e e', In e (wd_cache w) -> In e' (wd_cache w) -> e_client e = e_client e' -> e = e';
  mi_made : forall e, In e (wd_cache w) -> e_client e < wd_clients w;
  mi_key : forall e e', In e (wd_cache w) -> In e' (wd_cache w) -> e_url e = e_url e' -> e_addr e = e_addr e' -> e = e' }.

Definition learn (own : owner) (w : world) (o : mop) : owner :=
  match o with
  | MLookup l url =>
      match snd (mstep w o) with
      | MClient c => if c =? wd_clients w then fun d => if d =? c then Some (l, url) else own d else own
      | _ => own
      end
  | _ => own
  end.

Lemma find_loop_In w l x : find_loop w l = Some x -> In x (wd_loops w) /\ lp_ref x = l.
Proof. intros H. apply find_some in H. split; [tauto|]. now apply Z.eqb_eq. Qed.
Lemma find_entry_In w url a e : find_entry w url a = Some e -> In e (wd_cache w) /\ e_url e = url /\ e_addr e = a.
Proof.
  intros H. apply find_some in H. destruct H as [I E]. apply andb_true_iff in E. destruct E as [E1 E2].
  split; [exact I|]. split; [now apply String.eqb_eq|now apply Z.eqb_eq].
Qed.
Lemma find_entry_none w url a : find_entry w url a = None -> forall e, In e (wd_cache w) -> ~ (e_url e = url /\ e_addr e = a).
Proof.
  intros H e I [<- <-]. pose proof (find_none _ _ H e I) as X. cbn in X. rewrite String.eqb_refl, Z.eqb_refl in X. discriminate.
Qed.

Lemma minv0 : MInv world0 (fun _ => None).
Proof. split; cbn; try (intros; contradiction); reflexivity. Qed.

Lemma minv_step w own o : MInv w own -> MInv (fst (mstep w o)) (learn own w o).
Proof.
  intros [R O A L W N C D J K Q]. destruct o as [a|l|l| |l url|l url|]; cbn [mstep learn fst snd].
  - destruct (existsb _ _) eqn:E; [now split|]. cbn [fst].
    assert (Fr : forall x, In x (wd_loops w) -> lp_addr x <> a).
    { intros x I X. assert (existsb (fun x => lp_addr x =? a) (wd_loops w) = true); [|congruence]. apply existsb_exists. exists x. split; [exact I|lia]. }
    split; cbn [wd_loops wd_refs wd_cache wd_clients wd_closed]; auto.
    + intros x [<-|I]; cbn; [lia|]. specialize (R x I). lia.
    + intros x y [<-|I] [<-|I'] X; cbn in X; auto; [specialize (R y I')|specialize (R x I)]; lia.
    + intros x y [<-|I] [<-|I'] X; cbn in X; auto; exfalso; [now apply (Fr y I')|now apply (Fr x I)].
    + intros e I. destruct (L e I) as (x & X & Y). exists x. split; [now right|exact Y].
  - cbn [fst]. set (f := fun x => if lp_ref x =? l then mkLoop (lp_ref x) (lp_addr x) true else x).
    assert (F1 : forall x, lp_ref (f x) = lp_ref x) by (intros x; unfold f; now destruct (lp_ref x =? l)).
    assert (F2 : forall x, lp_addr (f x) = lp_addr x) by (intros x; unfold f; now destruct (lp_ref x =? l)).
    split; cbn [wd_loops wd_refs wd_cache wd_clients wd_closed]; auto.
    + intros x I. apply in_map_iff in I. destruct I as (y & <- & I). rewrite F1. now apply R.
    + intros x y I I' X. apply in_map_iff in I, I'. destruct I as (x' & <- & I), I' as (y' & <- & I'). rewrite !F1 in X. now rewrite (O x' y' I I' X).
    + intros x y I I' X. apply in_map_iff in I, I'. destruct I as (x' & <- & I), I' as (y' & <- & I'). rewrite !F2 in X. now rewrite (A x' y' I I' X).
    + intros e I. destruct (L e I) as (x & X & Y1 & Y2). exists (f x). split; [now apply in_map|]. now rewrite F1, F2.
  - destruct (existsb _ _) eqn:E; [now split|]. cbn [fst].
    assert (Un : forall e, In e (wd_cache w) -> e_loop e <> l).
    { intros e I X. assert (existsb (fun e => e_loop e =? l) (wd_cache w) = true); [|congruence]. apply existsb_exists. exists e. split; [exact I|lia]. }
    split; cbn [wd_loops wd_refs wd_cache wd_clients wd_closed]; auto.
    + intros x I. apply filter_In in I. now apply R.
    + intros x y I I'. apply filter_In in I, I'. now apply O.
    + intros x y I I'. apply filter_In in I, I'. now apply A.
    + intros e I. destruct (L e I) as (x & X & Y1 & Y2). exists x. split; [|now split]. apply filter_In. split; [exact X|].
      apply negb_true_iff, Z.eqb_neq. rewrite Y1. now apply Un.
  - cbn [fst]. split; cbn [wd_loops wd_refs wd_cache wd_clients wd_closed]; auto.
    + intros e I. apply filter_In in I. now apply L.
    + intros e I. apply filter_In in I. now apply W.
    + intros e I. apply filter_In in I. destruct I as [I G]. rewrite in_app_iff. intros [X|X]; [|now apply (C e I)].
      apply in_map_iff in X. destruct X as (e' & X & I'). apply filter_In in I'. destruct I' as [I' G']. rewrite (J e' e I' I X) in G'. now rewrite G' in G.
    + intros c. rewrite in_app_iff. intros [X|X]; [|now apply D]. apply in_map_iff in X. destruct X as (e & <- & I). apply filter_In in I. now apply K.
    + intros e e' I I'. apply filter_In in I, I'. now apply J.
    + intros e I. apply filter_In in I. now apply K.
    + intros e e' I I'. apply filter_In in I, I'. now apply Q.
  - destruct (find_loop w l) as [x|] eqn:F; [|now split]. destruct (lp_closed x); [now split|].
    destruct (find_entry w url (lp_addr x)) as [e|] eqn:G; cbn [fst snd].
    + assert (E : e_client e =? wd_clients w = false); [|rewrite E; now split]. apply find_entry_In in G. specialize (K e (proj1 G)). lia.
    + rewrite Z.eqb_refl. apply find_loop_In in F. destruct F as [F1 F2].
      split; cbn [wd_loops wd_refs wd_cache wd_clients wd_closed]; auto.
      * intros e [<-|I]; [exists x; cbn; auto|now apply L].
      * intros e [<-|I]; cbn; [now rewrite Z.eqb_refl|]. assert (E : e_client e =? wd_clients w = false) by (specialize (K e I); lia). rewrite E. now apply W.
      * intros c H. assert (E : c =? wd_clients w = false) by lia. rewrite E. apply N. lia.
      * intros e [<-|I]; cbn; [|now apply C]. intros X. specialize (D _ X). lia.
      * intros c I. specialize (D c I). lia.
      * intros e e' [<-|I] [<-|I'] X; cbn in X; auto; [specialize (K e' I')|specialize (K e I)]; lia.
      * intros e [<-|I]; cbn; [lia|]. specialize (K e I). lia.
      * intros e e' [<-|I] [<-|I'] X Y; cbn in X, Y; auto; exfalso.
        -- now apply (find_entry_none w url (lp_addr x) G e' I').
        -- now apply (find_entry_none w url (lp_addr x) G e I).
  - destruct (find_loop w l) as [x|] eqn:F; [|now split]. destruct (lp_closed x); [now split|].
    destruct (find_entry w url (lp_addr x)) as [e|] eqn:G; now split.
  - cbn [fst]. split; cbn [wd_loops wd_refs wd_cache wd_clients wd_closed]; auto; try (intros; contradiction).
    intros c. rewrite in_app_iff. intros [X|X]; [|now apply D]. apply in_map_iff in X. destruct X as (e & <- & I). now apply K.
Qed.

Fixpoint worlds (w : world) (own : owner) (l : list mop) (n : nat) : world * owner :=
  match n, l with
  | O, _ | _, [] => (w, own)
  | S n, o :: l => worlds (fst (mstep w o)) (learn own w o) l n
  end.
Lemma minv_worlds l : forall w own n, MInv w own -> MInv (fst (worlds w own l n)) (snd (worlds w own l n)).
Proof. induction l as [|o l IH]; intros w own [|n] I; cbn; auto. apply IH. now apply minv_step. Qed.
Lemma run_out l : forall w own n o, nth_error l n = Some o ->
  nth_error (snd (mrun w l)) n = Some (snd (mstep (fst (worlds w own l n)) o)).
Proof.
  induction l as [|o' l IH]; intros w own [|n] o H; cbn in H; try discriminate.
  - injection H as ->. cbn. destruct (mstep w o) as [w' x]. destruct (mrun w' l). reflexivity.
  - cbn [mrun worlds]. destruct (mstep w o') as [w' x] eqn:E. cbn [fst]. specialize (IH w' (learn own w o') n o H).
    destruct (mrun w' l) as [w2 xs]. exact IH.
Qed.
Lemma worlds_S l : forall w own n o, nth_error l n = Some o ->
  worlds w own l (S n) = (fst (mstep (fst (worlds w own l n)) o), learn (snd (worlds w own l n)) (fst (worlds w own l n)) o).
Proof.
  induction l as [|o' l IH]; intros w own [|n] o H; cbn in H; try discriminate.
  - injection H as ->. cbn. destruct l; reflexivity.
  - change (worlds w own (o' :: l) (S (S n))) with (worlds (fst (mstep w o')) (learn own w o') l (S n)). rewrite (IH _ _ n o H). reflexivity.
Qed.

Lemma gives w own l url c : MInv w own -> snd (mstep w (MLookup l url)) = MClient c ->
  learn own w (MLookup l url) c = Some (l, url).
Proof.
  intros [R O A L W N C D J K Q] H. unfold learn. rewrite H. cbn [mstep] in H. destruct (find_loop w l) as [x|] eqn:F; [|discriminate].
  destruct (lp_closed x); [discriminate|]. apply find_loop_In in F. destruct F as [F1 F2].
  destruct (find_entry w url (lp_addr x)) as [e|] eqn:G; cbn [snd] in H; injection H as <-.
  - apply find_entry_In in G. destruct G as (I & <- & Ea). assert (E : e_client e =? wd_clients w = false) by (specialize (K e I); lia). rewrite E.
    rewrite (W e I). destruct (L e I) as (y & Y & Y1 & Y2). assert (x = y) by (apply A; auto; congruence). subst y. congruence.
  - now rewrite !Z.eqb_refl.
Qed.
Lemma peeks w own l url c : MInv w own -> snd (mstep w (MPeek l url)) = MClient c -> own c = Some (l, url).
Proof.
  intros I H. assert (E : snd (mstep w (MLookup l url)) = MClient c /\ c <> wd_clients w).
  { cbn [mstep] in *. destruct (find_loop w l) as [x|] eqn:F; [|discriminate]. destruct (lp_closed x); [discriminate|].
    destruct (find_entry w url (lp_addr x)) as [e|] eqn:G; cbn [snd] in *; [|discriminate]. split; [exact H|]. injection H as <-.
    apply find_entry_In in G. destruct I. specialize (mi_made0 e (proj1 G)). lia. }
  destruct E as [E Nc]. pose proof (gives w own l url c I E) as X. unfold learn in X. rewrite E in X. apply Z.eqb_neq in Nc. now rewrite Nc in X.
Qed.

Lemma learn_keeps w own o c v : MInv w own -> own c = Some v -> learn own w o c = Some v.
Proof.
  intros I H. unfold learn. destruct o; try exact H. destruct (snd _); try exact H. destruct (c0 =? wd_clients w) eqn:E; [|exact H].
  destruct (c =? c0) eqn:E'; [|exact H]. exfalso. destruct I. assert (own c = None) by (apply mi_new0; lia). congruence.
Qed.
Lemma owner_keeps ops c v : forall n m, (n <= m)%nat -> snd (worlds world0 (fun _ => None) ops n) c = Some v ->
  snd (worlds world0 (fun _ => None) ops m) c = Some v.
Proof.
  intros n m L H. induction L as [|m L IH]; [exact H|]. destruct (nth_error ops m) as [o|] eqn:E.
  - rewrite (worlds_S ops _ _ m o E). cbn [snd]. apply learn_keeps; [apply minv_worlds, minv0|exact IH].
  - assert (X : worlds world0 (fun _ => None) ops (S m) = worlds world0 (fun _ => None) ops m); [|now rewrite X].
    clear -E. revert E. generalize world0. generalize (fun _ : Z => @None (Z * string)). revert m. induction ops as [|o ops IH]; intros m own w E; [destruct m; reflexivity|].
    destruct m; [discriminate|]. cbn in E. cbn. now apply IH.
Qed.

Lemma gave_owner ops i l url c : gave ops i l url c -> forall n, (i < n)%nat -> snd (worlds world0 (fun _ => None) ops n) c = Some (l, url).
Proof.
  intros [H G] n L. apply (owner_keeps ops c (l, url) (S i)); [lia|].
  pose proof (minv_worlds ops world0 (fun _ => None) i minv0) as I. destruct H as [H|H].
  - rewrite (run_out ops world0 (fun _ => None) i _ H) in G. injection G as G. rewrite (worlds_S ops _ _ i _ H). cbn [snd]. now apply gives.
  - rewrite (run_out ops world0 (fun _ => None) i _ H) in G. injection G as G. rewrite (worlds_S ops _ _ i _ H). cbn [snd learn]. now apply (peeks _ _ l url c I).
Qed.

(** ** C81 *)

(** A server is never shared between loops or URLs, even where the address of a loop that
    is gone is used again. *)
Theorem C81_isolated ops i j l l' url url' c : gave ops i l url c -> gave ops j l' url' c -> l = l' /\ url = url'.
Proof.
  intros G G'. pose proof (gave_owner ops i l url c G (S (i + j)) ltac:(lia)) as E. rewrite (gave_owner ops j l' url' c G' (S (i + j)) ltac:(lia)) in E.
  injection E as -> ->. now split.
Qed.
Print Assumptions C81_isolated.

(** The entry for a running loop stays until the cache is cleared. *)
Lemma entry_stays w own o e : MInv w own -> In e (wd_cache w) -> o <> MClear ->
  (loop_closed (fst (mstep w o)) (e_loop e) = false -> In e (wd_cache (fst (mstep w o)))).
Proof.
  intros Iv I Nc H. destruct o as [a|l|l| |l url|l url|]; cbn [mstep] in *; try exact I.
  - destruct (existsb _ _); exact I.
  - destruct (existsb _ _); exact I.
  - cbn [fst wd_cache] in *. apply filter_In. split; [exact I|]. unfold loop_closed, find_loop in *. cbn [wd_loops] in H. now rewrite H.
  - destruct (find_loop w l) as [x|]; [|exact I]. destruct (lp_closed x); [exact I|]. destruct (find_entry _ _ _); [exact I|now right].
  - destruct (find_loop w l) as [x|]; [|exact I]. destruct (lp_closed x); [exact I|]. destruct (find_entry _ _ _); exact I.
  - now destruct Nc.
Qed.
Lemma refs_grow w o : wd_refs w <= wd_refs (fst (mstep w o)).
Proof.
  destruct o as [a|l|l| |l url|l url|]; cbn [mstep]; try (cbn; lia).
  - destruct (existsb _ _); cbn; lia.
  - destruct (existsb _ _); cbn; lia.
  - destruct (find_loop w l) as [x|]; [|cbn; lia]. destruct (lp_closed x); [cbn; lia|]. destruct (find_entry _ _ _); cbn; lia.
  - destruct (find_loop w l) as [x|]; [|cbn; lia]. destruct (lp_closed x); [cbn; lia|]. destruct (find_entry _ _ _); cbn; lia.
Qed.
(** A loop once closed or gone is never open again. *)
Lemma closed_stays w own o l : MInv w own -> l < wd_refs w -> loop_closed w l = true -> loop_closed (fst (mstep w o)) l = true.
Proof.
  intros Iv Lt H. destruct o as [a|k|k| |k url|k url|]; cbn [mstep].
  - destruct (existsb _ _); [exact H|]. unfold loop_closed, find_loop in *. cbn [fst wd_loops find lp_ref]. assert (E : wd_refs w =? l = false) by lia. now rewrite E.
  - unfold loop_closed, find_loop in *. cbn [fst wd_loops]. induction (wd_loops w) as [|x xs IH]; [reflexivity|]. cbn [map find] in *.
    assert (F : lp_ref (if lp_ref x =? k then mkLoop (lp_ref x) (lp_addr x) true else x) = lp_ref x) by now destruct (lp_ref x =? k).
    rewrite F. destruct (lp_ref x =? l); [destruct (lp_ref x =? k); [reflexivity|exact H]|now apply IH].
  - destruct (existsb _ _); [exact H|]. unfold loop_closed, find_loop in *. cbn [fst wd_loops].
    clear Lt Iv. induction (wd_loops w) as [|x xs IH]; [reflexivity|]. cbn [filter find] in *.
    destruct (lp_ref x =? k) eqn:Ek; cbn [negb].
    + destruct (lp_ref x =? l) eqn:El; [|now apply IH].
      assert (k = l) by lia. subst k. clear -Ek. induction xs as [|y ys IH]; [reflexivity|]. cbn [filter]. destruct (lp_ref y =? l) eqn:E; cbn [negb]; [exact IH|]. cbn [find]. rewrite E. exact IH.
    + cbn [find]. destruct (lp_ref x =? l); [exact H|now apply IH].
  - exact H.
  - destruct (find_loop w k) as [x|]; [|exact H]. destruct (lp_closed x); [exact H|]. destruct (find_entry _ _ _); exact H.
  - destruct (find_loop w k) as [x|]; [|exact H]. destruct (lp_closed x); [exact H|]. destruct (find_entry _ _ _); exact H.
  - exact H.
Qed.

Lemma given_entry w own l url c : MInv w own ->
  (snd (mstep w (MLookup l url)) = MClient c \/ snd (mstep w (MPeek l url)) = MClient c) ->
  loop_closed w l = false /\ l < wd_refs w /\
  (snd (mstep w (MLookup l url)) = MClient c -> exists e, In e (wd_cache (fst (mstep w (MLookup l url)))) /\ e_url e = url /\ e_loop e = l /\ e_client e = c) /\
  (snd (mstep w (MPeek l url)) = MClient c -> exists e, In e (wd_cache w) /\ e_url e = url /\ e_loop e = l /\ e_client e = c).
Proof.
  intros Iv H. pose proof Iv as [R O A L W N C D J K Q]. cbn [mstep] in *. unfold loop_closed. destruct (find_loop w l) as [x|] eqn:F; [|destruct H; discriminate].
  destruct (lp_closed x) eqn:Cx; [destruct H; discriminate|]. pose proof (find_loop_In w l x F) as [F1 F2].
  split; [reflexivity|]. split; [rewrite <- F2; now apply R|].
  destruct (find_entry w url (lp_addr x)) as [e|] eqn:G; cbn [snd fst] in *.
  - assert (X : In e (wd_cache w) /\ e_url e = url /\ e_loop e = l).
    { apply find_entry_In in G. destruct G as (I & Eu & Ea). split; [exact I|]. split; [exact Eu|].
      destruct (L e I) as (y & Y & Y1 & Y2). assert (x = y) by (apply A; auto; congruence). subst y. congruence. }
    destruct X as (I & Eu & El). split; intros E; injection E as <-; exists e; auto.
  - split; [|discriminate]. intros E. injection E as <-. eexists. split; [now left|]. auto.
Qed.

(** Dockets with the same URL on the same loop share their server, as long as the cache is
    not cleared in between. *)
Theorem C81_shared ops i j l url c c' : (i < j)%nat -> undisturbed ops i j ->
  gave ops i l url c -> gave ops j l url c' -> c = c'.
Proof.
  intros Lt U G G'.
  set (ws := worlds world0 (fun _ => None) ops).
  assert (Inv : forall n, MInv (fst (ws n)) (snd (ws n))) by (intros n; apply minv_worlds, minv0).
  destruct G as [H G], G' as [H' G'].
  assert (Gj : snd (mstep (fst (ws j)) (MLookup l url)) = MClient c' \/ snd (mstep (fst (ws j)) (MPeek l url)) = MClient c').
  { destruct H' as [H'|H']; rewrite (run_out ops world0 (fun _ => None) j _ H') in G'; injection G' as G'; auto. }
  destruct (given_entry _ _ _ _ _ (Inv j) Gj) as (Oj & Rj & _).
  (* the entry just after step i *)
  assert (Ei : exists e, In e (wd_cache (fst (ws (S i)))) /\ e_url e = url /\ e_loop e = l /\ e_client e = c).
  { destruct H as [H|H]; rewrite (run_out ops world0 (fun _ => None) i _ H) in G; injection G as G; unfold ws; rewrite (worlds_S ops _ _ i _ H); cbn [fst].
    - now apply (given_entry _ _ l url c (Inv i) (or_introl G)).
    - destruct (given_entry _ _ l url c (Inv i) (or_intror G)) as (_ & _ & _ & X). specialize (X G). fold ws.
      assert (Y : fst (mstep (fst (ws i)) (MPeek l url)) = fst (ws i)).
      { cbn [mstep]. destruct (find_loop _ l) as [x|]; [|reflexivity]. destruct (lp_closed x); [reflexivity|]. destruct (find_entry _ _ _); reflexivity. }
      rewrite Y. exact X. }
  destruct Ei as (e & Ie & Eu & El & Ec).
  (* known until step j *)
  assert (Len : forall n, (n < j)%nat -> exists o, nth_error ops n = Some o).
  { intros n Hn. assert (n < length ops)%nat. { assert (j < length ops)%nat; [|lia]. apply nth_error_Some. destruct H'; congruence. }
    destruct (nth_error ops n) eqn:E; [eauto|]. apply nth_error_None in E. lia. }
  assert (Open : forall n, (S i <= n <= j)%nat -> loop_closed (fst (ws n)) l = false).
  { assert (Lref : forall n, (S i <= n)%nat -> l < wd_refs (fst (ws n))).
    { intros n Hn. induction Hn as [|n Hn IH].
      - destruct (Inv (S i)). destruct (mi_live0 e Ie) as (x & X & Y & _). rewrite <- El, <- Y. now apply mi_refs0.
      - destruct (nth_error ops n) as [o|] eqn:E.
        + unfold ws. rewrite (worlds_S ops _ _ n o E). cbn [fst]. fold ws. pose proof (refs_grow (fst (ws n)) o). lia.
        + assert (X : ws (S n) = ws n); [|now rewrite X]. unfold ws. clear -E. revert E. generalize world0. generalize (fun _ : Z => @None (Z * string)). revert n.
          induction ops as [|o ops IH]; intros n own w E; [destruct n; reflexivity|]. destruct n; [discriminate|]. cbn in E. cbn. now apply IH. }
    intros n [Hn Hj]. destruct (loop_closed (fst (ws n)) l) eqn:E; [|reflexivity]. exfalso.
    assert (X : forall m, (n <= m <= j)%nat -> loop_closed (fst (ws m)) l = true).
    { intros m [Hm Hmj]. induction Hm as [|m Hm IH]; [exact E|]. destruct (Len m ltac:(lia)) as [o Eo]. unfold ws. rewrite (worlds_S ops _ _ m o Eo). cbn [fst]. fold ws.
      apply (closed_stays _ (snd (ws m))); [apply Inv|apply Lref; lia|apply IH; lia]. }
    specialize (X j ltac:(lia)). congruence. }
  assert (Stay : forall n, (S i <= n <= j)%nat -> In e (wd_cache (fst (ws n)))).
  { intros n [Hn Hj]. induction Hn as [|n Hn IH]; [exact Ie|]. destruct (Len n ltac:(lia)) as [o Eo]. pose proof (Open (S n) ltac:(lia)) as On.
    unfold ws in On |- *. rewrite (worlds_S ops _ _ n o Eo) in *. cbn [fst] in *. fold ws in On |- *.
    apply (entry_stays _ (snd (ws n))); [apply Inv|apply IH; lia| |rewrite El; exact On]. intros ->. now apply (U n ltac:(lia)). }
  pose proof (Stay j ltac:(lia)) as Ij.
  (* step j finds it *)
  destruct (Inv j) as [R O A L W N C D J K Q]. destruct (L e Ij) as (x & X1 & X2 & X3).
  cbn [mstep] in Gj. destruct (find_loop (fst (ws j)) l) as [y|] eqn:F; [|destruct Gj; discriminate].
  pose proof (find_loop_In _ _ _ F) as [F1 F2]. assert (x = y) by (apply O; auto; congruence). subst y.
  destruct (lp_closed x); [destruct Gj; discriminate|].
  destruct (find_entry (fst (ws j)) url (lp_addr x)) as [e'|] eqn:Fe.
  - apply find_entry_In in Fe. destruct Fe as (I' & Eu' & Ea'). assert (e' = e) by (apply Q; auto; congruence). subst e'.
    destruct Gj as [Gj|Gj]; cbn in Gj; injection Gj as <-; auto.
  - exfalso. apply (find_entry_none _ _ _ Fe e Ij). split; congruence.
Qed.
Print Assumptions C81_shared.

(** No closed server is handed out. *)
Theorem C81_open ops l url c : forall o, (o = MLookup l url \/ o = MPeek l url) ->
  snd (mstep (fst (mrun world0 ops)) o) = MClient c -> ~ In c (wd_closed (fst (mrun world0 ops))).
Proof.
  intros o Ho G. assert (E : exists own, MInv (fst (mrun world0 ops)) own).
  { clear. assert (X : forall w own, MInv w own -> exists own', MInv (fst (mrun w ops)) own'); [|apply (X _ _ minv0)].
    induction ops as [|o ops IH]; intros w own I; [now exists own|]. cbn [mrun]. pose proof (minv_step w own o I) as I'. destruct (mstep w o) as [w' x]. cbn [fst] in I'.
    specialize (IH w' _ I'). destruct (mrun w' ops) as [w2 xs]. exact IH. }
  destruct E as [own Iv]. set (w := fst (mrun world0 ops)) in *. clearbody w. pose proof Iv as [R O A L W N C D J K Q].
  destruct Ho as [-> | ->]; cbn [mstep] in G; (destruct (find_loop w l) as [x|]; [|discriminate]); (destruct (lp_closed x); [discriminate|]);
    destruct (find_entry w url (lp_addr x)) as [e|] eqn:F; cbn in G; try discriminate; injection G as <-.
  - apply find_entry_In in F. now apply C.
  - intros X. specialize (D _ X). lia.
  - apply find_entry_In in F. now apply C.
Qed.
Print Assumptions C81_open.

(** Two loops one after the other at the same address, and two URLs. *)
Example C81_case :
  let ops := [MNew 100; MLookup 0 "memory://"; MLookup 0 "memory://a"; MLookup 0 "memory://"; MClose 0; MFree 0; MNew 100; MDrop; MFree 0; MNew 100;
              MDrop; MLookup 1 "memory://"; MPeek 1 "memory://"; MClear; MLookup 1 "memory://"] in
  snd (mrun world0 ops) = [MLoop 0; MClient 0; MClient 1; MClient 0; MNone; MNone; MNone; MNone; MNone; MLoop 1; MNone; MClient 2; MClient 2; MNone; MClient 3] /\
  gave ops 1 0 "memory://" 0 /\ gave ops 3 0 "memory://" 0 /\ undisturbed ops 1 3 /\ gave ops 11 1 "memory://" 2.
Proof.
  cbv zeta. split; [vm_compute; reflexivity|]. split; [split; [now left|reflexivity]|]. split; [split; [now left|reflexivity]|].
  split; [|split; [now left|reflexivity]]. intros n H. assert (n = 2%nat) by lia. now subst n.
Qed.
