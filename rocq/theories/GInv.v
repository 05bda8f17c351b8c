(** Structural invariants of every reachable state: ids are unique and bounded,
    recorded ids point to entries of the right key, executions agree with the
    entries they were built from. *)
From Verif Require Import Base ZSet Model.

(** ** Store invariants *)

(** Strictly increasing ids. *)
Fixpoint ids_sorted (l : list (sid * msg)) : Prop :=
  match l with
  | [] => True
  | e :: t => (forall e', In e' t -> fst e < fst e') /\ ids_sorted t
  end.

Lemma ids_sorted_filter f l : ids_sorted l -> ids_sorted (filter f l).
Proof.
  induction l as [|e t IH]; simpl; intros H; [exact I|]. destruct H as [H1 H2].
  destruct (f e); simpl; auto. split; auto.
  intros e' He'; apply filter_In in He' as [He' _]; auto.
Qed.

Lemma ids_sorted_snoc l e : ids_sorted l -> (forall e', In e' l -> fst e' < fst e) -> ids_sorted (l ++ [e]).
Proof.
  induction l as [|a t IH]; simpl; intros H Hlt.
  - split; [intros ? []|exact I].
  - destruct H as [H1 H2]. split.
    + intros e' He'. apply in_app_iff in He' as [He'|[He'|[]]]; [auto|subst; apply Hlt; auto].
    + apply IH; auto.
Qed.

Lemma ids_sorted_inj l e e' : ids_sorted l -> In e l -> In e' l -> fst e = fst e' -> e = e'.
Proof.
  induction l as [|a t IH]; simpl; intros H Hi Hi' E; [tauto|]. destruct H as [H1 H2].
  destruct Hi as [->|Hi], Hi' as [->|Hi']; auto.
  - specialize (H1 _ Hi'); lia.
  - specialize (H1 _ Hi); lia.
Qed.

Lemma ids_sorted_NoDup l : ids_sorted l -> NoDup (map fst l).
Proof.
  induction l as [|a t IH]; simpl; intros H; constructor.
  - destruct H as [H1 _]. rewrite in_map_iff; intros (e & E & He). specialize (H1 _ He); lia.
  - apply IH, H.
Qed.

Definition wids (d : db) : list (sid * msg) := map snd (d_wait d).

Record DInv (d : db) : Prop := mkDInv {
  di_sorted : ids_sorted (d_stream d);
  di_next : forall e, In e (d_stream d) -> fst e < d_next d;
  di_last : d_last d < d_next d;
  di_wsorted : ids_sorted (wids d);
  di_wnext : forall e, In e (wids d) -> fst e < d_next d;
  di_sid : forall k i, r_sid (rget d k) = Some i ->
             i < d_next d /\ forall m, In (i, m) (d_stream d) -> m_key m = k;
  di_wid : forall k i, r_wid (rget d k) = Some i ->
             i < d_next d /\ forall m, In (i, m) (wids d) -> m_key m = k;
  di_parked : forall k m, d_parked d k = Some m -> m_key m = k;
  di_queue : znodup (d_queue d);
  di_legacy : forall k, d_lknown d k = false /\ d_lsid d k = None;
  di_pel : forall i, In i (map pe_id (d_pel d)) -> i <= d_last d;
  di_zsorted : zsorted (d_queue d);
  di_deliv : forall i m, In (i, m) (d_stream d) -> i <= d_last d -> In i (map pe_id (d_pel d));
  di_pnodup : NoDup (map pe_id (d_pel d)) }.

Lemma DInv_init : DInv init_db.
Proof.
  constructor; simpl; try tauto; try discriminate; try lia; try constructor; auto.
Qed.

Lemma rget_hset d k k' f : rget (hset d k f) k' = if String.eqb k' k then f (rget d k) else rget d k'.
Proof. unfold rget, hset, upd; simpl. destruct (String.eqb k' k); reflexivity. Qed.

Lemma rget_hdel d k k' f : r_sid (f empty_runs) = None ->
  rget (hdel d k f) k' = if String.eqb k' k then default empty_runs (option_map f (d_runs d k)) else rget d k'.
Proof. unfold rget, hdel, upd; simpl. destruct (String.eqb k' k); reflexivity. Qed.

Lemma rget_del_runs d k k' : rget (del_runs d k) k' = if String.eqb k' k then empty_runs else rget d k'.
Proof. unfold rget, del_runs, upd; simpl. destruct (String.eqb k' k); reflexivity. Qed.

(** A store change that adds only fresh stream and waiter entries. *)
Record ext (d d' : db) : Prop := mkExt {
  ex_next : d_next d <= d_next d';
  ex_last : d_last d <= d_last d';
  ex_stream : forall e, In e (d_stream d') -> In e (d_stream d) \/ d_next d <= fst e;
  ex_wait : forall e, In e (wids d') -> In e (wids d) \/ d_next d <= fst e }.

Lemma ext_refl d : ext d d.
Proof. constructor; try lia; auto. Qed.

Lemma ext_trans a b c : ext a b -> ext b c -> ext a c.
Proof.
  intros [A1 A2 A3 A4] [B1 B2 B3 B4]; constructor; try lia; intros e He.
  - apply B3 in He as [He|He]; [apply A3 in He; tauto|right; lia].
  - apply B4 in He as [He|He]; [apply A4 in He; tauto|right; lia].
Qed.

(** Good: the invariant is preserved and only fresh entries are added. *)
Definition good (d d' : db) : Prop := DInv d -> DInv d' /\ ext d d'.

Lemma good_refl d : good d d.
Proof. intros H; split; [exact H|apply ext_refl]. Qed.

Lemma good_trans a b c : good a b -> good b c -> good a c.
Proof. intros H1 H2 H. destruct (H1 H) as [X Y], (H2 X) as [Z W]. split; [exact Z|eapply ext_trans; eauto]. Qed.

Ltac splitd := constructor; simpl; unfold wids, rget in *; simpl; try tauto; try lia.

Lemma good_xadd d m : good d (fst (xadd d m)).
Proof.
  intros H; split.
  - destruct H as [A1 A2 A3 A4 A5 A6 A7 A8 A9 A10 A11 A12 A13 A14]. splitd; auto.
    + apply ids_sorted_snoc; auto.
    + intros e He; apply in_app_iff in He as [He|[<-|[]]]; [apply A2 in He|]; simpl in *; lia.
    + intros e He; apply A5 in He; lia.
    + intros k i Hi; destruct (A6 k i Hi) as [X Y]. split; [lia|]. intros m' Hm.
      apply in_app_iff in Hm as [Hm|[[= <- <-]|[]]]; [auto|lia].
    + intros k i Hi; destruct (A7 k i Hi) as [X Y]. split; [lia|auto].
    + intros i m' Hi Hl. apply in_app_iff in Hi as [Hi|[[= <- <-]|[]]]; [eauto|lia].
  - splitd. intros e He; apply in_app_iff in He as [He|[<-|[]]]; [auto|simpl; right; lia].
Qed.

Lemma del_entry_In i l e : In e (del_entry i l) <-> In e l /\ fst e <> i.
Proof. unfold del_entry; rewrite filter_In, negb_true_iff, Z.eqb_neq. tauto. Qed.

Lemma good_xdel d i : good d (xdel d i).
Proof.
  intros H; split.
  - destruct H as [A1 A2 A3 A4 A5 A6 A7 A8 A9 A10 A11 A12 A13 A14]. splitd; auto.
    + apply ids_sorted_filter, A1.
    + intros e He; apply del_entry_In in He as [He _]; auto.
    + intros k j Hj; destruct (A6 k j Hj) as [X Y]; split; [lia|].
      intros m Hm; apply del_entry_In in Hm as [Hm _]; auto.
    + intros j m Hj; apply del_entry_In in Hj as [Hj _]; eauto.
  - splitd. intros e He; apply del_entry_In in He as [He _]; auto.
Qed.

Lemma good_pel d p : (forall i, In i (map pe_id p) -> In i (map pe_id (d_pel d))) ->
  (forall i m, In (i, m) (d_stream d) -> In i (map pe_id (d_pel d)) -> In i (map pe_id p)) ->
  (NoDup (map pe_id (d_pel d)) -> NoDup (map pe_id p)) -> good d (set_pel d p).
Proof. intros Hp Hq Hn H; split; [destruct H; splitd; eauto|splitd]. Qed.

Lemma xack_ids d i : forall j, In j (map pe_id (d_pel (xack d i))) <-> In j (map pe_id (d_pel d)) /\ j <> i.
Proof.
  intros j. simpl. rewrite !in_map_iff. split.
  - intros (p & <- & Hp). apply filter_In in Hp as [Hp E]. split; [eauto|lia].
  - intros [(p & <- & Hp) E]. exists p. split; [reflexivity|]. apply filter_In. split; [exact Hp|lia].
Qed.

Lemma good_ackdel d i : good d (xdel (xack d i) i).
Proof.
  intros H. assert (G : DInv (xdel d i) /\ ext d (xdel d i)) by (apply good_xdel, H). destruct G as [G1 G2]. split.
  - destruct G1 as [A1 A2 A3 A4 A5 A6 A7 A8 A9 A10 A11 A12 A13 A14]. constructor; auto.
    + intros j Hj. apply A11. apply xack_ids in Hj. apply Hj.
    + intros j m Hj Hl. apply xack_ids. split; [eapply A13; eauto|]. apply del_entry_In in Hj as [_ Hj]. exact Hj.
    + simpl. now apply NoDup_map_filter.
  - destruct G2; constructor; auto.
Qed.

Lemma good_pubs d p : good d (set_pubs d p).
Proof. intros H; split; [destruct H; splitd; auto|splitd]. Qed.

Lemma good_publish d k s : good d (publish d k s).
Proof. apply good_pubs. Qed.

Lemma good_prog d p : good d (set_prog d p).
Proof. intros H; split; [destruct H; splitd; auto|splitd]. Qed.

Lemma good_slots d p : good d (set_slots d p).
Proof. intros H; split; [destruct H; splitd; auto|splitd]. Qed.

Lemma good_slotexp d p : good d (set_slotexp d p).
Proof. intros H; split; [destruct H; splitd; auto|splitd]. Qed.

Lemma good_now d p : good d (set_now d p).
Proof. intros H; split; [destruct H; splitd; auto|splitd]. Qed.

Lemma good_legacy d k : good d (del_legacy d k).
Proof.
  intros H; split; [|splitd]. destruct H; splitd; auto.
  intros k'. unfold upd. destruct (String.eqb k' k); auto.
Qed.

Lemma good_stream_nil d : good d (set_stream d []).
Proof.
  intros H; split; [|splitd]. destruct H as [A1 A2 A3 A4 A5 A6 A7 A8 A9 A10 A11 A12 A13 A14]; splitd; auto.
  intros k i Hi; destruct (A6 k i Hi); split; [lia|tauto].
Qed.

(** [runs] updates that keep or clear the recorded ids. *)
Definition keeps_ids (f : runs -> runs) : Prop :=
  forall r, (r_sid (f r) = r_sid r \/ r_sid (f r) = None) /\ (r_wid (f r) = r_wid r \/ r_wid (f r) = None).

Lemma good_runs d rs :
  (forall k i, r_sid (default empty_runs (rs k)) = Some i ->
     i < d_next d /\ forall m, In (i, m) (d_stream d) -> m_key m = k) ->
  (forall k i, r_wid (default empty_runs (rs k)) = Some i ->
     i < d_next d /\ forall m, In (i, m) (wids d) -> m_key m = k) ->
  good d (set_runs d rs).
Proof. intros H1 H2 H; split; [|splitd]. destruct H; splitd; auto. Qed.

Lemma good_hset d k f : keeps_ids f -> good d (hset d k f).
Proof.
  intros Hf H. apply good_runs; auto.
  - intros k' i. unfold upd. destruct (String.eqb_spec k' k) as [->|E]; simpl.
    + destruct (Hf (rget d k)) as [[E1|E1] _]; rewrite E1; [apply (di_sid _ H)|discriminate].
    + apply (di_sid _ H).
  - intros k' i. unfold upd. destruct (String.eqb_spec k' k) as [->|E]; simpl.
    + destruct (Hf (rget d k)) as [_ [E1|E1]]; rewrite E1; [apply (di_wid _ H)|discriminate].
    + apply (di_wid _ H).
Qed.

Lemma good_hdel d k f : keeps_ids f -> good d (hdel d k f).
Proof.
  intros Hf H. apply good_runs; auto.
  - intros k' i. unfold upd. destruct (String.eqb_spec k' k) as [->|E]; simpl.
    + pose proof (di_sid _ H k i) as Hs. unfold rget in Hs. destruct (d_runs d k) as [r|]; simpl in *; [|discriminate].
      destruct (Hf r) as [[E1|E1] _]; rewrite E1; [auto|discriminate].
    + apply (di_sid _ H).
  - intros k' i. unfold upd. destruct (String.eqb_spec k' k) as [->|E]; simpl.
    + pose proof (di_wid _ H k i) as Hs. unfold rget in Hs. destruct (d_runs d k) as [r|]; simpl in *; [|discriminate].
      destruct (Hf r) as [_ [E1|E1]]; rewrite E1; [auto|discriminate].
    + apply (di_wid _ H).
Qed.

Lemma good_del_runs d k : good d (del_runs d k).
Proof.
  intros H. apply good_runs; auto; intros k' i; unfold upd; destruct (String.eqb k' k); simpl;
    try discriminate; [apply (di_sid _ H)|apply (di_wid _ H)].
Qed.

Lemma good_expire_runs d k t : good d (expire_runs d k t).
Proof. apply good_hdel. intros r; simpl; auto. Qed.

(** Recording a stream id: it must be an entry of that key. *)
Lemma good_hset_sid d k f i :
  (forall r, r_sid (f r) = Some i) ->
  (forall r, r_wid (f r) = r_wid r \/ r_wid (f r) = None) ->
  i < d_next d -> (forall m, In (i, m) (d_stream d) -> m_key m = k) ->
  good d (hset d k f).
Proof.
  intros Hs Hw Hi Hm H. apply good_runs; auto; intros k' j; unfold upd;
    destruct (String.eqb_spec k' k) as [->|E]; simpl.
  - rewrite Hs; intros [= <-]; auto.
  - apply (di_sid _ H).
  - destruct (Hw (rget d k)) as [E1|E1]; rewrite E1; [apply (di_wid _ H)|discriminate].
  - apply (di_wid _ H).
Qed.

Lemma good_hset_wid d k f i :
  (forall r, r_wid (f r) = Some i) ->
  (forall r, r_sid (f r) = r_sid r) ->
  i < d_next d -> (forall m, In (i, m) (wids d) -> m_key m = k) ->
  good d (hset d k f).
Proof.
  intros Hs Hw Hi Hm H. apply good_runs; auto; intros k' j; unfold upd;
    destruct (String.eqb_spec k' k) as [->|E]; simpl.
  - rewrite Hw; apply (di_sid _ H).
  - apply (di_sid _ H).
  - rewrite Hs; intros [= <-]; auto.
  - apply (di_wid _ H).
Qed.

Lemma good_parked d k o : (forall m, o = Some m -> m_key m = k) ->
  good d (set_parked d (upd (d_parked d) k o)).
Proof.
  intros Ho H; split; [|splitd]. destruct H; splitd; auto.
  intros k' m. unfold upd. destruct (String.eqb_spec k' k) as [->|E]; auto.
Qed.

Lemma good_queue d z : (znodup (d_queue d) -> znodup z) -> (zsorted (d_queue d) -> zsorted z) -> good d (set_queue d z).
Proof. intros Hz Hs H; split; [|splitd]. destruct H; splitd; auto. Qed.

Lemma good_unpark d k : good d (unpark_future d k).
Proof.
  unfold unpark_future. eapply good_trans; [apply (good_parked d k None); discriminate|].
  apply good_queue; simpl; [apply zrem_nodup|apply zsorted_filter].
Qed.

Lemma good_park d k w m : m_key m = k -> good d (park_future d k w m).
Proof.
  intros Hk. unfold park_future. eapply good_trans; [apply (good_parked d k (Some m)); congruence|].
  apply good_queue; simpl; [apply zadd_nodup|apply zadd_sorted].
Qed.

Lemma ids_sorted_map_filter (f : string * (sid * msg) -> bool) l :
  ids_sorted (map snd l) -> ids_sorted (map snd (filter f l)).
Proof.
  induction l as [|e t IH]; simpl; intros H; [exact I|]. destruct H as [H1 H2].
  destruct (f e); simpl; auto. split; auto.
  intros e' He'. apply in_map_iff in He' as (x & <- & Hx). apply filter_In in Hx as [Hx _].
  apply H1, in_map, Hx.
Qed.

Lemma good_wait_filter d f : good d (set_wait d (filter f (d_wait d))).
Proof.
  intros H; split.
  - destruct H as [A1 A2 A3 A4 A5 A6 A7 A8 A9 A10 A11 A12 A13 A14]. splitd; auto.
    + apply ids_sorted_map_filter, A4.
    + intros e He. apply A5. apply in_map_iff in He as (x & <- & Hx).
      apply filter_In in Hx as [Hx _]. apply in_map, Hx.
    + intros k j Hj; destruct (A7 k j Hj) as [X Y]; split; [lia|].
      intros m Hm. apply Y. apply in_map_iff in Hm as (x & E & Hx).
      apply filter_In in Hx as [Hx _]. rewrite <- E. apply in_map, Hx.
  - splitd. intros e He. left. apply in_map_iff in He as (x & <- & Hx).
    apply filter_In in Hx as [Hx _]. apply in_map, Hx.
Qed.

Lemma good_del_waiter d c i : good d (del_waiter c i d).
Proof. apply good_wait_filter. Qed.

Lemma good_wait_add d c m :
  good d (set_next (set_wait d (d_wait d ++ [(c, (d_next d, m))])) (d_next d + 1)).
Proof.
  intros H; split.
  - destruct H as [A1 A2 A3 A4 A5 A6 A7 A8 A9 A10 A11 A12 A13 A14]. splitd; auto; rewrite ?map_app; simpl.
    + intros e He; apply A2 in He; lia.
    + apply ids_sorted_snoc; auto.
    + intros e He; apply in_app_iff in He as [He|[<-|[]]]; [apply A5 in He|]; simpl in *; lia.
    + intros k i Hi; destruct (A6 k i Hi) as [X Y]. split; [lia|auto].
    + intros k i Hi; destruct (A7 k i Hi) as [X Y]. split; [lia|]. intros m' Hm.
      apply in_app_iff in Hm as [Hm|[[= <- <-]|[]]]; [auto|lia].
  - splitd. rewrite map_app; simpl. intros e He; apply in_app_iff in He as [He|[<-|[]]]; [auto|simpl; right; lia].
Qed.

(** ** The scripts *)

Ltac chain := eapply good_trans; [|].

(** Peels the outermost store operation. *)
Ltac peel :=
  match goal with
  | |- good ?d ?d => apply good_refl
  | |- good _ (publish _ _ _) => eapply good_trans; [|apply good_publish]
  | |- good _ (hset _ _ _) => eapply good_trans; [|apply good_hset; solve [auto with keeps]]
  | |- good _ (hdel _ _ _) => eapply good_trans; [|apply good_hdel; solve [auto with keeps]]
  | |- good _ (del_legacy _ _) => eapply good_trans; [|apply good_legacy]
  | |- good _ (unpark_future _ _) => eapply good_trans; [|apply good_unpark]
  | |- good _ (del_runs _ _) => eapply good_trans; [|apply good_del_runs]
  | |- good _ (expire_runs _ _ _) => eapply good_trans; [|apply good_expire_runs]
  | |- good _ (del_prog _ _) => eapply good_trans; [|apply good_prog]
  | |- good _ (set_prog _ _) => eapply good_trans; [|apply good_prog]
  | |- good _ (xdel (xack _ ?i) ?i) => eapply good_trans; [|apply good_ackdel]
  | |- good _ (xdel _ _) => eapply good_trans; [|apply good_xdel]
  | |- good _ (del_waiter _ _ _) => eapply good_trans; [|apply good_del_waiter]
  | |- good _ (set_slots _ _) => eapply good_trans; [|apply good_slots]
  | |- good _ (set_slotexp _ _) => eapply good_trans; [|apply good_slotexp]
  | |- good _ (if ?b then _ else _) => destruct b
  | |- good _ (match ?b with Some _ => _ | None => _ end) => destruct b
  end.
Ltac peels := cbv zeta; repeat peel.

Lemma keeps_simple f : (forall r, r_sid (f r) = r_sid r) -> (forall r, r_wid (f r) = r_wid r) -> keeps_ids f.
Proof. intros H1 H2 r; auto. Qed.

Lemma keeps_gen g : keeps_ids (rset_gen g). Proof. now apply keeps_simple. Qed.
Lemma keeps_state s : keeps_ids (rset_state s). Proof. now apply keeps_simple. Qed.
Lemma keeps_scheduled w m : keeps_ids (rset_scheduled w m). Proof. now apply keeps_simple. Qed.
Lemma keeps_rdel_sid : keeps_ids rdel_sid. Proof. intros r; simpl; auto. Qed.
Lemma keeps_rdel_worker : keeps_ids rdel_worker. Proof. now apply keeps_simple. Qed.
Lemma keeps_rdel_known : keeps_ids rdel_known. Proof. intros r; simpl; auto. Qed.
Lemma keeps_rdel_waiter : keeps_ids rdel_waiter. Proof. intros r; simpl; auto. Qed.
Lemma keeps_running w t : keeps_ids (rset_running w t). Proof. now apply keeps_simple. Qed.
Lemma keeps_terminal s t e r : keeps_ids (rset_terminal s t e r). Proof. now apply keeps_simple. Qed.
Lemma keeps_cancelled t : keeps_ids (rset_cancelled t). Proof. now apply keeps_simple. Qed.
Lemma keeps_expire t : keeps_ids (rset_expire t). Proof. now apply keeps_simple. Qed.
#[export] Hint Resolve keeps_gen keeps_state keeps_scheduled keeps_rdel_sid keeps_rdel_worker keeps_rdel_known
  keeps_rdel_waiter keeps_running keeps_terminal keeps_cancelled keeps_expire : keeps.

Lemma good_hincr d k : good d (fst (hincr_gen d k)).
Proof. apply good_hset; auto with keeps. Qed.

Lemma good_place d k w imm clr m : m_key m = k -> good d (place d k w imm clr m).
Proof.
  intros Hk. unfold place. destruct (hincr_gen d k) as [d1 g] eqn:E1.
  assert (G1 : good d d1) by (replace d1 with (fst (hincr_gen d k)) by (now rewrite E1); apply good_hincr).
  destruct imm.
  - unfold xadd. chain; [exact G1|].
    intros H. revert H. fold (good d1 (hset (fst (xadd d1 (with_gen m g))) k (rset_queued w (d_next d1) (with_gen m g)))).
    intros H. assert (H' := proj1 (good_xadd d1 (with_gen m g) H)).
    revert H. fold (good d1 (hset (fst (xadd d1 (with_gen m g))) k (rset_queued w (d_next d1) (with_gen m g)))).
    chain; [apply good_xadd|]. intros _.
    apply (good_hset_sid _ _ _ (d_next d1)); simpl; auto; [lia|].
    intros m' Hm. pose proof (di_sorted _ H') as Hs.
    assert (X : (d_next d1, m') = (d_next d1, with_gen m g)).
    { eapply ids_sorted_inj; [exact Hs|exact Hm| |reflexivity]. simpl. apply in_app_iff; simpl; auto. }
    injection X as ->. simpl. exact Hk.
  - destruct clr.
    + peels. chain; [exact G1|]. apply (good_park d1 k w (with_gen m g)); exact Hk.
    + peels. chain; [exact G1|]. apply (good_park d1 k w (with_gen m g)); exact Hk.
Qed.

Lemma good_replace_existing d k : good d (lua_replace_existing d k).
Proof.
  unfold lua_replace_existing. peels.
Qed.

Lemma good_reschedule d k w imm i m : m_key m = k -> good d (lua_reschedule d k w imm i m).
Proof.
  intros Hk. unfold lua_reschedule. peels. chain; [|apply good_place, Hk]. peels.
Qed.

Lemma good_schedule d k w imm repl mid m : m_key m = k -> good d (fst (lua_schedule d k w imm repl mid m)).
Proof.
  intros Hk. unfold lua_schedule. destruct mid as [i|]; simpl; [now apply good_reschedule|].
  destruct (negb repl && lua_exists d k); simpl; [apply good_refl|].
  chain; [|chain; [apply good_place, Hk|apply good_publish]].
  destruct repl; [apply good_replace_existing|apply good_refl].
Qed.

Lemma good_claim d k w t g i : good d (fst (lua_claim d k w t g i)).
Proof.
  unfold lua_claim. destruct (superseded d k g); simpl.
  - peels.
  - peels.
Qed.

Lemma good_del_prog d k : good d (del_prog d k).
Proof. apply good_prog. Qed.

Lemma good_terminal d k g s t ttl e r i : good d (fst (lua_terminal d k g s t ttl e r i)).
Proof.
  unfold lua_terminal. destruct (superseded d k g); simpl.
  - peels.
  - peels.
Qed.

Lemma good_cancel d k t : good d (lua_cancel d k t).
Proof.
  unfold lua_cancel. cbv zeta.
  set (e := match r_sid (rget d k) with Some i => Some i | None => d_lsid d k end).
  set (d1 := match e with Some i => xdel d i | None => d end).
  assert (G : good d (hdel (del_prog (del_legacy (unpark_future d1 k) k) k) k rdel_known)).
  { peels. unfold d1; destruct e; peels. }
  set (d2 := hdel _ _ _) in *.
  destruct (r_state (rget d2 k)) as [[]|]; auto; peels; exact G.
Qed.

Lemma good_cancel_finish d k t : good d (cancel_finish d k t).
Proof. unfold cancel_finish. peels. Qed.

Lemma good_fold {A} (f : db -> A -> db) l d : (forall d a, In a l -> good d (f d a)) -> good d (fold_left f l d).
Proof.
  revert d; induction l as [|a l IH]; simpl; intros d H; [apply good_refl|].
  chain; [apply H; auto|apply IH; auto].
Qed.

Lemma good_stream_one d k : good d (stream_one d k).
Proof.
  unfold stream_one. destruct (d_parked d k) as [m|]; [|apply good_refl]. unfold xadd.
  peels. chain; [apply (good_xadd d m)|apply (good_parked (fst (xadd d m)) k None); discriminate].
Qed.

Lemma good_stream_due d t : good d (fst (lua_stream_due d t)).
Proof.
  unfold lua_stream_due; simpl. destruct (0 <? _).
  - chain; [|apply good_queue; [apply zremrangebyscore_nodup|apply zsorted_filter]]. apply good_fold; intros; apply good_stream_one.
  - apply good_fold; intros; apply good_stream_one.
Qed.

Lemma good_take_slot d c z k t ttl : good d (take_slot d c z k t ttl).
Proof. unfold take_slot. peels. Qed.

Lemma good_lua_park d c k i m : m_key m = k -> good d (lua_park d c k i m).
Proof.
  intros Hk. unfold lua_park. cbv zeta.
  destruct (hincr_gen (xdel (xack d i) i) k) as [d1 g] eqn:E1.
  assert (G1 : good d d1).
  { replace d1 with (fst (hincr_gen (xdel (xack d i) i) k)) by (now rewrite E1).
    chain; [|apply good_hincr]. peels. }
  eapply good_trans; [exact G1|].
  intros H. assert (H' := proj1 (good_wait_add d1 c (with_gen m g) H)). revert H.
  match goal with |- DInv ?a -> DInv ?b /\ ext ?a ?b => change (good a b) end.
  chain; [apply (good_wait_add d1 c (with_gen m g))|].
  peel. peel.
  apply (good_hset_wid _ _ _ (d_next d1)); simpl; auto; [lia|].
  intros m' Hm. pose proof (di_wsorted _ H') as Hs.
  assert (X : (d_next d1, m') = (d_next d1, with_gen m g)).
  { eapply ids_sorted_inj; [exact Hs|exact Hm| |reflexivity]. unfold wids; simpl. rewrite map_app. apply in_app_iff; simpl; auto. }
  injection X as ->. simpl. exact Hk.
Qed.

Lemma good_acquire d c mx k t re st ttl i m : m_key m = k ->
  good d (fst (lua_acquire_or_park d c mx k t re st ttl i m)).
Proof.
  intros Hk. unfold lua_acquire_or_park. destruct (zscore k (d_slots d c)) as [s|].
  - destruct (re && (s <=? st)); simpl; [apply good_take_slot|now apply good_lua_park].
  - destruct (_ <? _); simpl; [apply good_take_slot|].
    destruct (zrangebyscore 0 st (d_slots d c)) as [|[? ?] ?]; simpl; [now apply good_lua_park|apply good_take_slot].
Qed.

Lemma good_drop_safeguard d k : good d (drop_safeguard d k).
Proof. unfold drop_safeguard. chain; [apply good_unpark|apply good_del_runs]. Qed.

Lemma good_wake_one c d e : good d (wake_one c d e).
Proof.
  destruct e as [i m]. unfold wake_one.
  assert (G0 : good d (drop_safeguard (del_waiter c i d) (m_key m))) by
    (chain; [apply good_del_waiter|apply good_drop_safeguard]).
  destruct (r_state (rget d (m_key m))) as [[]|]; auto.
  destruct (hincr_gen d (m_key m)) as [d1 g] eqn:E1. unfold xadd.
  assert (G1 : good d d1) by (replace d1 with (fst (hincr_gen d (m_key m))) by (now rewrite E1); apply good_hincr).
  eapply good_trans; [exact G1|].
  set (m1 := with_gen m g).
  intros H. assert (H' := proj1 (good_xadd d1 m1 H)). revert H.
  match goal with |- DInv ?a -> DInv ?b /\ ext ?a ?b => change (good a b) end.
  chain; [apply (good_xadd d1 m1)|]. chain; [apply (good_del_waiter _ c i)|].
  peel. chain; [|apply good_drop_safeguard].
  apply (good_hset_sid _ _ _ (d_next d1)); simpl; auto; [lia|].
  intros m' Hm. pose proof (di_sorted _ H') as Hs.
  assert (X : (d_next d1, m') = (d_next d1, m1)).
  { eapply ids_sorted_inj; [exact Hs|exact Hm| |reflexivity]. simpl. apply in_app_iff; simpl; auto. }
  injection X as ->. reflexivity.
Qed.

Lemma good_wake d c cap : good d (wake d c cap).
Proof. unfold wake. destruct (0 <? cap); [apply good_fold; intros; apply good_wake_one|apply good_refl]. Qed.

Lemma good_release d c k mx st : good d (lua_release d c k mx st).
Proof.
  unfold lua_release. cbv zeta. chain; [|apply good_wake].
  chain; [apply (good_slots d (upd (d_slots d) c (zrem k (d_slots d c))))|].
  destruct (waiters _ c); [apply good_refl|apply good_slots].
Qed.

Lemma good_scavenge d c mx st : good d (lua_scavenge d c mx st).
Proof.
  unfold lua_scavenge. destruct (waiters d c); [apply good_refl|].
  chain; [|apply good_wake]. apply good_slots.
Qed.

Lemma good_cancel_cleanup d k c i : good d (cancel_cleanup d k c i).
Proof.
  unfold cancel_cleanup. destruct (own_place d k c i); [|apply good_refl].
  peels.
Qed.

Lemma good_tick d dt : good d (tick d dt).
Proof.
  unfold tick. cbv zeta. chain; [apply good_now|]. chain; [|chain; [apply good_slots|apply good_slotexp]].
  intros H. apply good_runs; auto; intros k i; simpl.
  - intros Hr. apply (di_sid _ H k i). unfold rget; simpl. destruct (d_runs d k) as [r|]; [|exact Hr].
    destruct (expired _ _) in Hr; [discriminate|exact Hr].
  - intros Hr. apply (di_wid _ H k i). unfold rget; simpl. destruct (d_runs d k) as [r|]; [|exact Hr].
    destruct (expired _ _) in Hr; [discriminate|exact Hr].
Qed.

Lemma good_clear_run ttl d k : good d (clear_run ttl d k).
Proof. unfold clear_run. destruct (0 <? ttl); [apply good_expire_runs|apply good_del_runs]. Qed.

Lemma good_clear_scheduled ttl d k : good d (clear_scheduled ttl d k).
Proof.
  unfold clear_scheduled. chain; [|chain; [apply good_legacy|apply good_clear_run]].
  apply (good_parked d k None); discriminate.
Qed.

Lemma good_clear_apply ttl d s : good d (fst (clear_apply ttl d s)).
Proof.
  unfold clear_apply; simpl. chain; [|apply good_fold; intros; apply good_clear_run].
  chain; [|apply good_fold; intros; apply good_clear_scheduled].
  chain; [|apply (good_queue _ []); intros; constructor].
  destruct (0 <? cs_count s); [apply good_stream_nil|apply good_refl].
Qed.

Lemma next_new_spec d i m : next_new d = Some (i, m) -> In (i, m) (d_stream d) /\ d_last d < i.
Proof. unfold next_new. intros H; apply find_some in H as [H1 H2]. simpl in H2. split; [exact H1|lia]. Qed.

Lemma next_new_first d i m : ids_sorted (d_stream d) -> next_new d = Some (i, m) ->
  forall j m', In (j, m') (d_stream d) -> j <= i -> j <= d_last d \/ j = i.
Proof.
  unfold next_new. induction (d_stream d) as [|e l IH]; simpl; [discriminate|]. intros [S1 S2]. unfold sid in *.
  destruct (d_last d <? fst e) eqn:E.
  - intros H0 j m'; injection H0 as ->; revert j m'. intros j m' [Hj|Hj] Hle; [injection Hj as <- _; auto|]. apply S1 in Hj. simpl in Hj. lia.
  - intros H j m' [Hj|Hj] Hle; [subst e; simpl in E; left; lia|eauto].
Qed.

Lemma good_read d w : good d (fst (read_group d w)).
Proof.
  unfold read_group. destruct (next_new d) as [[i m]|] eqn:E; simpl; [|apply good_refl]. intros H.
  pose proof (next_new_first d i m (di_sorted _ H) E) as F.
  apply next_new_spec in E as [E1 E2]. pose proof (di_next _ H _ E1) as E3; simpl in E3.
  destruct H as [A1 A2 A3 A4 A5 A6 A7 A8 A9 A10 A11 A12 A13 A14]. split; [|splitd]. splitd; auto; rewrite ?map_app; simpl.
  - intros j Hj. apply in_app_iff in Hj as [Hj|[<-|[]]]; [apply A11 in Hj|]; lia.
  - intros j m' Hj Hl. apply in_app_iff. destruct (F j m' Hj Hl) as [G|G]; [left; eauto|right; left; auto].
  - apply NoDup_snoc; auto. intros Hi. apply A11 in Hi. lia.
Qed.

Lemma lookup_entry_None i l : lookup_entry i l = None -> forall m, ~ In (i, m) l.
Proof.
  unfold lookup_entry. destruct (find (fun e => fst e =? i) l) as [e|] eqn:E; [discriminate|]. intros _ m Hm.
  apply (find_none _ _ E) in Hm. simpl in Hm. lia.
Qed.

Lemma claimable_idle c d p : c_redeliver c <= d_now d - pe_time p -> claimable c d p = true.
Proof. intros H. unfold claimable. apply orb_true_iff. right. lia. Qed.
Lemma claimable_inv c d p m : claimable c d p = true -> lookup_entry (pe_id p) (d_stream d) = Some m -> c_redeliver c <= d_now d - pe_time p.
Proof. unfold claimable. intros H E. rewrite E in H. cbn in H. lia. Qed.

Lemma good_autoclaim c d w i : good d (fst (autoclaim c d w i)).
Proof.
  unfold autoclaim. destruct (find _ (d_pel d)); simpl; [|apply good_refl].
  destruct (claimable _ _ _); simpl; [|apply good_refl].
  destruct (lookup_entry i (d_stream d)) eqn:L; simpl; apply good_pel.
  - intros j Hj. rewrite map_map in Hj. apply in_map_iff in Hj as (q & <- & Hq).
    destruct (Z.eqb_spec (pe_id q) i) as [E|E]; simpl; [rewrite <- E|]; now apply in_map.
  - intros j _ _ Hj. rewrite map_map. apply in_map_iff in Hj as (q & <- & Hq). apply in_map_iff. exists q. split; [|exact Hq].
    destruct (Z.eqb_spec (pe_id q) i) as [E|E]; simpl; auto.
  - intros N. rewrite map_map. erewrite map_ext; [exact N|]. intros q. simpl. destruct (Z.eqb_spec (pe_id q) i); simpl; auto.
  - intros j Hj. apply xack_ids in Hj. apply Hj.
  - intros j m Hj Hp. apply xack_ids. split; [exact Hp|]. intros ->. eapply lookup_entry_None; eauto.
  - simpl. apply NoDup_map_filter.
Qed.

Lemma lookup_entry_is_some i l m : In (i, m) l -> is_some (lookup_entry i l) = true.
Proof.
  intros H. destruct (lookup_entry i l) eqn:E; [reflexivity|]. exfalso. eapply lookup_entry_None; eauto.
Qed.

Lemma good_renew d w ids : good d (renew d w ids).
Proof.
  assert (E : forall l, map pe_id (map (fun p => if existsb (Z.eqb (pe_id p)) ids then mkPent (pe_id p) w (d_now d) (pe_count p + 1) else p) l) = map pe_id l).
  { intros l. rewrite map_map. apply map_ext. intros p. destruct (existsb _ _); reflexivity. }
  apply good_pel; rewrite E.
  - intros j Hj. apply in_map_iff in Hj as (q & <- & Hq). apply filter_In in Hq as [Hq _]. now apply in_map.
  - intros j m Hj Hp. apply in_map_iff in Hp as (q & <- & Hq). apply in_map. apply filter_In. split; [exact Hq|].
    apply orb_true_iff. right. eapply lookup_entry_is_some; eauto.
  - apply NoDup_map_filter.
Qed.

Lemma good_delete_known d k : good d (delete_known d k).
Proof. unfold delete_known. peels. Qed.

(** ** Executions *)

Record XInv (s : sys) : Prop := mkXInv {
  xi_mid : forall x, In x (s_execs s) -> x_mid x <= d_last (s_db s);
  xi_msg : forall x m, In x (s_execs s) -> In (x_mid x, m) (d_stream (s_db s)) -> m = x_msg x;
  xi_nodup : NoDup (map x_id (s_execs s));
  xi_next : forall x, In x (s_execs s) -> x_id x < s_nextx s }.

Definition GInv (s : sys) : Prop := DInv (s_db s) /\ XInv s.

Lemma GInv_init : GInv init_sys.
Proof. split; [apply DInv_init|]. constructor; simpl; try tauto. constructor. Qed.

Lemma upd_exec_ids l h f : (forall x, x_id (f x) = x_id x) -> map x_id (upd_exec l h f) = map x_id l.
Proof. intros Hf; unfold upd_exec. rewrite map_map. apply map_ext. intros x; destruct (x_id x =? h); auto. Qed.

Lemma upd_exec_In l h f x : In x (upd_exec l h f) -> exists y, In y l /\ (x = y \/ (x_id y = h /\ x = f y)).
Proof.
  unfold upd_exec. rewrite in_map_iff. intros (y & E & Hy). exists y; split; auto.
  destruct (Z.eqb_spec (x_id y) h); auto.
Qed.

Lemma get_exec_spec l h x : get_exec l h = Some x -> In x l /\ x_id x = h.
Proof. unfold get_exec; intros H; apply find_some in H as [H1 H2]; split; [exact H1|lia]. Qed.

(** Generic step: the store changes well, executions keep identity and message. *)
Lemma GInv_upd s d' h f cl :
  GInv s -> good (s_db s) d' ->
  (forall x, x_id (f x) = x_id x /\ x_mid (f x) = x_mid x /\ x_msg (f x) = x_msg x) ->
  GInv (mkSys d' (upd_exec (s_execs s) h f) (s_nextx s) cl).
Proof.
  intros [HD HX] Hg Hf. destruct (Hg HD) as [HD' HE]. split; [exact HD'|].
  destruct HX as [A1 A2 A3 A4], HE as [E1 E2 E3 E4]. constructor; simpl.
  - intros x Hx. apply upd_exec_In in Hx as (y & Hy & [->|[_ ->]]); [|rewrite (proj1 (proj2 (Hf y)))];
      apply A1 in Hy; lia.
  - intros x m Hx Hm.
    assert (exists y, In y (s_execs s) /\ x_mid x = x_mid y /\ x_msg x = x_msg y) as (y & Hy & M1 & M2).
    { apply upd_exec_In in Hx as (y & Hy & [->|[_ ->]]); exists y; [auto|]. destruct (Hf y) as (? & ? & ?); auto. }
    rewrite M1 in Hm; rewrite M2. apply E3 in Hm as [Hm|Hm]; [eauto|].
    simpl in Hm. pose proof (A1 _ Hy). pose proof (di_last _ HD). lia.
  - rewrite upd_exec_ids; [exact A3|]. intros x; apply Hf.
  - intros x Hx. apply upd_exec_In in Hx as (y & Hy & [->|[_ ->]]); [|rewrite (proj1 (Hf y))]; auto.
Qed.

Lemma GInv_db s d' cl : GInv s -> good (s_db s) d' -> GInv (mkSys d' (s_execs s) (s_nextx s) cl).
Proof.
  intros H Hg. replace (s_execs s) with (upd_exec (s_execs s) 0 (fun x => x)).
  - apply GInv_upd; auto.
  - unfold upd_exec. rewrite <- map_id. apply map_ext. intros x; destruct (x_id x =? 0); reflexivity.
Qed.

Lemma GInv_deliver s d' i m w b :
  GInv s -> good (s_db s) d' -> In (i, m) (d_stream d') -> i <= d_last d' ->
  GInv (mkSys d' (s_execs s ++ [mkExec (s_nextx s) w i m b PDelivered None]) (s_nextx s + 1) (s_clear s)).
Proof.
  intros H Hg Hi Hl. destruct (GInv_db s d' (s_clear s) H Hg) as [HD [A1 A2 A3 A4]]. simpl in *.
  split; [exact HD|]. constructor; simpl.
  - intros x Hx; apply in_app_iff in Hx as [Hx|[<-|[]]]; simpl; auto.
  - intros x m' Hx Hm; apply in_app_iff in Hx as [Hx|[<-|[]]]; simpl in *; [eauto|].
    assert (X : (i, m') = (i, m)) by (eapply ids_sorted_inj; [apply (di_sorted _ HD)|exact Hm|exact Hi|reflexivity]).
    congruence.
  - rewrite map_app; simpl. apply NoDup_snoc; auto. intros Hin.
    apply in_map_iff in Hin as (x & E & Hx). apply A4 in Hx. lia.
  - intros x Hx; apply in_app_iff in Hx as [Hx|[<-|[]]]; simpl; [apply A4 in Hx|]; lia.
Qed.

Lemma GInv_exec_filter s p : GInv s -> GInv (mkSys (s_db s) (filter p (s_execs s)) (s_nextx s) (s_clear s)).
Proof.
  intros [HD [A1 A2 A3 A4]]. split; [exact HD|]. constructor; simpl.
  - intros x Hx; apply filter_In in Hx as [Hx _]; auto.
  - intros x m Hx; apply filter_In in Hx as [Hx _]; eauto.
  - apply NoDup_map_filter, A3.
  - intros x Hx; apply filter_In in Hx as [Hx _]; auto.
Qed.

Lemma lookup_entry_In i l m : lookup_entry i l = Some m -> In (i, m) l.
Proof.
  unfold lookup_entry. intros H.
  match type of H with option_map snd ?f = _ => destruct f as [[j m']|] eqn:E end; simpl in H; [|discriminate].
  injection H as ->. apply find_some in E as [E1 E2]. simpl in E2. now replace i with j by lia.
Qed.

Lemma read_group_spec d w d' i m : read_group d w = (d', Some (i, m)) ->
  In (i, m) (d_stream d') /\ i <= d_last d' /\ d_last d < i.
Proof.
  unfold read_group. destruct (next_new d) as [[j n]|] eqn:N; [|discriminate].
  intros [= <- <- <-]; simpl. apply next_new_spec in N as [N1 N2]. repeat split; auto; lia.
Qed.

Lemma autoclaim_spec c d w i d' j m : autoclaim c d w i = (d', Some (j, m)) ->
  j = i /\ In (i, m) (d_stream d') /\ In i (map pe_id (d_pel d)) /\ d_last d' = d_last d.
Proof.
  unfold autoclaim. destruct (find (fun p => pe_id p =? i) (d_pel d)) as [p|] eqn:F; [|discriminate].
  destruct (claimable _ _ _); [|discriminate].
  destruct (lookup_entry i (d_stream d)) eqn:L; [|discriminate].
  intros [= <- <- <-]; simpl. apply lookup_entry_In in L. apply find_some in F as [F1 F2].
  repeat split; auto. replace i with (pe_id p) by lia. now apply in_map.
Qed.

Lemma with_phase_same p x : x_id (with_phase p x) = x_id x /\ x_mid (with_phase p x) = x_mid x /\ x_msg (with_phase p x) = x_msg x.
Proof. auto. Qed.
Lemma with_slot_same p x : x_id (with_slot p x) = x_id x /\ x_mid (with_slot p x) = x_mid x /\ x_msg (with_slot p x) = x_msg x.
Proof. auto. Qed.
Lemma unwind_same x : x_id (unwind x) = x_id x /\ x_mid (unwind x) = x_mid x /\ x_msg (unwind x) = x_msg x.
Proof. unfold unwind; destruct (x_phase x); auto. Qed.

Lemma GInv_step c s o : GInv s -> GInv (fst (step c s o)).
Proof.
  intros H. destruct o; cbn [step]; cbv zeta; unfold set_db, set_execs; cbn [fst].
  - destruct (0 <=? dt); simpl; [apply GInv_db; auto; apply good_tick|exact H].
  - unfold do_schedule. destruct (lua_schedule _ _ _ _ _ _ _) as [d r] eqn:E; simpl.
    apply GInv_db; auto. replace d with (fst (lua_schedule (s_db s) (a_key a) (a_when a) (a_when a <=? t) false None (call_msg a))) by now rewrite E.
    apply good_schedule; reflexivity.
  - unfold do_schedule. destruct (lua_schedule _ _ _ _ _ _ _) as [d r] eqn:E; simpl.
    apply GInv_db; auto. replace d with (fst (lua_schedule (s_db s) (a_key a) (a_when a) (a_when a <=? t) true None (call_msg a))) by now rewrite E.
    apply good_schedule; reflexivity.
  - apply GInv_db; auto; apply good_cancel.
  - apply GInv_db; auto; apply good_cancel_finish.
  - apply GInv_db; auto; apply good_refl.
  - apply GInv_db; auto; apply good_refl.
  - destruct (ready_clear s _) as [sn|]; [|exact H]. destruct (clear_apply _ _ _) as [d n] eqn:E; simpl.
    apply GInv_db; auto. replace d with (fst (clear_apply (c_ttl c) (s_db s) sn)) by now rewrite E. apply good_clear_apply.
  - destruct (lua_stream_due _ _) as [d [a b]] eqn:E; simpl. apply GInv_db; auto.
    replace d with (fst (lua_stream_due (s_db s) t)) by now rewrite E. apply good_stream_due.
  - unfold deliver. destruct (read_group _ _) as [d o] eqn:E.
    assert (Hd : good (s_db s) d) by (replace d with (fst (read_group (s_db s) w)) by (now rewrite E); apply good_read).
    destruct o as [[i m]|]; cbn [fst]; [|apply GInv_db; auto].
    apply read_group_spec in E as (E1 & E2 & E3). apply GInv_deliver; auto.
  - unfold deliver. destruct (autoclaim _ _ _ _) as [d o] eqn:E.
    assert (Hd : good (s_db s) d) by (replace d with (fst (autoclaim c (s_db s) w i)) by (now rewrite E); apply good_autoclaim).
    destruct o as [[j m]|]; cbn [fst]; [|apply GInv_db; auto].
    apply autoclaim_spec in E as (E0 & E1 & E2 & E3). subst j. apply GInv_deliver; auto.
    rewrite E3. apply (di_pel _ (proj1 H)), E2.
  - apply GInv_db; auto; apply good_renew.
  - destruct (get_exec _ _) as [x|] eqn:G; [|exact H]. destruct (x_phase x); try exact H.
    destruct (lua_claim _ _ _ _ _ _) as [d r] eqn:E.
    assert (Hd : good (s_db s) d).
    { replace d with (fst (lua_claim (s_db s) (m_key (x_msg x)) (x_worker x) t (m_gen (x_msg x)) (x_mid x))) by now rewrite E. apply good_claim. }
    destruct r; simpl; apply GInv_upd; auto; apply with_phase_same.
  - destruct (get_exec _ _) as [x|] eqn:G; [|exact H]. destruct (x_phase x); try exact H. simpl.
    apply GInv_upd; auto; apply good_refl.
  - destruct (get_exec _ _) as [x|] eqn:G; [|exact H]. destruct (x_phase x); try exact H. simpl.
    apply GInv_upd; auto; apply good_refl.
  - destruct (get_exec _ _) as [x|] eqn:G; [|exact H]. destruct (x_phase x); try exact H. simpl.
    apply GInv_upd; auto; apply good_delete_known.
  - destruct (get_exec _ _) as [x|] eqn:G; [|exact H]. destruct (may_finish _ _); try exact H.
    destruct (lua_terminal _ _ _ _ _ _ _ _ _) as [d r] eqn:E; simpl.
    apply GInv_upd; auto.
    replace d with (fst (lua_terminal (s_db s) (m_key (x_msg x)) (m_gen (x_msg x)) s0 t (c_ttl c) err res (x_mid x))) by now rewrite E.
    apply good_terminal.
  - destruct (get_exec _ _) as [x|] eqn:G; [|exact H]. destruct (may_resched _); try exact H. simpl.
    apply GInv_upd; auto. apply good_reschedule; reflexivity.
  - destruct (get_exec _ _) as [x|] eqn:G; [|exact H].
    destruct (x_phase x); try exact H; destruct (x_slot x); try exact H.
    destruct (lua_acquire_or_park _ _ _ _ _ _ _ _ _ _) as [d b] eqn:E; simpl.
    apply GInv_upd; auto; [|destruct b; auto; intros; apply with_phase_same].
    replace d with (fst (lua_acquire_or_park (s_db s) c0 maxc (m_key (x_msg x)) t (x_redel x) (t - c_redeliver c)
      (slot_ttl c) (x_mid x) (x_msg x))) by now rewrite E. now apply good_acquire.
  - destruct (get_exec _ _) as [x|] eqn:G; [|exact H].
    destruct (x_slot x) as [[cc mx]|]; [|destruct (x_phase x); exact H].
    destruct (x_phase x); try exact H; simpl; (apply GInv_upd; auto; [apply good_release|apply unwind_same]).
  - destruct (get_exec _ _) as [x|] eqn:G; [|exact H]. destruct (x_slot x) as [[cc mx]|]; [|exact H].
    simpl. apply GInv_db; auto. apply good_take_slot.
  - apply GInv_db; auto; apply good_scavenge.
  - apply GInv_db; auto; apply good_cancel_cleanup.
  - now apply GInv_exec_filter.
Qed.

(** ** Histories *)

Lemma final_nil c s : final c s [] = s.
Proof. reflexivity. Qed.

Lemma final_cons c s o l : final c s (o :: l) = final c (fst (step c s o)) l.
Proof. unfold final; simpl. destruct (step c s o) as [s' r]; simpl. destruct (run c s' l); reflexivity. Qed.

Lemma outs_cons c s o l : outs c s (o :: l) = snd (step c s o) :: outs c (fst (step c s o)) l.
Proof. unfold outs; simpl. destruct (step c s o) as [s' r]; simpl. destruct (run c s' l); reflexivity. Qed.

Lemma final_app c s l1 l2 : final c s (l1 ++ l2) = final c (final c s l1) l2.
Proof.
  revert s; induction l1 as [|o l IH]; intros s; [reflexivity|].
  simpl app. rewrite !final_cons. apply IH.
Qed.

Lemma outs_app c s l1 l2 : outs c s (l1 ++ l2) = outs c s l1 ++ outs c (final c s l1) l2.
Proof.
  revert s; induction l1 as [|o l IH]; intros s; [reflexivity|].
  simpl app. rewrite !outs_cons, final_cons. simpl. now rewrite IH.
Qed.

Lemma GInv_final c s l : GInv s -> GInv (final c s l).
Proof.
  revert s; induction l as [|o l IH]; intros s H; [exact H|].
  rewrite final_cons. apply IH, GInv_step, H.
Qed.

(** Reachable: the state after some history from the empty docket. *)
Definition reachable (c : cfg) (s : sys) : Prop := exists l, s = final c init_sys l.

Lemma reachable_GInv c s : reachable c s -> GInv s.
Proof. intros [l ->]; apply GInv_final, GInv_init. Qed.
