(** What an uninterrupted clear() does to the store (C20). *)
From Verif Require Import Base ZSet Model GInv Spec.

Definition cleared (d : db) (k : key) : bool :=
  existsb (fun e => String.eqb (m_key (snd e)) k) (d_stream d) || existsb (fun e => String.eqb (snd e) k) (d_queue d).

Definition clear_rec (ttl now : Z) (o : option runs) : option runs :=
  if 0 <? ttl then option_map (rset_expire (Some (now + ttl * 1000000))) o else None.

(** Everything except the fields clear() writes. *)
Definition same_rest (d d' : db) : Prop :=
  d_now d' = d_now d /\ d_next d' = d_next d /\ d_last d' = d_last d /\ d_pel d' = d_pel d /\ d_prog d' = d_prog d /\
  d_pubs d' = d_pubs d /\ d_slots d' = d_slots d /\ d_slotexp d' = d_slotexp d /\ d_wait d' = d_wait d.

Lemma same_rest_trans a b c : same_rest a b -> same_rest b c -> same_rest a c.
Proof. unfold same_rest. intuition congruence. Qed.

Lemma clear_rec_idem ttl now o : clear_rec ttl now (clear_rec ttl now o) = clear_rec ttl now o.
Proof. unfold clear_rec. destruct (0 <? ttl); [|reflexivity]. destruct o; reflexivity. Qed.

Lemma clear_run_spec ttl d k :
  let d' := clear_run ttl d k in
  same_rest d d' /\ d_stream d' = d_stream d /\ d_queue d' = d_queue d /\ d_parked d' = d_parked d /\
  forall k', d_runs d' k' = if String.eqb k k' then clear_rec ttl (d_now d) (d_runs d k') else d_runs d k'.
Proof.
  intros d'. unfold d', clear_run, clear_rec, expire_runs, hdel, del_runs, set_runs, same_rest, upd.
  destruct (0 <? ttl); cbn; (repeat split); intros k'; rewrite (String.eqb_sym k k');
    destruct (String.eqb_spec k' k) as [->|]; reflexivity.
Qed.

Lemma clear_runs_spec ttl l d :
  let d' := fold_left (clear_run ttl) l d in
  same_rest d d' /\ d_stream d' = d_stream d /\ d_queue d' = d_queue d /\ d_parked d' = d_parked d /\
  forall k', d_runs d' k' = if existsb (fun k => String.eqb k k') l then clear_rec ttl (d_now d) (d_runs d k') else d_runs d k'.
Proof.
  revert d; induction l as [|k l IH]; intros d; cbn [fold_left existsb].
  - unfold same_rest; repeat split.
  - destruct (clear_run_spec ttl d k) as (A & B & C & D & E).
    destruct (IH (clear_run ttl d k)) as (A' & B' & C' & D' & E').
    split; [eapply same_rest_trans; eauto|]. rewrite B', C', D'. repeat split; auto.
    intros k'. rewrite E', E. destruct A as (-> & _).
    destruct (String.eqb k k'); cbn [orb]; [|reflexivity]. destruct (existsb (fun k0 : string => String.eqb k0 k') l); [apply clear_rec_idem|reflexivity].
Qed.

Lemma clear_scheduleds_spec ttl l d :
  let d' := fold_left (clear_scheduled ttl) l d in
  same_rest d d' /\ d_stream d' = d_stream d /\ d_queue d' = d_queue d /\
  (forall k', d_parked d' k' = if existsb (fun k => String.eqb k k') l then None else d_parked d k') /\
  forall k', d_runs d' k' = if existsb (fun k => String.eqb k k') l then clear_rec ttl (d_now d) (d_runs d k') else d_runs d k'.
Proof.
  revert d; induction l as [|k l IH]; intros d; cbn [fold_left existsb].
  - unfold same_rest; repeat split.
  - change (clear_scheduled ttl d k) with (clear_run ttl (del_legacy (set_parked d (upd (d_parked d) k None)) k) k).
    set (d1 := del_legacy (set_parked d (upd (d_parked d) k None)) k).
    destruct (clear_run_spec ttl d1 k) as (A & B & C & D & E).
    destruct (IH (clear_run ttl d1 k)) as (A' & B' & C' & D' & E').
    split; [eapply same_rest_trans; [|eauto]; eapply same_rest_trans; [|eauto]; unfold same_rest; repeat split|].
    rewrite B', C', B, C. split; [reflexivity|]. split; [reflexivity|]. split.
    + intros k'. rewrite D', D. cbn. unfold upd. rewrite (String.eqb_sym k' k). destruct (String.eqb k k'); cbn [orb]; [now destruct (existsb (fun k0 : string => String.eqb k0 k') l)|reflexivity].
    + intros k'. rewrite E', E. destruct A as (-> & _). change (d_now d1) with (d_now d). change (d_runs d1 k') with (d_runs d k').
      destruct (String.eqb k k'); cbn [orb]; [|reflexivity]. destruct (existsb (fun k0 : string => String.eqb k0 k') l); [apply clear_rec_idem|reflexivity].
Qed.

Lemma existsb_map {A B} (f : B -> bool) (g : A -> B) l : existsb f (map g l) = existsb (fun x => f (g x)) l.
Proof. induction l as [|a l IH]; cbn; [reflexivity|now rewrite IH]. Qed.

(** What a clear reads that nobody interrupts. *)
Definition clear_read (d : db) : clear_snap :=
  mkClear (Z.of_nat (length (d_stream d))) (map snd (d_queue d)) (map (fun e => m_key (snd e)) (d_stream d)).
Lemma clear_read_ok d : clear_keys d (clear_count d) = CRead (clear_read d).
Proof. unfold clear_keys, clear_count, clear_read. destruct (d_stream d); reflexivity. Qed.

Lemma clear_apply_spec ttl d :
  let d' := fst (clear_apply ttl d (clear_read d)) in
  snd (clear_apply ttl d (clear_read d)) = Z.of_nat (length (d_stream d)) + Z.of_nat (length (d_queue d)) /\
  same_rest d d' /\ d_stream d' = [] /\ d_queue d' = [] /\
  (forall k, d_parked d' k = if existsb (fun e => String.eqb (snd e) k) (d_queue d) then None else d_parked d k) /\
  (forall k, d_runs d' k = if cleared d k then clear_rec ttl (d_now d) (d_runs d k) else d_runs d k).
Proof.
  unfold clear_apply, clear_read. cbn [cs_count cs_stream_keys cs_queue_keys fst snd].
  set (d1 := if 0 <? Z.of_nat (length (d_stream d)) then set_stream d [] else d).
  assert (H1 : d_stream d1 = [] /\ same_rest d d1 /\ d_parked d1 = d_parked d /\ d_runs d1 = d_runs d).
  { unfold d1. destruct (d_stream d) eqn:E; cbn; unfold same_rest; repeat split; auto. }
  clearbody d1. destruct H1 as (S1 & R1 & P1 & Q1).
  set (d2 := set_queue d1 []).
  destruct (clear_scheduleds_spec ttl (map snd (d_queue d)) d2) as (A & B & C & D & E). cbv zeta in *.
  set (d3 := fold_left (clear_scheduled ttl) (map snd (d_queue d)) d2) in *. clearbody d3.
  destruct (clear_runs_spec ttl (map (fun e => m_key (snd e)) (d_stream d)) d3) as (A' & B' & C' & D' & E'). cbv zeta in *.
  set (d4 := fold_left (clear_run ttl) (map (fun e => m_key (snd e)) (d_stream d)) d3) in *. clearbody d4.
  assert (N : d_now d3 = d_now d).
  { destruct A as (-> & _). change (d_now d2) with (d_now d1). now destruct R1 as (-> & _). }
  split; [rewrite !map_length; reflexivity|].
  split; [eapply same_rest_trans; [exact R1|]; eapply same_rest_trans; [|exact A']; eapply same_rest_trans; [|exact A]; unfold same_rest, d2; repeat split|].
  split; [rewrite B', B; unfold d2; exact S1|]. split; [rewrite C', C; reflexivity|]. split.
  - intros k. rewrite D', D, existsb_map. unfold d2. cbn. now rewrite P1.
  - intros k. rewrite E', E, N, !existsb_map. unfold cleared. unfold d2. cbn [d_now d_runs set_queue]. rewrite Q1.
    replace (d_now d1) with (d_now d) by (destruct R1 as (-> & _); reflexivity).
    destruct (existsb (fun x => String.eqb (m_key (snd x)) k) (d_stream d)), (existsb (fun x => String.eqb (snd x) k) (d_queue d));
      cbn [orb]; try reflexivity. apply clear_rec_idem.
Qed.

Lemma cleared_iff d k : cleared d k = true <-> (exists i m, In (i, m) (d_stream d) /\ m_key m = k) \/ (exists w, In (w, k) (d_queue d)).
Proof.
  unfold cleared. rewrite orb_true_iff, !existsb_exists. split.
  - intros [([i m] & H & E)|([w k'] & H & E)]; cbn in E; apply String.eqb_eq in E; subst; eauto.
  - intros [(i & m & H & <-)|(w & H)]; [left; exists (i, m)|right; exists (w, k)]; cbn; rewrite String.eqb_refl; auto.
Qed.

(** The clear of a caller is moved on by that caller only. *)
Definition clears_as (w : string) (o : op) : Prop :=
  match o with OClearRead w' | OClearKeys w' | OClearApply w' => w' = w | _ => False end.

Lemma clear_untouched c s o w : ~ clears_as w o -> s_clear (fst (step c s o)) w = s_clear s w.
Proof.
  intros N. destruct o; cbn [clears_as] in N; cbn [step];
    try (cbn [fst s_clear]; rewrite upd_neq by auto; reflexivity);
    repeat match goal with
    | |- context [ready_clear s ?w0] => destruct (ready_clear s w0); [|reflexivity]; destruct (clear_apply _ _ _); cbn [fst s_clear]; rewrite upd_neq by auto; reflexivity
    | |- context [get_exec (s_execs s) ?h] => destruct (get_exec (s_execs s) h) as [?|]; try reflexivity
    | |- context [deliver s ?p ?w0 ?b] => unfold deliver; destruct p as [? [[? ?]|]]; reflexivity
    | |- context [let '(_, _) := ?p in _] => destruct p; try reflexivity
    | |- context [match ?b with _ => _ end] => destruct b; try reflexivity
    end; try reflexivity.
Qed.

Lemma clear_untouched_by c w l : forall s, Forall (fun o => ~ clears_as w o) l -> s_clear (final c s l) w = s_clear s w.
Proof.
  induction l as [|o l IH]; intros s H; [reflexivity|]. inversion H as [|? ? H1 H2]; subst.
  rewrite final_cons, IH by exact H2. now apply clear_untouched.
Qed.

Lemma clear_apply_any ttl d sn :
  let d' := fst (clear_apply ttl d sn) in
  same_rest d d' /\ d_stream d' = (if 0 <? cs_count sn then [] else d_stream d) /\ d_queue d' = [] /\
  (forall k, d_parked d' k = if existsb (fun k' : string => String.eqb k' k) (cs_queue_keys sn) then None else d_parked d k) /\
  (forall k, d_runs d' k = if existsb (fun k' : string => String.eqb k' k) (cs_queue_keys sn ++ cs_stream_keys sn)
                           then clear_rec ttl (d_now d) (d_runs d k) else d_runs d k).
Proof.
  unfold clear_apply. cbn [fst snd].
  set (d1 := if 0 <? cs_count sn then set_stream d [] else d).
  assert (H1 : d_stream d1 = (if 0 <? cs_count sn then [] else d_stream d) /\ same_rest d d1 /\ d_parked d1 = d_parked d /\ d_runs d1 = d_runs d).
  { unfold d1. destruct (0 <? cs_count sn); cbn; unfold same_rest; repeat split; auto. }
  clearbody d1. destruct H1 as (S1 & R1 & P1 & Q1).
  set (d2 := set_queue d1 []).
  destruct (clear_scheduleds_spec ttl (cs_queue_keys sn) d2) as (A & B & C & D & E). cbv zeta in *.
  set (d3 := fold_left (clear_scheduled ttl) (cs_queue_keys sn) d2) in *. clearbody d3.
  destruct (clear_runs_spec ttl (cs_stream_keys sn) d3) as (A' & B' & C' & D' & E'). cbv zeta in *.
  set (d4 := fold_left (clear_run ttl) (cs_stream_keys sn) d3) in *. clearbody d4.
  assert (N : d_now d3 = d_now d).
  { destruct A as (-> & _). change (d_now d2) with (d_now d1). now destruct R1 as (-> & _). }
  split; [eapply same_rest_trans; [exact R1|]; eapply same_rest_trans; [|exact A']; eapply same_rest_trans; [|exact A]; unfold same_rest, d2; repeat split|].
  split; [rewrite B', B; unfold d2; exact S1|]. split; [rewrite C', C; reflexivity|]. split.
  - intros k. rewrite D', D. unfold d2. cbn. now rewrite P1.
  - intros k. rewrite E', E, N, existsb_app. unfold d2. cbn [d_now d_runs set_queue]. rewrite Q1.
    replace (d_now d1) with (d_now d) by (destruct R1 as (-> & _); reflexivity).
    unfold key in *. destruct (existsb (fun x : string => String.eqb x k) (cs_stream_keys sn)), (existsb (fun x : string => String.eqb x k) (cs_queue_keys sn)); cbn [orb]; try reflexivity. apply clear_rec_idem.
Qed.
