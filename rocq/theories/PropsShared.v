(** C63: progress reported through the Progress dependency is that of the reporting run. *)
From Verif Require Import Base ZSet Model GInv Spec KView KSim KInv Hist PropsHist Progress SpecProgress ProgressProofs PropsProgress Shared SpecShared SharedProofs.

(** As long as a worker has at most one run of the task at a time, the shared object
    makes no difference: store, objects and events are as if every run had reported on
    its own progress, so C41 says what a reader sees.
    Missing from the full statement: several runs of one task in one worker (false,
    below). *)
Theorem C63_own_progress_partial c l : salong c one_at_a_time init_ssys l ->
  sh_p (sfinal c init_ssys l) = pfinal c init_psys (flat_map own l).
Proof.
  apply own_final; [split; [apply GInv_init|intros; apply UInv_init]|]. intros h [].
Qed.
Print Assumptions C63_own_progress_partial.

(** Two runs, of keys "a" and "b", of the same task in two workers; each reports. *)
Definition sh_call (k : string) : call := mkCall k 0 "f" "x" "".
Definition sh_two : list sop :=
  [SOp (POp (OAdd (sh_call "a") 0)); SOp (POp (OAdd (sh_call "b") 0)); SOp (POp (ORead "w1")); SOp (POp (ORead "w2"));
   SOp (POp (OClaim 0 1)); SEnter 0; SOp (POp (OClaim 1 1)); SEnter 1; SOp (POp (OBodyStart 0)); SOp (POp (OBodyStart 1));
   SIncr 0 5 2; STotal 1 10 2; SIncr 1 1 3; SMessage 0 (Some "half"%string) 3].

Fixpoint salongb (c : cfg) (P : ssys -> sop -> bool) (q : ssys) (l : list sop) : bool :=
  match l with [] => true | o :: l => P q o && salongb c P (sstep c q o) l end.
Lemma salongb_sound c (P : ssys -> sop -> Prop) Pb : (forall q o, Pb q o = true -> P q o) ->
  forall l q, salongb c Pb q l = true -> salong c P q l.
Proof. intros H. induction l as [|o l IH]; simpl; intros q E; [exact I|]. apply andb_prop in E as [E1 E2]. auto. Qed.
Definition one_at_a_timeb (q : ssys) (o : sop) : bool :=
  match o with
  | SOp _ => true
  | SEnter h => forallb (fun x => forallb (fun y => negb (x_id x =? h) || (x_id y =? h) || negb (String.eqb (x_worker y) (x_worker x))
      || negb (String.eqb (m_fn (x_msg y)) (m_fn (x_msg x))) || negb (may_report (x_phase y))) (s_execs (p_sys (sh_p q)))) (s_execs (p_sys (sh_p q)))
  | SIncr h _ _ | STotal h _ _ | SMessage h _ _ => existsb (Z.eqb h) (sh_in q)
  end.
Lemma one_at_a_timeb_sound q o : one_at_a_timeb q o = true -> one_at_a_time q o.
Proof.
  destruct o as [p|h|h n t|h n t|h m t]; cbn; auto;
    try (intros H; apply existsb_exists in H as (x & X1 & X2); now replace h with x by lia).
  intros H x y X1 X2 Y1 Y2 W F. rewrite forallb_forall in H. specialize (H x X1). rewrite forallb_forall in H. specialize (H y Y1).
  rewrite W, F, !String.eqb_refl in H. replace (x_id x =? h) with true in H by lia. replace (x_id y =? h) with false in H by lia.
  cbn in H. apply negb_true_iff in H. destruct (x_phase y); try discriminate H; repeat split; discriminate.
Qed.

Example C63_own_progress_example : salong ex_cfg one_at_a_time init_ssys sh_two /\
  seen "a" (sh_p (sfinal ex_cfg init_ssys sh_two)) = Some (5, 100, Some "half"%string) /\
  seen "b" (sh_p (sfinal ex_cfg init_ssys sh_two)) = Some (1, 10, None).
Proof.
  split; [|split; vm_compute; reflexivity].
  apply salongb_sound with (Pb := one_at_a_timeb); [exact one_at_a_timeb_sound|vm_compute; reflexivity].
Qed.

(** The same two runs in one worker: what the run of "a" reports appears as the progress
    of "b", and "a" shows nothing. *)
Definition sh_one : list sop :=
  [SOp (POp (OAdd (sh_call "a") 0)); SOp (POp (OAdd (sh_call "b") 0)); SOp (POp (ORead "w1")); SOp (POp (ORead "w1"));
   SOp (POp (OClaim 0 1)); SEnter 0; SOp (POp (OClaim 1 1)); SEnter 1; SOp (POp (OBodyStart 0)); SOp (POp (OBodyStart 1));
   SIncr 0 5 2].
Theorem C63_other_run_refuted : exists c l k k', k <> k' /\
  let q := sfinal c init_ssys l in let p := pfinal c init_psys (flat_map own l) in
  seen k p = Some (5, 100, None) /\ seen k' p = Some (0, 100, None) /\
  seen k (sh_p q) = Some (0, 100, None) /\ seen k' (sh_p q) = Some (5, 100, None).
Proof.
  exists ex_cfg, sh_one, "a"%string, "b"%string. split; [discriminate|]. repeat split; vm_compute; reflexivity.
Qed.
Print Assumptions C63_other_run_refuted.

(** When the other run has ended and its progress was removed, the report of the first
    brings it back: "b" is completed and yet shows progress, which nothing removes. *)
Theorem C63_after_the_end_refuted : exists c l k k', k <> k' /\
  let q := sfinal c init_ssys l in
  seen k' (sh_p q) = None /\ seen k (sh_p q) = Some (0, 100, None) /\
  let q' := sstep c q (SIncr 0 5 9) in
  (exists x, get_exec (s_execs (p_sys (sh_p q))) 0 = Some x /\ m_key (x_msg x) = k) /\
  seen k' (sh_p q') = Some (5, 100, None) /\ seen k (sh_p q') = Some (0, 100, None).
Proof.
  exists ex_cfg, (removelast sh_one ++ [SOp (POp (OBodyEnd 1)); SOp (POp (OTerminal 1 SCompleted 3 None None))]), "a"%string, "b"%string.
  split; [discriminate|]. cbv zeta. split; [vm_compute; reflexivity|]. split; [vm_compute; reflexivity|]. split.
  - eexists. split; [vm_compute; reflexivity|reflexivity].
  - split; vm_compute; reflexivity.
Qed.
Print Assumptions C63_after_the_end_refuted.
