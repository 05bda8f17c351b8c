(** C23 with the renewal loops of the holders. *)
From Verif Require Import Base ZSet Model GInv KView KSim Spec KInv Check SpecConc ConcProofs ConcHist PropsHist PropsConc Periodic SpecPeriodic SlotLoop SpecSlotLoop SlotLoopProofs.

Definition r_limit (n : Z) (cc : string) (o : rop) : Prop := match o with RDo o => limit_is n cc o | _ => True end.
Lemma limit_hist c p n cc l : forall s, Forall (r_limit n cc) l -> Forall (limit_is n cc) (rhist c p s l).
Proof.
  induction l as [|o l IH]; intros s F; [constructor|]. inversion_clear F as [|? ? F1 F2]. cbn [rhist]. apply Forall_app. split; [|now apply IH].
  unfold rstep; cbv zeta. destruct o as [h t|h|h ok|h|o].
  - repeat match goal with |- context [match ?x with _ => _ end] => destruct x end; constructor.
  - destruct (rs_loop s h) as [l0|]; [|constructor]. destruct (sl_left l0); [constructor|]. destruct (loop_command _) as [[? ?]|]; repeat constructor.
  - repeat match goal with |- context [match ?x with _ => _ end] => destruct x end; constructor.
  - repeat match goal with |- context [match ?x with _ => _ end] => destruct x end; constructor.
  - destruct o; cbn [snd]; try (now repeat constructor).
    destruct (slots_on_time _ _ _); repeat constructor.
Qed.

(** In every history of the docket beside the renewal loops of its slot holders (sleep for
    [pe_every], wake at most [pe_late] late, a pass takes at most [pe_slow], any pass may fail before
    or after the store saw it, and no more than [fails] in a row do), with clocks at most [lag] behind and
    [ahead] ahead: if [fails + 1] periods and the rest fit into the redelivery timeout, the running
    bodies of the group number at most [n].  That holders renew in time is not assumed but follows. *)
Theorem C23_limit_with_renewal_loops c p fails lag ahead n cc l xs :
  sane p -> 0 <= lag -> 0 <= ahead ->
  (fails + 1) * cycle p + pe_slow p + lag + ahead < c_redeliver c ->
  Forall (r_limit n cc) l ->
  r_along c p (fun s o => r_clock lag ahead s o /\ r_fails cc fails s) rs_init l ->
  NoDup xs ->
  (forall x, In x xs -> In x (s_execs (rs_sys (rrun c p rs_init l))) /\ x_phase x = PBody /\ acquired_in c (rhist c p rs_init l) cc (x_id x)) ->
  Z.of_nat (length xs) <= Z.max 0 n.
Proof.
  intros S L0 A0 Fit Fl A N Hx.
  destruct (timely_hist c p cc fails lag ahead S L0 Fit A0 l rs_init _ (RInv_init p cc fails lag ahead) A) as [T E].
  apply (C23_limit_never_exceeded c n cc (rhist c p rs_init l)); auto.
  - now apply limit_hist.
  - intros x Ix. destruct (Hx x Ix) as (H1 & H2 & H3). rewrite E in H1. split; [exact H1|]. split; [exact H2|exact H3].
Qed.
Print Assumptions C23_limit_with_renewal_loops.

(** A holder that is renewing never loses its place in the slot set. *)
Theorem C23_slot_kept_by_loop c p fails lag ahead n cc l x :
  sane p -> 0 <= lag -> 0 <= ahead ->
  (fails + 1) * cycle p + pe_slow p + lag + ahead < c_redeliver c ->
  Forall (r_limit n cc) l ->
  r_along c p (fun s o => r_clock lag ahead s o /\ r_fails cc fails s) rs_init l ->
  let s := rs_sys (rrun c p rs_init l) in
  In x (holders cc s) -> exists t, zscore (m_key (x_msg x)) (d_slots (s_db s) cc) = Some t.
Proof.
  intros S L0 A0 Fit Fl A s Hx.
  destruct (timely_hist c p cc fails lag ahead S L0 Fit A0 l rs_init _ (RInv_init p cc fails lag ahead) A) as [T E]. fold s in E.
  pose proof (timely_init c n cc _ (limit_hist c p n cc l rs_init Fl) T) as H.
  pose proof (SInv_final c n cc _ init_sys GInv_init (SInv_init n cc) H) as I.
  change (rs_sys rs_init) with init_sys in E. rewrite <- E in I.
  apply in_zscore. apply (SInv_hkeys n cc s); [exact I|]. apply (in_map (fun x => m_key (x_msg x)) _ _ Hx).
Qed.
Print Assumptions C23_slot_kept_by_loop.

Definition r_clockb (lag ahead : Z) (s : rsys) (o : rop) : bool :=
  let now := d_now (s_db (rs_sys s)) in
  let low t := now - lag <=? t in
  let high t := t <=? now + ahead in
  match o with
  | RBegin _ t | RDo (OAcquire _ _ _ t) => low t && high t
  | RDo o => match op_clock o with Some t => high t | None => true end
  | _ => true
  end.
Definition r_failsb (cc : string) (fails : Z) (s : rsys) : bool :=
  forallb (fun x => match rs_loop s (x_id x) with Some l => pl_fails (sl_loop l) <=? fails | None => true end) (holders cc (rs_sys s)).
Fixpoint r_alongb (c : cfg) (p : period) (cc : string) (fails lag ahead : Z) (s : rsys) (l : list rop) : bool :=
  match l with
  | [] => true
  | o :: l => r_clockb lag ahead s o && r_failsb cc fails s && r_alongb c p cc fails lag ahead (fst (rstep c p s o)) l
  end.
Lemma r_alongb_sound c p cc fails lag ahead l : forall s, r_alongb c p cc fails lag ahead s l = true ->
  r_along c p (fun s o => r_clock lag ahead s o /\ r_fails cc fails s) s l.
Proof.
  induction l as [|o l IH]; intros s H; [exact Logic.I|]. cbn [r_alongb] in H. apply andb_prop in H as [H H3]. apply andb_prop in H as [H1 H2].
  split; [split|now apply IH].
  - unfold r_clock, r_clockb in *. destruct o as [h t|h|h ok|h|o]; auto; [lia|].
    destruct o; cbn [op_clock] in *; try (intros t0 [= <-]; lia); try discriminate; lia.
  - intros x l0 Hx E. unfold r_failsb in H2. rewrite forallb_forall in H2. apply H2 in Hx. rewrite E in Hx. lia.
Qed.

(** Redelivery after 300 s, renewal every 75 s (a quarter, LEASE_RENEWAL_FACTOR), woken up
    to 5 s late, passes of up to 10 s, clocks 5 s off either way: two renewals in a row may fail. *)
Definition ex_renewal : period := mkPeriod 75000000 5000000 10000000.
Definition ex_pass (h t dt : Z) (seen ok : bool) : list rop :=
  [RDo (OTick dt); RBegin h t] ++ (if seen then [RCommand h] else []) ++ [REnd h ok].
(** Limit 1: "a" holds the slot; the first renewal fails before and the second after the store
    saw it, the third is slow but gets through, the fourth fails; "k" is parked meanwhile; "a" ends, leaves and releases, "k" is woken and runs. *)
Definition ex_renewed : list rop :=
  map RDo [OAdd (mkCall "a" 0 "f" "" "") 0; OAdd (ex_call 0 "f" "") 0; ORead "w1"; ORead "w2"; OClaim 0 1; OAcquire 0 "c" 1 1; OBodyStart 0] ++
  [REnd 0 true] ++ ex_pass 0 76000000 75000000 false false ++ ex_pass 0 150000000 76000000 true false ++
  map RDo [OClaim 1 150000000; OAcquire 1 "c" 1 150000000] ++
  [RDo (OTick 77000000); RBegin 0 228000000; RDo (OTick 9000000); RCommand 0; REnd 0 true] ++
  ex_pass 0 312000000 75000000 false false ++
  [RDo (OBodyEnd 0); RLeave 0; RDo (OTick 10000000)].
Definition ex_renewed_end : list rop :=
  [RDo (ORelease 0 322000000); RDo (ORead "w2"); RDo (OClaim 2 322000000); RDo (OAcquire 2 "c" 1 322000000); RDo (OBodyStart 2)].
Example C23_renewal_case :
  sane ex_renewal /\ (2 + 1) * cycle ex_renewal + pe_slow ex_renewal + 5000000 + 5000000 < c_redeliver ex_cfg /\
  r_along ex_cfg ex_renewal (fun s o => r_clock 5000000 5000000 s o /\ r_fails "c" 2 s) rs_init (ex_renewed ++ ex_renewed_end) /\
  map (fun x => (m_key (x_msg x), x_phase x)) (holders "c" (rs_sys (rrun ex_cfg ex_renewal rs_init ex_renewed))) = [("a", PEnded)]%string /\
  map (fun x => (m_key (x_msg x), x_phase x)) (holders "c" (rs_sys (rrun ex_cfg ex_renewal rs_init (ex_renewed ++ ex_renewed_end)))) = [("k", PBody)]%string /\
  d_now (s_db (rs_sys (rrun ex_cfg ex_renewal rs_init ex_renewed))) = 322000000.
Proof.
  split; [unfold sane; cbn; lia|]. split; [vm_compute; reflexivity|]. split; [apply r_alongb_sound; vm_compute; reflexivity|].
  split; [vm_compute; reflexivity|]. split; vm_compute; reflexivity.
Qed.

(** The margin is needed: with perfect timing and clocks, three failures in a row are one
    too many (4 * 75 s = 300 s) and a second body starts. *)
Example C23_three_failed_renewals :
  exists c p fails n cc l, sane p /\ (fails + 1) * cycle p + pe_slow p + 0 + 0 = c_redeliver c /\ Forall (r_limit n cc) l /\
    r_along c p (fun s o => r_clock 0 0 s o /\ r_fails cc fails s) rs_init l /\
    n = 1 /\ map x_phase (holders cc (rs_sys (rrun c p rs_init l))) = [PBody; PBody].
Proof.
  exists ex_cfg, (mkPeriod 75000000 0 0), 3, 1, "c"%string,
    (map RDo [OAdd (mkCall "a" 0 "f" "" "") 0; OAdd (ex_call 0 "f" "") 0; ORead "w1"; ORead "w2"; OClaim 0 0; OAcquire 0 "c" 1 0; OBodyStart 0] ++
     [REnd 0 true] ++ ex_pass 0 75000000 75000000 false false ++ ex_pass 0 150000000 75000000 false false ++ ex_pass 0 225000000 75000000 false false ++
     map RDo [OTick 75000000; OClaim 1 300000000; OAcquire 1 "c" 1 300000000; OBodyStart 1]).
  split; [unfold sane; cbn; lia|]. split; [vm_compute; reflexivity|]. split.
  - repeat constructor; cbn; auto.
  - split; [apply r_alongb_sound; vm_compute; reflexivity|]. split; vm_compute; reflexivity.
Qed.
