(** Proofs about progress. *)
From Verif Require Import Base ZSet Model GInv KView KSim Spec KInv KLine Hist Steps Progress SpecProgress.

Lemma pfinal_app c l1 : forall q l2, pfinal c q (l1 ++ l2) = pfinal c (pfinal c q l1) l2.
Proof. induction l1; intros; simpl; auto. Qed.

(** ** Invariants of the docket inside *)

Definition PInv (q : psys) : Prop := GInv (p_sys q) /\ forall k, UInv k (kabs k (p_sys q)).

Lemma PInv_prog q s f : PInv q -> s = set_db (p_sys q) (set_prog (s_db (p_sys q)) f) -> GInv s /\ forall k, UInv k (kabs k s).
Proof.
  intros [[GD GX] U] ->. split.
  - split; [destruct GD; constructor; auto|destruct GX; constructor; auto].
  - intros k. destruct (U k). constructor; auto.
Qed.

Lemma report_sys q h ok f g : p_sys (report q h ok f g) = p_sys q \/
  exists x, get_exec (s_execs (p_sys q)) h = Some x /\ may_report (x_phase x) = true /\ ok = true /\
    p_sys (report q h ok f g) = set_db (p_sys q) (write_prog (s_db (p_sys q)) (m_key (x_msg x)) f).
Proof.
  unfold report. destruct (get_exec _ _) as [x|]; [|auto]. destruct (may_report (x_phase x) && ok) eqn:E; [|auto].
  apply andb_prop in E as [E1 E2]. right. exists x. auto.
Qed.

Lemma PInv_step c q o : PInv q -> PInv (pstep c q o).
Proof.
  intros P. assert (X : forall h ok f g, PInv (report q h ok f g)).
  { intros h ok f g. destruct (report_sys q h ok f g) as [E|(x & _ & _ & _ & E)].
    - unfold PInv. rewrite E. exact P.
    - unfold PInv. rewrite E. eapply PInv_prog; [exact P|reflexivity]. }
  destruct o; cbn [pstep]; auto. destruct P as [G U]. split; cbn [p_sys]; [now apply GInv_step|intros k; now apply UInv_step].
Qed.

Lemma PInv_reach c q : preachable c q -> PInv q.
Proof.
  intros [l ->]. enough (H : forall q, PInv q -> PInv (pfinal c q l)) by (apply H; split; [apply GInv_init|intros; apply UInv_init]).
  induction l; intros; simpl; auto using PInv_step.
Qed.

(** ** Steps that do not touch the progress of [k] *)

Lemma kprog_khdel v f : k_prog (khdel v f) = k_prog v.
Proof. reflexivity. Qed.

Lemma kprog_kreplace v : k_prog (kreplace_existing v) = k_prog v.
Proof. unfold kreplace_existing. cbv zeta. destruct (r_sid (kr v)); reflexivity. Qed.

Lemma prog_event c k v e : kok k v e ->
  (forall t, e <> KCancel t) -> (forall x t, e = KClaim x t -> ksuper v (m_gen (x_msg x)) = true) ->
  (forall cc i, e <> KCleanup cc i) ->
  (forall x s t n er re, e = KFinish x s t n er re -> ksuper v (m_gen (x_msg x)) = true /\
      exists p g, k_prog v = Some p /\ p_gen p = Some g /\ m_gen (x_msg x) < g) ->
  k_prog (kapply c v e) = k_prog v.
Proof.
  intros Hok N1 N2 N3 N4. destruct e; cbn [kapply]; try reflexivity.
  - unfold ksched. destruct (negb repl && kexists v); [reflexivity|]. unfold kplace. cbv zeta. destruct imm; destruct repl; try reflexivity; exact (kprog_kreplace v).
  - now destruct (N1 t).
  - unfold kmove. destruct (k_parked v); reflexivity.
  - cbv zeta. unfold kclaim. rewrite (N2 _ _ eq_refl). reflexivity.
  - destruct (N4 _ _ _ _ _ _ eq_refl) as (S & p & g & P1 & P2 & P3). cbn [kphase k_prog kset_execs]. unfold kterminal. rewrite S.
    cbv zeta. unfold kprog_mine. rewrite P1, P2. replace (g <=? m_gen (x_msg x)) with false by lia. exact P1.
  - unfold kresched, kplace. cbv zeta. destruct imm; reflexivity.
  - unfold kwake. destruct (r_state (kr v)) as [[]|]; reflexivity.
  - exfalso. now eapply N3.
Qed.

Lemma prog_op c k s o p g : GInv s -> UInv k (kabs k s) ->
  (match o with
   | OCancel k' _ | OCancelCleanup k' _ _ => k' <> k
   | OClaim h t => forall x, get_exec (s_execs s) h = Some x -> m_key (x_msg x) = k -> snd (step c s (OClaim h t)) <> OClaimed true
   | OTerminal h _ _ _ _ => forall x, get_exec (s_execs s) h = Some x -> m_key (x_msg x) = k -> m_gen (x_msg x) < g /\ ~ live s (x_msg x)
   | _ => True end) ->
  d_prog (s_db s) k = Some p -> p_gen p = Some g -> d_prog (s_db (fst (step c s o))) k = Some p.
Proof.
  intros G U H P1 P2. pose proof (proj2 G) as GX.
  enough (X : k_prog (kabs k (fst (step c s o))) = Some p) by exact X.
  apply (step_ind c k s o (fun v => k_prog v = Some p)); auto. intros v e Hok L _ _ Sv P.
  rewrite prog_event with (k := k); auto.
  - intros t ->. cbn in L. subst o. now apply H.
  - intros x t ->. cbn in L. subst o. specialize (Sv eq_refl). subst v. destruct Hok as [X1 X2]. apply kexecs_In in X1 as [X1 X3].
    pose proof (get_exec_In s x GX X1) as X4. specialize (H x X4 X3). cbn [step] in H. rewrite X4, X2 in H. unfold lua_claim in H.
    destruct (ksuper (kabs k s) (m_gen (x_msg x))) eqn:E; [reflexivity|exfalso].
    replace (superseded (s_db s) (m_key (x_msg x)) (m_gen (x_msg x))) with (ksuper (kabs k s) (m_gen (x_msg x))) in H by (rewrite X3; reflexivity).
    rewrite E in H. apply H. reflexivity.
  - intros cc i ->. cbn in L. subst o. now apply H.
  - intros x st t n er re ->. cbn in L. subst o. specialize (Sv eq_refl). subst v. destruct Hok as [X1 X2]. apply kexecs_In in X1 as [X1 X3].
    pose proof (get_exec_In s x GX X1) as X4. destruct (H x X4 X3) as [H1 H2]. split; [|eauto].
    unfold live in H2. rewrite X3 in H2. apply not_false_iff_true in H2. exact H2.
Qed.

(** ** Reports *)

Lemma reports_dec k q h : {reports k q h} + {~ reports k q h}.
Proof.
  unfold reports. destruct (get_exec (s_execs (p_sys q)) h) as [x|]; [|right; intros (x & H & _); discriminate].
  destruct (string_dec (m_key (x_msg x)) k) as [E|E]; [|right; intros (y & Y & H & _); congruence].
  destruct (may_report (x_phase x)) eqn:M.
  - left. exists x. split; [reflexivity|]. split; [exact E|]. destruct (x_phase x); try discriminate M; auto.
  - right. intros (y & Y & _ & [H|[H|H]]); injection Y as <-; rewrite H in M; discriminate.
Qed.

Lemma report_other k q h ok f g : ok = false \/ ~ reports k q h ->
  d_prog (s_db (p_sys (report q h ok f g))) k = d_prog (s_db (p_sys q)) k.
Proof.
  intros H. destruct (report_sys q h ok f g) as [->|(x & X1 & X2 & X3 & ->)]; [reflexivity|]. cbn.
  apply upd_neq. intros E. destruct H as [H|H]; [congruence|]. apply H. exists x. split; [exact X1|]. split; [auto|]. destruct (x_phase x); try discriminate X2; auto.
Qed.

Lemma report_does k q h f g : reports k q h ->
  d_prog (s_db (p_sys (report q h true f g))) k = Some (f (prog_of (s_db (p_sys q)) k)) /\
  p_local (report q h true f g) h = g (f (prog_of (s_db (p_sys q)) k)) (p_local q h) /\
  p_events (report q h true f g) = p_events q ++ [event k (g (f (prog_of (s_db (p_sys q)) k)) (p_local q h))].
Proof.
  intros (x & X1 & X2 & X3). unfold report. rewrite X1.
  replace (may_report (x_phase x)) with true by (destruct X3 as [E|[E|E]]; rewrite E; reflexivity). cbn [andb p_sys p_local p_events set_db s_db].
  rewrite X2.
  assert (E : d_prog (write_prog (s_db (p_sys q)) k f) k = Some (f (prog_of (s_db (p_sys q)) k))) by (cbn; apply upd_eq).
  assert (E' : prog_of (write_prog (s_db (p_sys q)) k f) k = f (prog_of (s_db (p_sys q)) k)) by (unfold prog_of at 1; rewrite E; reflexivity).
  rewrite E, E'. unfold set_local. rewrite Z.eqb_refl. split; [reflexivity|split; reflexivity].
Qed.

Definition Shows (k : key) (g : Z) (v : Z * Z * option string) (q : psys) : Prop :=
  exists p, d_prog (s_db (p_sys q)) k = Some p /\ p_gen p = Some g /\ (p_current p, p_total p, p_message p) = v.

Lemma shows_final c k g l : forall q v, PInv q -> palong c (running_on c k g) q l -> Shows k g v q ->
  exists v', told_progress c k q l v v' /\ Shows k g v' (pfinal c q l).
Proof.
  induction l as [|o l IH]; intros q v P A S.
  { exists v. split; [constructor|exact S]. }
  destruct A as [A1 A2]. cbn [pfinal]. pose proof (PInv_step c q o P) as P'. destruct S as (p & S1 & S2 & S3). destruct v as [[a b] m]. injection S3 as <- <- <-.
  assert (Oth : d_prog (s_db (p_sys (pstep c q o))) k = d_prog (s_db (p_sys q)) k -> 
     (match o with POp _ => True | PIncr h n _ | PTotal h n _ => n < 1 \/ ~ reports k q h | PMessage h _ _ => ~ reports k q h end) ->
     exists v', told_progress c k q (o :: l) (p_current p, p_total p, p_message p) v' /\ Shows k g v' (pfinal c (pstep c q o) l)).
  { intros E X. destruct (IH (pstep c q o) (p_current p, p_total p, p_message p) P' A2) as (v' & T & S); [exists p; split; [congruence|auto]|].
    exists v'. split; [now apply tp_other|exact S]. }
  assert (Pr : prog_of (s_db (p_sys q)) k = p) by (unfold prog_of; rewrite S1; reflexivity).
  destruct o as [o|h n t|h n t|h m t].
  - apply Oth; [|exact I]. cbn [pstep p_sys]. rewrite S1. destruct P as [G U]. apply prog_op with (g := g); auto.
  - destruct (Z.leb_spec 1 n) as [Hn|Hn]; [|apply Oth; [apply report_other; left; lia|left; lia]].
    destruct (reports_dec k q h) as [R|R]; [|apply Oth; [apply report_other; now right|now right]].
    destruct (report_does k q h (fun p => mkProg (p_current p + n) (p_total p) (p_gen p) (p_message p) (Some t))
        (fun p l => mkL (Some (p_current p)) (l_total l) (l_message l)) R) as (E & _). rewrite Pr in E.
    destruct (IH (pstep c q (PIncr h n t)) (p_current p + n, p_total p, p_message p) P' A2) as (v' & T & S).
    { cbn [pstep]. replace (1 <=? n) with true by lia. eexists. split; [exact E|]. split; [exact S2|reflexivity]. }
    exists v'. split; [now apply tp_incr|exact S].
  - destruct (Z.leb_spec 1 n) as [Hn|Hn]; [|apply Oth; [apply report_other; left; lia|left; lia]].
    destruct (reports_dec k q h) as [R|R]; [|apply Oth; [apply report_other; now right|now right]].
    destruct (report_does k q h (fun p => mkProg (p_current p) n (p_gen p) (p_message p) (Some t))
        (fun _ l => mkL (l_current l) n (l_message l)) R) as (E & _). rewrite Pr in E.
    destruct (IH (pstep c q (PTotal h n t)) (p_current p, n, p_message p) P' A2) as (v' & T & S).
    { cbn [pstep]. replace (1 <=? n) with true by lia. eexists. split; [exact E|]. split; [exact S2|reflexivity]. }
    exists v'. split; [now apply tp_total|exact S].
  - destruct (reports_dec k q h) as [R|R]; [|apply Oth; [apply report_other; now right|exact R]].
    destruct (report_does k q h (fun p => mkProg (p_current p) (p_total p) (p_gen p) m (Some t))
        (fun _ l => mkL (l_current l) (l_total l) m) R) as (E & _). rewrite Pr in E.
    destruct (IH (pstep c q (PMessage h m t)) (p_current p, p_total p, m) P' A2) as (v' & T & S).
    { cbn [pstep]. eexists. split; [exact E|]. split; [exact S2|reflexivity]. }
    exists v'. split; [now apply tp_message|exact S].
Qed.

Lemma told_det c k q l u v v' : told_progress c k q l u v -> told_progress c k q l u v' -> v = v'.
Proof.
  intros H. revert v'. induction H; intros v'' H'; inversion H'; subst; auto; exfalso; cbn in *;
    repeat match goal with X : _ < 1 \/ ~ _ |- _ => destruct X; [lia|] end; contradiction.
Qed.

(** ** Handles and the objects of executions *)

Lemma exec_step c s o x' : In x' (s_execs (fst (step c s o))) ->
  (exists x, In x (s_execs s) /\ x_id x' = x_id x /\ x_msg x' = x_msg x /\ (x_phase x' = PDelivered -> x_phase x = PDelivered)) \/
  (x_id x' = s_nextx s /\ s_nextx (fst (step c s o)) = s_nextx s + 1).
Proof.
  set (T := exists x, _).
  assert (R : In x' (s_execs s) -> T) by (intros H; exists x'; repeat split; auto).
  assert (U : forall h f, (forall z, x_id (f z) = x_id z /\ x_msg (f z) = x_msg z /\ (x_phase (f z) = PDelivered -> x_phase z = PDelivered)) ->
    In x' (upd_exec (s_execs s) h f) -> T).
  { intros h f F H. apply upd_exec_In in H. destruct H as (y & Hy & [->|[Eh ->]]); [auto|]. exists y. destruct (F y) as (F1 & F2 & F3). auto. }
  assert (Ph : forall h p, p <> PDelivered -> In x' (upd_exec (s_execs s) h (with_phase p)) -> T).
  { intros h p Hp. apply U. intros z. split; [reflexivity|]. split; [reflexivity|]. cbn. congruence. }
  destruct o; unfold step; cbv zeta;
    repeat match goal with |- context [get_exec (s_execs s) ?h] => destruct (get_exec (s_execs s) h) as [z|] eqn:Gz end;
    try (cbn; now auto);
    try match goal with
    | |- context [if ?b then _ else _] => destruct b; cbn; now auto
    | |- context [do_schedule ?a ?b ?c ?d] => destruct (do_schedule a b c d); cbn; now auto
    | |- context [ready_clear s ?w] => destruct (ready_clear s _); [destruct (clear_apply _ _ _)|]; cbn; now auto
    | |- context [lua_stream_due ?a ?b] => destruct (lua_stream_due a b) as [? [? ?]]; cbn; now auto
    end.
  - unfold deliver. destruct (read_group _ _) as [? [[? ?]|]]; cbn; [|auto].
    intros H; apply in_app_or in H; destruct H as [H|[<-|[]]]; [left; auto|right; auto].
  - unfold deliver. destruct (autoclaim _ _ _ _) as [? [[? ?]|]]; cbn; [|auto].
    intros H; apply in_app_or in H; destruct H as [H|[<-|[]]]; [left; auto|right; auto].
  - destruct (x_phase z) eqn:P; try (cbn; now auto).
    destruct (lua_claim _ _ _ _ _ _) as [? []]; cbn [fst s_execs set_execs]; intros H; left; (eapply Ph; [|exact H]; discriminate).
  - destruct (x_phase z) eqn:P; try (cbn; now auto). intros H; left; (eapply Ph; [|exact H]; discriminate).
  - destruct (x_phase z) eqn:P; try (cbn; now auto). intros H; left; (eapply Ph; [|exact H]; discriminate).
  - destruct (x_phase z) eqn:P; try (cbn; now auto). intros H; left; (eapply Ph; [|exact H]; discriminate).
  - destruct (may_finish _ _); [|cbn; auto]. destruct (lua_terminal _ _ _ _ _ _ _ _ _). intros H; left; (eapply Ph; [|exact H]; discriminate).
  - destruct (may_resched _); [|cbn; auto]. destruct (lua_schedule _ _ _ _ _ _ _). intros H; left; (eapply Ph; [|exact H]; discriminate).
  - destruct (x_phase z) eqn:P; try (cbn; now auto). destruct (x_slot z) eqn:Sz; [cbn; now auto|].
    destruct (lua_acquire_or_park _ _ _ _ _ _ _ _ _ _) as [? []]; cbn [fst s_execs set_execs]; intros H; left.
    + eapply U; [|exact H]. intros y. auto.
    + eapply Ph; [|exact H]; discriminate.
  - destruct (x_slot z) as [[? ?]|]; [|cbn; auto].
    destruct (x_phase z) eqn:P; try (cbn; now auto); cbn [fst s_execs set_execs]; intros H; left;
      (eapply U; [|exact H]; intros y; unfold unwind; destruct (x_phase y) eqn:Py; cbn; rewrite ?Py; auto; split; auto; split; auto; discriminate).
  - destruct (x_slot z) as [[? ?]|]; cbn; auto.
  - cbn [fst s_execs]. intros H. apply filter_In in H. left. apply R; tauto.
Qed.

Lemma nextx_le c s o : s_nextx s <= s_nextx (fst (step c s o)).
Proof.
  destruct o; unfold step, deliver; cbv zeta;
    repeat match goal with |- context [match ?x with _ => _ end] => destruct x end; cbn; lia.
Qed.

Lemma claim_true c s h t : snd (step c s (OClaim h t)) = OClaimed true ->
  exists x, get_exec (s_execs s) h = Some x /\ x_phase x = PDelivered /\ superseded (s_db s) (m_key (x_msg x)) (m_gen (x_msg x)) = false /\
    d_prog (s_db (fst (step c s (OClaim h t)))) (m_key (x_msg x)) = Some (mkProg 0 100 (Some (m_gen (x_msg x))) None None) /\
    s_execs (fst (step c s (OClaim h t))) = upd_exec (s_execs s) h (with_phase PClaimed) /\ s_nextx (fst (step c s (OClaim h t))) = s_nextx s.
Proof.
  cbn [step]. destruct (get_exec (s_execs s) h) as [x|]; [|discriminate]. destruct (x_phase x) eqn:P; try discriminate.
  unfold lua_claim. destruct (superseded _ _ _) eqn:E; [discriminate|]. intros _. exists x. split; [reflexivity|]. split; [exact P|]. split; [exact E|].
  cbn. rewrite upd_eq. auto.
Qed.

(** Objects of executions that have not been claimed are as new. *)
Definition Fresh (q : psys) : Prop := forall h,
  (s_nextx (p_sys q) <= h \/ exists x, In x (s_execs (p_sys q)) /\ x_id x = h /\ x_phase x = PDelivered) -> p_local q h = new_lprog.

Lemma Fresh_report q h ok f g : PInv q -> Fresh q -> Fresh (report q h ok f g).
Proof.
  intros [[_ GX] _] F. unfold report. destruct (get_exec _ _) as [x|] eqn:X; [|exact F].
  destruct (may_report (x_phase x) && ok) eqn:E; [|exact F]. apply andb_prop in E as [E1 E2]. cbv zeta.
  destruct (get_exec_spec _ _ _ X) as [X1 X2].
  intros j H. cbn [p_sys p_local set_db s_nextx s_execs] in *. unfold set_local. destruct (Z.eqb_spec j h) as [->|N]; [exfalso|now apply F].
  destruct H as [H|(y & H1 & H2 & H3)].
  - apply (xi_next _ GX) in X1. lia.
  - assert (y = x) by (eapply execs_inj; eauto; congruence). subst y. rewrite H3 in E1. discriminate.
Qed.

Lemma Fresh_step c q o : PInv q -> Fresh q -> Fresh (pstep c q o).
Proof.
  intros P F. destruct o as [o|h n t|h n t|h m t]; cbn [pstep]; try now apply Fresh_report.
  intros j H. cbn [p_sys p_local] in *. pose proof (nextx_le c (p_sys q) o) as N.
  assert (F0 : p_local q j = new_lprog).
  { apply F. destruct H as [H|(x' & H1 & H2 & H3)]; [left; lia|].
    destruct (exec_step c (p_sys q) o x' H1) as [(x & X1 & X2 & X3 & X4)|[X1 X2]]; [right|left; lia].
    exists x. split; [exact X1|]. split; [congruence|auto]. }
  enough (D : match o with OClaim h _ | OTerminal h _ _ _ _ => h = j -> (forall r, snd (step c (p_sys q) o) = r -> r <> OClaimed true /\ r <> ODone) | _ => True end).
  { unfold local_after, set_local. destruct o; try exact F0; destruct (snd (step c (p_sys q) _)) as [| | | | | |[]| |]; try exact F0;
      destruct (Z.eqb_spec j h) as [->|Nj]; try exact F0; exfalso; destruct (D eq_refl _ eq_refl) as [D1 D2]; auto. }
  destruct P as [[_ GX] _].
  destruct o; try exact I; intros ->; intros r Er; split; intros ->.
  - destruct (claim_true _ _ _ _ Er) as (x & X1 & X2 & X3 & X4 & X5 & X6). rewrite X6 in H. rewrite X5 in H.
    destruct (get_exec_spec _ _ _ X1) as [I1 I2].
    destruct H as [H|(x' & H1 & H2 & H3)]; [apply (xi_next _ GX) in I1; lia|]. 
    unfold upd_exec in H1. apply in_map_iff in H1 as (y & A1 & A2). destruct (Z.eqb_spec (x_id y) j); subst x'; [discriminate H3|congruence].
  - cbn [step] in Er. destruct (get_exec _ _) as [x|]; [|discriminate]. destruct (x_phase x); try discriminate. destruct (lua_claim _ _ _ _ _ _) as [? []]; discriminate.
  - cbn [step] in Er. destruct (get_exec _ _) as [x|]; [|discriminate]. destruct (may_finish _ _); [|discriminate]. destruct (lua_terminal _ _ _ _ _ _ _ _ _); discriminate.
  - cbn [step] in Er, H. destruct (get_exec _ _) as [x|] eqn:X1; [|discriminate]. destruct (may_finish _ _) eqn:Mf; [|discriminate]. destruct (lua_terminal _ _ _ _ _ _ _ _ _); cbn in H.
    destruct (get_exec_spec _ _ _ X1) as [I1 I2].
    destruct H as [H|(x' & H1 & H2 & H3)]; [apply (xi_next _ GX) in I1; lia|].
    unfold upd_exec in H1. apply in_map_iff in H1 as (y & A1 & A2). destruct (Z.eqb_spec (x_id y) j); subst x'; [discriminate H3|congruence].
Qed.

Lemma Fresh_reach c q : preachable c q -> Fresh q.
Proof.
  intros [l ->]. enough (H : forall q, PInv q -> Fresh q -> Fresh (pfinal c q l)) by (apply H; [split; [apply GInv_init|intros; apply UInv_init]|intros h _; reflexivity]).
  induction l; intros; simpl; auto using PInv_step, Fresh_step.
Qed.

(** ** The object agrees with the hash *)

Definition Agrees (k : key) (h g : Z) (q : psys) : Prop :=
  h < s_nextx (p_sys q) /\ (forall x, In x (s_execs (p_sys q)) -> x_id x = h -> m_key (x_msg x) = k /\ m_gen (x_msg x) = g) /\
  exists p, d_prog (s_db (p_sys q)) k = Some p /\ p_gen p = Some g /\ p_local q h = mkL (Some (p_current p)) (p_total p) (p_message p).

Lemma report_execs q h ok f g : s_execs (p_sys (report q h ok f g)) = s_execs (p_sys q) /\ s_nextx (p_sys (report q h ok f g)) = s_nextx (p_sys q).
Proof. destruct (report_sys q h ok f g) as [->|(x & _ & _ & _ & ->)]; auto. Qed.

Lemma report_local q h ok f g j : j <> h -> p_local (report q h ok f g) j = p_local q j.
Proof.
  intros N. unfold report. destruct (get_exec _ _) as [x|]; [|auto]. destruct (may_report _ && ok); [|auto].
  cbn. unfold set_local. destruct (Z.eqb_spec j h); [contradiction|reflexivity].
Qed.

Lemma report_noop q h ok f g : ok = false -> report q h ok f g = q.
Proof. intros ->. unfold report. destruct (get_exec _ _); [|auto]. now rewrite andb_false_r. Qed.

Lemma not_reports k g q h ok f g' : Agrees k h g q -> ~ reports k q h -> report q h ok f g' = q.
Proof.
  intros (_ & A & _) N. unfold report. destruct (get_exec _ _) as [x|] eqn:X; [|reflexivity].
  destruct (may_report (x_phase x)) eqn:E; [|reflexivity]. exfalso. apply N. exists x. destruct (get_exec_spec _ _ _ X) as [X1 X2].
  destruct (A x X1 X2). split; [exact X|]. split; [auto|]. destruct (x_phase x); try discriminate E; auto.
Qed.

Lemma Agrees_report k h g q h' ok f l : Agrees k h g q -> (h' <> h -> ~ reports k q h') ->
  (forall p, p_gen (f p) = p_gen p) ->
  (forall p, l (f p) (mkL (Some (p_current p)) (p_total p) (p_message p)) = mkL (Some (p_current (f p))) (p_total (f p)) (p_message (f p))) ->
  Agrees k h g (report q h' ok f l) /\
  (h' = h -> ok = true -> reports k q h -> exists v, seen k (report q h' ok f l) = Some v /\
     p_events (report q h' ok f l) = p_events q ++ [mkEv k (fst (fst v)) (snd (fst v)) (snd v)]).
Proof.
  intros A N F1 F2. assert (A' := A). destruct A' as (A1 & A2 & p & P1 & P2 & P3). destruct (report_execs q h' ok f l) as [E1 E2].
  destruct (Z.eq_dec h' h) as [->|Nh].
  - destruct ok; [|rewrite report_noop by reflexivity; split; [exact A|discriminate]].
    destruct (reports_dec k q h) as [R|R]; [|rewrite (not_reports k g q h true f l A R); split; [exact A|contradiction]].
    destruct (report_does k q h f l R) as (D1 & D2 & D3).
    assert (Pr : prog_of (s_db (p_sys q)) k = p) by (unfold prog_of; rewrite P1; reflexivity). rewrite Pr in *. rewrite P3, F2 in *.
    split.
    + unfold Agrees. rewrite E1, E2. split; [exact A1|]. split; [exact A2|]. exists (f p). split; [exact D1|]. split; [rewrite F1; exact P2|exact D2].
    + intros _ _ _. exists (p_current (f p), p_total (f p), p_message (f p)). unfold seen. rewrite D1, D3. split; reflexivity.
  - split; [|contradiction]. unfold Agrees. rewrite E1, E2. split; [exact A1|]. split; [exact A2|]. exists p.
    rewrite report_other by (right; auto). rewrite report_local by auto. auto.
Qed.

Lemma Agrees_step c k h g q o : PInv q -> running_on c k g q o -> alone_reporting k h q o -> Agrees k h g q -> Agrees k h g (pstep c q o).
Proof.
  intros P R A G. destruct o as [o|h' n t|h' n t|h' m t]; cbn [pstep].
  - destruct G as (A1 & A2 & p & P1 & P2 & P3). destruct P as [PG PU]. split; [pose proof (nextx_le c (p_sys q) o); cbn; lia|]. split.
    + intros x' X1 X2. cbn [p_sys] in X1. destruct (exec_step c (p_sys q) o x' X1) as [(x & I1 & I2 & I3 & _)|[I1 I2]]; [|lia].
      rewrite I3. apply A2; [exact I1|congruence].
    + exists p. cbn [p_sys p_local]. split; [eapply prog_op with (g := g); eauto|]. split; [exact P2|]. rewrite <- P3.
      unfold local_after, set_local. destruct o; auto.
      * destruct (snd (step c (p_sys q) (OClaim h0 t))) as [| | | | | |[]| |] eqn:E; auto. destruct (Z.eqb_spec h h0) as [->|N]; [exfalso|reflexivity].
        destruct (claim_true _ _ _ _ E) as (x & X1 & _). destruct (get_exec_spec _ _ _ X1) as [I1 I2]. destruct (A2 x I1 I2) as [K _]. exact (R x X1 K E).
      * destruct (snd (step c (p_sys q) (OTerminal h0 s t err res))) as [| | | | | |[]| |] eqn:E; auto. destruct (Z.eqb_spec h h0) as [->|N]; [exfalso|reflexivity].
        cbn [step] in E. destruct (get_exec (s_execs (p_sys q)) h0) as [x|] eqn:X1; [|discriminate]. destruct (get_exec_spec _ _ _ X1) as [I1 I2]. destruct (A2 x I1 I2) as [K1 K2].
        destruct (R x X1 K1). lia.
  - eapply (proj1 (Agrees_report k h g q h' _ _ _ G A _ _)). Unshelve. all: reflexivity.
  - eapply (proj1 (Agrees_report k h g q h' _ _ _ G A _ _)). Unshelve. all: reflexivity.
  - eapply (proj1 (Agrees_report k h g q h' _ _ _ G A _ _)). Unshelve. all: reflexivity.
Qed.

Lemma Agrees_final c k h g l : forall q, PInv q -> palong c (fun q o => running_on c k g q o /\ alone_reporting k h q o) q l ->
  Agrees k h g q -> Agrees k h g (pfinal c q l).
Proof.
  induction l as [|o l IH]; intros q P A G; [exact G|]. destruct A as [[A1 A2] A3]. cbn [pfinal]. apply IH; auto using PInv_step, Agrees_step.
Qed.

Lemma claim_agrees c q h t x : preachable c q -> get_exec (s_execs (p_sys q)) h = Some x -> snd (step c (p_sys q) (OClaim h t)) = OClaimed true ->
  Agrees (m_key (x_msg x)) h (m_gen (x_msg x)) (pstep c q (POp (OClaim h t))) /\
  Shows (m_key (x_msg x)) (m_gen (x_msg x)) (0, 100, None) (pstep c q (POp (OClaim h t))).
Proof.
  intros R X E. pose proof (PInv_reach c q R) as [[_ GX] _]. pose proof (Fresh_reach c q R) as F.
  destruct (claim_true _ _ _ _ E) as (y & Y1 & Y2 & Y3 & Y4 & Y5 & Y6). assert (y = x) by congruence. subst y.
  destruct (get_exec_spec _ _ _ X) as [I1 I2].
  split; [|exists (mkProg 0 100 (Some (m_gen (x_msg x))) None None); auto].
  unfold Agrees. cbn [pstep p_sys p_local]. rewrite Y5, Y6. split; [apply (xi_next _ GX) in I1; lia|]. split.
  - intros x' A B. unfold upd_exec in A. apply in_map_iff in A as (z & A1 & A2). 
    assert (z = x). { eapply execs_inj; eauto. destruct (x_id z =? h) eqn:Q; subst x'; cbn in *; congruence. } subst z.
    destruct (x_id x =? h); subst x'; auto.
  - exists (mkProg 0 100 (Some (m_gen (x_msg x))) None None). split; [exact Y4|]. split; [reflexivity|].
    unfold local_after. rewrite E. unfold set_local. rewrite Z.eqb_refl. rewrite F; [reflexivity|]. right. exists x. auto.
Qed.

(** ** Without progress *)

Lemma none_event c k v e : kok k v e -> (forall x t, e = KClaim x t -> ksuper v (m_gen (x_msg x)) = true) ->
  k_prog v = None -> k_prog (kapply c v e) = None.
Proof.
  intros Hok N P. destruct e; cbn [kapply]; try exact P.
  - unfold ksched. destruct (negb repl && kexists v); [exact P|]. unfold kplace. cbv zeta. destruct imm; destruct repl; try exact P; exact (eq_trans (kprog_kreplace v) P).
  - unfold kcancel. cbv zeta. destruct (r_state _) as [[]|]; reflexivity.
  - unfold kmove. destruct (k_parked v); exact P.
  - cbv zeta. unfold kclaim. rewrite (N _ _ eq_refl). exact P.
  - cbn [kphase k_prog kset_execs]. unfold kterminal. destruct (ksuper _ _); [destruct (kprog_mine _ _)|]; try reflexivity; exact P.
  - unfold kresched, kplace. cbv zeta. destruct imm; exact P.
  - unfold kwake. destruct (r_state (kr v)) as [[]|]; exact P.
  - reflexivity.
Qed.

Lemma none_step c k q o : PInv q -> silent c k q o -> d_prog (s_db (p_sys q)) k = None -> d_prog (s_db (p_sys (pstep c q o))) k = None.
Proof.
  intros [G U] S P. destruct o as [o|h n t|h n t|h m t]; cbn [pstep]; try (rewrite report_other by (right; exact S); exact P).
  pose proof (proj2 G) as GX. enough (X : k_prog (kabs k (fst (step c (p_sys q) o))) = None) by exact X.
  apply (step_ind c k (p_sys q) o (fun v => k_prog v = None)); auto. intros v e Hok L _ _ Sv Pv.
  apply none_event with (k := k); auto.
  intros x t ->. cbn in L. subst o. specialize (Sv eq_refl). subst v. destruct Hok as [X1 X2]. apply kexecs_In in X1 as [X1 X3].
  pose proof (get_exec_In (p_sys q) x GX X1) as X4. specialize (S x X4 X3). cbn [step] in S. rewrite X4, X2 in S. unfold lua_claim in S.
  destruct (ksuper (kabs k (p_sys q)) (m_gen (x_msg x))) eqn:E; [reflexivity|exfalso].
  replace (superseded (s_db (p_sys q)) (m_key (x_msg x)) (m_gen (x_msg x))) with (ksuper (kabs k (p_sys q)) (m_gen (x_msg x))) in S by (rewrite X3; reflexivity).
  rewrite E in S. apply S. reflexivity.
Qed.

Lemma none_final c k l : forall q, PInv q -> palong c (silent c k) q l -> d_prog (s_db (p_sys q)) k = None -> d_prog (s_db (p_sys (pfinal c q l))) k = None.
Proof.
  induction l as [|o l IH]; intros q P A G; [exact G|]. destruct A as [A1 A2]. cbn [pfinal]. apply IH; auto using PInv_step, none_step.
Qed.

Lemma end_clears c s h st t e r x : get_exec (s_execs s) h = Some x -> live s (x_msg x) ->
  snd (step c s (OTerminal h st t e r)) = ODone -> d_prog (s_db (fst (step c s (OTerminal h st t e r)))) (m_key (x_msg x)) = None.
Proof.
  intros X L. cbn [step]. rewrite X. destruct (may_finish _ _); [|discriminate]. unfold lua_terminal. rewrite L. intros _. cbn. apply upd_eq.
Qed.
