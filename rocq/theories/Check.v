(** Boolean versions of the conditions of Spec, used to discharge them on concrete
    histories by computation in the examples.  No property depends on this file. *)
From Verif Require Import Base ZSet Model Spec.

Fixpoint alongb (c : cfg) (P : sys -> op -> bool) (s : sys) (l : list op) : bool :=
  match l with
  | [] => true
  | o :: l => P s o && alongb c P (fst (step c s o)) l
  end.

Lemma alongb_sound c (P : sys -> op -> Prop) Pb : (forall s o, Pb s o = true -> P s o) ->
  forall l s, alongb c Pb s l = true -> along c P s l.
Proof.
  intros H. induction l as [|o l IH]; simpl; intros s E; [exact I|]. apply andb_prop in E as [E1 E2]. auto.
Qed.

Definition keepsb (c : cfg) (k : key) (s : sys) (o : op) : bool :=
  implb (is_some (d_runs (s_db s) k)) (is_some (d_runs (s_db (fst (step c s o))) k)).
Lemma keepsb_sound c k s o : keepsb c k s o = true -> keeps c k s o.
Proof.
  unfold keepsb, keeps. destruct (d_runs (s_db s) k); simpl; [|congruence].
  destruct (d_runs _ k); simpl; congruence.
Qed.

Definition neqb (a b : string) : bool := negb (String.eqb a b).
Lemma neqb_sound a b : neqb a b = true -> a <> b.
Proof. unfold neqb. destruct (String.eqb_spec a b); simpl; congruence. Qed.

Definition no_callsb (k : key) (o : op) : bool :=
  match o with
  | OAdd a _ | OReplace a _ => neqb (a_key a) k
  | OCancel k' _ | OCancelFinish k' | OCancelCleanup k' _ _ => neqb k' k
  | OClearApply _ => false
  | _ => true
  end.
Lemma no_callsb_sound k o : no_callsb k o = true -> no_calls k o.
Proof. destruct o; simpl; auto; try apply neqb_sound; discriminate. Qed.

Definition only_addsb (k : key) (o : op) : bool :=
  match o with
  | OReplace a _ => neqb (a_key a) k
  | OCancel k' _ | OCancelFinish k' | OCancelCleanup k' _ _ => neqb k' k
  | OClearApply _ => false
  | _ => true
  end.
Lemma only_addsb_sound k o : only_addsb k o = true -> only_adds k o.
Proof. destruct o; simpl; auto; try apply neqb_sound; discriminate. Qed.

Definition no_scheduleb (k : key) (o : op) : bool :=
  match o with OAdd a _ | OReplace a _ => neqb (a_key a) k | _ => true end.
Lemma no_scheduleb_sound k o : no_scheduleb k o = true -> no_schedule k o.
Proof. destruct o; simpl; auto; apply neqb_sound. Qed.

Definition current_runb (k : key) (s : sys) (h : Z) : bool :=
  match get_exec (s_execs s) h with
  | Some x => neqb (m_key (x_msg x)) k || negb (superseded (s_db s) k (m_gen (x_msg x)))
  | None => true
  end.
Lemma current_runb_sound k s h : current_runb k s h = true -> current_run k s h.
Proof.
  unfold current_runb, current_run. intros H x E Ek. rewrite E in H. apply orb_prop in H as [H|H].
  - now apply neqb_sound in H.
  - now destruct (superseded _ _ _).
Qed.

Definition no_staleb (k : key) (s : sys) (o : op) : bool :=
  match o with OResched h _ _ _ | OAcquire h _ _ _ => current_runb k s h | _ => true end.
Lemma no_staleb_sound k s o : no_staleb k s o = true -> no_stale_resched k s o.
Proof. destruct o; simpl; auto; apply current_runb_sound. Qed.

Definition nofinishb (k : key) (s : sys) (o : op) : bool :=
  match o with
  | OTerminal h st _ _ _ =>
      match get_exec (s_execs s) h with
      | Some x => neqb (m_key (x_msg x)) k || negb (may_finish (x_phase x) st) || superseded (s_db s) k (m_gen (x_msg x))
      | None => true
      end
  | _ => true
  end.
Lemma nofinishb_sound k s o : nofinishb k s o = true -> ~ finishes k s o.
Proof.
  destruct o; simpl; auto. intros H (x & E & Ek & Ef & Es). rewrite E in H.
  rewrite Ef, Es, orb_false_r in H. simpl in H. rewrite orb_false_r in H. now apply neqb_sound in H.
Qed.

Definition not_struckb (c : cfg) (k : key) (s : sys) (o : op) : bool :=
  match o with
  | ODelKnown h => match get_exec (s_execs s) h with Some x => neqb (m_key (x_msg x)) k | None => true end
  | OAcquire h _ _ _ =>
      match get_exec (s_execs s) h with
      | Some x => neqb (m_key (x_msg x)) k || match snd (step c s o) with OAcquired false => false | _ => true end
      | None => true end
  | _ => true
  end.
Lemma not_struckb_sound c k s o : not_struckb c k s o = true -> not_struck_nor_parked c k s o.
Proof.
  destruct o; try (intros; exact I); unfold not_struckb, not_struck_nor_parked.
  - intros H x E. rewrite E in H. now apply neqb_sound.
  - intros H x E Ek. rewrite E in H. apply orb_prop in H as [H|H]; [now apply neqb_sound in H|].
    intros X. rewrite X in H. discriminate H.
Qed.

Definition clockb (P : Z -> bool) (o : op) : bool := match op_clock o with Some t => P t | None => true end.
Lemma clock_withinb_sound skew s o : clockb (fun t => t <=? d_now (s_db s) + skew) o = true -> clock_within skew s o.
Proof. unfold clockb, clock_within. intros H t E. rewrite E in H. lia. Qed.
Lemma after_epochb_sound s o : clockb (fun t => 0 <=? t) o = true -> after_epoch s o.
Proof. unfold clockb, after_epoch. intros H t E. rewrite E in H. lia. Qed.

Definition no_redeliverb (c : cfg) (k : key) (s : sys) (o : op) : bool :=
  match o, snd (step c s o) with OAutoclaim _ _, ODelivered _ _ m => neqb (m_key m) k | _, _ => true end.
Lemma no_redeliverb_sound c k s o : no_redeliverb c k s o = true -> ~ redelivers c k s o.
Proof. unfold no_redeliverb. intros H (w & i & h & m & -> & E & Ek). rewrite E in H. now apply neqb_sound in H. Qed.
Definition no_parkb (c : cfg) (k : key) (s : sys) (o : op) : bool :=
  match o, snd (step c s o) with
  | OAcquire h _ _ _, OAcquired false => match get_exec (s_execs s) h with Some x => neqb (m_key (x_msg x)) k | None => true end
  | _, _ => true end.
Lemma no_parkb_sound c k s o : no_parkb c k s o = true -> ~ parks c k s o.
Proof. unfold no_parkb. intros H (h & cc & mx & t & x & -> & Eg & Ek & E). rewrite E, Eg in H. now apply neqb_sound in H. Qed.

(** [checked P]: by computation. *)
Ltac conds :=
  let H := fresh in
  intros ? ? H; cbv beta in H;
  repeat match type of H with (_ && _)%bool = true => apply andb_prop in H; let H1 := fresh in destruct H as [H H1]; revert H1 end;
  intros; repeat split;
  first [apply keepsb_sound|apply no_callsb_sound|apply only_addsb_sound|apply no_scheduleb_sound|
         apply no_staleb_sound|apply nofinishb_sound|apply not_struckb_sound|
         apply clock_withinb_sound|apply after_epochb_sound|
         apply no_redeliverb_sound|apply no_parkb_sound]; assumption.
Ltac history P := apply (alongb_sound _ _ P); [conds|vm_compute; reflexivity].
