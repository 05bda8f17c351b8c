(** Strikes: C29 to C32. *)
From Verif Require Import Base ZSet Model GInv Strike SpecStrike StrikeProofs StrikeMixed StrikeSys SpecStrikeSys StrikeSysProofs.

(** ** C29: a strike blocks exactly what it names *)

(** After any sequence of instructions in which no function is struck both as a whole
    and by a parameter, and whose values are hashable, a call is blocked if and only if
    a strike in force describes it.  Missing from the full statement: sequences that mix
    the two, where it is false (below); unhashable values, which are ignored. *)
Theorem C29_blocks_exactly_partial l t : unmixed l -> all_hashable l ->
  (stricken (sl_run sl_empty l) t = true <-> exists i, In i l /\ in_force l i /\ describes i t).
Proof. exact (blocked_iff l t). Qed.
Print Assumptions C29_blocks_exactly_partial.

(** One more strike adds exactly the calls it describes. *)
Theorem C29_strike_adds_partial l i t : unmixed (l ++ [i]) -> all_hashable (l ++ [i]) -> in_strike i = true ->
  (stricken (sl_run sl_empty (l ++ [i])) t = true <-> describes i t \/ stricken (sl_run sl_empty l) t = true).
Proof. exact (struck_more l i t). Qed.
Print Assumptions C29_strike_adds_partial.

(** One more restore takes away exactly that strike. *)
Theorem C29_restore_undoes_partial l i t : unmixed (l ++ [i]) -> all_hashable (l ++ [i]) -> in_strike i = false ->
  (stricken (sl_run sl_empty (l ++ [i])) t = true <->
   exists j, In j l /\ in_force l j /\ ~ same_strike j i /\ describes j t).
Proof. exact (restored l i t). Qed.
Print Assumptions C29_restore_undoes_partial.

(** Checking a dict of parameters needs no such restriction: only strikes without a
    function count. *)
Theorem C29_parameters l ps : all_hashable l ->
  (dict_stricken (sl_run sl_empty l) ps = true <->
   exists i p v, In i l /\ in_force l i /\ given (in_fn i) = None /\ given (in_param i) = Some p /\
     In (p, v) ps /\ is_match v (in_op i) (in_val i) = true).
Proof. exact (dict_blocked_iff l ps). Qed.
Print Assumptions C29_parameters.

(** What the operators mean on integers; values of different kinds only match !=. *)
Theorem C29_operators a b b' :
  (is_match (PInt a) OpEq (PInt b) = true <-> a = b) /\ (is_match (PInt a) OpNe (PInt b) = true <-> a <> b) /\
  (is_match (PInt a) OpGt (PInt b) = true <-> a > b) /\ (is_match (PInt a) OpGe (PInt b) = true <-> a >= b) /\
  (is_match (PInt a) OpLt (PInt b) = true <-> a < b) /\ (is_match (PInt a) OpLe (PInt b) = true <-> a <= b) /\
  (is_match (PInt a) OpBetween (PTup [PInt b; PInt b']) = true <-> b <= a <= b') /\
  (forall o s, is_match (PInt a) o (PStr s) = true -> o = OpNe \/ o = OpBetween) /\
  (forall o s, is_match (PStr s) o (PInt a) = true -> o = OpNe).
Proof.
  unfold is_match, pv_le; cbn [pv_eqb pv_lt truth unpack2].
  repeat split; try (intros H; apply Z.eqb_eq in H || apply negb_true_iff in H); try lia.
  all: repeat match goal with |- context [Z.eqb ?x ?y] => destruct (Z.eqb_spec x y) | H : context [Z.eqb ?x ?y] |- _ => destruct (Z.eqb_spec x y) end; cbn [truth negb] in *; try lia.
  all: destruct o; cbn; auto; discriminate.
Qed.
Print Assumptions C29_operators.

(** And on all values, with the order Python gives them. *)
Theorem C29_compare v w :
  (is_match v OpEq w = true <-> v = w) /\ (is_match v OpNe w = true <-> v <> w) /\
  (is_match v OpLt w = true <-> before v w) /\ (is_match v OpLe w = true <-> v = w \/ before v w) /\
  (is_match v OpGt w = true <-> before w v) /\ (is_match v OpGe w = true <-> v = w \/ before w v) /\
  (forall a b, is_match v OpBetween (PTup [a; b]) = true <-> (a = v \/ before a v) /\ (v = b \/ before v b)).
Proof.
  unfold is_match. cbn [unpack2]. split; [apply pv_eqb_iff|]. split; [rewrite negb_true_iff; split; [intros E N; apply pv_eqb_iff in N; congruence|intros N; destruct (pv_eqb v w) eqn:E; [apply pv_eqb_iff in E; contradiction|reflexivity]]|].
  split; [apply lt_iff|]. split; [apply le_iff|]. split; [apply lt_iff|]. split; [rewrite le_iff; split; intros [E|E]; auto|].
  intros a b. rewrite andb_true_iff, !le_iff. tauto.
Qed.
Print Assumptions C29_compare.
Example C29_compare_case : before (PStr "car") (PStr "cart") /\ before (PTup [PInt 1; PStr "b"; PInt 0]) (PTup [PInt 1; PStr "c"]) /\
  is_match (PStr "cab") OpBetween (PTup [PStr "b"; PStr "cart"]) = true /\ is_match (PStr "B") OpGt (PStr "a") = false.
Proof. split; [constructor; exact (tb_end "car" (Ascii.ascii_of_nat 116) "")|]. split; [exact (be_tup_at [PInt 1] (PStr "b") (PStr "c") [PInt 0] [] (be_str _ _ (tb_at "" (Ascii.ascii_of_nat 98) (Ascii.ascii_of_nat 99) "" "" eq_refl)))|split; reflexivity]. Qed.

Definition st f p o v := mkInstr true f p o v.
Definition rs f p o v := mkInstr false f p o v.
Definition tgt (f : string) (x : pv) : target := mkTarget f (Some [("x"%string, x)]).

(** "f" is struck for x > 10 and x = 3, "g" entirely, any x equal to 7; x = 3 and "g"
    are then restored. *)
Definition ex_strikes : list instr :=
  [st (Some "f") (Some "x") OpGt (PInt 10); st (Some "g") None OpEq (PInt 0); st (Some "f") (Some "x") OpEq (PInt 3);
   st None (Some "x") OpEq (PInt 7); rs (Some "f") (Some "x") OpEq (PInt 3); rs (Some "g") None OpEq (PInt 0)]%string.

Lemma unmixed_dec l : 
  forallb (fun i => forallb (fun j => match given (in_fn i), given (in_fn j) with
    | Some f, Some g => negb (String.eqb f g) || Bool.eqb (is_some (given (in_param i))) (is_some (given (in_param j)))
    | _, _ => true end) l) l = true -> unmixed l.
Proof.
  intros H i j f Hi Hj Ei Ej. rewrite forallb_forall in H. specialize (H i Hi). cbv beta in H. rewrite forallb_forall in H. specialize (H j Hj).
  cbv beta in H. rewrite Ei, Ej, String.eqb_refl in H. cbn [negb orb] in H. apply Bool.eqb_prop in H.
  rewrite <- !is_some_false, H. reflexivity.
Qed.
Lemma hashable_dec l : forallb (fun i => hashable (in_val i)) l = true -> all_hashable l.
Proof. intros H i Hi. rewrite forallb_forall in H. now apply H. Qed.

Example C29_case : unmixed ex_strikes /\ all_hashable ex_strikes /\
  map (fun t => stricken (sl_run sl_empty ex_strikes) t) [tgt "f" (PInt 11); tgt "f" (PInt 3); tgt "f" (PInt 7); tgt "g" (PInt 3); tgt "h" (PInt 7); tgt "f" (PStr "11")]
  = [true; false; true; false; true; false].
Proof. split; [apply unmixed_dec; vm_compute; reflexivity|]. split; [apply hashable_dec; vm_compute; reflexivity|vm_compute; reflexivity]. Qed.

(** False in general.  A strike of the whole function is lost when a parameter is
    struck too: *)
Theorem C29_full_strike_lost_refuted :
  let l := [st (Some "f") None OpEq (PInt 0); st (Some "f") (Some "x") OpEq (PInt 1)]%string in
  (exists i, In i l /\ in_force l i /\ describes i (tgt "f" (PInt 2))) /\
  stricken (sl_run sl_empty l) (tgt "f" (PInt 2)) = false.
Proof.
  split; [|vm_compute; reflexivity]. eexists. split; [left; reflexivity|]. split; [|reflexivity].
  eexists [], _, _. split; [reflexivity|]. split; [reflexivity|]. split; [apply same_refl|].
  intros j [<-|[]] (_ & E & _). discriminate.
Qed.
Print Assumptions C29_full_strike_lost_refuted.

(** ... or was struck before; *)
Theorem C29_full_strike_ignored_refuted :
  let l := [st (Some "f") (Some "x") OpEq (PInt 1); st (Some "f") None OpEq (PInt 0)]%string in
  (exists i, In i l /\ in_force l i /\ describes i (tgt "f" (PInt 2))) /\
  stricken (sl_run sl_empty l) (tgt "f" (PInt 2)) = false.
Proof.
  split; [|vm_compute; reflexivity]. eexists. split; [right; left; reflexivity|]. split; [|reflexivity].
  eexists [_], _, []. split; [reflexivity|]. split; [reflexivity|]. split; [apply same_refl|]. intros j [].
Qed.
Print Assumptions C29_full_strike_ignored_refuted.

(** and restoring the parameter then leaves the function unstruck, although nobody
    restored it. *)
Theorem C29_restore_removes_other_refuted :
  let l := [st (Some "f") None OpEq (PInt 0); st (Some "f") (Some "x") OpEq (PInt 1); rs (Some "f") (Some "x") OpEq (PInt 1)]%string in
  (exists i, In i l /\ in_force l i /\ describes i (tgt "f" (PInt 2))) /\
  stricken (sl_run sl_empty l) (tgt "f" (PInt 2)) = false.
Proof.
  split; [|vm_compute; reflexivity]. eexists. split; [left; reflexivity|]. split; [|reflexivity].
  eexists [], _, _. split; [reflexivity|]. split; [reflexivity|]. split; [apply same_refl|].
  intros j [<-|[<-|[]]] (_ & E & _); discriminate.
Qed.
Print Assumptions C29_restore_removes_other_refuted.

(** What any sequence blocks, mixed or not.  Instructions on unhashable values count for
    nothing.  A strike on a parameter blocks what it describes from when it is struck until
    it is restored, whatever happens to the function; the strike of a whole function counts
    only if no parameter of the function was struck at the time, and only until one is. *)
Theorem C29_any_sequence l t : let l' := filter (fun i => hashable (in_val i)) l in
  (stricken (sl_run sl_empty l) t = true <->
   wholly_struck l' (tg_fn t) \/ exists i, In i l' /\ in_force l' i /\ given (in_param i) <> None /\ describes i t).
Proof.
  intros l'. rewrite (sl_run_hashable l sl_empty). apply any_sequence.
  intros i Hi. apply filter_In in Hi. apply Hi.
Qed.
Print Assumptions C29_any_sequence.

(** A strike therefore never blocks anything it does not describe ... *)
Theorem C29_only_described l t : stricken (sl_run sl_empty l) t = true ->
  exists i, In i l /\ in_force (filter (fun i => hashable (in_val i)) l) i /\ describes i t.
Proof.
  intros H. apply C29_any_sequence in H. destruct H as [(l1 & j & l2 & E & Hs & Hf & Hp & _ & Hl)|(i & Hi & Hf & _ & Hd)].
  - exists j. split; [|split].
    + assert (X : In j (filter (fun i => hashable (in_val i)) l)) by (rewrite E; apply in_or_app; right; now left). now apply filter_In in X.
    + exists l1, j, l2. split; [exact E|]. split; [exact Hs|]. split; [apply same_refl|].
      intros j' Hi (A1 & A2 & _). specialize (Hl j' Hi ltac:(congruence)). destruct (in_strike j'); [reflexivity|]. congruence.
    + unfold describes. now rewrite Hf, Hp.
  - exists i. apply filter_In in Hi. tauto.
Qed.
Print Assumptions C29_only_described.

(** ... and a strike on a parameter blocks all it describes while it is in force. *)
Theorem C29_parameter_blocks l i t : In i l -> hashable (in_val i) = true -> given (in_param i) <> None ->
  in_force (filter (fun i => hashable (in_val i)) l) i -> describes i t -> stricken (sl_run sl_empty l) t = true.
Proof.
  intros Hi Hh Hp Hf Hd. apply C29_any_sequence. right. exists i. split; [apply filter_In; auto|auto].
Qed.
Print Assumptions C29_parameter_blocks.

Example C29_any_case :
  let l := [st (Some "f") None OpEq (PInt 0); st (Some "f") (Some "x") OpEq (PInt 1); st (Some "f") None OpEq (PInt 0);
            rs (Some "f") (Some "x") OpEq (PInt 1); st (Some "f") None OpEq (PInt 0); st (Some "f") (Some "x") OpEq (PList []);
            rs (Some "f") (Some "x") OpEq (PInt 5)]%string in
  map (fun n => stricken (sl_run sl_empty (firstn n l)) (tgt "f" (PInt 2))) [0; 1; 2; 3; 4; 5; 6; 7]%nat
  = [false; true; false; false; false; true; true; true] /\
  wholly_struck (filter (fun i => hashable (in_val i)) l) "f" /\ ~ wholly_struck (firstn 4 l) "f".
Proof.
  cbv zeta. split; [vm_compute; reflexivity|]. split.
  - apply whole_run; [|vm_compute; reflexivity]. intros i Hi. apply filter_In in Hi; apply Hi.
  - rewrite <- whole_run; [vm_compute; discriminate|]. apply hashable_dec. reflexivity.
Qed.

(** A strike on an unhashable value is dropped without an error: exactly the values with a
    list inside are. *)
Theorem C29_ignored v : (hashable v = true <-> ~ has_list v) /\
  (has_list v -> forall l i, in_val i = v -> sl_run sl_empty (l ++ [i]) = sl_run sl_empty l).
Proof.
  assert (H : hashable v = true <-> ~ has_list v).
  { induction v as [z|s|l IH|l IH] using pv_ind'; cbn [hashable]; try (split; [intros _ H; inversion H|reflexivity]).
    - rewrite forallb_forall. rewrite Forall_forall in IH. split.
      + intros H X. inversion X as [|l' x Hx Hl]; subst. apply (IH x Hx); [now apply H|exact Hl].
      + intros H x Hx. apply (IH x Hx). intros X. apply H. now apply (hl_in l x).
    - split; [discriminate|]. intros H. exfalso. apply H. constructor. }
  split; [exact H|]. intros X l i E. rewrite sl_run_snoc. unfold sl_update. rewrite E. destruct (hashable v); [|reflexivity]. exfalso. now apply H.
Qed.
Print Assumptions C29_ignored.
Example C29_ignored_case : has_list (PTup [PInt 1; PTup [PList []]]) /\ ~ has_list (PTup [PInt 1; PTup []]).
Proof. split; [apply (hl_in _ (PTup [PList []])); [simpl; auto|]; apply (hl_in _ (PList [])); [simpl; auto|constructor]|]. now apply C29_ignored. Qed.

Theorem C29_unhashable_refuted :
  let l := [st None (Some "x") OpEq (PList [PInt 1])]%string in
  (exists i, In i l /\ in_force l i /\ describes i (tgt "f" (PList [PInt 1]))) /\
  stricken (sl_run sl_empty l) (tgt "f" (PList [PInt 1])) = false.
Proof.
  split; [|vm_compute; reflexivity]. eexists. split; [left; reflexivity|]. split.
  - eexists [], _, []. split; [reflexivity|]. split; [reflexivity|]. split; [apply same_refl|]. intros j [].
  - unfold describes. cbn. split; [auto|]. eexists _, _. split; [reflexivity|]. split; [left; reflexivity|reflexivity].
Qed.
Print Assumptions C29_unhashable_refuted.

(** ** C30: all workers agree on strikes *)

(** [L] is the instruction stream.  If a process applies each instruction it sends
    before its monitor reads it, then once it has read all of [L] it blocks the same
    calls as a process that only reads.  Missing from the full statement: late local
    application and mixed strikes, where it is false (below). *)
Theorem C30_agree_partial L evs t : unmixed L -> all_hashable L -> applied_early L 0 evs ->
  stricken (sl_run sl_empty (played L 0 evs)) t = stricken (sl_run sl_empty (played L 0 (reader L))) t.
Proof.
  intros U H A. rewrite (agree L evs t U H A). unfold reader.
  pose proof (played_reader L 0) as E. rewrite Nat.sub_0_r in E. now rewrite E.
Qed.
Print Assumptions C30_agree_partial.

(** Processes that only read agree on everything, mixed or not. *)
Theorem C30_readers_agree L : played L 0 (reader L) = L.
Proof. pose proof (played_reader L 0) as E. rewrite Nat.sub_0_r in E. exact E. Qed.
Print Assumptions C30_readers_agree.

Example C30_case : let evs := [SLocal 0; SRead; SRead; SLocal 4; SRead; SRead; SRead; SRead] in
  applied_early ex_strikes 0 evs /\ unmixed ex_strikes /\ length (played ex_strikes 0 evs) = 8%nat /\
  stricken (sl_run sl_empty (played ex_strikes 0 evs)) (tgt "f" (PInt 11)) = true.
Proof.
  split; [simpl; lia|]. split; [apply unmixed_dec; vm_compute; reflexivity|]. split; vm_compute; reflexivity.
Qed.

(** False when the monitor is faster: it reads the strike and another process's
    restore before send_instruction applies the strike to the own list. *)
Theorem C30_late_local_refuted :
  let L := [st (Some "f") None OpEq (PInt 0); rs (Some "f") None OpEq (PInt 0)]%string in
  unmixed L /\ all_hashable L /\
  stricken (sl_run sl_empty (played L 0 [SRead; SRead; SLocal 0])) (tgt "f" (PInt 2)) = true /\
  stricken (sl_run sl_empty (played L 0 (reader L))) (tgt "f" (PInt 2)) = false.
Proof. split; [apply unmixed_dec; reflexivity|]. split; [apply hashable_dec; reflexivity|]. split; vm_compute; reflexivity. Qed.
Print Assumptions C30_late_local_refuted.

(** False for mixed strikes even if all local applications are early. *)
Theorem C30_mixed_refuted :
  let L := [st (Some "f") (Some "x") OpEq (PInt 1); st (Some "f") None OpEq (PInt 0); rs (Some "f") (Some "x") OpEq (PInt 1)]%string in
  applied_early L 0 [SRead; SLocal 2; SRead; SRead] /\ all_hashable L /\
  stricken (sl_run sl_empty (played L 0 [SRead; SLocal 2; SRead; SRead])) (tgt "f" (PInt 2)) = true /\
  stricken (sl_run sl_empty (played L 0 (reader L))) (tgt "f" (PInt 2)) = false.
Proof. split; [simpl; lia|]. split; [apply hashable_dec; reflexivity|]. split; vm_compute; reflexivity. Qed.
Print Assumptions C30_mixed_refuted.

(** ** C31: strike instructions survive the wire *)

(** An instruction comes back as it was sent, except that an empty function or
    parameter name comes back as absent. *)
Theorem C31_round_trip_partial i :
  sfrom_message (sas_message i) = Some (mkInstr (in_strike i) (given (in_fn i)) (given (in_param i)) (in_op i) (in_val i)).
Proof. exact (wire_round i). Qed.
Print Assumptions C31_round_trip_partial.

Theorem C31_same i : in_fn i <> Some EmptyString -> in_param i <> Some EmptyString -> sfrom_message (sas_message i) = Some i.
Proof.
  intros Hf Hp. rewrite wire_round. destruct i as [d f p o v]. cbn [in_strike in_fn in_param in_op in_val] in *.
  assert (E : forall s, s <> Some EmptyString -> given s = s) by (intros [[|]|] H; simpl; congruence).
  now rewrite !E.
Qed.
Print Assumptions C31_same.

Example C31_case : sfrom_message (sas_message (rs None (Some "x") OpBetween (PTup [PInt 1; PInt 5])))%string
  = Some (rs None (Some "x") OpBetween (PTup [PInt 1; PInt 5]))%string.
Proof. vm_compute. reflexivity. Qed.

(** The difference cannot be seen: both forms have the same effect on every list. *)
Theorem C31_same_effect l i j : sfrom_message (sas_message i) = Some j -> sl_update l j = sl_update l i.
Proof.
  rewrite wire_round. intros E; injection E as <-.
  unfold sl_update, do_strike, do_restore. cbn [in_strike in_fn in_param in_op in_val].
  assert (G : forall o, given (given o) = given o) by (intros [[|]|]; reflexivity).
  now rewrite !G.
Qed.
Print Assumptions C31_same_effect.

Theorem C31_empty_name_refuted : exists i, sfrom_message (sas_message i) <> Some i.
Proof. exists (st (Some EmptyString) (Some "x"%string) OpEq (PInt 1)). vm_compute. discriminate. Qed.
Print Assumptions C31_empty_name_refuted.

(** ** C32: struck tasks are neither scheduled nor started *)

(** While a strike that describes the call is in force in process [p], add and
    replace there report STRUCK and change nothing; while none is, they are the
    ordinary add and replace. *)
Theorem C32_add_struck_partial c bind s p a t : orderly p s -> struck_in bind p (call_msg a) s ->
  sstep c bind s (SAdd p a t) = (s, ODisp DStruck) /\ sstep c bind s (SReplace p a t) = (s, ODisp DStruck).
Proof. intros O S. cbn [sstep]. now rewrite (struck_stricken bind p (call_msg a) s O S). Qed.
Print Assumptions C32_add_struck_partial.

Theorem C32_add_clear_partial c bind s p a t : orderly p s -> ~ struck_in bind p (call_msg a) s ->
  ss_sys (fst (sstep c bind s (SAdd p a t))) = fst (step c (ss_sys s) (OAdd a t)) /\
  snd (sstep c bind s (SAdd p a t)) = snd (step c (ss_sys s) (OAdd a t)) /\
  ss_sys (fst (sstep c bind s (SReplace p a t))) = fst (step c (ss_sys s) (OReplace a t)) /\
  snd (sstep c bind s (SReplace p a t)) = snd (step c (ss_sys s) (OReplace a t)).
Proof. intros O S. cbn [sstep]. rewrite (unstruck_clear bind p (call_msg a) s O S). now repeat split. Qed.
Print Assumptions C32_add_clear_partial.

(** If from some point on a strike that describes the message is in force in worker
    [p], then no execution of the message that passed no check in [p] before that point
    ever starts there.  (The strike may take effect between the check and the start;
    such an execution runs.) *)
Theorem C32_never_starts_partial c bind p m l0 l x :
  sthroughout c bind (fun s => orderly p s /\ struck_in bind p m s) (srun c bind ss_init l0) l ->
  In x (s_execs (ss_sys (srun c bind ss_init (l0 ++ l)))) -> x_worker x = p -> x_msg x = m ->
  ss_verdict (srun c bind ss_init l0) (x_id x) <> Some false ->
  ~ under_way x.
Proof. exact (never_started c bind p m l0 l x). Qed.
Print Assumptions C32_never_starts_partial.

(** The same for any instructions a process has seen, mixed or not, with what C29_any_sequence
    says they block. *)
Theorem C32_any_instructions c bind s p a t :
  (blocked_in bind p (call_msg a) s ->
   sstep c bind s (SAdd p a t) = (s, ODisp DStruck) /\ sstep c bind s (SReplace p a t) = (s, ODisp DStruck)) /\
  (~ blocked_in bind p (call_msg a) s ->
   ss_sys (fst (sstep c bind s (SAdd p a t))) = fst (step c (ss_sys s) (OAdd a t)) /\
   snd (sstep c bind s (SAdd p a t)) = snd (step c (ss_sys s) (OAdd a t)) /\
   ss_sys (fst (sstep c bind s (SReplace p a t))) = fst (step c (ss_sys s) (OReplace a t)) /\
   snd (sstep c bind s (SReplace p a t)) = snd (step c (ss_sys s) (OReplace a t))).
Proof.
  rewrite blocked_stricken. cbn [sstep]. split; intros H; [now rewrite H|].
  destruct (ss_stricken bind s p (call_msg a)); [now destruct H|]. now repeat split.
Qed.
Print Assumptions C32_any_instructions.

Theorem C32_never_starts_any c bind p m l0 l x :
  sthroughout c bind (blocked_in bind p m) (srun c bind ss_init l0) l ->
  In x (s_execs (ss_sys (srun c bind ss_init (l0 ++ l)))) -> x_worker x = p -> x_msg x = m ->
  ss_verdict (srun c bind ss_init l0) (x_id x) <> Some false ->
  ~ under_way x.
Proof. apply never_started_if. intros s. apply blocked_stricken. Qed.
Print Assumptions C32_never_starts_any.

(** A worker that found the execution struck finishes it: it is acknowledged and
    removed from the stream and, unless superseded meanwhile, its record says
    cancelled. *)
Theorem C32_finished_as_cancelled c bind l h x t e r :
  let s := srun c bind ss_init l in
  get_exec (s_execs (ss_sys s)) h = Some x -> x_phase x = PDelivered -> ss_verdict s h = Some true ->
  let s' := srun c bind s [SDo (ODelKnown h); SDo (OTerminal h SCancelled t e r)] in
  get_exec (s_execs (ss_sys s')) h = Some (with_phase PDone x) /\
  (forall m, ~ In (x_mid x, m) (d_stream (s_db (ss_sys s')))) /\
  (superseded (s_db (ss_sys s)) (m_key (x_msg x)) (m_gen (x_msg x)) = false -> 0 < c_ttl c ->
    r_state (rget (s_db (ss_sys s')) (m_key (x_msg x))) = Some SCancelled).
Proof. intros s. apply finish_struck. apply SS_run, SS_init. Qed.
Print Assumptions C32_finished_as_cancelled.

(** ... and in no other way: it is never claimed, started, rescheduled, or marked completed or
    failed. *)
Theorem C32_finished_no_other_way c bind l h o :
  let s := srun c bind ss_init l in
  ss_verdict s h = Some true ->
  (exists t, o = OClaim h t) \/ o = OBodyStart h \/ o = OBodyEnd h \/ (exists w b t, o = OResched h w b t) \/
  (exists st t e r, o = OTerminal h st t e r /\ st <> SCancelled) ->
  ss_sys (fst (sstep c bind s (SDo o))) = ss_sys s /\ snd (sstep c bind s (SDo o)) = ORefused.
Proof.
  intros s V H. assert (I : SS s) by (apply SS_run, SS_init).
  assert (B : forall x, get_exec (s_execs (ss_sys s)) h = Some x -> busy (x_phase x) = false).
  { intros x G. apply get_exec_spec in G. destruct G as [Hx <-]. destruct (busy (x_phase x)) eqn:E; [|reflexivity].
    rewrite (st_busy _ I x Hx E) in V. discriminate V. }
  clearbody s. destruct H as [(t & ->)|[->|[->|[(w & b & t & ->)|(st & t & e & r & -> & N)]]]]; cbn [sstep].
  - rewrite V. now split.
  - unfold lift, step. cbv zeta. destruct (get_exec (s_execs (ss_sys s)) h) as [x|]; [|now split]. specialize (B x eq_refl).
    destruct (x_phase x); try discriminate B; now split.
  - unfold lift, step. cbv zeta. destruct (get_exec (s_execs (ss_sys s)) h) as [x|]; [|now split]. specialize (B x eq_refl).
    destruct (x_phase x); try discriminate B; now split.
  - unfold lift, step. cbv zeta. destruct (get_exec (s_execs (ss_sys s)) h) as [x|]; [|now split]. specialize (B x eq_refl).
    destruct (x_phase x); try discriminate B; now split.
  - unfold lift, step. cbv zeta. destruct (get_exec (s_execs (ss_sys s)) h) as [x|]; [|now split]. specialize (B x eq_refl).
    destruct (x_phase x); try discriminate B; cbn [may_finish]; try (now split).
    destruct st; cbn; now split.
Qed.
Print Assumptions C32_finished_no_other_way.

Definition ex_bind : binder := fun _ args _ => Some [("x"%string, PStr args)].
Definition ex_scall (x : string) : call := mkCall "k" 0 "f" x "".
(** "k" is added and delivered to w1, and w2 is told to strike x = "bad". *)
Definition ex_sl0 : list sop :=
  [SAdd "p" (ex_scall "bad") 1; SDo (ORead "w1"); SSend (st (Some "f") (Some "x") OpEq (PStr "bad")); SMonitor "w2"; SMonitor "w1"]%string.
Definition ex_sl1 : list sop := [SCheck 0; SDo (OClaim 0 5); SDo (OBodyStart 0)].
Definition ex_scfg : cfg := mkCfg 900 300000000.
(** The states of a history. *)
Fixpoint sstates (c : cfg) (bind : binder) (s : ssys) (l : list sop) : list ssys :=
  s :: match l with [] => [] | o :: l => sstates c bind (fst (sstep c bind s o)) l end.
Lemma sthroughout_states c bind (P : ssys -> Prop) l : forall s, (forall s', In s' (sstates c bind s l) -> P s') -> sthroughout c bind P s l.
Proof.
  induction l as [|o l IH]; intros s H; (split; [apply H; now left|]); [exact I|].
  apply IH. intros s' Hs'. apply H. right; exact Hs'.
Qed.
Lemma one_strike bind p m i ss : in_strike i = true -> hashable (in_val i) = true -> describes i (target_of bind m) ->
  map (fun s => ss_applied s p) ss = repeat [i] (length ss) -> forall s, In s ss -> orderly p s /\ struck_in bind p m s.
Proof.
  intros Hi Hh Hd E s Hs.
  assert (A : ss_applied s p = [i]).
  { assert (X : In (ss_applied s p) (repeat [i] (length ss))) by (rewrite <- E; apply (in_map (fun s => ss_applied s p)); exact Hs).
    now apply repeat_spec in X. }
  unfold orderly, struck_in. rewrite A. repeat split.
  - destruct H as [<-|[]], H0 as [<-|[]]; auto.
  - destruct H as [<-|[]], H0 as [<-|[]]; auto.
  - intros j [<-|[]]; exact Hh.
  - exists i. split; [now left|]. split; [|exact Hd]. exists [], i, []. split; [reflexivity|]. split; [exact Hi|]. split; [apply same_refl|intros j []].
Qed.
Example C32_case_throughout :
  sthroughout ex_scfg ex_bind (fun s => orderly "w1" s /\ struck_in ex_bind "w1" (with_gen (call_msg (ex_scall "bad")) 1) s)
    (srun ex_scfg ex_bind ss_init ex_sl0) (ex_sl1 ++ [SDo (ODelKnown 0)]) /\
  map x_msg (s_execs (ss_sys (srun ex_scfg ex_bind ss_init (ex_sl0 ++ ex_sl1 ++ [SDo (ODelKnown 0)])))) = [with_gen (call_msg (ex_scall "bad")) 1] /\
  map x_worker (s_execs (ss_sys (srun ex_scfg ex_bind ss_init (ex_sl0 ++ ex_sl1 ++ [SDo (ODelKnown 0)])))) = ["w1"%string] /\
  map x_phase (s_execs (ss_sys (srun ex_scfg ex_bind ss_init (ex_sl0 ++ ex_sl1 ++ [SDo (ODelKnown 0)])))) = [PStruck].
Proof.
  split; [|split; [vm_compute; reflexivity|split; vm_compute; reflexivity]].
  apply sthroughout_states. apply (one_strike _ _ _ (st (Some "f") (Some "x") OpEq (PStr "bad"))%string); [reflexivity|reflexivity| |].
  - unfold describes. cbn. split; [auto|]. eexists _, _. split; [reflexivity|]. split; [left; reflexivity|reflexivity].
  - vm_compute. reflexivity.
Qed.
Example C32_case :
  let s0 := srun ex_scfg ex_bind ss_init ex_sl0 in
  let s1 := srun ex_scfg ex_bind s0 ex_sl1 in
  ss_applied s0 "w1"%string = [st (Some "f") (Some "x") OpEq (PStr "bad")]%string /\
  ss_applied s1 "w1"%string = [st (Some "f") (Some "x") OpEq (PStr "bad")]%string /\
  ss_stricken ex_bind s0 "w1" (call_msg (ex_scall "bad")) = true /\
  ss_stricken ex_bind s0 "w1" (call_msg (ex_scall "good")) = false /\
  ss_verdict s0 0 = None /\ ss_verdict s1 0 = Some true /\
  option_map x_phase (get_exec (s_execs (ss_sys s1)) 0) = Some PDelivered /\
  snd (sstep ex_scfg ex_bind s1 (SAdd "w2" (ex_scall "bad") 6)) = ODisp DStruck /\
  snd (sstep ex_scfg ex_bind s1 (SReplace "p" (ex_scall "bad") 6)) = ODisp DScheduled.
Proof. repeat split; vm_compute; reflexivity. Qed.

Example C32_any_case :
  let s := srun ex_scfg ex_bind ss_init [SSend (st (Some "f") None OpEq (PInt 0)); SSend (st (Some "f") (Some "x") OpEq (PStr "bad")); SMonitor "w1"; SMonitor "w1"]%string in
  blocked_in ex_bind "w1" (call_msg (ex_scall "bad")) s /\ ~ blocked_in ex_bind "w1" (call_msg (ex_scall "good")) s /\
  struck_in ex_bind "w1" (call_msg (ex_scall "good")) s.
Proof.
  cbv zeta. rewrite !blocked_stricken. split; [vm_compute; reflexivity|]. split; [vm_compute; discriminate|].
  eexists. split; [left; reflexivity|]. split; [|reflexivity].
  eexists [], _, _. split; [reflexivity|]. split; [reflexivity|]. split; [apply same_refl|]. intros j [<-|[]] (_ & E & _). discriminate.
Qed.

(** A strike that takes effect after the check does not stop the run. *)
Theorem C32_after_check_refuted : exists l x,
  In x (s_execs (ss_sys (srun ex_scfg ex_bind ss_init l))) /\
  ss_stricken ex_bind (srun ex_scfg ex_bind ss_init l) (x_worker x) (x_msg x) = true /\ x_phase x = PBody.
Proof.
  exists ([SAdd "p" (ex_scall "bad") 1; SDo (ORead "w1"); SCheck 0; SSend (st (Some "f") None OpEq (PInt 0)); SMonitor "w1"; SDo (OClaim 0 5); SDo (OBodyStart 0)]%string).
  eexists. split; [vm_compute; left; reflexivity|]. split; vm_compute; reflexivity.
Qed.
Print Assumptions C32_after_check_refuted.

(** ** C02 with strikes: either the call reports STRUCK and nothing changed, or it is
    the add or replace of the docket, which never reports STRUCK. *)
Theorem C02_struck_changes_nothing c bind s p a t s' r :
  (sstep c bind s (SAdd p a t) = (s', r) ->
     (r = ODisp DStruck /\ s' = s) \/ (r <> ODisp DStruck /\ step c (ss_sys s) (OAdd a t) = (ss_sys s', r))) /\
  (sstep c bind s (SReplace p a t) = (s', r) ->
     (r = ODisp DStruck /\ s' = s) \/ (r <> ODisp DStruck /\ step c (ss_sys s) (OReplace a t) = (ss_sys s', r))).
Proof.
  cbn [sstep]. destruct (ss_stricken bind s p (call_msg a)).
  { split; intros E; left; injection E as <- <-; auto. }
  split; intros E; right.
  all: assert (N : snd (step c (ss_sys s) (OAdd a t)) <> ODisp DStruck /\ snd (step c (ss_sys s) (OReplace a t)) <> ODisp DStruck)
    by (unfold step, do_schedule; cbv zeta; split; destruct (lua_schedule _ _ _ _ _ _ _) as [? []]; discriminate).
  all: unfold lift in E; injection E as <- <-; split; [apply N|cbn [ss_sys]; apply surjective_pairing].
Qed.
Print Assumptions C02_struck_changes_nothing.
