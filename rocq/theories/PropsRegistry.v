(** C87, C88, C89, C90: names of functions. *)
From Verif Require Import Base Strike SpecStrike StrikeProofs StrikeMixed Agenda Registry SpecRegistry.

(** ** Proofs *)
Lemma find_set n m f g : find_task (set_task n f g) m = if String.eqb n m then Some f else find_task g m.
Proof.
  induction g as [|[k h] g IH]; cbn [set_task find_task]; [reflexivity|]. destruct (String.eqb_spec k n) as [->|N]; cbn [find_task].
  - destruct (String.eqb_spec n m); reflexivity.
  - destruct (String.eqb_spec k m) as [->|M]; [|exact IH]. destruct (String.eqb_spec n m); [congruence|reflexivity].
Qed.
Lemma set_same n f g : find_task g n = Some f -> set_task n f g = g.
Proof.
  induction g as [|[k h] g IH]; cbn; [discriminate|]. destruct (String.eqb_spec k n) as [->|N]; [intros E; injection E as ->; reflexivity|]. intros E. now rewrite IH.
Qed.
(** A registry that follows the table. *)
Definition follows (t : table) (g : registry) : Prop := forall n f, find_task g n = Some f -> t n = Some f.
Lemma follows_set t n f g : follows t g -> t n = Some f -> follows t (set_task n f g).
Proof. intros F E m h. rewrite find_set. destruct (String.eqb_spec n m) as [->|]; [intros X; injection X as <-; exact E|apply F]. Qed.
Lemma follows_fold t f names : forall g, follows t g -> (forall n, In n names -> t n = Some f) -> follows t (fold_left (fun g n => set_task n f g) names g).
Proof. induction names as [|n names IH]; intros g F H; [exact F|]. cbn. apply IH; [apply follows_set; [exact F|apply H; now left]|intros m I; apply H; now right]. Qed.
Lemma follows_register t f names g : follows t g -> t (fname f) = Some f -> (forall n, In n names -> t n = Some f) -> follows t (register_as f names g).
Proof. intros F E H. unfold register_as. apply follows_fold; [exact F|]. destruct names; [intros n [<-|[]]; exact E|exact H]. Qed.

Definition WInv (t : table) (fb : func) (w : world) : Prop :=
  (forall p, follows t (wo_reg w p)) /\
  (forall m, In m (wo_msgs w) -> exists f, t (ms_name m) = Some f /\ (f = ms_meant m \/ f = fb)).
Lemma received_fn t fb g n f : follows t g -> t n = Some f -> jb_fn (received g fb n) = f \/ (find_task g n = None /\ jb_fn (received g fb n) = fb).
Proof. intros F E. unfold received. cbn. destruct (find_task g n) as [h|] eqn:X; [left; apply F in X; congruence|now right]. Qed.
Lemma name_or_found t n f : own_names t -> t n = Some f -> t (name_or n (fname f)) = Some f.
Proof. intros O E. destruct n; cbn [name_or]; [now apply (O ""%string)|exact E]. Qed.
Lemma winv_step t fb w o : own_names t -> t (fname fb) = Some fb -> agrees t o -> WInv t fb w -> WInv t fb (world_step fb w o).
Proof.
  intros O B A [F M]. destruct o as [p f names|p x|p i|p i]; cbn [world_step].
  - split; [|exact M]. intros q. cbn [wo_reg]. unfold set_reg. destruct (Nat.eqb q p); [|apply F]. destruct A. now apply follows_register.
  - destruct x as [n|f]; cbn [submit].
    + destruct (find_task (wo_reg w p) n) as [f|] eqn:E; [|now split]. split.
      * intros q. cbn [wo_reg]. unfold set_reg. destruct (Nat.eqb q p); apply F.
      * cbn [wo_msgs]. intros m I. apply in_app_iff in I. destruct I as [I|[<-|[]]]; [now apply M|]. cbn. exists f. split; [|now left]. apply name_or_found; [exact O|]. now apply (F p).
    + cbn [jb_name jb_fn]. split.
      * intros q. cbn [wo_reg]. unfold set_reg. destruct (Nat.eqb q p); [|apply F]. apply follows_set; [apply F|exact A].
      * cbn [wo_msgs]. intros m I. apply in_app_iff in I. destruct I as [I|[<-|[]]]; [now apply M|]. exists f. split; [exact A|now left].
  - unfold run_of. destruct (nth_error (wo_msgs w) i) as [m|] eqn:E; [|now split]. split; [exact F|]. cbn [wo_msgs]. intros m' I. apply in_app_iff in I. destruct I as [I|[<-|[]]]; [now apply M|].
    apply nth_error_In in E. destruct (M m E) as (f & T & S). cbn [ms_name ms_meant]. unfold received at 1. cbn [jb_name].
    destruct (ms_name m) as [|c n] eqn:En; cbn [name_or]; [|exists f; now split].
    destruct (find_task (wo_reg w p) ""%string) as [h|] eqn:X; [|exists fb; split; [exact B|now right]]. apply (F p) in X. rewrite T in X. injection X as <-. exists f. split; [now apply (O ""%string)|exact S].
  - unfold run_of. destruct (nth_error (wo_msgs w) i) as [m|] eqn:E; [|now split]. cbn [submit jb_name jb_fn]. apply nth_error_In in E. destruct (M m E) as (f & T & S).
    assert (R : exists h, jb_fn (received (wo_reg w p) fb (ms_name m)) = h /\ t (fname h) = Some h /\ (h = ms_meant m \/ h = fb)).
    { eexists. split; [reflexivity|]. destruct (received_fn t fb (wo_reg w p) (ms_name m) f (F p) T) as [->|[_ ->]]; [split; [now apply (O (ms_name m))|exact S]|split; [exact B|now right]]. }
    destruct R as (h & -> & H1 & H2). split.
    + intros q. cbn [wo_reg]. unfold set_reg. destruct (Nat.eqb q p); [|apply F]. apply follows_set; [apply F|exact H1].
    + cbn [wo_msgs]. intros m' I. apply in_app_iff in I. destruct I as [I|[<-|[]]]; [now apply M|]. exists h. now split.
Qed.
Lemma winv_run t fb l : own_names t -> t (fname fb) = Some fb -> Forall (agrees t) l -> WInv t fb (world_run fb l).
Proof.
  intros O B A. unfold world_run. assert (I : WInv t fb world_init) by (split; [intros p n f E; discriminate E|intros m []]). revert I. generalize world_init.
  induction A as [|o l X _ IH]; intros w I; [exact I|]. cbn. apply IH. now apply winv_step.
Qed.

(** ** C87 *)

(** Where processes agree on names, a worker runs the function that was submitted, or the
    fallback task. *)
Theorem C87_submitted_partial t fb l p i j m : own_names t -> t (fname fb) = Some fb -> Forall (agrees t) l ->
  run_of fb (world_run fb l) p i = Some (j, m) -> jb_fn j = ms_meant m \/ jb_fn j = fb.
Proof.
  intros O B A. destruct (winv_run t fb l O B A) as [F M]. unfold run_of. destruct (nth_error _ i) as [m'|] eqn:E; [|discriminate]. intros X. injection X as <- ->.
  apply nth_error_In in E. destruct (M m E) as (f & T & S). destruct (received_fn t fb _ (ms_name m) f (F p) T) as [->|[_ ->]]; [exact S|now right].
Qed.
Print Assumptions C87_submitted_partial.

(** The process that submits, at least, finds the very function, under the same name. *)
Theorem C87_own_process g x j g' fb : x <> ByName "" -> submit g x = Some (j, g') -> received g' fb (jb_name j) = j.
Proof.
  intros N. destruct x as [n|f]; cbn [submit].
  - destruct (find_task g n) as [f|] eqn:E; [|discriminate]. intros X. injection X as <- <-. destruct n as [|c n]; [congruence|]. cbn [name_or jb_name]. unfold received. now rewrite E.
  - intros X. injection X as <- <-. cbn [jb_name]. unfold received, register. rewrite find_set, String.eqb_refl. f_equal. now destruct (fname f).
Qed.
Print Assumptions C87_own_process.

(** Two functions of the same name: whichever was registered last runs for both. *)
Theorem C87_same_name_refuted : exists fb f g l p i j m,
  f <> g /\ f <> fb /\ g <> fb /\ l = [WSubmit p (ByFunction f); WSubmit p (ByFunction g)] /\
  run_of fb (world_run fb l) p i = Some (j, m) /\ ms_meant m = f /\ jb_fn j = g.
Proof.
  exists (mkFunc 0 "default_fallback_task"), (mkFunc 1 "send"), (mkFunc 2 "send"), [WSubmit 0 (ByFunction (mkFunc 1 "send")); WSubmit 0 (ByFunction (mkFunc 2 "send"))], O, O.
  eexists. eexists. split; [discriminate|]. split; [discriminate|]. split; [discriminate|]. split; [reflexivity|]. split; [reflexivity|]. split; reflexivity.
Qed.
Print Assumptions C87_same_name_refuted.

Definition fb0 : func := mkFunc 0 "default_fallback_task".
Definition mail : func := mkFunc 1 "mail".
Definition tick : func := mkFunc 2 "tick".
Definition table0 : table := fun n => if String.eqb n "mail" then Some mail else if String.eqb n "post" then Some mail else if String.eqb n "tick" then Some tick
  else if String.eqb n "default_fallback_task" then Some fb0 else None.
Example C87_case :
  let l := [WRegister 1 mail ["mail"; "post"]; WRegister 0 mail ["post"]; WSubmit 0 (ByName "post"); WSubmit 0 (ByFunction tick); WRetry 1 0; WPerpetuate 1 2] in
  own_names table0 /\ table0 (fname fb0) = Some fb0 /\ Forall (agrees table0) l /\
  map (fun i => option_map (fun r => jb_fn (fst r)) (run_of fb0 (world_run fb0 l) 1 i)) [0; 1; 2; 3]%nat = [Some mail; Some fb0; Some mail; Some mail].
Proof.
  cbv zeta. split; [|split; [reflexivity|split; [|vm_compute; reflexivity]]].
  - intros n f. unfold table0. destruct (String.eqb n "mail"); [intros E; injection E as <-; reflexivity|]. destruct (String.eqb n "post"); [intros E; injection E as <-; reflexivity|].
    destruct (String.eqb n "tick"); [intros E; injection E as <-; reflexivity|]. destruct (String.eqb n "default_fallback_task"); [intros E; injection E as <-; reflexivity|discriminate].
  - apply Forall_cons; [split; [reflexivity|]; intros n [<-|[<-|[]]]; reflexivity|]. apply Forall_cons; [split; [reflexivity|]; intros n [<-|[]]; reflexivity|].
    repeat (apply Forall_cons; [try exact Logic.I; reflexivity|]). apply Forall_nil.
Qed.

(** ** C88 *)

(** A retry keeps the name, whatever the process knows. *)
Theorem C88_retry fb w p i j m : run_of fb w p i = Some (j, m) -> ms_name m <> ""%string ->
  jb_name j = ms_name m /\
  exists m', wo_msgs (world_step fb w (WRetry p i)) = wo_msgs w ++ [m'] /\ ms_name m' = ms_name m.
Proof.
  intros R N. cbn [world_step]. rewrite R. unfold run_of in R. destruct (nth_error _ i); [|discriminate]. injection R as <- ->. unfold received. cbn [jb_name].
  assert (E : name_or (ms_name m) (fname (match find_task (wo_reg w p) (ms_name m) with Some f => f | None => fb end)) = ms_name m) by now destruct (ms_name m).
  rewrite E. split; [reflexivity|]. eexists. split; reflexivity.
Qed.
Print Assumptions C88_retry.

(** So does a Perpetual, if every function goes by its own name only and the worker knows
    it. *)
Definition plain_reg (g : registry) : Prop := forall n f, find_task g n = Some f -> n = fname f.
Lemma plain_set f g : plain_reg g -> plain_reg (set_task (fname f) f g).
Proof. intros P n h. rewrite find_set. destruct (String.eqb_spec (fname f) n) as [E|]; [intros X; injection X as <-; now symmetry|apply P]. Qed.
Lemma plain_register f names g : plain_reg g -> (forall n, In n names -> n = fname f) -> plain_reg (register_as f names g).
Proof.
  intros P H. unfold register_as. assert (X : forall l, (forall n, In n l -> n = fname f) -> forall g, plain_reg g -> plain_reg (fold_left (fun g n => set_task n f g) l g)).
  { clear. induction l as [|n l IH]; intros H g P; [exact P|]. cbn. apply IH; [intros m I; apply H; now right|]. rewrite (H n (or_introl eq_refl)). now apply plain_set. }
  apply X; [|exact P]. destruct names; [intros n [<-|[]]; reflexivity|exact H].
Qed.
Lemma plain_run fb l : Forall plain l -> forall p, plain_reg (wo_reg (world_run fb l) p).
Proof.
  intros A. unfold world_run. assert (I : forall p, plain_reg (wo_reg world_init p)) by (intros p n f E; discriminate E). revert I. generalize world_init.
  induction A as [|o l X _ IH]; intros w I; [exact I|]. cbn [fold_left]. apply IH. intros q. destruct o as [p f names|p x|p i|p i]; cbn [world_step].
  - cbn [wo_reg]. unfold set_reg. destruct (Nat.eqb q p); [|apply I]. now apply plain_register.
  - destruct x as [n|f]; cbn [submit]; [destruct (find_task (wo_reg w p) n)|]; cbn [wo_reg]; unfold set_reg; try destruct (Nat.eqb q p); auto. now apply plain_set.
  - destruct (run_of fb w p i) as [[j m]|]; apply I.
  - destruct (run_of fb w p i) as [[j m]|]; [|apply I]. cbn [submit wo_reg]. unfold set_reg. destruct (Nat.eqb q p); [|apply I]. now apply plain_set.
Qed.
Theorem C88_perpetual_partial fb l p i j m : Forall plain l -> run_of fb (world_run fb l) p i = Some (j, m) -> find_task (wo_reg (world_run fb l) p) (ms_name m) <> None ->
  exists m', wo_msgs (world_step fb (world_run fb l) (WPerpetuate p i)) = wo_msgs (world_run fb l) ++ [m'] /\ ms_name m' = ms_name m.
Proof.
  intros A R K. pose proof (plain_run fb l A p) as P. set (w := world_run fb l) in *. clearbody w. cbn [world_step]. rewrite R. cbn [submit wo_msgs]. eexists. split; [reflexivity|]. cbn [ms_name jb_name].
  unfold run_of in R. destruct (nth_error _ i); [|discriminate]. injection R as <- ->. unfold received. cbn [jb_fn]. destruct (find_task (wo_reg w p) (ms_name m)) as [f|] eqn:E; [|contradiction]. symmetry. now apply P.
Qed.
Print Assumptions C88_perpetual_partial.

(** A Perpetual submitted under an alias goes on under the name of its function: a strike of
    the alias does not hold back its next run, and a worker that knows only the alias hands
    the next run to the fallback task. *)
Theorem C88_alias_refuted : exists fb f l,
  l = [WRegister 0 f ["alias"]; WRegister 1 f ["alias"]; WSubmit 0 (ByName "alias"); WPerpetuate 0 0] /\
  exists m0 m1, wo_msgs (world_run fb l) = [m0; m1] /\ ms_name m0 = "alias"%string /\ ms_first m1 = "alias"%string /\ ms_name m1 = fname f /\ fname f <> "alias"%string /\
  (let struck := sl_run sl_empty [mkInstr true (Some "alias"%string) None OpEq (PInt 0)] in
   stricken struck (mkTarget (ms_name m0) (Some [])) = true /\ stricken struck (mkTarget (ms_name m1) (Some [])) = false) /\
  (forall m, run_of fb (world_run fb l) 1 0 = Some (mkJob f "alias", m) <-> m = m0) /\
  (exists j, run_of fb (world_run fb l) 1 1 = Some (j, m1) /\ jb_fn j = fb /\ fb <> f).
Proof.
  exists fb0, tick. eexists. split; [reflexivity|]. eexists. eexists. split; [vm_compute; reflexivity|]. split; [reflexivity|]. split; [reflexivity|]. split; [reflexivity|]. split; [discriminate|]. split; [vm_compute; now split|]. split.
  - intros m. split; [intros E; vm_compute in E; now injection E as <-|intros ->; vm_compute; reflexivity].
  - eexists. split; [vm_compute; reflexivity|]. split; [reflexivity|discriminate].
Qed.
Print Assumptions C88_alias_refuted.

Example C88_case :
  let l := [WRegister 1 tick []; WSubmit 0 (ByFunction tick)] in
  Forall plain l /\ (exists j m, run_of fb0 (world_run fb0 l) 1 0 = Some (j, m) /\ jb_fn j = tick /\ ms_name m = "tick"%string) /\
  find_task (wo_reg (world_run fb0 l) 1) "tick" <> None /\ map ms_name (wo_msgs (world_step fb0 (world_run fb0 l) (WPerpetuate 1 0))) = ["tick"; "tick"]%string.
Proof.
  cbv zeta. split; [apply Forall_cons; [intros n []|apply Forall_cons; [exact Logic.I|apply Forall_nil]]|]. split; [eexists; eexists; split; [vm_compute; reflexivity|split; reflexivity]|]. split; [discriminate|vm_compute; reflexivity].
Qed.

(** ** C89 *)

(** Where functions go by their own names, the strike of a function, while it is in force,
    keeps every process that knows the function from starting it. *)
Theorem C89_plain_partial fb ops p i j m l s args : Forall plain ops -> unmixed l -> all_hashable l ->
  run_of fb (world_run fb ops) p i = Some (j, m) -> find_task (wo_reg (world_run fb ops) p) (ms_name m) <> None -> ms_name m <> ""%string ->
  In s l -> in_force l s -> in_fn s = Some (strike_name (ByFunction (jb_fn j))) -> given (in_param s) = None ->
  stricken (sl_run sl_empty l) (mkTarget (jb_name j) args) = true.
Proof.
  intros A U H R K N Is Fs En Ep. apply (blocked_iff l _ U H). exists s. split; [exact Is|]. split; [exact Fs|].
  pose proof (plain_run fb ops A p) as P. unfold run_of in R. destruct (nth_error _ i); [|discriminate]. injection R as <- ->. unfold received in *. cbn [jb_fn jb_name strike_name] in *.
  destruct (find_task _ (ms_name m)) as [f|] eqn:E; [|contradiction]. apply P in E. unfold describes. rewrite En, Ep. rewrite <- E.
  destruct (ms_name m) as [|c n]; [congruence|]. cbn. reflexivity.
Qed.
Print Assumptions C89_plain_partial.

(** The same for any sequence of strikes and restores: the execution carries the name that
    docket.strike(f) strikes, so it is blocked while that is wholly struck (C29), and, if
    its arguments do not come into it, only then. *)
Theorem C89_any_strikes_partial fb ops p i j m l args : Forall plain ops -> let l' := filter (fun i => hashable (in_val i)) l in
  run_of fb (world_run fb ops) p i = Some (j, m) -> find_task (wo_reg (world_run fb ops) p) (ms_name m) <> None -> ms_name m <> ""%string ->
  (wholly_struck l' (strike_name (ByFunction (jb_fn j))) -> stricken (sl_run sl_empty l) (mkTarget (jb_name j) args) = true) /\
  (args = None -> stricken (sl_run sl_empty l) (mkTarget (jb_name j) args) = true -> wholly_struck l' (strike_name (ByFunction (jb_fn j)))).
Proof.
  intros A l' R K N. pose proof (plain_run fb ops A p) as P. unfold run_of in R. destruct (nth_error _ i); [|discriminate]. injection R as <- ->. unfold received in *. cbn [jb_fn jb_name strike_name] in *.
  destruct (find_task _ (ms_name m)) as [f|] eqn:E; [|contradiction]. apply P in E.
  assert (X : forall n, stricken (sl_run sl_empty l) (mkTarget n args) = true <-> wholly_struck l' n \/ exists i, In i l' /\ in_force l' i /\ given (in_param i) <> None /\ describes i (mkTarget n args)).
  { intros n. rewrite (sl_run_hashable l sl_empty). fold l'. rewrite (any_sequence l'); [reflexivity|]. intros x Hx. apply filter_In in Hx. apply Hx. }
  rewrite X. split.
  - intros W. left. destruct (ms_name m) as [|c n]; [congruence|]. cbn. rewrite E. exact W.
  - intros -> [W|(x & _ & _ & Np & D)]; [destruct (ms_name m) as [|c n]; [congruence|]; cbn in W; rewrite E in W; exact W|].
    unfold describes in D. destruct (given (in_param x)); [|congruence]. destruct (given (in_fn x)); destruct D as (_ & a & v & D & _); discriminate.
Qed.
Print Assumptions C89_any_strikes_partial.

(** A function that goes by an alias starts although it is struck. *)
Theorem C89_alias_refuted : exists fb f ops l j m,
  l = [mkInstr true (Some (strike_name (ByFunction f))) None OpEq (PInt 0)] /\ in_force l (mkInstr true (Some (strike_name (ByFunction f))) None OpEq (PInt 0)) /\
  run_of fb (world_run fb ops) 0 0 = Some (j, m) /\ jb_fn j = f /\ jb_fn j <> fb /\
  stricken (sl_run sl_empty l) (mkTarget (jb_name j) (Some [])) = false.
Proof.
  exists fb0, mail, [WRegister 0 mail ["post"%string]; WSubmit 0 (ByName "post")]. eexists. eexists. eexists. split; [reflexivity|]. split; [|split; [vm_compute; reflexivity|split; [reflexivity|split; [discriminate|vm_compute; reflexivity]]]].
  eexists [], _, []. split; [reflexivity|]. split; [reflexivity|]. split; [apply same_refl|]. intros x [].
Qed.
Print Assumptions C89_alias_refuted.

Example C89_case :
  let ops := [WRegister 0 mail []; WSubmit 0 (ByName "mail")] in
  let l := [mkInstr true (Some "mail"%string) None OpEq (PInt 0)] in
  Forall plain ops /\ (exists j m, run_of fb0 (world_run fb0 ops) 0 0 = Some (j, m) /\ jb_fn j = mail /\ find_task (wo_reg (world_run fb0 ops) 0) (ms_name m) <> None /\
    stricken (sl_run sl_empty l) (mkTarget (jb_name j) None) = true).
Proof.
  cbv zeta. split; [apply Forall_cons; [intros n []|apply Forall_cons; [exact Logic.I|apply Forall_nil]]|]. eexists. eexists. split; [vm_compute; reflexivity|]. split; [reflexivity|]. split; [discriminate|vm_compute; reflexivity].
Qed.

(** ** C90 *)

Lemma set_len n f g : length (set_task n f g) = if match find_task g n with Some _ => true | None => false end then length g else S (length g).
Proof. induction g as [|[k h] g IH]; cbn; [reflexivity|]. destruct (String.eqb k n); cbn; [reflexivity|]. rewrite IH. now destruct (find_task g n). Qed.

(** If every automatic function is registered under its own name, and nothing is registered
    meanwhile, the loop ends without error and seeds every automatic function that is not
    live. *)
Theorem C90_seeds_partial auto g lives : (forall n f, In (n, f) g -> auto f = true -> find_task g (fname f) = Some f) -> length lives = S (length g) ->
  let s := seed_run auto (seed_start g) (nexts lives) in
  sd_status s = SeedDone /\
  sd_added s = map (fun x => fname (snd (fst x))) (filter (fun x => auto (snd (fst x)) && negb (snd x)) (combine g lives)).
Proof.
  intros H L. cbv zeta.
  assert (X : forall k lives s, sd_reg s = g -> sd_size s = length g -> sd_status s = SeedRunning -> (sd_pos s + k = length g)%nat -> length lives = S k ->
    sd_status (seed_run auto s (nexts lives)) = SeedDone /\
    sd_added (seed_run auto s (nexts lives)) = sd_added s ++ map (fun x => fname (snd (fst x))) (filter (fun x => auto (snd (fst x)) && negb (snd x)) (combine (skipn (sd_pos s) g) lives))).
  { clear L lives. induction k as [|k IH]; intros lives s E1 E2 E3 E4 E5; (destruct lives as [|b lives]; [discriminate|]); cbn [nexts map seed_run fold_left]; fold (nexts lives);
      unfold seed_step at 2 4; rewrite E3, E1, E2, Nat.eqb_refl; cbn [negb].
    - assert (Ne : nth_error g (sd_pos s) = None) by (apply nth_error_None; lia). rewrite Ne. destruct lives; [|discriminate]. cbn [nexts map fold_left sd_status sd_added]. split; [reflexivity|].
      rewrite skipn_all2 by lia. cbn. now rewrite app_nil_r.
    - destruct (nth_error g (sd_pos s)) as [[n f]|] eqn:En; [|apply nth_error_None in En; lia].
      assert (Sk : skipn (sd_pos s) g = (n, f) :: skipn (S (sd_pos s)) g).
      { clear -En. revert En. generalize (sd_pos s). induction g as [|x g' IH]; intros [|q] En; try discriminate; cbn in *; [now injection En as ->|]. rewrite (IH _ En). reflexivity. }
      rewrite Sk. cbn [combine filter fst snd]. destruct (auto f && negb b) eqn:Ea.
      + apply andb_true_iff in Ea. destruct Ea as [Ea _]. assert (Rg : register f g = g) by (apply set_same; apply (H n); [now apply nth_error_In in En|exact Ea]).
        destruct (IH lives (mkSeeding (register f g) (length g) (S (sd_pos s)) (sd_added s ++ [fname f]) SeedRunning)) as [I1 I2]; cbn [sd_reg sd_size sd_status sd_pos]; [exact Rg|reflexivity|reflexivity|lia|cbn [length] in E5; lia|].
        cbn [sd_pos sd_added] in I2. split; [exact I1|]. unfold seed_run in I2. rewrite I2, <- app_assoc. reflexivity.
      + destruct (IH lives (mkSeeding g (length g) (S (sd_pos s)) (sd_added s) SeedRunning)) as [I1 I2]; cbn [sd_reg sd_size sd_status sd_pos]; [reflexivity|reflexivity|reflexivity|lia|cbn [length] in E5; lia|]. now split. }
  destruct (X (length g) lives (seed_start g)) as [X1 X2]; cbn [seed_start sd_reg sd_size sd_status sd_pos]; auto.
Qed.
Print Assumptions C90_seeds_partial.

(** Whatever happens, only automatic functions that were not live are seeded, each under its
    own name. *)
Theorem C90_only auto g l k : In k (sd_added (seed_run auto (seed_start g) l)) ->
  exists f, auto f = true /\ fname f = k /\ ((exists n, In (n, f) g) \/ exists names, In (SRegister f names) l).
Proof.
  intros I.
  assert (X : forall l s (known : func -> Prop), (forall n f, In (n, f) (sd_reg s) -> known f) -> (forall k, In k (sd_added s) -> exists f, auto f = true /\ fname f = k /\ known f) ->
    forall k, In k (sd_added (seed_run auto s l)) -> exists f, auto f = true /\ fname f = k /\ (known f \/ exists names, In (SRegister f names) l)).
  { clear. intros l. induction l as [|o l IH]; intros s known R A k I.
    - destruct (A k I) as (f & F1 & F2 & F3). exists f. auto.
    - cbn [seed_run fold_left] in I. fold (seed_run auto (seed_step auto s o) l) in I.
      assert (Set_in : forall n f g n' f', In (n', f') (set_task n f g) -> f' = f \/ In (n', f') g).
      { clear. intros n f g n' f'. induction g as [|[m h] g IH]; cbn [set_task]; [intros [E|[]]; left; congruence|]. destruct (String.eqb m n); cbn [In].
        - intros [E|E]; [left; congruence|right; now right].
        - intros [E|E]; [right; now left|]. destruct (IH E); auto. }
      destruct o as [live|f names].
      + assert (Y : exists f, auto f = true /\ fname f = k /\ (known f \/ exists names, In (SRegister f names) l)).
        { apply (IH (seed_step auto s (SNext live)) known); [| |exact I].
          - intros n f J. cbn [seed_step] in J. destruct (sd_status s); try (now apply (R n)). destruct (negb _); [now apply (R n)|]. destruct (nth_error (sd_reg s) (sd_pos s)) as [[q h]|] eqn:En; [|now apply (R n)].
            destruct (auto h && negb live); [|now apply (R n)]. cbn [sd_reg] in J. apply Set_in in J. destruct J as [->|J]; [apply nth_error_In in En; now apply (R q)|now apply (R n)].
          - intros k' J. cbn [seed_step] in J. destruct (sd_status s); try (now apply A). destruct (negb _); [now apply A|]. destruct (nth_error (sd_reg s) (sd_pos s)) as [[q h]|] eqn:En; [|now apply A].
            destruct (auto h && negb live) eqn:Ea; [|now apply A]. cbn [sd_added] in J. apply in_app_iff in J. destruct J as [J|[<-|[]]]; [now apply A|]. apply andb_true_iff in Ea. exists h. split; [tauto|]. split; [reflexivity|]. apply nth_error_In in En. now apply (R q). }
        destruct Y as (f & Y1 & Y2 & [Y3|[names Y3]]); exists f; split; auto; split; auto. right. exists names. now right.
      + assert (Y : exists h, auto h = true /\ fname h = k /\ ((known h \/ h = f) \/ exists names, In (SRegister h names) l)).
        { apply (IH (seed_step auto s (SRegister f names)) (fun h => known h \/ h = f)); [| |exact I].
          - intros n h J. cbn [seed_step sd_reg] in J. unfold register_as in J. revert J. generalize (match names with [] => [fname f] | _ => names end). intros ns.
            assert (Z : forall g, (forall n h, In (n, h) g -> known h \/ h = f) -> In (n, h) (fold_left (fun g n => set_task n f g) ns g) -> known h \/ h = f).
            { induction ns as [|x ns IHn]; intros g G J; [now apply (G n)|]. cbn in J. apply (IHn (set_task x f g)); [|exact J]. intros n' h' J'. apply Set_in in J'. destruct J' as [->|J']; [now right|now apply (G n')]. }
            apply Z. intros n' h' J'. left. now apply (R n').
          - intros k' J. cbn [seed_step sd_added] in J. destruct (A k' J) as (h & H1 & H2 & H3). exists h. auto. }
        destruct Y as (h & Y1 & Y2 & [[Y3| ->]|[ns Y3]]); [exists h; auto|exists f; split; [auto|split; [auto|]]; right; exists names; now left|exists h; split; auto; split; auto; right; exists ns; now right]. }
  destruct (X l (seed_start g) (fun f => exists n, In (n, f) g)) with (k := k) as (f & F1 & F2 & F3); [intros n f J; now exists n|intros k' []|exact I|]. exists f. auto.
Qed.
Print Assumptions C90_only.

(** An automatic function registered under another name: seeding it registers it under its
    own name as well, so the loop over docket.tasks raises RuntimeError, and what comes
    after it is not seeded.  When a worker starts, that error ends it (worker.py:764-765:
    _run, lines 547-562, catches only ConnectionError). *)
Theorem C90_alias_refuted auto f h lives : auto f = true -> auto h = true -> fname f <> "x"%string -> fname f <> "y"%string ->
  let s := seed_run auto (seed_start [("x"%string, f); ("y"%string, h)]) (nexts (false :: false :: lives)) in
  sd_status s = SeedError /\ sd_added s = [fname f].
Proof.
  intros Af Ah N1 N2. cbv zeta.
  assert (R : register f [("x"%string, f); ("y"%string, h)] = [("x"%string, f); ("y"%string, h); (fname f, f)]).
  { unfold register. cbn [set_task]. rewrite (proj2 (String.eqb_neq "x" (fname f))) by congruence. rewrite (proj2 (String.eqb_neq "y" (fname f))) by congruence. reflexivity. }
  assert (S1 : seed_run auto (seed_start [("x"%string, f); ("y"%string, h)]) (nexts (false :: false :: lives)) = seed_run auto (mkSeeding [("x"%string, f); ("y"%string, h); (fname f, f)] 2 1 [fname f] SeedError) (nexts lives)).
  { cbn [nexts map seed_run fold_left]. fold (nexts lives). cbn [seed_step seed_start sd_status sd_reg sd_size sd_pos sd_added length Nat.eqb negb nth_error]. rewrite Af. cbn [andb negb app sd_status sd_reg sd_size sd_pos sd_added]. rewrite R. reflexivity. }
  rewrite S1. clear. induction lives as [|b lives IH]; [now split|]. cbn [nexts map seed_run fold_left] in *. exact IH.
Qed.
Print Assumptions C90_alias_refuted.

(** So it does if another coroutine registers a function while the loop waits for Redis. *)
Theorem C90_meanwhile_refuted auto f h k live lives : auto f = true -> auto h = true -> fname k <> fname f -> fname k <> fname h -> fname f <> fname h ->
  let s := seed_run auto (seed_start [(fname f, f); (fname h, h)]) (SNext live :: SRegister k [] :: nexts (false :: lives)) in
  sd_status s = SeedError /\ ~ In (fname h) (sd_added s).
Proof.
  intros Af Ah N1 N2 N3. cbv zeta.
  assert (S1 : exists g a, seed_run auto (seed_start [(fname f, f); (fname h, h)]) (SNext live :: SRegister k [] :: nexts (false :: lives)) = seed_run auto (mkSeeding g 2 1 a SeedError) (nexts lives) /\ ~ In (fname h) a).
  { cbn [nexts map seed_run fold_left]. fold (nexts lives). unfold seed_step at 4. cbn [seed_start sd_status sd_reg sd_size sd_pos sd_added length Nat.eqb negb nth_error]. rewrite Af.
    assert (R : register f [(fname f, f); (fname h, h)] = [(fname f, f); (fname h, h)]) by (unfold register; cbn; now rewrite String.eqb_refl).
    assert (K : register_as k [] [(fname f, f); (fname h, h)] = [(fname f, f); (fname h, h); (fname k, k)]).
    { unfold register_as. cbn [fold_left set_task]. rewrite (proj2 (String.eqb_neq (fname f) (fname k))) by congruence. rewrite (proj2 (String.eqb_neq (fname h) (fname k))) by congruence. reflexivity. }
    destruct live; cbn [negb andb app]; rewrite ?R; unfold seed_step at 3; cbn [sd_status sd_reg sd_size sd_pos sd_added]; rewrite K; unfold seed_step at 2; cbn [sd_status sd_reg sd_size sd_pos sd_added length Nat.eqb negb];
      eexists; eexists; (split; [reflexivity|]); [intros []|intros [E|[]]; congruence]. }
  destruct S1 as (g & a & -> & N). clear -N. induction lives as [|b lives IH]; [now split|]. cbn [nexts map seed_run fold_left] in *. exact IH.
Qed.
Print Assumptions C90_meanwhile_refuted.

Example C90_case :
  let auto := fun f => negb (String.eqb (fname f) "mail") in
  let g := [("mail"%string, mail); ("tick"%string, tick); ("again"%string, tick)] in
  (forall n f, In (n, f) g -> auto f = true -> find_task g (fname f) = Some f) /\
  sd_added (seed_run auto (seed_start g) (nexts [false; false; true; false])) = ["tick"%string].
Proof.
  cbv zeta. split; [|vm_compute; reflexivity]. intros n f [E|[E|[E|[]]]]; injection E as <- <-; intros A; try discriminate A; reflexivity.
Qed.
