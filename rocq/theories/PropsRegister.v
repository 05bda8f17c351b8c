(** C127: registering tasks. *)
From Coq Require Import Ascii String List.
From Verif Require Import Base Duration PropsDuration Cli PropsCli Url SpecUrl PropsUrl Register.
Import ListNotations.

(** ** C127: a registered function is found under its name *)

(** The call gives the function the name [n]: one of the names it lists, or without any the
    function's own. *)
Definition gives (c : pf * list text) (n : text) : Prop := In n (snd c) \/ snd c = [] /\ n = p_name (fst c).
(** An accepted call that gives the name. *)
Definition takes (c : pf * list text) (n : text) : Prop := p_ok (fst c) = true /\ gives c n.

Lemma set_names f l g n : fold_left (fun g n => set_task n f g) l g n = if existsb (fun m => teq m n) l then Some f else g n.
Proof.
  revert g. induction l as [|m l IH]; intros g; [reflexivity|]. cbn [fold_left existsb]. rewrite IH. unfold set_task.
  destruct (teq m n), (existsb (fun m0 => teq m0 n) l); reflexivity.
Qed.
Lemma ex_in n l : existsb (fun m => teq m n) l = true <-> In n l.
Proof.
  rewrite existsb_exists. split; [intros (m & I & E); apply teq_spec in E; now subst|intros I; exists n; split; [exact I|now apply teq_spec]].
Qed.
Lemma register_takes c g n : takes c n -> fst (register (fst c) (snd c) g) n = Some (fst c).
Proof.
  intros [O G]. unfold register. rewrite O. cbn [fst]. rewrite set_names.
  enough (E : existsb (fun m => teq m n) (match snd c with [] => [p_name (fst c)] | _ => snd c end) = true) by now rewrite E.
  apply ex_in. destruct c as [f [|a l]]; destruct G as [G|[G1 G2]]; cbn in *; try contradiction; try discriminate; auto.
Qed.
Lemma register_leaves c g n : ~ takes c n -> fst (register (fst c) (snd c) g) n = g n.
Proof.
  intros T. unfold register. destruct (p_ok (fst c)) eqn:O; [|reflexivity]. cbn [fst]. rewrite set_names.
  destruct (existsb (fun m => teq m n) (match snd c with [] => [p_name (fst c)] | _ => snd c end)) eqn:E; [|reflexivity].
  exfalso. apply T. split; [exact O|]. apply ex_in in E. destruct c as [f [|a l]]; cbn in *; [right; split; [reflexivity|cbn; destruct E as [E|[]]; now symmetry]|left; exact E].
Qed.
Lemma takes_dec c n : takes c n \/ ~ takes c n.
Proof.
  unfold takes, gives. destruct (p_ok (fst c)); [|right; intros [X _]; discriminate X].
  destruct (existsb (fun m => teq m n) (snd c)) eqn:E; [left; split; [reflexivity|left; now apply ex_in]|].
  assert (N : ~ In n (snd c)) by (intros I; apply ex_in in I; congruence).
  destruct (snd c) as [|a l]; [|right; intros [_ [X|[X _]]]; [contradiction|discriminate X]].
  destruct (teq n (p_name (fst c))) eqn:T; [left; split; [reflexivity|right; split; [reflexivity|now apply teq_spec]]|].
  right. intros [_ [X|[_ X]]]; [contradiction|]. apply teq_spec in X. congruence.
Qed.

(** Whatever is registered in whatever order: a name means the function of the last accepted call
    that gave it, or else what it meant before; refused calls change nothing. *)
Theorem C127_last_partial l g n :
  (exists a c b, l = a ++ c :: b /\ takes c n /\ (forall d, In d b -> ~ takes d n) /\ register_all l g n = Some (fst c)) \/
  (forall d, In d l -> ~ takes d n) /\ register_all l g n = g n.
Proof.
  revert g. induction l as [|c l IH]; intros g; [right; split; [intros d []|reflexivity]|]. unfold register_all. cbn [fold_left]. fold (register_all l (fst (register (fst c) (snd c) g))).
  destruct (IH (fst (register (fst c) (snd c) g))) as [(a & d & b & E & T & N & R)|(N & R)].
  - left. exists (c :: a), d, b. subst l. auto.
  - destruct (takes_dec c n) as [T|T].
    + left. exists [], c, l. split; [reflexivity|]. split; [exact T|]. split; [exact N|]. now rewrite R, register_takes.
    + right. split; [intros d [<-|I]; auto|]. now rewrite R, register_leaves.
Qed.
Print Assumptions C127_last_partial.

Lemma each_all l g : Forall (fun f => p_ok f = true) l -> register_each l g = (register_all (map (fun f => (f, [])) l) g, false).
Proof.
  intros H. revert g. induction H as [|f l O _ IH]; intros g; [reflexivity|]. cbn [register_each map]. unfold register at 1. rewrite O. rewrite IH.
  unfold register_all. cbn [fold_left fst snd]. unfold register at 3. rewrite O. reflexivity.
Qed.

(** A collection as it is named on the command line. *)
Inductive named (env : text -> text -> option (list pf)) : text -> list pf -> Prop :=
| named_at m c l : m <> [] -> ~ In ":"%char c -> env m c = Some l -> named env (m ++ ":"%char :: c) l.

Lemma paths_all env ps ls g : Forall2 (named env) ps ls -> Forall (fun f => p_ok f = true) (concat ls) ->
  register_paths env ps g = (register_all (map (fun f => (f, [])) (concat ls)) g, false).
Proof.
  intros H. revert g. induction H as [|p l ps ls N _ IH]; intros g O; [reflexivity|]. cbn [concat] in *. apply Forall_app in O. destruct O as [O1 O2].
  cbn [register_paths]. destruct N as [m c l M C E]. unfold register_collection. rewrite (rpart_app ":"%char m c C).
  destruct m as [|x m]; [now elim M|]. rewrite E, (each_all l g O1), (IH _ O2). unfold register_all. now rewrite map_app, fold_left_app.
Qed.

(** Worker.run with any collections of valid functions of different names: every function
    is found under its name, and every other name means what it meant. *)
Theorem C127_run_partial env ps ls g : Forall2 (named env) ps ls -> Forall (fun f => p_ok f = true) (concat ls) ->
  NoDup (map p_name (concat ls)) ->
  exists g', register_paths env ps g = (g', false) /\ (forall f, In f (concat ls) -> g' (p_name f) = Some f) /\
    forall n, ~ In n (map p_name (concat ls)) -> g' n = g n.
Proof.
  intros H O D. exists (register_all (map (fun f => (f, [])) (concat ls)) g). split; [now apply paths_all|].
  assert (TK : forall d n, In d (map (fun f => (f, @nil text)) (concat ls)) -> takes d n -> exists f, In f (concat ls) /\ d = (f, []) /\ n = p_name f).
  { intros d n I [_ G]. apply in_map_iff in I. destruct I as (f & <- & I). exists f. destruct G as [[]|[_ G]]. auto. }
  split.
  - intros f I. destruct (C127_last_partial (map (fun f => (f, [])) (concat ls)) g (p_name f)) as [(a & c & b & E & T & _ & R)|(N & R)].
    + rewrite R. destruct (TK c (p_name f)) as (f' & I' & -> & P); [rewrite E; apply in_or_app; right; now left|exact T|]. cbn [fst]. f_equal.
      symmetry. clear - D I I' P. induction (concat ls) as [|h t IH]; [contradiction|]. cbn [map] in D. inversion D as [|? ? D1 D2]. subst.
      destruct I as [->|I], I' as [->|I']; [reflexivity| | |now apply IH]; exfalso; apply D1; [rewrite P|rewrite <- P]; now apply in_map.
    + exfalso. apply (N (f, [])); [now apply (in_map (fun f => (f, @nil text)))|]. split; [cbn; rewrite Forall_forall in O; now apply O|right; auto].
  - intros n N. destruct (C127_last_partial (map (fun f => (f, [])) (concat ls)) g n) as [(a & c & b & E & T & _ & R)|(_ & R)]; [|exact R].
    destruct (TK c n) as (f' & I' & -> & P); [rewrite E; apply in_or_app; right; now left|exact T|]. elim N. subst n. now apply in_map.
Qed.
Print Assumptions C127_run_partial.

(** A path without a colon, or of something that is not there, is an error and registers nothing. *)
Theorem C127_bad_path_partial env m c g :
  (~ In ":"%char c -> register_collection env c g = (g, true)) /\
  (~ In ":"%char c -> env m c = None -> register_collection env (m ++ ":"%char :: c) g = (g, true)).
Proof.
  unfold register_collection. split.
  - intros N. now rewrite (rpart_none ":"%char c N).
  - intros N E. rewrite (rpart_app ":"%char m c N). destruct m; [reflexivity|now rewrite E].
Qed.
Print Assumptions C127_bad_path_partial.

(** Two collections, and the standard tasks of every docket. *)
Definition ex_f n i := mkPf (lit n) i true.
Definition ex_standard := [ex_f "trace" 1; ex_f "fail" 2; ex_f "sleep" 3].
Definition ex_env (m c : text) : option (list pf) :=
  if teq m (lit "shop.orders") then (if teq c (lit "tasks") then Some [ex_f "pay" 10; ex_f "sleep" 11] else None)
  else if teq m (lit "shop.stock") then (if teq c (lit "tasks") then Some [ex_f "count" 20; ex_f "move" 21] else
    if teq c (lit "broken") then Some [ex_f "count" 20; mkPf (lit "bad") 22 false; ex_f "move" 21] else None)
  else None.
Example C127_case : let r := register_paths ex_env [lit "shop.stock:tasks"; lit "shop.orders:tasks"] (new_docket ex_standard) in
  snd r = false /\ map (fun n => option_map p_id (fst r (lit n))) ["count"; "pay"; "sleep"; "fail"; "none"]%string = [Some 20; Some 10; Some 11; Some 2; None]%nat /\
  named ex_env (lit "shop.stock:tasks") [ex_f "count" 20; ex_f "move" 21].
Proof.
  cbv zeta. split; [vm_compute; reflexivity|]. split; [vm_compute; reflexivity|].
  apply (named_at ex_env (lit "shop.stock") (lit "tasks")); [discriminate|nomember|vm_compute; reflexivity].
Qed.

(** A function with the name of a standard task, or of a task of another collection, takes its
    place without an error. *)
Theorem C127_replaced_refuted : exists env ps f, let g := new_docket ex_standard in
  g (p_name f) = Some f /\ snd (register_paths env ps g) = false /\
  exists f', p_id f' <> p_id f /\ fst (register_paths env ps g) (p_name f) = Some f'.
Proof.
  exists ex_env, [lit "shop.orders:tasks"], (ex_f "sleep" 3). cbv zeta. split; [vm_compute; reflexivity|]. split; [vm_compute; reflexivity|].
  exists (ex_f "sleep" 11). split; [discriminate|vm_compute; reflexivity].
Qed.
Print Assumptions C127_replaced_refuted.

(** A collection with an invalid function is registered up to that function. *)
Theorem C127_half_refuted : exists env p l f f', env (lit "shop.stock") (lit "broken") = Some l /\ p = lit "shop.stock:broken" /\ In f l /\ In f' l /\
  p_ok f' = true /\ let r := register_collection env p (new_docket ex_standard) in
  snd r = true /\ fst r (p_name f) = Some f /\ fst r (p_name f') = None.
Proof.
  exists ex_env, (lit "shop.stock:broken"). eexists. exists (ex_f "count" 20), (ex_f "move" 21). split; [vm_compute; reflexivity|].
  split; [reflexivity|]. split; [now left|]. split; [right; right; now left|]. split; [reflexivity|]. cbv zeta. repeat split; vm_compute; reflexivity.
Qed.
Print Assumptions C127_half_refuted.
