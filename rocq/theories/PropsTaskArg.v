(** C110: what an unnamed TaskArgument stands for. *)
From Verif Require Import Base Strike Bind SpecBind BindProofs PropsBind TaskArg SpecTaskArg.

(** ** C110: A TaskArgument stands for the argument it is declared for *)

Lemma optional_kept l : forall s, o_optional (ta_run s l) = o_optional s.
Proof. induction l as [|[e i p|e i p] l IH]; intros s; cbn; [reflexivity| |apply IH]. rewrite IH. now destruct (unnamed _). Qed.

(** The name of an object after a history: the one written, or else the first it was used for. *)
Lemma name_after l : forall s i, real_names l ->
  match written s i with
  | Some n => o_name (ta_run s l) i = Some n
  | None => match used_for i l with [] => unnamed (o_name (ta_run s l) i) = true | p :: _ => o_name (ta_run s l) i = Some p end
  end.
Proof.
  induction l as [|[e j p|e j p] l IH]; intros s i R; cbn [ta_run used_for].
  - unfold written, unnamed. destruct (o_name s i) as [n|]; [|reflexivity]. now destruct (String.eqb n "").
  - assert (R' : real_names l). { intros k q H. apply (R k q). cbn. destruct (j =? k); [now right|exact H]. }
    specialize (IH (fst (ta_step s (TDepends e j p))) i R'). cbn [ta_step fst] in *. revert IH.
    destruct (Z.eqb_spec j i) as [->|N].
    + assert (P : p <> ""%string) by (apply (R i p); cbn; rewrite Z.eqb_refl; now left).
      unfold written at 2. destruct (o_name s i) as [n|] eqn:E; cbn [unnamed].
      * destruct (String.eqb_spec n "") as [->|Nn]; cbn [fst].
        -- unfold written. cbn [o_name]. rewrite Z.eqb_refl. destruct (String.eqb_spec p "") as [|_]; [contradiction|]. auto.
        -- unfold written. rewrite E. destruct (String.eqb_spec n "") as [|_]; [contradiction|]. auto.
      * unfold written. cbn [o_name]. rewrite Z.eqb_refl. destruct (String.eqb_spec p "") as [|_]; [contradiction|]. auto.
    + assert (W : o_name (if unnamed (o_name s j) then mkObjs (fun k => if k =? j then Some p else o_name s k) (o_optional s) else s) i = o_name s i).
      { destruct (unnamed _); [|reflexivity]. cbn. destruct (Z.eqb_spec i j); [congruence|reflexivity]. }
      unfold written. now rewrite W.
  - apply IH. intros k q H. exact (R k q H).
Qed.

Lemma enters s i e n : o_name s i = Some n -> ta_enter s e i = looks_up s i e n.
Proof. intros E. unfold ta_enter, looks_up. now rewrite E. Qed.
Lemma looks_after s l i e n : looks_up (ta_run s l) i e n = looks_up s i e n.
Proof. unfold looks_up. now rewrite optional_kept. Qed.

(** An object with a name stands for the argument of that name, for every dependency parameter
    it is used for and whatever the process has done before; and for a parameter of the task
    that the caller did not pass. *)
Theorem C110_named s l i n e p : written s i = Some n -> real_names l ->
  snd (ta_step (ta_run s l) (TDepends e i p)) = looks_up s i e n /\
  (kget (t_kwargs e) p = None -> snd (ta_step (ta_run s l) (TTask e i p)) = looks_up s i e n).
Proof.
  intros W R. pose proof (name_after l s i R) as N. rewrite W in N.
  assert (U : unnamed (o_name (ta_run s l) i) = false).
  { rewrite N. unfold written in W. destruct (o_name s i) as [m|]; [|discriminate]. cbn. destruct (String.eqb m "") eqn:E; [discriminate|]. congruence. }
  cbn [ta_step snd]. rewrite U. rewrite (enters _ _ _ _ N), looks_after. split; [reflexivity|]. intros ->. reflexivity.
Qed.
Print Assumptions C110_named.

(** One without a name stands for the argument named like the dependency parameter, as long as
    the process has used it for no other.  Missing from the full statement: an object that is
    the default of parameters with different names (false, see below). *)
Theorem C110_inferred_partial s l i e p : written s i = None -> real_names l -> p <> ""%string -> one_name i p l ->
  snd (ta_step (ta_run s l) (TDepends e i p)) = looks_up s i e p.
Proof.
  intros W R P O. pose proof (name_after l s i R) as N. rewrite W in N. cbn [ta_step snd].
  destruct (used_for i l) as [|q qs] eqn:E.
  - rewrite N. unfold ta_enter, looks_up. cbn [o_name o_optional]. rewrite Z.eqb_refl. now rewrite optional_kept.
  - assert (q = p) by (apply O; rewrite E; now left). subst q. rewrite N. cbn [unnamed].
    destruct (String.eqb_spec p "") as [|_]; [contradiction|]. now rewrite (enters _ _ _ _ N), looks_after.
Qed.
Print Assumptions C110_inferred_partial.

(** In general the first use decides for ever. *)
Theorem C110_first_use s l i e p q qs : written s i = None -> real_names l -> used_for i l = q :: qs ->
  snd (ta_step (ta_run s l) (TDepends e i p)) = looks_up s i e q.
Proof.
  intros W R E. pose proof (name_after l s i R) as N. rewrite W, E in N. cbn [ta_step snd]. rewrite N. cbn [unnamed].
  destruct (String.eqb_spec q "") as [->|_]; [|now rewrite (enters _ _ _ _ N), looks_after].
  exfalso. apply (R i ""%string); [rewrite E; now left|reflexivity].
Qed.
Print Assumptions C110_first_use.

(** A parameter of the task itself gets what the caller passed for it; an object without a
    name that no dependency has used is refused there, also one whose name is "". *)
Theorem C110_task_parameter s l i e p : real_names l ->
  (forall v, kget (t_kwargs e) p = Some v -> snd (ta_step (ta_run s l) (TTask e i p)) = TPassed v) /\
  (kget (t_kwargs e) p = None -> written s i = None -> used_for i l = [] -> snd (ta_step (ta_run s l) (TTask e i p)) = TNoName).
Proof.
  intros R. cbn [ta_step snd]. split; [now intros v ->|]. intros -> W E. pose proof (name_after l s i R) as N. rewrite W, E in N. now rewrite N.
Qed.
Print Assumptions C110_task_parameter.
Example C110_task_parameter_case :
  let s := mkObjs (fun _ => Some ""%string) (fun _ => false) in
  let e := mkCallTA send [PInt 7] [("subject"%string, PStr "hi")] in
  snd (ta_step (ta_run s [TDepends e 2 "to"]) (TTask e 1 "subject")) = TPassed (PStr "hi") /\
  snd (ta_step (ta_run s [TDepends e 2 "to"]) (TTask e 1 "to")) = TNoName /\
  snd (ta_step (ta_run s [TDepends e 2 "to"]) (TTask e 2 "x")) = TGot (TAValue (PInt 7)).
Proof. split; [reflexivity|]. split; vm_compute; reflexivity. Qed.

(** Objects 1 (no name) and 2 ("subject"), a task send(to, subject, ...) called with 7 and "hi". *)
Definition ex_objs : ta_objs := mkObjs (fun i => if i =? 2 then Some "subject"%string else None) (fun _ => false).
Definition ex_e : ta_call := mkCallTA send [PInt 7; PStr "hi"] [].
Example C110_case :
  written ex_objs 1 = None /\ written ex_objs 2 = Some "subject"%string /\
  one_name 1 "to" [TDepends ex_e 1 "to"; TDepends ex_e 2 "about"; TTask ex_e 1 "x"] /\
  snd (ta_step (ta_run ex_objs [TDepends ex_e 1 "to"; TDepends ex_e 2 "about"; TTask ex_e 1 "x"]) (TDepends ex_e 1 "to")) = TGot (TAValue (PInt 7)) /\
  snd (ta_step (ta_run ex_objs [TDepends ex_e 1 "to"; TDepends ex_e 2 "about"]) (TDepends ex_e 2 "about")) = TGot (TAValue (PStr "hi")) /\
  real_names [TDepends ex_e 1 "to"; TDepends ex_e 2 "about"; TTask ex_e 1 "x"].
Proof.
  split; [reflexivity|]. split; [reflexivity|]. split; [intros q [<-|[]]; reflexivity|]. split; [vm_compute; reflexivity|].
  split; [vm_compute; reflexivity|]. intros i q. cbn [used_for]. destruct (1 =? i), (2 =? i); cbn; intuition (subst; discriminate).
Qed.

(** An object that is the default of two parameters gives the second the argument of the first:
    a dependency asks for subject and gets 7. *)
Theorem C110_shared_refuted :
  exists s l i e p, written s i = None /\ real_names l /\
    task_argument false (t_params e) (t_args e) (t_kwargs e) p = TAValue (PStr "hi") /\
    snd (ta_step (ta_run s l) (TDepends e i p)) = TGot (TAValue (PInt 7)).
Proof.
  exists ex_objs, [TDepends ex_e 1 "to"], 1, ex_e, "subject"%string. split; [reflexivity|]. split; [|split; vm_compute; reflexivity].
  intros i q. cbn [used_for]. destruct (1 =? i); cbn; intuition (subst; discriminate).
Qed.
Print Assumptions C110_shared_refuted.

(** And whether a task with a bare TaskArgument among its own parameters fails depends on what
    has run in the process before: for a fresh object it does, as intended; once a dependency
    has used the same object, it gets an argument of another name. *)
Theorem C110_task_parameter_refuted :
  exists s l i e p q, written s i = None /\ kget (t_kwargs e) p = None /\ q <> p /\
    snd (ta_step s (TTask e i p)) = TNoName /\ snd (ta_step (ta_run s l) (TTask e i p)) = looks_up s i e q.
Proof.
  exists ex_objs, [TDepends ex_e 1 "to"], 1, ex_e, "subject"%string, "to"%string.
  split; [reflexivity|]. split; [reflexivity|]. split; [discriminate|]. split; vm_compute; reflexivity.
Qed.
Print Assumptions C110_task_parameter_refuted.
