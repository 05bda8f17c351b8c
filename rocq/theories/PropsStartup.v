(** C129: starting a worker. *)
From Coq Require Import Ascii String List.
From Verif Require Import Base Duration PropsDuration Cli PropsCli Url SpecUrl PropsUrl Startup.
Import ListNotations.

(** ** C129: a worker starts, and says which tasks it has *)

(** How a parameter that is no dependency is to be shown. *)
Inductive shown_type : annot -> text -> Prop :=
| st_plain t : shown_type (mkAnnot t None) t
| st_first t x xs : shown_type (mkAnnot t (Some (Some (x :: xs)))) x.
Inductive shown_head : text -> option annot -> text -> Prop :=
| sh_bare n : shown_head n None n
| sh_typed n a t : shown_type a t -> shown_head n (Some a) (n ++ chars ": " ++ t).
Inductive shown : param -> text -> Prop :=
| sh_required n a d : shown_head n a d -> shown (mkParam n a NoDefault) d
| sh_default n a d r : shown_head n a d -> shown (mkParam n a (Value (Some r))) (d ++ chars " = " ++ r).

(** What is shown of the parameters of a signature, and whether there are dependencies. *)
Inductive listed : list param -> list text -> bool -> Prop :=
| li_nil : listed [] [] false
| li_dependency p l ts b : pm_default p = IsDependency -> listed l ts b -> listed (p :: l) ts true
| li_shown p l t ts b : shown p t -> listed l ts b -> listed (p :: l) (t :: ts) b.
Inductive commas : list text -> text -> Prop :=
| co_none : commas [] []
| co_one t : commas [t] t
| co_more t u l r : commas (u :: l) r -> commas (t :: u :: l) (t ++ chars ", " ++ r).
Definition signature (l : list param) (s : text) : Prop :=
  exists ts b, listed l ts b /\ commas (ts ++ if b then [chars "..."] else []) s.

(** A parameter that cannot be shown: an annotation with an origin and no first argument, or a
    default whose repr fails. *)
Definition trouble (p : param) : Prop := pm_default p <> IsDependency /\
  ((exists t, pm_annot p = Some (mkAnnot t (Some None)) \/ pm_annot p = Some (mkAnnot t (Some (Some [])))) \/ pm_default p = Value None).

Lemma head_shown n a : (exists d, shown_head n a d /\ match a with None => Some n | Some a => option_map (fun t => n ++ lit ": " ++ t) (type_name a) end = Some d) \/
  ((exists t, a = Some (mkAnnot t (Some None)) \/ a = Some (mkAnnot t (Some (Some [])))) /\
   match a with None => Some n | Some a => option_map (fun t => n ++ lit ": " ++ t) (type_name a) end = None).
Proof.
  destruct a as [[t [[[|x xs]|]|]]|].
  - right. split; [exists t; now right|reflexivity].
  - left. eexists. split; [apply sh_typed; apply st_first|reflexivity].
  - right. split; [exists t; now left|reflexivity].
  - left. eexists. split; [apply sh_typed; apply st_plain|reflexivity].
  - left. eexists. split; [apply sh_bare|reflexivity].
Qed.
Lemma definition_shown p : pm_default p <> IsDependency ->
  (exists d, shown p d /\ parameter_definition p = Some d) \/ (trouble p /\ parameter_definition p = None).
Proof.
  intros D. destruct p as [n a v]. unfold parameter_definition, trouble. cbn [pm_name pm_annot pm_default] in *.
  destruct (head_shown n a) as [(d & H & E)|(H & E)]; rewrite E.
  - destruct v as [| |[r|]]; [left; exists d; split; [now apply sh_required|reflexivity]|now elim D| |right; split; [split; [exact D|now right]|reflexivity]].
    left. eexists. split; [apply sh_default; exact H|reflexivity].
  - right. split; [split; [exact D|now left]|reflexivity].
Qed.
Lemma definitions_listed l :
  (exists ts n, definitions l = Some (ts, n) /\ listed l ts (match n with O => false | _ => true end) /\ forall p, In p l -> ~ trouble p) \/
  (definitions l = None /\ exists p, In p l /\ trouble p).
Proof.
  induction l as [|p l IH]; [left; exists [], 0%nat; split; [reflexivity|split; [constructor|intros p []]]|]. cbn [definitions].
  assert (C : pm_default p = IsDependency \/ pm_default p <> IsDependency) by (destruct (pm_default p); auto; right; discriminate).
  destruct C as [C|C].
  - rewrite C. destruct IH as [(ts & n & E & L & T)|(E & q & I & T)]; rewrite E.
    + left. exists ts, (S n). split; [reflexivity|]. split; [eapply li_dependency; eassumption|]. intros q [<-|I]; [intros [X _]; contradiction|now apply T].
    + right. split; [reflexivity|]. exists q. split; [now right|exact T].
  - assert (M : forall (A : Type) (a b : A), match pm_default p with IsDependency => a | _ => b end = b) by (intros A a b; destruct (pm_default p); try reflexivity; now elim C). rewrite M.
    destruct (definition_shown p C) as [(d & S & E)|(T & E)]; rewrite E; [|right; split; [reflexivity|exists p; split; [now left|exact T]]].
    destruct IH as [(ts & n & E' & L & T)|(E' & q & I & T)]; rewrite E'.
    + left. exists (d :: ts), n. split; [reflexivity|]. split; [now apply li_shown|]. intros q [<-|I]; [|now apply T].
      intros [_ [(t & X)|X]]; unfold parameter_definition in E.
      * destruct X as [X|X]; rewrite X in E; discriminate E.
      * rewrite X in E. destruct (match pm_annot p with None => _ | Some _ => _ end); discriminate E.
    + right. split; [reflexivity|]. exists q. split; [now right|exact T].
Qed.
Lemma join_commas l : commas l (join l).
Proof. induction l as [|t [|u l] IH]; [constructor|constructor|]. change (join (t :: u :: l)) with (t ++ lit ", " ++ join (u :: l)). now apply co_more. Qed.
Lemma signature_shown l :
  (exists s, compact_signature l = Some s /\ signature l s /\ forall p, In p l -> ~ trouble p) \/ (compact_signature l = None /\ exists p, In p l /\ trouble p).
Proof.
  unfold compact_signature. destruct (definitions_listed l) as [(ts & n & E & L & T)|(E & T)]; rewrite E; [left|right; split; [reflexivity|exact T]].
  eexists. split; [reflexivity|]. split; [|exact T]. exists ts, (match n with O => false | _ => true end). split; [exact L|]. cbn [fst snd]. destruct n; apply join_commas.
Qed.

(** The worker gets to work exactly if no parameter of a registered task is a trouble; and
    then it has logged one line for each task, in order, with its signature. *)
Theorem C129_starts_partial tasks :
  (gets_to_work tasks = true <-> forall n ps p, In (n, ps) tasks -> In p ps -> ~ trouble p) /\
  (gets_to_work tasks = true -> Forall2 (fun t line => exists s, signature (snd t) s /\ line = chars "* " ++ fst t ++ chars "(" ++ s ++ chars ")") tasks (fst (startup_log tasks))).
Proof.
  unfold gets_to_work. induction tasks as [|[n ps] l (IH1 & IH2)]; [split; [split; [intros _ n ps p []|reflexivity]|constructor]|]. cbn [startup_log].
  destruct (signature_shown ps) as [(s & E & S & T)|(E & q & I & T)]; rewrite E.
  - destruct (startup_log l) as [ls r]. cbn [fst snd] in *. split.
    + rewrite IH1. split; [intros H m qs p [X|X] J; [injection X as <- <-; now apply T|exact (H m qs p X J)]|intros H m qs p X; apply H with m; now right].
    + intros H. constructor; [exists s; split; [exact S|reflexivity]|now apply IH2].
  - cbn [fst snd negb]. split; [|discriminate]. split; [discriminate|]. intros H. elim (H n ps q (or_introl eq_refl) I T).
Qed.
Print Assumptions C129_starts_partial.

Definition int_ := mkAnnot (lit "int") None.
Definition list_int := mkAnnot (lit "list") (Some (Some [lit "int"])).
Definition bare_list := mkAnnot (lit "List") (Some None).
Example C129_case : let ps := [mkParam (lit "a") (Some int_) NoDefault; mkParam (lit "b") None (Value (Some (lit "3"))); mkParam (lit "d") None IsDependency] in
  startup_log [(lit "f", ps); (lit "g", [])] = ([lit "* f(a: int, b = 3, ...)"; lit "* g()"], false) /\
  (forall p, In p ps -> ~ trouble p).
Proof.
  cbv zeta. split; [vm_compute; reflexivity|]. intros p I [D [(t & [X|X])|X]]; cbn in I; repeat (destruct I as [<-|I]); try contradiction; try discriminate X.
Qed.

(** One task with a parameter of type typing.List keeps the worker from starting, with all its
    other tasks. *)
Theorem C129_annotation_refuted : exists p, pm_annot p = Some bare_list /\ pm_default p = NoDefault /\
  forall others n, gets_to_work (others ++ [(n, [p])]) = false.
Proof.
  exists (mkParam (lit "items") (Some bare_list) NoDefault). split; [reflexivity|]. split; [reflexivity|]. intros others n.
  destruct (gets_to_work (others ++ [(n, [mkParam (lit "items") (Some bare_list) NoDefault])])) eqn:E; [|reflexivity]. exfalso.
  apply (proj1 (proj1 (C129_starts_partial _)) E n [mkParam (lit "items") (Some bare_list) NoDefault] (mkParam (lit "items") (Some bare_list) NoDefault)).
  - apply in_or_app. right. now left.
  - now left.
  - split; [discriminate|]. left. exists (lit "List"). now left.
Qed.
Print Assumptions C129_annotation_refuted.

(** The line does not tell list[int] from int. *)
Theorem C129_type_refuted : exists a b, a <> b /\ forall n d, parameter_definition (mkParam n (Some a) d) = parameter_definition (mkParam n (Some b) d).
Proof. exists int_, list_int. split; [discriminate|]. reflexivity. Qed.
Print Assumptions C129_type_refuted.
