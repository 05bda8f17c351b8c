(** C78, C79: which arguments strikes and limits see. *)
From Verif Require Import Base Text Strike SpecStrike StrikeProofs StrikeMixed Admission PropsKeys Bind SpecBind BindProofs.

Local Arguments pv_eqb : simpl never.

(** ** C78: strikes see the arguments the body gets *)

(** Calls Python would refuse are not looked into: only a strike of the whole function
    stops them. *)
Theorem C78_bound ps args kw : signature ps -> clear_names ps kw ->
  (all_arguments ps args kw <> None <-> accepted ps args kw).
Proof.
  intros S C. rewrite <- (bind_iff ps args kw S C). unfold all_arguments. destruct (bind ps args kw); split; congruence.
Qed.
Print Assumptions C78_bound.

Lemma concerns_describes i f ps args kw : signature ps -> call_ok kw -> clear_names ps kw -> accepted ps args kw -> plain ps args kw i ->
  (describes i (mkTarget f (all_arguments ps args kw)) <-> concerns i f ps args kw).
Proof.
  intros S O C A P. destruct (all_arguments ps args kw) as [l|] eqn:E; [|exfalso; now apply (C78_bound ps args kw S C)].
  pose proof (arguments_spec ps args kw l S O C E) as G. unfold describes, concerns. cbn [tg_fn tg_args].
  destruct (given (in_param i)) as [p|] eqn:Gp; [|reflexivity]. destruct (P p Gp) as [Ns Nd].
  assert (Eq : (exists a v, Some l = Some a /\ In (p, v) a /\ is_match v (in_op i) (in_val i) = true) <->
               (exists v, (gets ps args kw p v \/ gets_extra ps kw p v) /\ is_match v (in_op i) (in_val i) = true)).
  { split.
    - intros (a & v & X & I & M). injection X as <-. exists v. split; [now apply G|exact M].
    - intros (v & I & M). exists l, v. split; [reflexivity|]. split; [now apply G|exact M]. }
  destruct (given (in_fn i)); now rewrite Eq.
Qed.

(** A call is blocked exactly when a strike in force speaks of it: of its function, or of a
    value the body would get as that parameter, whether passed by position, by keyword, as an
    extra keyword, or left at the default. *)
Theorem C78_seen_partial L f ps args kw : unmixed L -> all_hashable L ->
  signature ps -> call_ok kw -> clear_names ps kw -> accepted ps args kw -> (forall i, In i L -> plain ps args kw i) ->
  (stricken (sl_run sl_empty L) (mkTarget f (all_arguments ps args kw)) = true <->
   exists i, In i L /\ in_force L i /\ concerns i f ps args kw).
Proof.
  intros U H S O C A P. rewrite (blocked_iff L _ U H). split; intros (i & I & F & D); exists i; (split; [exact I|]; split; [exact F|]).
  - now apply concerns_describes; auto.
  - now apply concerns_describes; auto.
Qed.
Print Assumptions C78_seen_partial.

(** The same for any list of strikes and restores, mixed or not (compare C29_any_sequence). *)
Theorem C78_any_strikes_partial L f ps args kw : let L' := filter (fun i => hashable (in_val i)) L in
  signature ps -> call_ok kw -> clear_names ps kw -> accepted ps args kw -> (forall i, In i L' -> plain ps args kw i) ->
  (stricken (sl_run sl_empty L) (mkTarget f (all_arguments ps args kw)) = true <->
   wholly_struck L' f \/ exists i, In i L' /\ in_force L' i /\ given (in_param i) <> None /\ concerns i f ps args kw).
Proof.
  intros L' S O C A P. rewrite (sl_run_hashable L sl_empty). fold L'.
  rewrite (any_sequence L') by (intros i Hi; apply filter_In in Hi; apply Hi). cbn [tg_fn]. apply or_iff_compat_l.
  split; intros (i & I & F & G & D); exists i; (split; [exact I|]; split; [exact F|]; split; [exact G|]).
  - now apply concerns_describes; auto.
  - now apply concerns_describes; auto.
Qed.
Print Assumptions C78_any_strikes_partial.

(** So two calls that give the body the same arguments fare the same, whatever was struck. *)
Theorem C78_however L f ps args kw args' kw' : signature ps ->
  call_ok kw -> clear_names ps kw -> accepted ps args kw -> (forall i, In i L -> plain ps args kw i) ->
  call_ok kw' -> clear_names ps kw' -> accepted ps args' kw' -> (forall i, In i L -> plain ps args' kw' i) ->
  (forall n v, gets ps args kw n v \/ gets_extra ps kw n v <-> gets ps args' kw' n v \/ gets_extra ps kw' n v) ->
  stricken (sl_run sl_empty L) (mkTarget f (all_arguments ps args kw)) =
  stricken (sl_run sl_empty L) (mkTarget f (all_arguments ps args' kw')).
Proof.
  intros S O C A P O' C' A' P' E. apply Bool.eq_iff_eq_true.
  rewrite (C78_any_strikes_partial L f ps args kw), (C78_any_strikes_partial L f ps args' kw') by (try assumption; intros i Hi; apply filter_In in Hi as [Hi _]; auto).
  assert (Q : forall i, concerns i f ps args kw <-> concerns i f ps args' kw').
  { intros i. unfold concerns. destruct (given (in_fn i)), (given (in_param i)); try reflexivity.
    - split; intros (X & v & G & M); (split; [exact X|]; exists v; split; [now apply E|exact M]).
    - split; intros (X & v & G & M); (split; [exact X|]; exists v; split; [now apply E|exact M]). }
  apply or_iff_compat_l.
  split; intros (i & I & F & G & D); exists i; (split; [exact I|]; split; [exact F|]; split; [exact G|]; now apply Q).
Qed.
Print Assumptions C78_however.

(** The strike "p == v" blocks exactly the calls whose body would get v as p. *)
Theorem C78_equal f ps args kw p v : p <> EmptyString -> hashable v = true ->
  signature ps -> call_ok kw -> clear_names ps kw -> accepted ps args kw -> no_star ps p -> ~ left_to_dependency ps args kw p ->
  (stricken (sl_run sl_empty [mkInstr true None (Some p) OpEq v]) (mkTarget f (all_arguments ps args kw)) = true <->
   gets ps args kw p v \/ gets_extra ps kw p v).
Proof.
  intros Np Hv S O C A Ns Nd.
  assert (Gp : given (Some p) = Some p) by (destruct p; [contradiction|reflexivity]).
  rewrite (C78_seen_partial _ f ps args kw); auto.
  - split.
    + intros (i & [<-|[]] & _ & D). unfold concerns in D. cbn [in_fn in_param in_op in_val] in D. rewrite Gp in D. cbn [given] in D.
      destruct D as (_ & w & G & M). apply pv_eqb_iff in M. now subst w.
    + intros G. eexists. split; [now left|]. split.
      * eexists [], _, []. split; [reflexivity|]. split; [reflexivity|]. split; [apply same_refl|]. intros j [].
      * unfold concerns. cbn [in_fn in_param in_op in_val]. rewrite Gp. cbn [given]. split; [now left|]. exists v. split; [exact G|]. cbn. now apply pv_eqb_iff.
  - intros i j g [<-|[]] [<-|[]] _ _. reflexivity.
  - intros i [<-|[]]. exact Hv.
  - intros i [<-|[]] q. cbn [in_param]. rewrite Gp. intros X. injection X as <-. now split.
Qed.
Print Assumptions C78_equal.

(** def send(to, /, subject, retries=3, *, region="eu", **tags) *)
Definition send : list parm :=
  [mkParm "to" POnly DNone; mkParm "subject" PEither DNone; mkParm "retries" PEither (DValue (PInt 3));
   mkParm "region" KOnly (DValue (PStr "eu")); mkParm "tags" KStar DNone].
Ltac listed := repeat match goal with
  | H : _ \/ _ |- _ => destruct H as [H|H]
  | H : False |- _ => destruct H
  | H : nth_error _ ?i = Some _ |- _ => destruct i as [|i]; cbn in H; try discriminate H; try (injection H as <-)
  end.

Lemma send_signature : signature send.
Proof.
  split.
  - unfold send. cbn [in_order]. repeat (split; [apply Forall_forall; cbn [In]; intros p H; listed; subst p; first [left; cbn; lia|right; split; reflexivity]|]). exact Logic.I.
  - cbn. repeat (apply NoDup_cons; [cbn; intuition discriminate|]). apply NoDup_nil.
Qed.
Lemma send_accepted args kw : (2 <= length args <= 3)%nat -> ~ In "subject"%string (map fst kw) ->
  (length args = 2%nat \/ ~ In "retries"%string (map fst kw)) -> accepted send args kw.
Proof.
  intros L N R. split.
  - intros i H. left. destruct i as [|[|[|i]]]; [eexists; split; [reflexivity|]; first [now left|now right]..|lia].
  - intros i p H K J. destruct i as [|[|[|[|[|i]]]]]; cbn in H; try (destruct i; discriminate H); injection H as <-; try discriminate K; [exact N|].
    destruct R as [R|R]; [lia|exact R].
  - intros i p H D K. destruct i as [|[|[|[|[|i]]]]]; cbn in H; try (destruct i; discriminate H); injection H as <-; try discriminate D; try discriminate K.
    + left. split; [now left|lia].
    + left. split; [now right|lia].
  - intros n _. right. eexists. split; [right; right; right; right; now left|reflexivity].
Qed.

Example C78_case :
  let kw1 := [("team"%string, PStr "a")] in
  let kw2 := [("retries"%string, PInt 3); ("team"%string, PStr "a")] in
  signature send /\ call_ok kw1 /\ call_ok kw2 /\ clear_names send kw1 /\ clear_names send kw2 /\
  accepted send [PInt 7; PStr "hi"] kw1 /\ accepted send [PInt 7; PStr "hi"] kw2 /\
  gets send [PInt 7; PStr "hi"] kw1 "to" (PInt 7) /\ gets send [PInt 7; PStr "hi"] kw1 "retries" (PInt 3) /\
  gets send [PInt 7; PStr "hi"] kw2 "retries" (PInt 3) /\ gets send [PInt 7; PStr "hi"] kw1 "region" (PStr "eu") /\
  gets_extra send kw1 "team" (PStr "a") /\
  no_star send "to" /\ ~ left_to_dependency send [PInt 7; PStr "hi"] kw1 "to" /\
  map (fun i => stricken (sl_run sl_empty [i]) (mkTarget "send" (all_arguments send [PInt 7; PStr "hi"] kw1)))
    [mkInstr true None (Some "to"%string) OpEq (PInt 7); mkInstr true None (Some "to"%string) OpEq (PInt 8);
     mkInstr true None (Some "team"%string) OpEq (PStr "a"); mkInstr true (Some "send"%string) (Some "retries"%string) OpGe (PInt 3)] = [true; false; true; true].
Proof.
  cbv zeta. split; [exact send_signature|].
  split; [cbn; repeat (apply NoDup_cons; [cbn; intuition discriminate|]); apply NoDup_nil|].
  split; [cbn; repeat (apply NoDup_cons; [cbn; intuition discriminate|]); apply NoDup_nil|].
  split; [intros p I J; cbn in I, J; listed; subst p; cbn in J; discriminate J|].
  split; [intros p I J; cbn in I, J; listed; subst p; cbn in J; try discriminate J; now left|].
  split; [apply send_accepted; cbn; [lia|intuition discriminate|now left]|].
  split; [apply send_accepted; cbn; [lia|intuition discriminate|now left]|].
  split; [exists 0%nat, (mkParm "to" POnly DNone); split; [reflexivity|]; split; [reflexivity|]; left; split; [now left|reflexivity]|].
  split; [exists 2%nat, (mkParm "retries" PEither (DValue (PInt 3))); split; [reflexivity|]; split; [reflexivity|]; right; right; split; [reflexivity|]; split; [cbn; lia|]; split; [cbn; intuition discriminate|reflexivity]|].
  split; [exists 2%nat, (mkParm "retries" PEither (DValue (PInt 3))); split; [reflexivity|]; split; [reflexivity|]; right; left; split; [now left|now left]|].
  split; [exists 3%nat, (mkParm "region" KOnly (DValue (PStr "eu"))); split; [reflexivity|]; split; [reflexivity|]; right; right; split; [reflexivity|]; split; [cbn; intros [_ X]; lia|]; split; [cbn; intuition discriminate|reflexivity]|].
  split; [split; [eexists; split; [right; right; right; right; now left|reflexivity]|split; [now left|]]; intros (p & I & K & E); cbn in I; listed; subst p; cbn in E; discriminate E|].
  split; [intros p I E; cbn in I; listed; subst p; cbn in E; try discriminate E; reflexivity|].
  split; [intros (i & p & X & E & D & _); destruct i as [|[|[|[|[|i]]]]]; cbn in X; try (destruct i; discriminate X); injection X as <-; discriminate|].
  vm_compute. reflexivity.
Qed.

(** Not so where an extra keyword is called like a positional-only parameter, or like the
    var-keyword parameter itself: the body gets it, the strike does not see it. *)
Theorem C78_shadowed_refuted :
  (let ps := [mkParm "x" POnly DNone; mkParm "more" KStar DNone] in let kw := [("x"%string, PInt 2)] in
   signature ps /\ accepted ps [PInt 1] kw /\ gets_extra ps kw "x" (PInt 2) /\
   stricken (sl_run sl_empty [mkInstr true None (Some "x"%string) OpEq (PInt 2)]) (mkTarget "f" (all_arguments ps [PInt 1] kw)) = false) /\
  (let ps := [mkParm "more" KStar DNone] in let kw := [("more"%string, PInt 2)] in
   signature ps /\ accepted ps [] kw /\ gets_extra ps kw "more" (PInt 2) /\
   stricken (sl_run sl_empty [mkInstr true None (Some "more"%string) OpEq (PInt 2)]) (mkTarget "f" (all_arguments ps [] kw)) = false).
Proof.
  split; cbv zeta.
  - split; [|split; [|split; [|vm_compute; reflexivity]]].
    + split; [cbn [in_order]; split; [apply Forall_cons; [left; cbn; lia|apply Forall_nil]|split; [apply Forall_nil|exact Logic.I]]|].
      cbn. repeat (apply NoDup_cons; [cbn; intuition discriminate|]). apply NoDup_nil.
    + split.
      * intros i H. cbn in H. left. destruct i; [|lia]. eexists. split; [reflexivity|]. now left.
      * intros i p X K. destruct i as [|[|i]]; cbn in X; try (destruct i; discriminate X); injection X as <-; discriminate K.
      * intros i p X D K. destruct i as [|[|i]]; cbn in X; try (destruct i; discriminate X); injection X as <-; [|discriminate K]. left. split; [now left|cbn; lia].
      * intros n _. right. eexists. split; [right; now left|reflexivity].
    + split; [eexists; split; [right; now left|reflexivity]|]. split; [now left|].
      intros (p & I & K & E). cbn in I. listed; subst p; destruct K; discriminate.
  - split; [|split; [|split; [|vm_compute; reflexivity]]].
    + split; [cbn [in_order]; split; [apply Forall_nil|exact Logic.I]|]. cbn. repeat (apply NoDup_cons; [cbn; intuition discriminate|]). apply NoDup_nil.
    + split.
      * intros i H. cbn in H. lia.
      * intros i p X K. destruct i as [|i]; cbn in X; try (destruct i; discriminate X); injection X as <-; discriminate K.
      * intros i p X D K. destruct i as [|i]; cbn in X; try (destruct i; discriminate X); injection X as <-; discriminate K.
      * intros n _. right. eexists. split; [now left|reflexivity].
    + split; [eexists; split; [now left|reflexivity]|]. split; [now left|].
      intros (p & I & K & E). cbn in I. listed; subst p; destruct K; discriminate.
Qed.
Print Assumptions C78_shadowed_refuted.

(** Nor for a parameter left to a dependency: the strike sees the Dependency object, not
    what the body gets.  "who == v" blocks no such call, "who != v" blocks all of them. *)
Theorem C78_dependency_refuted (v : pv) : hashable v = true -> v <> object ->
  let ps := [mkParm "who" PEither DDependency] in
  signature ps /\ accepted ps [] [] /\ left_to_dependency ps [] [] "who" /\
  stricken (sl_run sl_empty [mkInstr true None (Some "who"%string) OpEq v]) (mkTarget "f" (all_arguments ps [] [])) = false /\
  stricken (sl_run sl_empty [mkInstr true None (Some "who"%string) OpNe v]) (mkTarget "f" (all_arguments ps [] [])) = true.
Proof.
  intros Hv Nv ps. assert (E : pv_eqb object v = false).
  { destruct (pv_eqb object v) eqn:E; [|reflexivity]. apply pv_eqb_iff in E. now symmetry in E. }
  split; [|split; [|split; [|]]].
  - split; [cbn [in_order]; split; [apply Forall_nil|exact Logic.I]|]. cbn. repeat (apply NoDup_cons; [cbn; intuition discriminate|]). apply NoDup_nil.
  - split.
    + intros i H. cbn in H. lia.
    + intros i p _ _ H. cbn in H. lia.
    + intros i p X D K. destruct i as [|i]; cbn in X; try (destruct i; discriminate X); injection X as <-; discriminate D.
    + intros n [].
  - exists 0%nat, (mkParm "who" PEither DDependency). split; [reflexivity|]. split; [reflexivity|]. split; [reflexivity|]. split; [reflexivity|].
    split; [cbn; lia|intros []].
  - unfold sl_run, sl_update, do_strike. cbn. rewrite Hv. cbn. fold object. now rewrite E.
Qed.
Print Assumptions C78_dependency_refuted.

(** ** C79: limits by the value of a parameter *)
Lemma passed_keyword ps args kw n v : taken ps n -> In (n, v) kw -> passed ps args kw n v.
Proof. intros (p & I & K & E) J. destruct (In_nth_error ps p I) as [i X]. exists i, p. split; [exact X|]. split; [exact E|]. right. now split. Qed.

Lemma passed_argument ps args kw n v : signature ps -> call_ok kw -> clear_names ps kw -> accepted ps args kw -> passed ps args kw n v ->
  get_argument ps args kw n = Some v.
Proof.
  intros S O C A (i & p & X & En & G). unfold get_argument. destruct (bind_complete ps args kw S C A) as [b Hb]. rewrite Hb.
  assert (Sp : star (q_kind p) = false) by (destruct G as [[[G|G] _]|[[G|G] _]]; now rewrite G).
  rewrite <- En, (proj1 (bind_spec ps args kw b S Hb) i p X Sp). unfold bound.
  destruct G as [[Bp N]|[Bk I]]; [now rewrite (proj2 (by_pos_spec p) Bp), N|].
  assert (Z0 : (if by_pos p then nth_error args i else None) = None).
  { destruct (by_pos p) eqn:Bp; [|reflexivity]. apply by_pos_spec in Bp. apply nth_error_None. destruct (Nat.le_gt_cases (length args) i) as [L|L]; [exact L|exfalso].
    destruct A as [_ Once _ _]. apply (Once i p X); [destruct Bp, Bk; congruence|exact L|]. rewrite En. apply in_map_iff. now exists (n, v). }
  rewrite Z0, (proj2 (keywordable_spec p) Bk), En. now apply kget_In_iff.
Qed.

Lemma show_inj rep v w : same_sort v w -> show rep v = show rep w -> v = w.
Proof. intros [(a & b & -> & ->)|(a & b & -> & ->)] E; cbn in E; [apply dec_inj in E|]; now subst. Qed.

Lemma slen_app a b : String.length (a ++ b)%string = (String.length a + String.length b)%nat.
Proof. induction a; cbn; congruence. Qed.
Lemma same_len a : forall b r r', String.length a = String.length b -> (a ++ r)%string = (b ++ r')%string -> a = b.
Proof. induction a as [|c a IH]; intros [|d b] r r' L E; cbn in L; try discriminate; [reflexivity|]. cbn in E. injection E as -> E. f_equal. apply (IH b r r'); [lia|exact E]. Qed.
Lemma twice (a b m z : string) : (a ++ m ++ a ++ z)%string = (b ++ m ++ b ++ z)%string -> a = b.
Proof.
  intros E. apply (same_len a b (m ++ a ++ z) (m ++ b ++ z)); [|exact E].
  apply (f_equal String.length) in E. rewrite !slen_app in E. lia.
Qed.

Lemma group_value rep prefix name scope g p ps args kw deps args' kw' deps' v v' :
  (g = GConcurrency -> get_argument ps args kw p = Some v /\ get_argument ps args' kw' p = Some v') ->
  (g <> GConcurrency -> kget kw p = Some v /\ kget kw' p = Some v') -> same_sort v v' ->
  (group rep prefix name scope g p ps args kw deps = group rep prefix name scope g p ps args' kw' deps' <-> v = v').
Proof.
  intros HC HK S. unfold group, annotation_value.
  destruct g; [destruct (HC eq_refl) as [-> ->]; cbn [option_map]|destruct HK as [-> ->]; [discriminate|]; cbn [show_opt]..];
    (split; [|now intros ->]); intros E; apply (f_equal (default EmptyString)) in E; unfold default in E; cbv beta zeta iota in E; apply (show_inj rep v v' S).
  - repeat apply append_inj_l in E. exact E.
  - repeat apply append_inj_l in E. exact E.
  - repeat apply append_inj_l in E. exact E.
  - do 2 apply append_inj_l in E. apply twice in E. repeat apply append_inj_l in E. exact E.
Qed.

(** Calls that pass the annotated parameter by keyword are counted together exactly when
    they pass the same value (integers among integers, texts among texts). *)
Theorem C79_keyword_partial rep prefix name scope g p ps args kw deps args' kw' deps' v v' :
  signature ps -> taken ps p ->
  call_ok kw -> clear_names ps kw -> accepted ps args kw -> In (p, v) kw ->
  call_ok kw' -> clear_names ps kw' -> accepted ps args' kw' -> In (p, v') kw' -> same_sort v v' ->
  group rep prefix name scope g p ps args kw deps <> None /\
  (group rep prefix name scope g p ps args kw deps = group rep prefix name scope g p ps args' kw' deps' <-> v = v').
Proof.
  intros S T O C A I O' C' A' I' Ss.
  pose proof (passed_argument ps args kw p v S O C A (passed_keyword _ _ _ _ _ T I)) as G.
  pose proof (passed_argument ps args' kw' p v' S O' C' A' (passed_keyword _ _ _ _ _ T I')) as G'.
  split.
  - unfold group. destruct g; try discriminate. rewrite G. discriminate.
  - apply group_value; auto. intros _. split; now apply kget_In_iff.
Qed.
Print Assumptions C79_keyword_partial.

(** For ConcurrencyLimit it does not matter how the argument is passed. *)
Theorem C79_concurrency_partial rep prefix name scope p ps args kw deps args' kw' deps' v v' :
  signature ps ->
  call_ok kw -> clear_names ps kw -> accepted ps args kw -> passed ps args kw p v ->
  call_ok kw' -> clear_names ps kw' -> accepted ps args' kw' -> passed ps args' kw' p v' -> same_sort v v' ->
  group rep prefix name scope GConcurrency p ps args kw deps <> None /\
  (group rep prefix name scope GConcurrency p ps args kw deps = group rep prefix name scope GConcurrency p ps args' kw' deps' <-> v = v').
Proof.
  intros S O C A I O' C' A' I' Ss.
  pose proof (passed_argument ps args kw p v S O C A I) as G. pose proof (passed_argument ps args' kw' p v' S O' C' A' I') as G'.
  split; [unfold group; rewrite G; discriminate|]. apply group_value; auto. intros N. now destruct N.
Qed.
Print Assumptions C79_concurrency_partial.

(** Limits under different names do not touch each other. *)
Lemma side_alone {A St Ev Rep} (stp : St -> Ev -> St * Rep) (keyf : A -> string) (ev : A -> Ev) (P : A -> bool) k0 l : forall m,
  (forall a, In a l -> (P a = true <-> keyf a = k0)) ->
  map (fun x => snd (snd x)) (filter (fun x => P (fst x)) (combine l (side_by_side stp m (map (fun a => (keyf a, ev a)) l)))) =
  alone_trace stp (m k0) (map ev (filter P l)).
Proof.
  induction l as [|a l IH]; intros m H; [reflexivity|]. cbn [map side_by_side combine filter fst].
  assert (H' : forall b, In b l -> (P b = true <-> keyf b = k0)) by (intros b J; apply H; now right).
  pose proof (H a (or_introl eq_refl)) as Ha. destruct (P a) eqn:Pa.
  - assert (E : keyf a = k0) by now apply Ha. cbn [map alone_trace snd]. rewrite IH by exact H'. rewrite E, upd_eq. reflexivity.
  - rewrite IH by exact H'. f_equal. apply upd_neq. intros E. symmetry in E. apply Ha in E. discriminate.
Qed.

(** The answers to the calls with the value [v] are those a limit of their own would have
    given, whatever calls with other values come in between. *)
Theorem C79_independent_partial {St Ev Rep} (stp : St -> Ev -> St * Rep) (s0 : St) rep prefix name scope g p ps (l : list (ask Ev)) v :
  g <> GConcurrency ->
  (forall a, In a l -> call_ok (a_kw a) /\ In (p, a_val a) (a_kw a) /\ same_sort (a_val a) v) ->
  let key a := default EmptyString (group rep prefix name scope g p ps (a_args a) (a_kw a) (a_deps a)) in
  map (fun x => snd (snd x)) (filter (fun x => pv_eqb (a_val (fst x)) v) (combine l (side_by_side stp (fun _ => s0) (map (fun a => (key a, a_ev a)) l)))) =
  alone_trace stp s0 (map a_ev (filter (fun a => pv_eqb (a_val a) v) l)).
Proof.
  intros Ng H key.
  set (k0 := default EmptyString (group rep prefix name scope g p ps [] [(p, v)] [])).
  rewrite (side_alone stp key a_ev (fun a => pv_eqb (a_val a) v) k0 l (fun _ => s0)); [reflexivity|].
  intros a I. destruct (H a I) as (O & J & S). unfold key, k0. rewrite pv_eqb_iff.
  rewrite <- (group_value rep prefix name scope g p ps (a_args a) (a_kw a) (a_deps a) [] [(p, v)] [] (a_val a) v); [|intros X; contradiction| |exact S].
  - destruct (group rep prefix name scope g p ps (a_args a) (a_kw a) (a_deps a)) eqn:E1, (group rep prefix name scope g p ps [] [(p, v)] []) eqn:E2; cbn;
      try (split; congruence); unfold group in E1, E2; destruct g; congruence.
  - intros _. split; [now apply kget_In_iff|]. now rewrite kget_cons, String.eqb_refl.
Qed.
Print Assumptions C79_independent_partial.
(** Such limits are those of Admission.v. *)
Lemma cooldown_alone w st l : alone_trace (cd_step w) st l = cd_trace w st l.
Proof. revert st. induction l as [|t l IH]; intros st; [reflexivity|]. cbn. now rewrite IH. Qed.
Lemma ratelimit_alone n w st l : alone_trace (rl_step n w) st l = rl_trace n w st l.
Proof. revert st. induction l as [|t l IH]; intros st; [reflexivity|]. cbn [alone_trace rl_trace]. now rewrite IH. Qed.
Lemma debounce_alone w st l : alone_trace (db_step w) st l = db_trace w st l.
Proof. revert st. induction l as [|t l IH]; intros st; [reflexivity|]. cbn [alone_trace db_trace]. now rewrite IH. Qed.

(** def process(customer_id: Annotated[int, ...]) *)
Definition process : list parm := [mkParm "customer_id" PEither DNone].
Lemma process_signature : signature process.
Proof. split; [cbn [process in_order]; split; [apply Forall_nil|exact Logic.I]|]. cbn. repeat (apply NoDup_cons; [cbn; intuition discriminate|]). apply NoDup_nil. Qed.
Lemma process_keyword v : accepted process [] [("customer_id"%string, v)].
Proof.
  split.
  - intros i H. cbn in H. lia.
  - intros i q _ _ H. cbn in H. lia.
  - intros i q X _ _. destruct i as [|i]; cbn in X; try (destruct i; discriminate X). injection X as <-. right. split; [now left|now left].
  - intros n [<-|[]]. left. eexists. split; [now left|]. split; [now left|reflexivity].
Qed.
Lemma process_position v : accepted process [v] [].
Proof.
  split.
  - intros i H. cbn in H. left. destruct i; [|lia]. eexists. split; [reflexivity|now right].
  - intros i q _ _ _ [].
  - intros i q X _ _. destruct i as [|i]; cbn in X; try (destruct i; discriminate X). injection X as <-. left. split; [now right|cbn; lia].
  - intros n [].
Qed.
Example C79_case :
  signature process /\ taken process "customer_id" /\ accepted process [] [("customer_id"%string, PInt 1)] /\
  clear_names process [("customer_id"%string, PInt 1)] /\ call_ok [("customer_id"%string, PInt 1)] /\
  accepted process [PInt 2] [] /\ passed process [PInt 2] [] "customer_id" (PInt 2) /\ same_sort (PInt 1) (PInt 2) /\
  (forall rep, group rep "{d}" "d" None GCooldown "customer_id" process [] [("customer_id"%string, PInt 1)] [] = Some "d:cooldown:customer_id:1"%string /\
     group rep "{d}" "d" None GConcurrency "customer_id" process [PInt 2] [] [] = Some "{d}:concurrency:customer_id:2"%string) /\
  (let l := [mkAsk (PInt 1) [] [("customer_id"%string, PInt 1)] [] 0; mkAsk (PInt 2) [] [("customer_id"%string, PInt 2)] [] 5; mkAsk (PInt 1) [] [("customer_id"%string, PInt 1)] [] 9] in
   (forall a, In a l -> call_ok (a_kw a) /\ In ("customer_id"%string, a_val a) (a_kw a) /\ same_sort (a_val a) (PInt 1)) /\
   cd_trace 30 None (map a_ev (filter (fun a => pv_eqb (a_val a) (PInt 1)) l)) = [(0, CDProceed); (9, CDBlocked)]).
Proof.
  split; [exact process_signature|]. split; [eexists; split; [now left|]; split; [now left|reflexivity]|]. split; [apply process_keyword|].
  split; [intros q [<-|[]] _; now left|]. split; [cbn; repeat (apply NoDup_cons; [cbn; intuition discriminate|]); apply NoDup_nil|].
  split; [apply process_position|]. split; [exists 0%nat, (mkParm "customer_id" PEither DNone); split; [reflexivity|]; split; [reflexivity|]; left; split; [now right|reflexivity]|].
  split; [left; eexists _, _; split; reflexivity|]. split; [intros rep; split; vm_compute; reflexivity|].
  cbv zeta. split; [|vm_compute; reflexivity]. intros a H. cbn in H. listed; subst a; cbn;
    (split; [repeat (apply NoDup_cons; [cbn; intuition discriminate|]); apply NoDup_nil|]; split; [now left|left; eexists _, _; split; reflexivity]).
Qed.

(** Not so for Cooldown, RateLimit and Debounce when the argument is passed by position, or
    left at its default: then all values are counted together, as "None".  Two customers, one
    millisecond apart: the second one's task is blocked, under any cooldown. *)
Theorem C79_position_refuted :
  (forall rep prefix name scope g p ps args args' kw kw' deps deps', g <> GConcurrency ->
     ~ In p (map fst kw) -> ~ In p (map fst kw') -> ~ In p (map fst deps) -> ~ In p (map fst deps') ->
     group rep prefix name scope g p ps args kw deps = group rep prefix name scope g p ps args' kw' deps') /\
  (forall rep w, 1 <= w ->
   let key v := default EmptyString (group rep "{d}" "d" None GCooldown "customer_id" process [v] [] []) in
   accepted process [PInt 1] [] /\ passed process [PInt 1] [] "customer_id" (PInt 1) /\
   accepted process [PInt 2] [] /\ passed process [PInt 2] [] "customer_id" (PInt 2) /\
   map (fun x => snd (snd x)) (side_by_side (cd_step w) (fun _ => None) [(key (PInt 1), 0); (key (PInt 2), 1)]) = [CDProceed; CDBlocked]).
Proof.
  split.
  - intros rep prefix name scope g p ps args args' kw kw' deps deps' Ng N N' M M'.
    unfold group, annotation_value. apply kget_None in N, N', M, M'. rewrite N, N', M, M'. now destruct g.
  - intros rep w W key. split; [apply process_position|].
    split; [exists 0%nat, (mkParm "customer_id" PEither DNone); split; [reflexivity|]; split; [reflexivity|]; left; split; [now right|reflexivity]|].
    split; [apply process_position|].
    split; [exists 0%nat, (mkParm "customer_id" PEither DNone); split; [reflexivity|]; split; [reflexivity|]; left; split; [now right|reflexivity]|].
    cbn [side_by_side map snd]. change (key (PInt 2)) with (key (PInt 1)). rewrite upd_eq. unfold cd_step, gone.
    assert (w <=? 0 = false) as -> by lia. cbn [fst snd]. now assert (0 + w <? 1 = false) as -> by lia.
Qed.
Print Assumptions C79_position_refuted.

(** Nor for ConcurrencyLimit when the argument is left at its default: there is no group,
    and the task fails. *)
Theorem C79_default_refuted rep :
  let ps := [mkParm "tier" PEither (DValue (PStr "free"))] in
  signature ps /\ accepted ps [] [] /\ gets ps [] [] "tier" (PStr "free") /\
  group rep "{d}" "d" None GConcurrency "tier" ps [] [] [] = None.
Proof.
  cbv zeta. split.
  { split; [cbn [in_order]; split; [apply Forall_nil|exact Logic.I]|]. cbn. repeat (apply NoDup_cons; [cbn; intuition discriminate|]). apply NoDup_nil. }
  split.
  { split.
    - intros i H. cbn in H. lia.
    - intros i q _ _ H. cbn in H. lia.
    - intros i q X D _. destruct i as [|i]; cbn in X; try (destruct i; discriminate X). injection X as <-. discriminate D.
    - intros n []. }
  split; [|reflexivity]. exists 0%nat. eexists. split; [reflexivity|]. split; [reflexivity|]. right; right. split; [reflexivity|].
  split; [cbn; lia|]. split; [intros []|reflexivity].
Qed.
Print Assumptions C79_default_refuted.

(** Nor between integers and texts: 1 and "1" are counted together. *)
Theorem C79_sort_refuted rep prefix name scope g :
  let call v := group rep prefix name scope g "customer_id" process [] [("customer_id"%string, v)] [] in
  accepted process [] [("customer_id"%string, PInt 1)] /\ accepted process [] [("customer_id"%string, PStr "1")] /\
  call (PInt 1) <> None /\ call (PInt 1) = call (PStr "1").
Proof.
  cbv zeta. split; [apply process_keyword|]. split; [apply process_keyword|]. split; [destruct g; discriminate|]. now destruct g.
Qed.
Print Assumptions C79_sort_refuted.
