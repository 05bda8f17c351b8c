(** Proofs about the log description of a call. *)
From Verif Require Import Base Logged SpecLogged.

Lemma mark_others l : forall acc, (forall x, In x l -> x = MOther) ->
  fold_left (fun acc x => match x with MLogged b => Some b | MLoggedClass => Some false | MOther => acc end) l acc = acc.
Proof. induction l as [|x l IH]; intros acc H; [reflexivity|]. cbn. rewrite (H x (or_introl eq_refl)). apply IH. intros y Hy. apply H. now right. Qed.

Definition allowed_by (m : option bool) : allowed := match m with None => Nothing | Some true => LengthOnly | Some false => Everything end.

Lemma allows_mark l : allows l (allowed_by (mark_of l)).
Proof.
  induction l as [|x l IH] using rev_ind; [apply allows_none; intros ? []|].
  unfold mark_of in *. rewrite fold_left_app. cbn [fold_left]. destruct x as [b| |].
  - apply (allows_last l (MLogged b) []); [intros ? []|]. destruct b; reflexivity.
  - apply (allows_last l MLoggedClass []); [intros ? []|reflexivity].
  - revert IH. generalize (allowed_by (fold_left (fun acc x => match x with MLogged b => Some b | MLoggedClass => Some false | MOther => acc end) l None)).
    intros a IH. destruct IH as [l N|l x r a N M].
    + apply allows_none. intros y [Hy|[<-|[]]]%in_app_iff; [now apply N|reflexivity].
    + rewrite <- app_assoc. cbn [app]. apply allows_last; [|exact M].
      intros y [Hy|[<-|[]]]%in_app_iff; [now apply N|reflexivity].
Qed.

Lemma allows_unique l a : allows l a -> a = allowed_by (mark_of l).
Proof.
  destruct 1 as [l N|l x r a N M]; unfold mark_of.
  - now rewrite mark_others.
  - rewrite fold_left_app. cbn [fold_left]. rewrite mark_others; [|exact N]. destruct x as [[]| |]; cbn; [exact M|exact M|exact M|destruct M].
Qed.

Lemma logged_in sig p : NoDup (map p_name sig) -> In p sig -> logged sig (p_name p) = mark_of (p_meta p).
Proof.
  unfold logged. intros ND I. destruct (find _ sig) as [q|] eqn:F.
  - apply find_some in F as [Iq E%String.eqb_eq]. assert (q = p) as ->; [|reflexivity].
    clear -ND I Iq E. induction sig as [|r sig IH]; [destruct I|]. cbn in ND. inversion ND as [|? ? N1 N2]; subst.
    destruct I as [->|I], Iq as [->|Iq]; auto.
    + exfalso. apply N1. rewrite <- E. now apply in_map.
    + exfalso. apply N1. rewrite E. now apply in_map.
  - exfalso. apply (find_none _ _ F) in I. now rewrite String.eqb_refl in I.
Qed.

Lemma logged_some sig n b : logged sig n = Some b -> exists p, In p sig /\ p_name p = n /\ mark_of (p_meta p) = Some b.
Proof.
  unfold logged. destruct (find _ sig) as [p|] eqn:F; [|discriminate]. apply find_some in F as [I E%String.eqb_eq]. eauto.
Qed.

(** The positional parameters come first; a starred one follows directly. *)
Lemma sig_split sig : signature sig -> exists r, sig = filter positional sig ++ r /\ (forall p, In p r -> positional p = false) /\
  (forall p, In p r -> p_kind p = VarPos -> exists r', r = p :: r').
Proof.
  intros [_ O]. induction O as [|p sig F O (r & E & N & V)]; [exists []; cbn; repeat split; intros ? []|].
  cbn [filter]. destruct (positional p) eqn:P.
  - exists r. cbn [app]. split; [now f_equal|]. now split.
  - assert (Z : filter positional sig = []).
    { apply filter_none. intros q Iq. rewrite Forall_forall in F. specialize (F q Iq). unfold positional in *.
      destruct (p_kind p); try discriminate; destruct (p_kind q); cbn in F; auto; destruct F as [F|[F _]]; try lia; discriminate. }
    rewrite Z in *. exists (p :: sig). cbn [app] in E. subst r. split; [reflexivity|]. split.
    + intros q [<-|Iq]; auto.
    + intros q [<-|Iq] K; [eauto|]. rewrite Forall_forall in F. specialize (F q Iq). rewrite K in F. unfold positional in P.
      destruct (p_kind p); cbn in *; try discriminate; destruct F as [F|(F & F' & _)]; try lia; congruence.
Qed.

Lemma format_alike num b p v v' : mark_of (p_meta p) = Some b -> alike p v v' ->
  (allows (p_meta p) LengthOnly -> v_shape v <> Unsized) -> format num b v = format num b v'.
Proof.
  intros M A S. specialize (A _ (allows_mark (p_meta p))). pose proof (allows_mark (p_meta p)) as W. rewrite M in *. destruct b; cbn in *.
  - specialize (S W). rewrite <- A. destruct (v_shape v); congruence.
  - exact A.
Qed.

Lemma nth_args num sig : forall names args i, nth_error (show_args num sig names args) i =
  match nth_error names i, nth_error args i with
  | Some n, Some v => Some (match logged sig n with Some b => format num b v | None => "..."%string end)
  | _, _ => None end.
Proof.
  induction names as [|n names IH]; intros [|v args] [|i]; cbn; auto.
  - now destruct (nth_error names i).
Qed.

Lemma nth_ext_error {A} : forall (l l' : list A), (forall i, nth_error l i = nth_error l' i) -> l = l'.
Proof.
  induction l as [|x l IH]; intros [|y l'] H; auto; [specialize (H O); discriminate|specialize (H O); discriminate|].
  pose proof (H O) as E. injection E as ->. f_equal. apply IH. intros i. exact (H (S i)).
Qed.

Lemma nothing_unmarked p : allows (p_meta p) Nothing -> mark_of (p_meta p) = None.
Proof. intros H%allows_unique. destruct (mark_of (p_meta p)) as [[]|]; cbn in H; congruence. Qed.

Lemma named_marked sig args i n b : signature sig -> accepted sig args [] -> few_args sig args -> (i < length args)%nat ->
  nth_error (map p_name sig) i = Some n -> logged sig n = Some b -> exists p, In p sig /\ p_name p = n /\ mark_of (p_meta p) = Some b /\ takes_arg sig i p.
Proof.
  intros S [Acc _] Few Li N L. rewrite nth_error_map in N. destruct (nth_error sig i) as [p|] eqn:P; [|discriminate]. injection N as <-.
  pose proof (nth_error_In _ _ P) as Ip. rewrite (logged_in sig p (sig_names _ S) Ip) in L. exists p. repeat split; auto.
  destruct (sig_split sig S) as (r & E & Nr & Vr). rewrite E in P. destruct (Nat.ltb_spec i (length (filter positional sig))) as [Lt|Ge].
  - rewrite nth_error_app1 in P by exact Lt. now left.
  - rewrite nth_error_app2 in P by exact Ge. right. assert (None' : nth_error (filter positional sig) i = None) by now apply nth_error_None.
    split; [exact None'|]. split; [exact Ip|]. pose proof (nth_error_In _ _ P) as Ipr. specialize (Nr p Ipr). unfold positional in Nr.
    destruct (p_kind p) eqn:K; try discriminate; auto; exfalso.
    + destruct Few as [Few|Few]; [|specialize (Few p Ip (or_introl K)); apply nothing_unmarked in Few; congruence].
      assert (i = length (filter positional sig)) as Ei by lia.
      destruct (Acc i Li) as [q [Q|(_ & Iq & Kq)]]; [congruence|]. assert (Iqr : In q r).
      { rewrite E in Iq. apply in_app_iff in Iq as [Iq|Iq]; [|exact Iq]. apply filter_In in Iq as [_ Iq]. unfold positional in Iq. rewrite Kq in Iq. discriminate. }
      destruct (Vr q Iqr Kq) as [r' ->]. rewrite Ei, Nat.sub_diag in P. cbn in P. injection P as ->. congruence.
    + destruct Few as [Few|Few]; [|specialize (Few p Ip (or_intror K)); apply nothing_unmarked in Few; congruence].
      assert (i = length (filter positional sig)) as Ei by lia.
      destruct (Acc i Li) as [q [Q|(_ & Iq & Kq)]]; [congruence|]. assert (Iqr : In q r).
      { rewrite E in Iq. apply in_app_iff in Iq as [Iq|Iq]; [|exact Iq]. apply filter_In in Iq as [_ Iq]. unfold positional in Iq. rewrite Kq in Iq. discriminate. }
      destruct (Vr q Iqr Kq) as [r' ->]. rewrite Ei, Nat.sub_diag in P. cbn in P. injection P as ->. congruence.
Qed.

Theorem same_line num fn key sig args args' kw kw' : signature sig -> accepted sig args kw -> few_args sig args -> plain_names sig kw ->
  argument_sized sig args kw -> same_to_the_log sig args args' kw kw' ->
  call_repr num fn key sig args kw = call_repr num fn key sig args' kw'.
Proof.
  intros S Acc Few Pl [Sz1 Sz2] [L K A1 A2].
  assert (Acc0 : accepted sig args []) by (split; [exact (proj1 Acc)|intros ? []]).
  unfold call_repr, pieces. do 3 f_equal. f_equal. f_equal.
  - apply nth_ext_error. intros i. rewrite !nth_args. destruct (nth_error (map p_name sig) i) as [n|] eqn:N; [|reflexivity].
    destruct (nth_error args i) as [v|] eqn:V, (nth_error args' i) as [v'|] eqn:V'; auto.
    + destruct (logged sig n) as [b|] eqn:M; [|reflexivity]. f_equal.
      assert (Li : (i < length args)%nat) by (apply nth_error_Some; congruence).
      destruct (named_marked sig args i n b S Acc0 Few Li N M) as (p & Ip & Np & Mp & T).
      apply (format_alike num b p); auto; [exact (A1 i p v v' V V' T)|]. intros Al. exact (Sz1 i p v V T Al).
    + apply nth_error_None in V'. assert ((i < length args)%nat) by (apply nth_error_Some; congruence). lia.
    + apply nth_error_None in V. assert ((i < length args')%nat) by (apply nth_error_Some; congruence). lia.
  - apply nth_ext_error. intros i. rewrite !nth_error_map. assert (E : option_map fst (nth_error kw i) = option_map fst (nth_error kw' i)).
    { rewrite <- !nth_error_map. now rewrite K. }
    destruct (nth_error kw i) as [[n v]|] eqn:V, (nth_error kw' i) as [[n' v']|] eqn:V'; cbn in *; try discriminate; auto. injection E as <-.
    f_equal. unfold show_kwarg. cbn [fst snd]. destruct (logged sig n) as [b|] eqn:M; [|reflexivity]. do 2 f_equal.
    destruct (logged_some sig n b M) as (p & Ip & <- & Mp). pose proof (nth_error_In _ _ V) as Iv.
    assert (T : takes_kwarg sig (p_name p) p).
    { split; [exact Ip|]. left. split; [reflexivity|]. destruct (Pl p Ip) as [H|[H|H]]; auto; [apply in_map_iff; now exists (p_name p, v)|].
      apply nothing_unmarked in H. congruence. }
    apply (format_alike num b p); auto; [exact (A2 i (p_name p) p v v' V V' T)|]. intros Al. exact (Sz2 (p_name p) p v Iv T Al).
Qed.

Lemma occurs_concat sep x : forall l, In x l -> occurs x (String.concat sep l).
Proof.
  assert (App : forall a b c, ((a ++ b) ++ c = a ++ (b ++ c))%string) by (induction a; cbn; intros; [reflexivity|now f_equal]).
  assert (Nil : forall a, (a ++ "" = a)%string) by (induction a; cbn; [reflexivity|now f_equal]).
  induction l as [|y l IH]; [intros []|]. intros [->|I].
  - destruct l as [|z l]; cbn; [exists ""%string, ""%string; cbn; now rewrite Nil|]. exists ""%string, (sep ++ String.concat sep (z :: l))%string. reflexivity.
  - destruct (IH I) as (u & v & E). destruct l as [|z l]; [destruct I|]. change (String.concat sep (y :: z :: l)) with (y ++ sep ++ String.concat sep (z :: l))%string.
    rewrite E. exists (y ++ sep ++ u)%string, v. now rewrite !App.
Qed.

Lemma occurs_in_repr num fn key sig args kw x : In x (pieces num sig args kw) -> occurs x (call_repr num fn key sig args kw).
Proof.
  assert (App : forall a b c, ((a ++ b) ++ c = a ++ (b ++ c))%string) by (induction a; cbn; intros; [reflexivity|now f_equal]).
  intros (u & v & E)%(occurs_concat ", "). unfold call_repr. rewrite E. exists (fn ++ "(" ++ u)%string, (v ++ "){" ++ key ++ "}")%string. now rewrite !App.
Qed.

Theorem arg_shown num fn key sig args kw i p v : signature sig -> (i <= length (filter positional sig))%nat ->
  nth_error args i = Some v -> takes_arg sig i p -> allows (p_meta p) Everything -> occurs (v_repr v) (call_repr num fn key sig args kw).
Proof.
  intros S Li V T Al. apply occurs_in_repr. unfold pieces. apply in_app_iff. left. apply (nth_error_In _ i). rewrite nth_args, V.
  destruct (sig_split sig S) as (r & E & Nr & Vr). assert (P : nth_error sig i = Some p).
  { rewrite E. destruct T as [T|(T & Ip & K)].
    - rewrite nth_error_app1; [exact T|]. apply nth_error_Some. congruence.
    - apply nth_error_None in T. rewrite nth_error_app2 by exact T. assert (Ir : In p r).
      { rewrite E in Ip. apply in_app_iff in Ip as [Ip|Ip]; [|exact Ip]. apply filter_In in Ip as [_ Ip]. unfold positional in Ip. rewrite K in Ip. discriminate. }
      destruct (Vr p Ir K) as [r' ->]. replace (i - _)%nat with O by lia. reflexivity. }
  rewrite nth_error_map, P. cbn. rewrite (logged_in sig p (sig_names _ S) (nth_error_In _ _ P)). apply allows_unique in Al.
  destruct (mark_of (p_meta p)) as [[]|]; cbn in Al; try discriminate. reflexivity.
Qed.

Theorem kwarg_shown num fn key sig args kw n p v : signature sig -> In (n, v) kw -> In p sig -> by_name n p -> allows (p_meta p) Everything ->
  occurs (n ++ "=" ++ v_repr v) (call_repr num fn key sig args kw).
Proof.
  intros S I Ip [<- _] Al. apply occurs_in_repr. unfold pieces. apply in_app_iff. right. apply in_map_iff. exists (p_name p, v). split; [|exact I].
  unfold show_kwarg. cbn [fst snd]. rewrite (logged_in sig p (sig_names _ S) Ip). apply allows_unique in Al.
  destruct (mark_of (p_meta p)) as [[]|]; cbn in Al; try discriminate. reflexivity.
Qed.
