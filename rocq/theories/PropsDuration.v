(** C47: duration arguments of the command line. *)
From Coq Require Import Ascii String List.
From Verif Require Import Base Duration.
Import ListNotations.

(** ** Specification *)
(** Decimal numerals and their values. *)
Inductive numeral : text -> Z -> Prop :=
| num_one c : is_digit c = true -> numeral [c] (code c - 48)
| num_more l n c : numeral l n -> is_digit c = true -> numeral (l ++ [c]) (10 * n + (code c - 48)).
(** The documented forms and the seconds they denote. *)
Inductive documented : text -> Z -> Prop :=
| doc_plain l n : numeral l n -> documented l n
| doc_s l n : numeral l n -> documented (l ++ ["s"%char]) n
| doc_m l n : numeral l n -> documented (l ++ ["m"%char]) (60 * n)
| doc_h l n : numeral l n -> documented (l ++ ["h"%char]) (3600 * n)
| doc_ms a m b s : numeral a m -> numeral b s -> documented (a ++ [":"%char] ++ b) (60 * m + s)
| doc_hms a h b m c s : numeral a h -> numeral b m -> numeral c s ->
    documented (a ++ [":"%char] ++ b ++ [":"%char] ++ c) (3600 * h + 60 * m + s).
(** No sign, underscore or space. *)
Definition undecorated (l : text) : Prop :=
  forall c, In c l -> is_space c = false /\ c <> "_"%char /\ c <> "+"%char /\ c <> "-"%char.
Definition txt (s : string) : text := list_ascii_of_string s.

(** ** Proofs *)
Definition all_digits (l : text) : Prop := forall c, In c l -> is_digit c = true.

Lemma digit_space c : is_digit c = true -> is_space c = false.
Proof. unfold is_digit, is_space. lia. Qed.
Lemma digit_not c d : is_digit c = true -> is_digit d = false -> Ascii.eqb c d = false.
Proof. intros H1 H2. destruct (Ascii.eqb_spec c d) as [->|]; [congruence|reflexivity]. Qed.

Lemma lstrip_id l : (forall c, In c l -> is_space c = false) -> lstrip l = l.
Proof. destruct l as [|c l]; intros H; [reflexivity|]. simpl. now rewrite (H c (or_introl eq_refl)). Qed.
Lemma strip_id l : (forall c, In c l -> is_space c = false) -> strip l = l.
Proof.
  intros H. unfold strip. rewrite (lstrip_id l H), lstrip_id, rev_involutive; [reflexivity|]. intros c I. apply H. now apply in_rev.
Qed.

(** Value of a list of digits after [acc]. *)
Definition value (l : text) (acc : Z) : Z := fold_left (fun a c => 10 * a + (code c - 48)) l acc.
Lemma digits_all l : forall acc, all_digits l -> digits l acc = Some (value l acc).
Proof.
  induction l as [|c l IH]; intros acc H; [reflexivity|]. cbn [digits]. rewrite (H c (or_introl eq_refl)). apply IH. intros d I; apply H; now right.
Qed.
Lemma digits_only l : ~ In "_"%char l -> forall acc z, digits l acc = Some z -> all_digits l /\ z = value l acc.
Proof.
  induction l as [|c l IH]; intros N acc z H; cbn [digits] in H; [split; [intros ? []|now injection H]|].
  destruct (is_digit c) eqn:D.
  - destruct (IH (fun I => N (or_intror I)) _ _ H) as [A ->]. split; [|reflexivity]. intros d [<-|I]; auto.
  - destruct (Ascii.eqb_spec c "_") as [->|]; [exfalso; apply N; now left|discriminate].
Qed.

Lemma numeral_shape l n : numeral l n -> all_digits l /\ l <> [] /\ n = value l 0.
Proof.
  induction 1 as [c D|l n c _ (A & N & V) D].
  - split; [intros d [<-|[]]; exact D|]. split; [discriminate|]. unfold value; simpl. lia.
  - split; [intros d I; apply in_app_or in I; destruct I as [I|[<-|[]]]; auto|]. split; [destruct l; discriminate|].
    unfold value in *. rewrite fold_left_app. cbn [fold_left]. now rewrite <- V.
Qed.
Lemma shape_numeral l : all_digits l -> l <> [] -> numeral l (value l 0).
Proof.
  intros A. induction l as [|c l IH] using rev_ind; [contradiction|]. intros _. unfold value. rewrite fold_left_app. cbn [fold_left]. fold (value l 0).
  assert (D : is_digit c = true) by (apply A; apply in_or_app; right; now left).
  destruct l as [|d l].
  - simpl. replace (value [] 0) with 0 by reflexivity. replace (10 * 0 + (code c - 48)) with (code c - 48) by lia. now constructor.
  - apply num_more; [|exact D]. apply IH; [|discriminate]. intros x I. apply A. apply in_or_app. now left.
Qed.

Lemma int_numeral l n : numeral l n -> int l = Some n.
Proof.
  intros H. apply numeral_shape in H. destruct H as (A & N & ->). unfold int. rewrite strip_id by (intros c I; apply digit_space; auto).
  destruct l as [|c l]; [contradiction|]. pose proof (A c (or_introl eq_refl)) as D.
  rewrite (digit_not c "-") by (auto; reflexivity). rewrite (digit_not c "+") by (auto; reflexivity). unfold number. rewrite D.
  rewrite digits_all by (intros d I; apply A; now right). unfold value. cbn [fold_left]. do 2 f_equal; lia.
Qed.
Lemma int_undecorated l n : undecorated l -> int l = Some n -> numeral l n.
Proof.
  intros U H. unfold int in H. rewrite strip_id in H by (intros c I; now destruct (U c I)).
  destruct l as [|c l]; [discriminate|]. destruct (U c (or_introl eq_refl)) as (_ & U1 & U2 & U3).
  destruct (Ascii.eqb_spec c "-"); [contradiction|]. destruct (Ascii.eqb_spec c "+"); [contradiction|].
  unfold number in H. destruct (is_digit c) eqn:D; [|discriminate]. apply digits_only in H; [|intros I; destruct (U "_"%char (or_intror I)) as (_ & X & _); contradiction].
  destruct H as [A ->]. replace (value l (code c - 48)) with (value (c :: l) 0) by (unfold value; cbn [fold_left]; f_equal; lia).
  apply shape_numeral; [|discriminate]. intros d [<-|I]; auto.
Qed.

Lemma split_none l : has_colon l = false -> split l = [l].
Proof.
  induction l as [|c l IH]; [reflexivity|]. unfold has_colon; cbn [existsb split]. fold (has_colon l). intros H. apply orb_false_iff in H. destruct H as [H1 H2].
  now rewrite H1, (IH H2).
Qed.
Lemma split_app a l : has_colon a = false -> split (a ++ ":"%char :: l) = a :: split l.
Proof.
  induction a as [|c a IH]; [reflexivity|]. unfold has_colon; cbn [existsb app split]. fold (has_colon a). intros H. apply orb_false_iff in H. destruct H as [H1 H2].
  now rewrite H1, (IH H2).
Qed.
Lemma split_inv l : match split l with [] => False | p :: ps => has_colon p = false /\ match ps with [] => l = p | _ => exists r, l = p ++ ":"%char :: r /\ split r = ps end end.
Proof.
  induction l as [|c l IH]; cbn [split]; [auto|]. destruct (Ascii.eqb_spec c ":") as [->|N].
  - split; [reflexivity|]. destruct (split l) as [|p ps] eqn:E; [destruct IH|]. exists l. split; [reflexivity|exact E].
  - destruct (split l) as [|p ps] eqn:E; [destruct IH|]. destruct IH as [H1 H2]. split.
    + unfold has_colon; cbn [existsb]. apply orb_false_iff. split; [destruct (Ascii.eqb_spec c ":"); [contradiction|reflexivity]|exact H1].
    + destruct ps as [|q ps]; [now rewrite H2|]. destruct H2 as (r & -> & X). now exists r.
Qed.
Lemma colon_app a l : has_colon (a ++ ":"%char :: l) = true.
Proof. unfold has_colon. rewrite existsb_app. cbn [existsb]. rewrite Ascii.eqb_refl. now rewrite orb_true_r. Qed.
Lemma digits_colon l : all_digits l -> has_colon l = false.
Proof.
  intros A. induction l as [|c l IH]; [reflexivity|]. unfold has_colon; cbn [existsb]. rewrite (digit_not c ":" (A c (or_introl eq_refl)) eq_refl).
  apply IH. intros d I; apply A; now right.
Qed.

Lemma ends_app p d c : ends (p ++ [d]) c = if Ascii.eqb d c then Some p else None.
Proof. unfold ends, last_char. rewrite rev_app_distr. cbn [rev app]. now rewrite rev_involutive. Qed.
Lemma ends_inv l c p : ends l c = Some p -> l = p ++ [c].
Proof.
  unfold ends, last_char. destruct (rev l) as [|d r] eqn:E; [discriminate|]. destruct (Ascii.eqb_spec d c) as [->|]; [|discriminate].
  intros H; injection H as <-. apply (f_equal (@rev ascii)) in E. now rewrite rev_involutive in E.
Qed.
Lemma ends_digits l c : all_digits l -> is_digit c = false -> ends l c = None.
Proof.
  intros A D. destruct (ends l c) as [p|] eqn:E; [|reflexivity]. apply ends_inv in E. subst l. assert (X : is_digit c = true) by (apply A; apply in_or_app; right; now left). congruence.
Qed.
Lemma colon_suffix p d : has_colon p = false -> Ascii.eqb d ":" = false -> has_colon (p ++ [d]) = false.
Proof. intros H1 H2. unfold has_colon in *. rewrite existsb_app, H1. cbn [existsb]. now rewrite H2. Qed.

Lemma numeral_nonneg l n : numeral l n -> 0 <= n.
Proof. induction 1 as [c D|l n c _ IH D]; unfold is_digit in D; lia. Qed.
Lemma timedelta_ok h m s : 0 <= 3600 * h + 60 * m + s < day_limit -> timedelta h m s = Some (3600 * h + 60 * m + s).
Proof.
  intros H. unfold timedelta. assert (L : 86400 - day_limit < 0) by reflexivity.
  replace (86400 - day_limit <=? _) with true by lia. replace (_ <? day_limit) with true by lia. reflexivity.
Qed.
Lemma timedelta_val h m s t : timedelta h m s = Some t -> t = 3600 * h + 60 * m + s.
Proof. unfold timedelta. destruct (_ && _); [|discriminate]. intros H; now injection H. Qed.

Lemma documented_parsed l n : documented l n -> n < day_limit -> duration l = Some n.
Proof.
  assert (SH : forall a x, numeral a x -> all_digits a) by (intros a x H; now apply numeral_shape in H).
  intros H L. unfold duration.
  destruct H as [l n H|l n H|l n H|l n H|a m b s Ha Hb|a h b m c s Ha Hb Hc].
  - pose proof (SH _ _ H) as A. rewrite (digits_colon _ A), !(ends_digits _ _ A) by reflexivity. rewrite (int_numeral _ _ H).
    pose proof (numeral_nonneg _ _ H). rewrite timedelta_ok by lia. f_equal; lia.
  - pose proof (SH _ _ H) as A. rewrite colon_suffix by (try reflexivity; now apply digits_colon). rewrite ends_app. cbn [Ascii.eqb Bool.eqb]. rewrite (int_numeral _ _ H).
    pose proof (numeral_nonneg _ _ H). rewrite timedelta_ok by lia. f_equal; lia.
  - pose proof (SH _ _ H) as A. rewrite colon_suffix by (try reflexivity; now apply digits_colon). rewrite !ends_app. cbn [Ascii.eqb Bool.eqb]. rewrite (int_numeral _ _ H).
    pose proof (numeral_nonneg _ _ H). rewrite timedelta_ok by lia. f_equal; lia.
  - pose proof (SH _ _ H) as A. rewrite colon_suffix by (try reflexivity; now apply digits_colon). rewrite !ends_app. cbn [Ascii.eqb Bool.eqb]. rewrite (int_numeral _ _ H).
    pose proof (numeral_nonneg _ _ H). rewrite timedelta_ok by lia. f_equal; lia.
  - cbn [app]. rewrite colon_app, split_app by (apply digits_colon; eauto). rewrite split_none by (apply digits_colon; eauto).
    rewrite (int_numeral _ _ Ha), (int_numeral _ _ Hb). pose proof (numeral_nonneg _ _ Ha). pose proof (numeral_nonneg _ _ Hb). rewrite timedelta_ok by lia. f_equal; lia.
  - cbn [app]. rewrite colon_app, split_app by (apply digits_colon; eauto). rewrite split_app by (apply digits_colon; eauto). rewrite split_none by (apply digits_colon; eauto).
    rewrite (int_numeral _ _ Ha), (int_numeral _ _ Hb), (int_numeral _ _ Hc). pose proof (numeral_nonneg _ _ Ha). pose proof (numeral_nonneg _ _ Hb). pose proof (numeral_nonneg _ _ Hc).
    rewrite timedelta_ok by lia. f_equal; lia.
Qed.

Lemma parsed_documented l n : undecorated l -> duration l = Some n -> documented l n.
Proof.
  intros U H. assert (UA : forall a b, undecorated (a ++ b) -> undecorated a /\ undecorated b) by (intros a b X; split; intros c I; apply X; apply in_or_app; auto).
  assert (UC : forall c a, undecorated (c :: a) -> undecorated a) by (intros c a X d I; apply X; now right).
  unfold duration in H. destruct (has_colon l).
  - pose proof (split_inv l) as S. destruct (split l) as [|a [|b [|c [|d r]]]]; try discriminate.
    + destruct S as [_ (r & -> & E)]. pose proof (split_inv r) as S. rewrite E in S. destruct S as [_ ->].
      destruct (UA _ _ U) as [Ua Ub]. apply UC in Ub.
      destruct (int a) as [m|] eqn:Ia; [|discriminate]. destruct (int b) as [s|] eqn:Ib; [|discriminate]. apply timedelta_val in H. subst n.
      replace (3600 * 0 + 60 * m + s) with (60 * m + s) by lia. apply (doc_ms a m b s); now apply int_undecorated.
    + destruct S as [_ (r & -> & E)]. pose proof (split_inv r) as S. rewrite E in S. destruct S as [_ (r' & -> & E')]. pose proof (split_inv r') as S. rewrite E' in S. destruct S as [_ ->].
      destruct (UA _ _ U) as [Ua Ub]. apply UC in Ub. destruct (UA _ _ Ub) as [Ub' Uc]. apply UC in Uc.
      destruct (int a) as [h|] eqn:Ia; [|discriminate]. destruct (int b) as [m|] eqn:Ib; [|discriminate]. destruct (int c) as [s|] eqn:Ic; [|discriminate]. apply timedelta_val in H. subst n.
      apply (doc_hms a h b m c s); now apply int_undecorated.
  - destruct (ends l "s") as [p|] eqn:E1; [|destruct (ends l "m") as [p|] eqn:E2; [|destruct (ends l "h") as [p|] eqn:E3]].
    + apply ends_inv in E1. subst l. destruct (UA _ _ U) as [Up _]. destruct (int p) as [k|] eqn:I; [|discriminate]. apply timedelta_val in H. subst n.
      replace (3600 * 0 + 60 * 0 + k) with k by lia. apply doc_s. now apply int_undecorated.
    + apply ends_inv in E2. subst l. destruct (UA _ _ U) as [Up _]. destruct (int p) as [k|] eqn:I; [|discriminate]. apply timedelta_val in H. subst n.
      replace (3600 * 0 + 60 * k + 0) with (60 * k) by lia. apply doc_m. now apply int_undecorated.
    + apply ends_inv in E3. subst l. destruct (UA _ _ U) as [Up _]. destruct (int p) as [k|] eqn:I; [|discriminate]. apply timedelta_val in H. subst n.
      replace (3600 * k + 60 * 0 + 0) with (3600 * k) by lia. apply doc_h. now apply int_undecorated.
    + destruct (int l) as [k|] eqn:I; [|discriminate]. apply timedelta_val in H. subst n. replace (3600 * 0 + 60 * 0 + k) with k by lia. apply doc_plain. now apply int_undecorated.
Qed.

(** ** C47 *)
(** Every documented form is accepted with the value it denotes (below 10^9 days). *)
Theorem C47_documented l n : documented l n -> n < day_limit -> duration l = Some n.
Proof. exact (documented_parsed l n). Qed.
(** Without signs, underscores and spaces nothing else is accepted. *)
Theorem C47_nothing_else_partial l n : undecorated l -> duration l = Some n -> documented l n.
Proof. exact (parsed_documented l n). Qed.

(** From 10^9 days on a documented form is refused. *)
Theorem C47_limit l n : documented l n -> duration l = Some n <-> n < 86400 * 1000000000.
Proof.
  intros H. split; [|intros L; apply documented_parsed; [exact H|exact L]].
  intros E. destruct (Z.ltb_spec n (86400 * 1000000000)) as [L|L]; [exact L|]. exfalso. revert E.
  assert (T : forall h m s, 86400 * 1000000000 <= 3600 * h + 60 * m + s -> timedelta h m s = None).
  { intros h m s X. unfold timedelta. change day_limit with (86400 * 1000000000). replace (_ <? 86400 * 1000000000) with false by lia. now rewrite andb_false_r. }
  assert (SH : forall a x, numeral a x -> all_digits a) by (intros a x X; now apply numeral_shape in X). unfold duration.
  destruct H as [l n H|l n H|l n H|l n H|a m b s Ha Hb|a h b m c s Ha Hb Hc].
  - pose proof (SH _ _ H) as A. rewrite (digits_colon _ A), !(ends_digits _ _ A) by reflexivity. rewrite (int_numeral _ _ H), T by lia. discriminate.
  - pose proof (SH _ _ H) as A. rewrite colon_suffix by (try reflexivity; now apply digits_colon). rewrite ends_app. cbn [Ascii.eqb Bool.eqb]. rewrite (int_numeral _ _ H), T by lia. discriminate.
  - pose proof (SH _ _ H) as A. rewrite colon_suffix by (try reflexivity; now apply digits_colon). rewrite !ends_app. cbn [Ascii.eqb Bool.eqb]. rewrite (int_numeral _ _ H), T by lia. discriminate.
  - pose proof (SH _ _ H) as A. rewrite colon_suffix by (try reflexivity; now apply digits_colon). rewrite !ends_app. cbn [Ascii.eqb Bool.eqb]. rewrite (int_numeral _ _ H), T by lia. discriminate.
  - cbn [app]. rewrite colon_app, split_app by (apply digits_colon; eauto). rewrite split_none by (apply digits_colon; eauto).
    rewrite (int_numeral _ _ Ha), (int_numeral _ _ Hb), T by lia. discriminate.
  - cbn [app]. rewrite colon_app, split_app by (apply digits_colon; eauto). rewrite split_app by (apply digits_colon; eauto). rewrite split_none by (apply digits_colon; eauto).
    rewrite (int_numeral _ _ Ha), (int_numeral _ _ Hb), (int_numeral _ _ Hc), T by lia. discriminate.
Qed.
Print Assumptions C47_limit.

Lemma documented_undecorated l n : documented l n -> undecorated l.
Proof.
  assert (G : forall l n, numeral l n -> undecorated l).
  { intros a x H c I. apply numeral_shape in H. destruct H as (A & _). specialize (A c I). split; [now apply digit_space|]. repeat split; intros ->; discriminate. }
  assert (P : forall a b, undecorated a -> undecorated b -> undecorated (a ++ b)) by (intros a b Ha Hb c I; apply in_app_or in I; destruct I; auto).
  assert (S : forall d, is_space d = false /\ d <> "_"%char /\ d <> "+"%char /\ d <> "-"%char -> undecorated [d]) by (intros d H c [<-|[]]; exact H).
  assert (C : undecorated [":"%char]) by (apply S; repeat split; discriminate).
  destruct 1; eauto; repeat apply P; eauto; apply S; repeat split; discriminate.
Qed.
(** With them, negative durations and others are. *)
Theorem C47_signs_refuted :
  (duration (txt "-5") = Some (-5) /\ duration (txt "5:-3") = Some 297 /\ duration (txt " 1_000 m") = Some 60000) /\
  forall n, ~ documented (txt "-5") n /\ ~ documented (txt "5:-3") n /\ ~ documented (txt " 1_000 m") n.
Proof.
  split; [repeat split; vm_compute; reflexivity|]. intros n.
  split; [|split]; intros H; apply documented_undecorated in H.
  - destruct (H "-"%char) as (_ & _ & _ & X); [now left|now apply X].
  - destruct (H "-"%char) as (_ & _ & _ & X); [simpl; tauto|now apply X].
  - destruct (H "_"%char) as (_ & X & _); [simpl; tauto|now apply X].
Qed.

Example C47_examples : duration (txt "90") = Some 90 /\ duration (txt "15m") = Some 900 /\ duration (txt "2h") = Some 7200 /\
  duration (txt "01:30") = Some 90 /\ duration (txt "01:02:03") = Some 3723 /\ duration (txt "1:2:3:4") = None /\ duration (txt "5d") = None /\ duration (txt "") = None.
Proof. repeat split; vm_compute; reflexivity. Qed.
Example C47_documented_example : documented (txt "12:05") 725.
Proof.
  apply (doc_ms (txt "12") 12 (txt "05") 5).
  - exact (num_more ["1"%char] 1 "2"%char (num_one "1"%char eq_refl) eq_refl).
  - exact (num_more ["0"%char] 0 "5"%char (num_one "0"%char eq_refl) eq_refl).
Qed.

(** The characters the specification speaks of, spelled out. *)
Theorem C47_alphabet c : (is_digit c = true <-> In c (txt "0123456789")) /\
  (is_space c = true <-> In (nat_of_ascii c) [9; 10; 11; 12; 13; 28; 29; 30; 31; 32]%nat).
Proof. destruct c as [[|] [|] [|] [|] [|] [|] [|] [|]]; vm_compute; intuition discriminate. Qed.
Print Assumptions C47_alphabet.

Print Assumptions C47_documented.
Print Assumptions C47_nothing_else_partial.
Print Assumptions C47_signs_refuted.
