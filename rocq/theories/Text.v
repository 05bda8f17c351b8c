(** Decimal notation of integers, and splitting of strings at a separator: shared
    helpers for keys and wire formats (infrastructure; models Python's str(int) and
    int(str)). *)
From Coq Require Import Decimal DecimalString DecimalZ DecimalFacts.
From Coq Require Export Ascii.
From Verif Require Import Base.

(** Python's str(n) for an integer. *)
Definition dec (n : Z) : string := NilZero.string_of_int (Z.to_int n).
(** The integer a decimal string denotes, if it is one. *)
Definition undec (s : string) : option Z := option_map Z.of_int (NilZero.int_of_string s).

Lemma to_int_nonnil n : Z.to_int n <> Pos Nil /\ Z.to_int n <> Neg Nil.
Proof.
  assert (H : forall p, Pos.to_uint p <> Nil).
  { intros p E. pose proof (DecimalPos.Unsigned.to_uint_nonnil p). contradiction. }
  destruct n as [|p|p]; simpl; split; try discriminate; intros E; injection E; apply H.
Qed.

Lemma undec_dec n : undec (dec n) = Some n.
Proof.
  unfold undec, dec. rewrite NilZero.isi by apply to_int_nonnil. simpl. now rewrite DecimalZ.of_to.
Qed.

Lemma dec_inj a b : dec a = dec b -> a = b.
Proof. intros H. apply (f_equal undec) in H. rewrite !undec_dec in H. congruence. Qed.

(** The character [a] occurs in [s]. *)
Fixpoint occurs (a : ascii) (s : string) : bool :=
  match s with EmptyString => false | String b s => Ascii.eqb a b || occurs a s end.

Definition digit_or_sign (a : ascii) : bool :=
  match a with "0"%char|"1"%char|"2"%char|"3"%char|"4"%char|"5"%char|"6"%char|"7"%char|"8"%char|"9"%char|"-"%char => true | _ => false end.
Fixpoint all_chars (p : ascii -> bool) (s : string) : bool :=
  match s with EmptyString => true | String a s => p a && all_chars p s end.

Lemma all_chars_occurs p a s : all_chars p s = true -> p a = false -> occurs a s = false.
Proof.
  induction s as [|b s IH]; simpl; intros H Ha; [reflexivity|]. apply andb_prop in H as [H1 H2].
  rewrite IH by assumption. destruct (Ascii.eqb_spec a b); [subst; congruence|reflexivity].
Qed.

Lemma uint_digits d : all_chars digit_or_sign (NilEmpty.string_of_uint d) = true.
Proof. induction d; simpl; auto. Qed.

Lemma dec_digits n : all_chars digit_or_sign (dec n) = true.
Proof.
  unfold dec, NilZero.string_of_int, NilZero.string_of_uint.
  destruct (Z.to_int n) as [d|d]; destruct d; simpl; auto; try apply uint_digits.
Qed.

Lemma append_nil_r s : (s ++ "")%string = s.
Proof. induction s; simpl; congruence. Qed.
Lemma append_assoc' a b c : ((a ++ b) ++ c)%string = (a ++ (b ++ c))%string.
Proof. induction a; simpl; congruence. Qed.

Lemma occurs_app a s t : occurs a (s ++ t)%string = occurs a s || occurs a t.
Proof. induction s as [|b s IH]; simpl; [reflexivity|]. rewrite IH. now rewrite orb_assoc. Qed.

(** A separator that does not occur after it splits a string in one way only. *)
Lemma split_last a s1 t1 s2 t2 : occurs a t1 = false -> occurs a t2 = false ->
  (s1 ++ String a t1)%string = (s2 ++ String a t2)%string -> s1 = s2 /\ t1 = t2.
Proof.
  intros H1 H2. revert s2. induction s1 as [|b s1 IH]; intros s2; simpl.
  - destruct s2 as [|b2 s2]; simpl; intros E; [injection E as ->; auto|injection E as E1 E2].
    exfalso. subst. rewrite occurs_app in H1. simpl in H1. rewrite Ascii.eqb_refl, orb_true_r in H1. discriminate.
  - destruct s2 as [|b2 s2]; simpl; intros [= E1 E2].
    + exfalso. subst. rewrite occurs_app in H2. simpl in H2. rewrite Ascii.eqb_refl, orb_true_r in H2. discriminate.
    + apply IH in E2 as [-> ->]. now subst.
Qed.

(** A separator that does not occur before it splits a string in one way only. *)
Lemma split_first a s1 t1 s2 t2 : occurs a s1 = false -> occurs a s2 = false ->
  (s1 ++ String a t1)%string = (s2 ++ String a t2)%string -> s1 = s2 /\ t1 = t2.
Proof.
  revert s2. induction s1 as [|b s1 IH]; intros s2 H1 H2; destruct s2 as [|b2 s2]; simpl in *; intros E;
    [injection E as ->; auto| | |]; injection E as E1 E2.
  - subst. rewrite Ascii.eqb_refl in H2. discriminate.
  - subst. rewrite Ascii.eqb_refl in H1. discriminate.
  - apply orb_false_elim in H1 as [_ H1], H2 as [_ H2]. apply IH in E2 as [-> ->]; auto. now subst.
Qed.
