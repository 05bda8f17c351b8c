(** Shared helpers: total maps over strings, list lemmas.  These definitions are
    mathematical infrastructure (they model no docket code). *)
From Coq Require Export String.
From Coq Require Export ZArith Bool Lia List.
From Coq Require Export ZifyBool.
Export ListNotations.
Open Scope string_scope.
Open Scope list_scope.
Open Scope Z_scope.

(** Infrastructure: a Redis namespace indexed by a name. *)
Definition upd {A : Type} (m : string -> A) (k : string) (v : A) : string -> A :=
  fun k' => if String.eqb k' k then v else m k'.

Lemma upd_eq {A} (m : string -> A) k v : upd m k v k = v.
Proof. unfold upd; now rewrite String.eqb_refl. Qed.

Lemma upd_neq {A} (m : string -> A) k k' v : k' <> k -> upd m k v k' = m k'.
Proof.
  intros H; unfold upd; destruct (String.eqb_spec k' k) as [E|E]; [contradiction|reflexivity].
Qed.

Lemma upd_spec {A} (m : string -> A) k k' v :
  (k' = k /\ upd m k v k' = v) \/ (k' <> k /\ upd m k v k' = m k').
Proof.
  destruct (string_dec k' k) as [E|E]; [left; subst; split; [reflexivity|apply upd_eq]|
  right; split; [assumption|now apply upd_neq]].
Qed.

(** Infrastructure: option helpers. *)
Definition is_some {A} (o : option A) : bool := match o with Some _ => true | None => false end.
Definition default {A} (d : A) (o : option A) : A := match o with Some x => x | None => d end.

Lemma is_some_true {A} (o : option A) : is_some o = true <-> exists x, o = Some x.
Proof. destruct o as [a|]; simpl; split; try discriminate; eauto.
  - intros [x Hx]; discriminate. Qed.

Lemma is_some_false {A} (o : option A) : is_some o = false <-> o = None.
Proof. destruct o; simpl; split; congruence. Qed.

Lemma eqb_neq_string (a b : string) : a <> b -> String.eqb a b = false.
Proof. intros H; destruct (String.eqb_spec a b); congruence. Qed.

Lemma filter_In_iff {A} (f : A -> bool) l x : In x (filter f l) <-> In x l /\ f x = true.
Proof. apply filter_In. Qed.

Lemma filter_app' {A} (f : A -> bool) l1 l2 : filter f (l1 ++ l2) = filter f l1 ++ filter f l2.
Proof. induction l1 as [|x l IH]; simpl; [reflexivity|]. destruct (f x); simpl; now rewrite IH. Qed.

Lemma filter_all {A} (f : A -> bool) l : (forall x, In x l -> f x = true) -> filter f l = l.
Proof.
  induction l as [|x l IH]; simpl; intros H; [reflexivity|].
  rewrite (H x (or_introl eq_refl)); f_equal; apply IH; auto.
Qed.

Lemma filter_none {A} (f : A -> bool) l : (forall x, In x l -> f x = false) -> filter f l = [].
Proof.
  induction l as [|x l IH]; simpl; intros H; [reflexivity|].
  rewrite (H x (or_introl eq_refl)); apply IH; auto.
Qed.

Lemma filter_length_le {A} (f : A -> bool) l : (length (filter f l) <= length l)%nat.
Proof. induction l as [|x l IH]; simpl; [lia|]. destruct (f x); simpl; lia. Qed.

Lemma NoDup_filter' {A} (f : A -> bool) l : NoDup l -> NoDup (filter f l).
Proof. apply NoDup_filter. Qed.

Lemma NoDup_map_filter {A B} (g : A -> B) (f : A -> bool) l :
  NoDup (map g l) -> NoDup (map g (filter f l)).
Proof.
  induction l as [|x l IH]; simpl; intros H; [constructor|].
  inversion H as [|? ? Hn Hd]; subst.
  destruct (f x); simpl; [constructor|]; auto.
  rewrite in_map_iff in *. intros (y & Hy & Hin). apply Hn. exists y; split; auto.
  apply filter_In in Hin; tauto.
Qed.

Lemma NoDup_snoc {A} (l : list A) x : NoDup l -> ~ In x l -> NoDup (l ++ [x]).
Proof.
  induction l as [|y l IH]; simpl; intros Hd Hn.
  - constructor; [intros []|constructor].
  - inversion Hd as [|? ? Hy Hl]; subst. constructor.
    + rewrite in_app_iff; simpl; intros [H|[H|[]]]; [auto|subst; apply Hn; auto].
    + apply IH; auto.
Qed.

Lemma map_fst_In {A B} (l : list (A * B)) a : In a (map fst l) <-> exists b, In (a, b) l.
Proof.
  rewrite in_map_iff; split.
  - intros ([a' b] & E & H); simpl in E; subst; eauto.
  - intros (b & H); exists (a, b); auto.
Qed.

Lemma map_snd_In {A B} (l : list (A * B)) b : In b (map snd l) <-> exists a, In (a, b) l.
Proof.
  rewrite in_map_iff; split.
  - intros ([a b'] & E & H); simpl in E; subst; eauto.
  - intros (a & H); exists (a, b); auto.
Qed.

Lemma existsb_false {A} (f : A -> bool) l : existsb f l = false <-> forall x, In x l -> f x = false.
Proof.
  induction l as [|x l IH]; simpl; [split; [contradiction|auto]|]. rewrite orb_false_iff, IH.
  split; [intros [H1 H2] y [<-|H]; auto|intros H; split; [apply H; auto|intros; apply H; auto]].
Qed.
