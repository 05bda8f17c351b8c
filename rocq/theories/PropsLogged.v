(** Property theorems: the log shows only what is marked for it. *)
From Verif Require Import Base Logged SpecLogged LoggedProofs.
Local Open Scope string_scope.

(** C68, the true part: two calls that differ only in arguments of unmarked parameters, or
    of length-only ones with the same length, are described by the same line. *)
Theorem C68_only_marked_partial num fn key sig args args' kw kw' : signature sig -> accepted sig args kw ->
  few_args sig args -> plain_names sig kw -> argument_sized sig args kw -> same_to_the_log sig args args' kw kw' ->
  call_repr num fn key sig args kw = call_repr num fn key sig args' kw'.
Proof. apply same_line. Qed.
Print Assumptions C68_only_marked_partial.

(** The argument of a marked parameter is in the line (for the starred parameter: the
    first of them). *)
Theorem C68_marked_shown_partial num fn key sig args kw i p v : signature sig -> (i <= length (filter positional sig))%nat ->
  nth_error args i = Some v -> takes_arg sig i p -> allows (p_meta p) Everything -> occurs (v_repr v) (call_repr num fn key sig args kw).
Proof. apply arg_shown. Qed.
Print Assumptions C68_marked_shown_partial.

Theorem C68_marked_keyword_shown num fn key sig args kw n p v : signature sig -> In (n, v) kw -> In p sig -> by_name n p ->
  allows (p_meta p) Everything -> occurs (n ++ "=" ++ v_repr v) (call_repr num fn key sig args kw).
Proof. apply kwarg_shown. Qed.
Print Assumptions C68_marked_keyword_shown.

(** ** Concrete signatures *)

Ltac order_tac := repeat (apply FOP_cons || apply FOP_nil || apply Forall_cons || apply Forall_nil).

(** def setup(customer: Annotated[int, Logged], addresses: Annotated[list, Logged(length_only=True)], password: str) *)
Definition ex_sig : list param :=
  [mkParam "customer" PosOrKw [MOther; MLoggedClass]; mkParam "addresses" PosOrKw [MLogged true]; mkParam "password" PosOrKw []].
Definition ex_num (n : Z) : string := if (n =? 2)%Z then "2" else "?".
Definition ex_args (street : string) : list value := [mkValue "123" Unsized; mkValue ("['" ++ street ++ "', 'b']") (Sized 2)].
Definition ex_kw (secret : string) : list (string * value) := [("password", mkValue secret (Sized 6))].

Example C68_example_line : call_repr ex_num "setup" "key" ex_sig (ex_args "a") (ex_kw "'secret'") = "setup(123, [len 2], password=...){key}".
Proof. reflexivity. Qed.

Lemma ex_sig_signature : signature ex_sig.
Proof.
  split; [repeat constructor; cbn; intuition discriminate|]. order_tac; right; repeat split; discriminate.
Qed.

Lemma no_mark l a : allows l a -> mark_of l = None -> a = Nothing.
Proof. intros ->%allows_unique ->. reflexivity. Qed.

Example C68_example : signature ex_sig /\ accepted ex_sig (ex_args "a") (ex_kw "'secret'") /\
  few_args ex_sig (ex_args "a") /\ plain_names ex_sig (ex_kw "'secret'") /\ argument_sized ex_sig (ex_args "a") (ex_kw "'secret'") /\
  same_to_the_log ex_sig (ex_args "a") (ex_args "c") (ex_kw "'secret'") (ex_kw "'hunter'").
Proof.
  split; [exact ex_sig_signature|]. split.
  { split.
    - intros [|[|i]] L; [exists (nth 0 ex_sig (mkParam "" VarKw [])); now left|exists (nth 1 ex_sig (mkParam "" VarKw [])); now left|cbn in L; lia].
    - intros n [<-|[]]. exists (nth 2 ex_sig (mkParam "" VarKw [])). split; [cbn; auto|]. left. split; [reflexivity|now left]. }
  split; [left; cbn; lia|]. split; [intros p [<-|[<-|[<-|[]]]] _; now left|]. split.
  { split.
    - intros [|[|i]] p v; cbn; [intros [= <-] [[= <-]|[? _]]; [|discriminate]|intros [= <-] _ _; discriminate|destruct i; discriminate].
      intros H%allows_unique. discriminate H.
    - intros n p v [[= <- <-]|[]] _ _. discriminate. }
  split; [reflexivity|reflexivity| |].
  - intros [|[|i]] p v v'; cbn; [intros [= <-] [= <-] _ a _; destruct a; cbn; auto|intros [= <-] [= <-] [[= <-]|[? _]]; [|discriminate]|destruct i; discriminate].
    intros a H%allows_unique. cbn in H. subst a. reflexivity.
  - intros [|i] n p v v'; cbn; [|destruct i; discriminate]. intros [= <- <-] [= <-] [Ip [[E _]|[_ K]]] a H.
    + destruct Ip as [<-|[<-|[<-|[]]]]; try discriminate E. apply no_mark in H; [|reflexivity]. subst a. exact Logic.I.
    + destruct Ip as [<-|[<-|[<-|[]]]]; discriminate K.
Qed.

(** Refutation: def f(a, *rest, b: Annotated[str, Logged] = ...) called as f(1, s1, s2):
    the line shows s2, which belongs to the unmarked [rest]. *)
Definition leak_sig : list param := [mkParam "a" PosOrKw []; mkParam "rest" VarPos []; mkParam "b" KwOnly [MLoggedClass]].
Definition leak_args (s : string) : list value := [mkValue "1" Unsized; mkValue "2" Unsized; mkValue s Unsized].
Theorem C68_starred_leak_refuted : exists sig args args', signature sig /\ accepted sig args [] /\ accepted sig args' [] /\
  same_to_the_log sig args args' [] [] /\ forall num fn key, call_repr num fn key sig args [] <> call_repr num fn key sig args' [].
Proof.
  assert (Acc : forall s, accepted leak_sig (leak_args s) []).
  { intros s. split; [|intros ? []]. intros [|i] L; [exists (nth 0 leak_sig (mkParam "" VarKw [])); now left|].
    exists (nth 1 leak_sig (mkParam "" VarKw [])). right. split; [now destruct i|]. split; [cbn; auto|reflexivity]. }
  exists leak_sig, (leak_args "'s3cret'"), (leak_args "'hunter2'"). split; [|split; [apply Acc|split; [apply Acc|split]]].
  - split; [repeat constructor; cbn; intuition discriminate|]. order_tac; left; cbn; lia.
  - split; [reflexivity|reflexivity| |intros [|i] ? ? ? ?; discriminate].
    intros i p v v' _ _ T a H. apply no_mark in H; [subst a; exact Logic.I|]. destruct T as [T|(_ & [<-|[<-|[<-|[]]]] & K)]; try discriminate K; [|reflexivity].
    destruct i as [|[|i]]; cbn in T; try discriminate. now injection T as <-.
  - intros num fn key. unfold call_repr, pieces. cbn. clear. intros E. assert (Cancel : forall a b c, (a ++ b = a ++ c -> b = c)%string).
    { induction a as [|x a IH]; cbn; intros b c H; [exact H|]. injection H as H. now apply IH. }
    apply Cancel in E. discriminate E.
Qed.
Print Assumptions C68_starred_leak_refuted.

(** Refutation: def f(x: Annotated[int, Logged], /, **options) called as f(1, x=s): the
    keyword argument belongs to the unmarked [options], and the line shows it. *)
Definition shadow_sig : list param := [mkParam "x" PosOnly [MLogged false]; mkParam "options" VarKw []].
Definition shadow_kw (s : string) : list (string * value) := [("x", mkValue s Unsized)].
Theorem C68_keyword_leak_refuted : exists sig args kw kw', signature sig /\ accepted sig args kw /\ accepted sig args kw' /\
  same_to_the_log sig args args kw kw' /\ forall num fn key, call_repr num fn key sig args kw <> call_repr num fn key sig args kw'.
Proof.
  assert (NB : forall q, In q shadow_sig -> ~ by_name "x" q) by (intros q [<-|[<-|[]]] [E [K|K]]; discriminate).
  assert (Acc : forall s, accepted shadow_sig [mkValue "1" Unsized] (shadow_kw s)).
  { intros s. split.
    - intros [|i] L; [exists (nth 0 shadow_sig (mkParam "" VarKw [])); now left|cbn in L; lia].
    - intros n [<-|[]]. exists (nth 1 shadow_sig (mkParam "" VarKw [])). split; [cbn; auto|]. right. split; [exact NB|reflexivity]. }
  exists shadow_sig, [mkValue "1" Unsized], (shadow_kw "'s3cret'"), (shadow_kw "'hunter2'"). split; [|split; [apply Acc|split; [apply Acc|split]]].
  - split; [repeat constructor; cbn; intuition discriminate|]. order_tac; left; cbn; lia.
  - split; [reflexivity|reflexivity| |].
    + intros [|i] p v v'; cbn; [|destruct i; discriminate]. intros [= <-] [= <-] _ a _. destruct a; cbn; auto.
    + intros [|i] n p v v'; cbn; [|destruct i; discriminate]. intros [= <- <-] [= <-] [Ip [B|[_ K]]] a H; [now apply NB in B|].
      apply no_mark in H; [subst a; exact Logic.I|]. destruct Ip as [<-|[<-|[]]]; [discriminate K|reflexivity].
  - intros num fn key. unfold call_repr, pieces. cbn. clear. intros E. assert (Cancel : forall a b c, (a ++ b = a ++ c -> b = c)%string).
    { induction a as [|x a IH]; cbn; intros b c H; [exact H|]. injection H as H. now apply IH. }
    apply Cancel in E. discriminate E.
Qed.
Print Assumptions C68_keyword_leak_refuted.

(** Refutation: an argument without a length passed to a length-only parameter is shown in
    full. *)
Definition length_sig : list param := [mkParam "token" PosOrKw [MLogged true]].
Theorem C68_length_only_leak_refuted : exists sig args args', signature sig /\ accepted sig args [] /\ accepted sig args' [] /\
  same_to_the_log sig args args' [] [] /\ forall num fn key, call_repr num fn key sig args [] <> call_repr num fn key sig args' [].
Proof.
  assert (Acc : forall s, accepted length_sig [mkValue s Unsized] []).
  { intros s. split; [|intros ? []]. intros [|i] L; [exists (nth 0 length_sig (mkParam "" VarKw [])); now left|cbn in L; lia]. }
  exists length_sig, [mkValue "Token('s3cret')" Unsized], [mkValue "Token('hunter2')" Unsized]. split; [|split; [apply Acc|split; [apply Acc|split]]].
  - split; [repeat constructor; cbn; intuition discriminate|]. order_tac.
  - split; [reflexivity|reflexivity| |intros [|i] ? ? ? ?; discriminate].
    intros [|i] p v v'; cbn; [|destruct i; discriminate]. intros [= <-] [= <-] [[= <-]|[? _]]; [|discriminate]. intros a H%allows_unique. cbn in H. subst a. reflexivity.
  - intros num fn key. unfold call_repr, pieces. cbn. clear. intros E. assert (Cancel : forall a b c, (a ++ b = a ++ c -> b = c)%string).
    { induction a as [|x a IH]; cbn; intros b c H; [exact H|]. injection H as H. now apply IH. }
    apply Cancel in E. discriminate E.
Qed.
Print Assumptions C68_length_only_leak_refuted.

(** Refutation of the other half: of a marked starred parameter, def f( *items: Annotated[int, Logged]),
    only the first argument is shown. *)
Theorem C68_marked_hidden_refuted : exists sig args i p v, signature sig /\ accepted sig args [] /\ nth_error args i = Some v /\
  takes_arg sig i p /\ allows (p_meta p) Everything /\ v_repr v = "2" /\ forall num, call_repr num "f" "key" sig args [] = "f(1){key}".
Proof.
  exists [mkParam "items" VarPos [MLoggedClass]], [mkValue "1" Unsized; mkValue "2" Unsized], 1%nat, (mkParam "items" VarPos [MLoggedClass]), (mkValue "2" Unsized).
  assert (T : forall i, takes_arg [mkParam "items" VarPos [MLoggedClass]] i (mkParam "items" VarPos [MLoggedClass])).
  { intros i. right. cbn. destruct i; auto. }
  split; [split; repeat constructor; cbn; intuition discriminate|]. split; [split; [eauto|intros ? []]|]. split; [reflexivity|]. split; [apply T|].
  split; [apply (allows_last [] MLoggedClass []); [intros ? []|reflexivity]|]. split; reflexivity.
Qed.
Print Assumptions C68_marked_hidden_refuted.
