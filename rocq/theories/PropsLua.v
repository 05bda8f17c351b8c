(** C38: Lua scripts see exactly the arguments that were passed. *)
From Verif Require Import Base Text LuaCall.

(** Parameter names are distinct (Python), and none is the name under which the
    script finds the variadic parameter. *)
Definition good_names (d : decl) : Prop :=
  NoDup (map fst d) /\ forall n m, In (n, PArgs) d -> In m (map fst d) -> m <> (n ++ "_start")%string.

(** The value the script should see for a value of the declared type. *)
Definition seen_as (t : ty) (v : scalar) : option lua :=
  match t, v with
  | TStr, VStr s => Some (LStr s)
  | TInt, VInt z => if Z.abs z <=? 2 ^ 53 then Some (LNum z) else None
  | TBool, VBool b => Some (LBool b)
  | _, _ => None
  end.

Lemma local_In l n v : NoDup (map fst l) -> In (n, v) l -> local l n = Some v.
Proof.
  induction l as [|[m w] l IH]; [intros _ []|]. cbn [map fst]. intros N H. inversion N as [|? ? Nn Nd]; subst. simpl.
  assert (X : forall a, ~ In a (map fst l) -> local l a = None).
  { clear. induction l as [|[m w] l IH]; simpl; intros a H; [reflexivity|]. rewrite IH by tauto. rewrite eqb_neq_string by tauto. reflexivity. }
  destruct H as [E|H].
  - injection E as -> ->. rewrite (X n Nn), String.eqb_refl. reflexivity.
  - now rewrite (IH Nd H).
Qed.

Lemma key_locals_names i l : map fst (key_locals i l) = l.
Proof. revert i; induction l as [|n l IH]; intros i; simpl; [reflexivity|]. now rewrite IH. Qed.

Definition start_name (p : string * kind) : string := match snd p with PArg _ => fst p | _ => (fst p ++ "_start")%string end.
Lemma arg_locals_names i l : map fst (arg_locals i l) = map start_name l.
Proof. revert i; induction l as [|[n [|t|]] l IH]; intros i; simpl; [reflexivity|..]; now rewrite IH. Qed.

Lemma names_nodup d : good_names d -> args_last (arg_params d) = true -> NoDup (map fst (preamble d)).
Proof.
  intros [N S] L. unfold preamble. rewrite map_app, key_locals_names, arg_locals_names.
  assert (I : forall p, In p (arg_params d) -> In p d /\ is_key p = false).
  { intros p H. apply filter_In in H. destruct H as [H1 H2]. apply negb_true_iff in H2. auto. }
  assert (ND : NoDup (map fst (arg_params d))) by (apply NoDup_map_filter; exact N).
  assert (NK : NoDup (key_params d)) by (apply NoDup_map_filter; exact N).
  assert (D : forall n, In n (key_params d) -> ~ In n (map fst (arg_params d))).
  { intros n H1 H2. unfold key_params in H1. apply in_map_iff in H1. destruct H1 as (p & <- & H1). apply filter_In in H1. destruct H1 as [H1 K1].
    apply in_map_iff in H2. destruct H2 as (p' & E & H2). destruct (I p' H2) as [H2' K2].
    assert (p = p'); [|congruence]. clear - N H1 H2' E. induction d as [|x d IH]; [destruct H1|]. cbn [map] in N. inversion N as [|? ? Nn Nd]; subst.
    destruct H1 as [->|H1], H2' as [->|H2']; auto; exfalso; apply Nn; [rewrite <- E|rewrite E]; now apply in_map. }
  assert (Start : forall p, In p (arg_params d) -> In (start_name p) (map fst (arg_params d)) \/ (snd p = PArgs /\ start_name p = (fst p ++ "_start")%string)).
  { intros [n k] H. unfold start_name; cbn [fst snd]. destruct (I _ H) as [_ K]. destruct k; [discriminate| |right; auto]. left. now apply (in_map fst) in H. }
  assert (NS : NoDup (map start_name (arg_params d))).
  { assert (S' : forall n m, In (n, PArgs) (arg_params d) -> In m (map fst (arg_params d)) -> m <> (n ++ "_start")%string).
    { intros n m H1 H2. apply S; [now apply I|]. apply in_map_iff in H2. destruct H2 as (p & <- & H2). apply in_map. now apply I. }
    assert (K : forall p, In p (arg_params d) -> is_key p = false) by (intros p H; now apply I).
    clear - ND S' L K. revert ND S' L K. generalize (arg_params d). intros l. induction l as [|[n k] l IH]; intros ND S' L K; [constructor|].
    cbn [map]. cbn [map fst] in ND. inversion ND as [|? ? Nn Nd]; subst.
    destruct k as [|t|].
    - specialize (K (n, PKey) (or_introl eq_refl)). discriminate.
    - constructor.
      + unfold start_name at 1; cbn [fst snd]. intros H. apply in_map_iff in H. destruct H as ([m k] & E & H). unfold start_name in E; cbn [fst snd] in E.
        destruct k as [|t'|].
        * specialize (K (m, PKey) (or_intror H)). discriminate.
        * subst m. apply Nn. now apply (in_map fst) in H.
        * symmetry in E. exact (S' m n (or_intror H) (or_introl eq_refl) E).
      + apply IH; auto. intros a b Ha Hb. apply S'; right; auto. intros p Hp; apply K; now right.
    - simpl in L. destruct l; [|discriminate]. constructor; [intros []|constructor]. }
  assert (KI : forall n, In n (key_params d) -> In n (map fst d)).
  { intros n H. unfold key_params in H. apply in_map_iff in H. destruct H as (p & <- & H). apply in_map. now apply filter_In in H. }
  assert (X : forall n, In n (key_params d) -> ~ In n (map start_name (arg_params d))).
  { intros n H1 H2. apply in_map_iff in H2. destruct H2 as (p & E & H2). destruct (Start p H2) as [H'|[Ek Es]].
    - rewrite E in H'. exact (D n H1 H').
    - destruct p as [m k]; cbn [fst snd] in *. subst k. apply (S m n); [now apply I|now apply KI|congruence]. }
  clear - NK NS X. induction (key_params d) as [|n l IH]; [exact NS|]. cbn [app]. inversion NK as [|? ? Nn Nd]; subst.
  constructor; [|apply IH; auto; intros m Hm; apply X; now right].
  intros H. apply in_app_or in H. destruct H as [H|H]; [contradiction|]. exact (X n (or_introl eq_refl) H).
Qed.

Lemma encode_one v : expand_args (One v) = match encode_scalar v with Some s => Some [s] | None => None end.
Proof. reflexivity. Qed.

Lemma nth1_app (pre : list string) s post : nth1 (S (length pre)) (pre ++ s :: post) = Some s.
Proof. simpl. rewrite nth_error_app2 by lia. now rewrite Nat.sub_diag. Qed.

Lemma key_seen (kw : string -> option value) n s : kw n = Some (One (VStr s)) -> forall l pre ks, keys kw l = Some ks -> In n l ->
  In (n, LStr s) (map (fun e => (fst e, eval (pre ++ ks) [] (snd e))) (key_locals (S (length pre)) l)).
Proof.
  intros K. induction l as [|m l IH]; intros pre ks; [intros _ []|]. cbn [keys key_locals map fst snd eval]. intros E H.
  destruct (kw m) as [[[x| | |]| |]|] eqn:Em; try discriminate. destruct (keys kw l) as [r|] eqn:Er; [|discriminate]. injection E as <-.
  destruct H as [->|H].
  - left. rewrite K in Em. injection Em as <-. unfold lua_get. now rewrite nth1_app.
  - right. specialize (IH (pre ++ [x]) r eq_refl H). rewrite app_length, Nat.add_1_r, <- app_assoc in IH. exact IH.
Qed.

Lemma key_seen_any av av' ks l i : map (fun e => (fst e, eval ks av (snd e))) (key_locals i l) = map (fun e => (fst e, eval ks av' (snd e))) (key_locals i l).
Proof. revert i; induction l as [|n l IH]; intros i; [reflexivity|]. cbn [key_locals map fst snd eval]. now rewrite IH. Qed.

Lemma to_double_small z : Z.abs z <= 2 ^ 53 -> to_double z = z.
Proof. intros H. unfold to_double. apply Z.leb_le in H. now rewrite H. Qed.

Lemma arg_seen (kw : string -> option value) ks n t v w : kw n = Some (One v) -> seen_as t v = Some w ->
  forall l pre av, args_last l = true -> (forall p, In p l -> is_key p = false) -> argv kw l = Some av -> In (n, PArg t) l ->
  In (n, w) (map (fun e => (fst e, eval ks (pre ++ av) (snd e))) (arg_locals (S (length pre)) l)).
Proof.
  intros K W. induction l as [|[m k] l IH]; intros pre av L NK; [intros _ []|]. cbn [argv]. intros E H.
  destruct (kw m) as [x|] eqn:Em; [|discriminate].
  destruct k as [|t'|].
  - specialize (NK _ (or_introl eq_refl)). discriminate.
  - rewrite encode_one in E. destruct (encode_scalar (scalar_of x)) as [s|] eqn:Es; [|discriminate]. destruct (argv kw l) as [r|] eqn:Er; [|discriminate].
    injection E as <-. cbn [app arg_locals map fst snd]. destruct H as [H|H].
    + injection H as -> ->. left. f_equal. rewrite K in Em. injection Em as <-. cbn [scalar_of] in Es.
      destruct t, v; cbn [seen_as] in W; try discriminate; cbn [encode_scalar] in Es; injection Es as <-; cbn [decode_for eval].
      * unfold lua_get. rewrite nth1_app. congruence.
      * rewrite nth1_app, undec_dec. destruct (Z.abs z <=? 2 ^ 53) eqn:Ez; [|discriminate]. apply Z.leb_le in Ez. rewrite to_double_small by exact Ez. congruence.
      * rewrite nth1_app. destruct b; cbn in *; congruence.
    + right. specialize (IH (pre ++ [s]) r L (fun p Hp => NK p (or_intror Hp)) eq_refl H). rewrite app_length, Nat.add_1_r, <- app_assoc in IH. exact IH.
  - cbn [args_last] in L. destruct l; [|discriminate]. destruct H as [H|[]]. discriminate.
Qed.

Lemma tail_seen (kw : string -> option value) ks n v a : kw n = Some v -> expand_args v = Some a ->
  forall l pre av, args_last l = true -> (forall p, In p l -> is_key p = false) -> argv kw l = Some av -> In (n, PArgs) l ->
  exists p, In ((n ++ "_start")%string, LNum (Z.of_nat (S p))) (map (fun e => (fst e, eval ks (pre ++ av) (snd e))) (arg_locals (S (length pre)) l))
    /\ skipn p (pre ++ av) = a.
Proof.
  intros K W. induction l as [|[m k] l IH]; intros pre av L NK; [intros _ []|]. cbn [argv]. intros E H.
  destruct (kw m) as [x|] eqn:Em; [|discriminate].
  destruct k as [|t'|].
  - specialize (NK _ (or_introl eq_refl)). discriminate.
  - rewrite encode_one in E. destruct (encode_scalar (scalar_of x)) as [s|] eqn:Es; [|discriminate]. destruct (argv kw l) as [r|] eqn:Er; [|discriminate].
    injection E as <-. destruct H as [H|H]; [discriminate|].
    destruct (IH (pre ++ [s]) r L (fun p Hp => NK p (or_intror Hp)) eq_refl H) as (p & H1 & H2).
    rewrite app_length, Nat.add_1_r, <- app_assoc in H1. rewrite <- app_assoc in H2. exists p. split; [|exact H2]. cbn [arg_locals map]. right. exact H1.
  - cbn [args_last] in L. destruct l; [|discriminate]. destruct H as [H|[]]. injection H as ->. rewrite K in Em. injection Em as <-.
    rewrite W in E. cbn [argv] in E. injection E as <-. exists (length pre). split; [left; reflexivity|].
    rewrite app_nil_r, skipn_app, skipn_all, Nat.sub_diag. reflexivity.
Qed.

Lemma accepted_last d : accepted d = true -> args_last (arg_params d) = true.
Proof. unfold accepted. destruct (key_params d); [discriminate|auto]. Qed.
Lemma arg_params_not d : forall p, In p (arg_params d) -> is_key p = false.
Proof. intros p H. apply filter_In in H. now apply negb_true_iff. Qed.

Lemma locals_In d ks av n v : good_names d -> accepted d = true ->
  In (n, v) (map (fun e => (fst e, eval ks av (snd e))) (preamble d)) -> locals d ks av n = Some v.
Proof.
  intros G A H. apply local_In; [|exact H]. rewrite map_map. cbn [fst]. apply names_nodup; [exact G|now apply accepted_last].
Qed.

(** ** C38 *)
(** Key parameters. *)
Theorem C38_keys d kw ks av n s : good_names d -> accepted d = true -> call d kw = Some (ks, av) ->
  In (n, PKey) d -> kw n = Some (One (VStr s)) -> locals d ks av n = Some (LStr s).
Proof.
  intros G A C I K. unfold call in C. destruct (keys kw (key_params d)) as [k|] eqn:Ek; [|discriminate]. destruct (argv kw (arg_params d)) as [a|] eqn:Ea; [|discriminate].
  injection C as <- <-. apply locals_In; auto. unfold preamble. rewrite map_app. apply in_or_app. left. rewrite (key_seen_any a []).
  apply (key_seen kw n s K (key_params d) [] k Ek). unfold key_params. apply (in_map fst _ (n, PKey)). now apply filter_In.
Qed.

(** Scalar parameters given a value of their declared type. *)
Theorem C38_scalars d kw ks av n t v w : good_names d -> accepted d = true -> call d kw = Some (ks, av) ->
  In (n, PArg t) d -> kw n = Some (One v) -> seen_as t v = Some w -> locals d ks av n = Some w.
Proof.
  intros G A C I K W. unfold call in C. destruct (keys kw (key_params d)) as [k|] eqn:Ek; [|discriminate]. destruct (argv kw (arg_params d)) as [a|] eqn:Ea; [|discriminate].
  injection C as <- <-. apply locals_In; auto. unfold preamble. rewrite map_app. apply in_or_app. right.
  apply (arg_seen kw k n t v w K W (arg_params d) [] a (accepted_last d A) (arg_params_not d) Ea). now apply filter_In.
Qed.

(** How a variadic value is laid out: a list item by item, a mapping field by field
    with each field's value right after it. *)
Inductive written : scalar -> string -> Prop :=
| w_true : written (VBool true) "1"
| w_false : written (VBool false) "0"
| w_int z : written (VInt z) (dec z)
| w_str s : written (VStr s) s.
Inductive laid_out : value -> list string -> Prop :=
| l_one v a : written v a -> laid_out (One v) [a]
| l_nil : laid_out (Seq []) []
| l_cons v a l r : written v a -> laid_out (Seq l) r -> laid_out (Seq (v :: l)) (a :: r)
| l_empty : laid_out (Dict []) []
| l_field k a v b l r : written k a -> written v b -> laid_out (Dict l) r -> laid_out (Dict ((k, v) :: l)) (a :: b :: r).

Lemma encode_written v a : encode_scalar v = Some a -> written v a.
Proof. destruct v as [s|z|[]|]; intros H; try discriminate; injection H as <-; constructor. Qed.
Lemma expand_laid_out v a : expand_args v = Some a -> laid_out v a.
Proof.
  unfold expand_args. destruct v as [v|l|l]; cbn [flatten].
  - cbn. destruct (encode_scalar v) eqn:E; [|discriminate]. intros H; injection H as <-. constructor. now apply encode_written.
  - revert a. induction l as [|x l IH]; cbn; intros a H; [injection H as <-; constructor|].
    destruct (encode_scalar x) eqn:E; [|discriminate]. destruct (encode_all l); [|discriminate]. injection H as <-. constructor; [now apply encode_written|auto].
  - revert a. induction l as [|[x y] l IH]; cbn; intros a H; [injection H as <-; constructor|].
    destruct (encode_scalar x) eqn:E; [|discriminate]. destruct (encode_scalar y) eqn:F; [|discriminate]. destruct (encode_all _); [|discriminate].
    injection H as <-. constructor; [now apply encode_written|now apply encode_written|auto].
Qed.
Lemma argv_expands kw l : forall av, argv kw l = Some av -> forall n, In (n, PArgs) l -> forall v, kw n = Some v -> exists a, expand_args v = Some a.
Proof.
  induction l as [|[m k] l IH]; intros av H n I v K; [destruct I|]. cbn [argv] in H. destruct I as [I|I].
  - injection I as -> ->. rewrite K in H. destruct (expand_args v) eqn:E; [eauto|discriminate].
  - destruct (kw m); [|discriminate]. destruct (argv kw l) eqn:E; [eapply IH; eauto|].
    exfalso. revert H. destruct k; destruct (expand_args _); discriminate.
Qed.

(** The variadic parameter: from its start index to the end, ARGV holds its values in
    order, each written as text. *)
Theorem C38_variadic d kw ks av n v : good_names d -> accepted d = true -> call d kw = Some (ks, av) ->
  In (n, PArgs) d -> kw n = Some v ->
  exists p, locals d ks av (n ++ "_start") = Some (LNum (Z.of_nat (S p))) /\ laid_out v (skipn p av).
Proof.
  intros G A C I K. unfold call in C. destruct (keys kw (key_params d)) as [k|] eqn:Ek; [|discriminate]. destruct (argv kw (arg_params d)) as [a'|] eqn:Ea; [|discriminate].
  injection C as <- <-. assert (I' : In (n, PArgs) (arg_params d)) by now apply filter_In.
  destruct (argv_expands _ _ _ Ea n I' v K) as [a W].
  destruct (tail_seen kw k n v a K W (arg_params d) [] a' (accepted_last d A) (arg_params_not d) Ea I') as (p & H1 & H2).
  exists p. split; [|cbn [app] in H2; rewrite H2; now apply expand_laid_out]. apply locals_In; auto. unfold preamble. rewrite map_app. apply in_or_app. right. exact H1.
Qed.

(** Values that cannot be written as text never reach the script. *)
Theorem C38_others_refused d kw n t : In (n, PArg t) d -> kw n = Some (One VOther) -> call d kw = None.
Proof.
  intros I K. unfold call. destruct (keys kw (key_params d)); [|reflexivity].
  assert (H : In (n, PArg t) (arg_params d)) by now apply filter_In.
  enough (E : argv kw (arg_params d) = None) by now rewrite E.
  revert H. generalize (arg_params d). intros x. induction x as [|[m k] x IH]; [intros []|]. intros [H|H]; cbn [argv].
  - injection H as -> ->. now rewrite K.
  - rewrite (IH H). destruct (kw m); [|reflexivity]. destruct k; [destruct (expand_args _)|destruct (expand_args _)|destruct (expand_args _)]; reflexivity.
Qed.

(** Integers beyond 2^53 are rounded. *)
Theorem C38_large_refuted : exists d kw ks av, good_names d /\ accepted d = true /\ call d kw = Some (ks, av)
  /\ In ("n"%string, PArg TInt) d /\ kw "n"%string = Some (One (VInt (2 ^ 53 + 1))) /\ locals d ks av "n" = Some (LNum (2 ^ 53)).
Proof.
  exists [("k"%string, PKey); ("n"%string, PArg TInt)], (fun n => if String.eqb n "k" then Some (One (VStr "x")) else Some (One (VInt (2 ^ 53 + 1)))), ["x"%string], [dec (2 ^ 53 + 1)].
  split; [split|].
  - repeat constructor; simpl; intuition discriminate.
  - intros n m [H|[H|[]]]; discriminate.
  - split; [reflexivity|]. split; [reflexivity|]. split; [right; now left|]. split; [reflexivity|vm_compute; reflexivity].
Qed.

(** A parameter called like the start index of the variadic one is hidden by it. *)
Theorem C38_shadowed_refuted : exists d kw ks av, NoDup (map fst d) /\ accepted d = true /\ call d kw = Some (ks, av)
  /\ In ("a_start"%string, PArg TInt) d /\ kw "a_start"%string = Some (One (VInt 7)) /\ locals d ks av "a_start" = Some (LNum 2).
Proof.
  exists [("k"%string, PKey); ("a_start"%string, PArg TInt); ("a"%string, PArgs)],
    (fun n => if String.eqb n "k" then Some (One (VStr "x")) else if String.eqb n "a" then Some (Seq []) else Some (One (VInt 7))), ["x"%string], ["7"%string].
  split; [repeat constructor; simpl; intuition discriminate|]. split; [reflexivity|]. split; [reflexivity|]. split; [right; now left|]. split; [reflexivity|vm_compute; reflexivity].
Qed.

Definition lua_ex : decl := [("stream", PKey); ("key", PArg TStr); ("queue", PKey); ("delay", PArg TInt); ("again", PArg TBool); ("message", PArgs)]%string.
Definition lua_kw (n : string) : option value :=
  if String.eqb n "stream" then Some (One (VStr "docket:stream"))
  else if String.eqb n "queue" then Some (One (VStr "docket:queue"))
  else if String.eqb n "key" then Some (One (VStr "job"))
  else if String.eqb n "delay" then Some (One (VInt (-1500)))
  else if String.eqb n "again" then Some (One (VBool true))
  else Some (Dict [(VStr "attempt", VInt 1); (VStr "function", VStr "f")]).
Example lua_ex_holds : good_names lua_ex /\ accepted lua_ex = true /\ exists ks av, call lua_ex lua_kw = Some (ks, av)
  /\ locals lua_ex ks av "queue" = Some (LStr "docket:queue") /\ locals lua_ex ks av "delay" = Some (LNum (-1500))
  /\ locals lua_ex ks av "again" = Some (LBool true) /\ locals lua_ex ks av "message_start" = Some (LNum 4)
  /\ skipn 3 av = ["attempt"; "1"; "function"; "f"]%string.
Proof.
  split; [split|].
  - repeat constructor; simpl; intuition discriminate.
  - intros n m H1 H2. simpl in H1. repeat (destruct H1 as [H1|H1]; [try discriminate|]); [|destruct H1]. injection H1 as <-.
    simpl in H2. repeat (destruct H2 as [<-|H2]; [discriminate|]). destruct H2.
  - split; [reflexivity|]. eexists; eexists. split; [reflexivity|]. repeat split; vm_compute; reflexivity.
Qed.

Print Assumptions C38_keys.
Print Assumptions C38_scalars.
Print Assumptions C38_variadic.
