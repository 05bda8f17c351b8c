(** C42: conflicting single-use dependencies. *)
From Verif Require Import Base Text Resolution.

(** ** Specification *)
(** Two of the dependencies, of classes [a] and [b], have a common base class that is a
    proper subclass of Dependency and is marked single. *)
Definition share (h : classes) (a b : nat) : Prop :=
  exists base, In base (mro h a) /\ In base (mro h b) /\ base <> Dependency /\ In Dependency (mro h base) /\ single h base = true.
Definition two (l : list nat) (a b : nat) : Prop := exists l1 l2 l3, l = l1 ++ a :: l2 ++ b :: l3.
Definition clash (h : classes) (l : list nat) : Prop := exists a b, two l a b /\ share h a b.
(** Facts about every Python class hierarchy whose Dependency is not single. *)
Definition hierarchy (h : classes) : Prop := (forall c, In c (mro h c)) /\ single h Dependency = false.
(** No class derived from a single one is marked as not single. *)
Definition stays_single (h : classes) : Prop := forall a b, In b (mro h a) -> single h b = true -> single h a = true.
Definition dependencies (h : classes) (l : list nat) : Prop := forall c, In c l -> In Dependency (mro h c).

(** ** Proofs *)
Lemma mem_In c l : mem c l = true <-> In c l.
Proof. unfold mem. rewrite existsb_exists. split; [intros (x & H & E); apply Nat.eqb_eq in E; now subst|intros H; exists c; split; [exact H|apply Nat.eqb_refl]]. Qed.
Lemma subclass_In h c b : subclass h c b = true <-> In b (mro h c).
Proof. apply mem_In. Qed.
Lemma single_bases_In h c b : In b (single_bases h c) <-> In b (mro h c) /\ b <> Dependency /\ In Dependency (mro h b) /\ single h b = true.
Proof.
  unfold single_bases. rewrite filter_In, !andb_true_iff, negb_true_iff, Nat.eqb_neq, subclass_In. tauto.
Qed.

Lemma two_count l c : (1 < count_occ Nat.eq_dec l c)%nat <-> two l c c.
Proof.
  split.
  - intros H. assert (I : In c l) by (apply (count_occ_In Nat.eq_dec); lia). apply in_split in I. destruct I as (l1 & l2 & ->).
    rewrite count_occ_app, count_occ_cons_eq in H by reflexivity.
    destruct (in_dec Nat.eq_dec c l2) as [I|N].
    + apply in_split in I. destruct I as (l3 & l4 & ->). now exists l1, l3, l4.
    + apply (count_occ_not_In Nat.eq_dec) in N. assert (I : In c l1) by (apply (count_occ_In Nat.eq_dec); lia).
      apply in_split in I. destruct I as (l3 & l4 & ->). exists l3, l4, l2. now rewrite <- app_assoc.
  - intros (l1 & l2 & l3 & ->). rewrite count_occ_app, count_occ_cons_eq, count_occ_app, count_occ_cons_eq by reflexivity. lia.
Qed.
Lemma two_differ l a b : In a l -> In b l -> a <> b -> two l a b \/ two l b a.
Proof.
  intros Ha Hb N. apply in_split in Ha. destruct Ha as (l1 & l2 & ->). apply in_app_or in Hb. destruct Hb as [Hb|[E|Hb]]; [|contradiction|].
  - right. apply in_split in Hb. destruct Hb as (l3 & l4 & ->). exists l3, l4, l2. now rewrite <- app_assoc.
  - left. apply in_split in Hb. destruct Hb as (l3 & l4 & ->). now exists l1, l3, l4.
Qed.
Lemma two_In l a b : two l a b -> In a l /\ In b l.
Proof. intros (l1 & l2 & l3 & ->). split; apply in_or_app; right; [now left|right; apply in_or_app; right; now left]. Qed.

Lemma distinct_two l : (1 < length (nodup Nat.eq_dec l))%nat <-> exists a b, In a l /\ In b l /\ a <> b.
Proof.
  split.
  - intros H. pose proof (NoDup_nodup Nat.eq_dec l) as N. assert (I : forall x, In x (nodup Nat.eq_dec l) -> In x l) by (intros x; apply nodup_In).
    destruct (nodup Nat.eq_dec l) as [|a [|b r]]; simpl in H; [lia|lia|]. exists a, b. split; [apply I; now left|]. split; [apply I; right; now left|].
    inversion N as [|? ? Na]; subst. intros ->. apply Na. now left.
  - intros (a & b & Ha & Hb & E). rewrite <- (nodup_In Nat.eq_dec) in Ha, Hb.
    destruct (nodup Nat.eq_dec l) as [|x [|y r]]; simpl in *; [destruct Ha| |lia]. destruct Ha as [<-|[]], Hb as [<-|[]]. contradiction.
Qed.

Lemma detect_iff h l : hierarchy h -> dependencies h l ->
  (detect h l <> [] <-> exists a b, two l a b /\ share h a b /\ (a <> b \/ single h a = true)).
Proof.
  intros [Hs HD] Hd. unfold detect. set (rep := filter _ (nodup _ l)).
  assert (R : forall c, In c rep <-> single h c = true /\ two l c c).
  { intros c. unfold rep. rewrite filter_In, nodup_In, andb_true_iff, Nat.ltb_lt, two_count. split; [tauto|]. intros [H1 H2]. split; [apply (two_In _ _ _ H2)|auto]. }
  clearbody rep. split.
  - intros N. destruct rep as [|c rep].
    + cbn [app] in N. set (F := filter _ _) in N. destruct F as [|b F'] eqn:E; [contradiction|]. clear N.
      assert (I : In b F) by (rewrite E; now left). unfold F in I. rewrite filter_In, nodup_In, andb_true_iff, Nat.ltb_lt, distinct_two in I.
      destruct I as [Ib [_ (x & y & Hx & Hy & Nxy)]]. rewrite filter_In, subclass_In in Hx, Hy. destruct Hx as [Hx Bx], Hy as [Hy By].
      apply in_flat_map in Ib. destruct Ib as (z & Hz & Ib). apply single_bases_In in Ib.
      destruct (two_differ l x y Hx Hy Nxy) as [T|T]; [exists x, y|exists y, x]; (split; [exact T|]); (split; [|left; congruence]); exists b; tauto.
    + destruct (proj1 (R c) (or_introl eq_refl)) as [S T]. exists c, c. split; [exact T|]. split; [|now right]. exists c.
      split; [apply Hs|]. split; [apply Hs|]. split; [intros ->; congruence|]. split; [|exact S]. apply Hd. apply (two_In _ _ _ T).
  - intros (a & b & T & (base & Ba & Bb & ND & DB & SB) & C) N. apply app_eq_nil in N. destruct N as [N1 N2]. subst rep.
    destruct (two_In _ _ _ T) as [Ia Ib].
    destruct (Nat.eq_dec a b) as [<-|Nab].
    + destruct C as [C|C]; [contradiction|]. exact (proj2 (R a) (conj C T)).
    + assert (X : In base (filter (fun b0 => negb (mem b0 []) && Nat.ltb 1 (length (nodup Nat.eq_dec (filter (fun c => subclass h c b0) l)))) (nodup Nat.eq_dec (flat_map (single_bases h) l)))).
      { rewrite filter_In, nodup_In, andb_true_iff, Nat.ltb_lt, distinct_two. split; [|split; [reflexivity|]].
        - apply in_flat_map. exists a. split; [exact Ia|]. now apply single_bases_In.
        - exists a, b. rewrite !filter_In, !subclass_In. tauto. }
      rewrite N2 in X. destruct X.
Qed.

(** ** C42 *)
(** The check itself: exactly the sets with two dependencies of a common single base
    are rejected, apart from two of one class that is itself marked not single. *)
Theorem C42_detected_iff h l : hierarchy h -> dependencies h l ->
  (detect h l <> [] <-> exists a b, two l a b /\ share h a b /\ (a <> b \/ single h a = true)).
Proof. exact (detect_iff h l). Qed.

Theorem C42_detected h l : hierarchy h -> stays_single h -> dependencies h l -> (detect h l <> [] <-> clash h l).
Proof.
  intros H S D. rewrite detect_iff by assumption. split; [intros (a & b & T & X & _); now exists a, b|].
  intros (a & b & T & X). exists a, b. split; [exact T|]. split; [exact X|]. right. destruct X as (base & Ba & _ & _ & _ & SB). exact (S a base Ba SB).
Qed.

(** Two dependencies of a class that unmarks its single base are accepted. *)
Theorem C42_unmarked_refuted : exists h l, hierarchy h /\ dependencies h l /\ clash h l /\ detect h l = [].
Proof.
  exists (mkClasses (fun c => match c with 2 => [2; 1; 0] | 1 => [1; 0] | _ => [c; 0] end)%nat (fun c => match c with 1 => Some true | 2 => Some false | _ => None end)%nat Some), [2; 2]%nat.
  split; [split; [intros [|[|[|c]]]; now left|reflexivity]|]. split; [intros c [<-|[<-|[]]]; simpl; tauto|]. split; [|reflexivity].
  exists 2%nat, 2%nat. split; [now exists [], [], []|]. exists 1%nat. simpl. repeat split; try tauto; discriminate.
Qed.

(** ** Executions *)
(** An execution in which no dependency is passed in kwargs and none raises. *)
Definition plain (x : exe) : Prop := (forall n, e_given x n = false) /\ forall n, e_raises x n = false.
(** Names of arguments do not collide. *)
Definition apart (deps : list (string * nat)) (f : fn) : Prop := NoDup (map (fun p => slot (fst p)) deps ++ map fst (f_params f)).
(** Dependencies that have a single base enter as values of their own class, the others
    as such or as something else. *)
Definition enter_themselves (h : classes) : Prop :=
  forall c, enters h c = Some c \/ (enters h c = None /\ single_bases h c = []).
Definition everything (deps : list (string * nat)) (f : fn) : list nat := map snd deps ++ map snd (f_params f) ++ map snd (f_anns f).

Lemma put_new n v l : ~ In n (map fst l) -> put n v l = l ++ [(n, v)].
Proof. induction l as [|[m w] l IH]; simpl; intros H; [reflexivity|]. rewrite eqb_neq_string by tauto. rewrite IH by tauto. reflexivity. Qed.
Lemma fold_put {A} (name : A -> string) (val : A -> option nat) ps : forall l, NoDup (map fst l ++ map name ps) ->
  fold_left (fun a p => put (name p) (val p) a) ps l = l ++ map (fun p => (name p, val p)) ps.
Proof.
  induction ps as [|p ps IH]; intros l N; cbn [fold_left map]; [now rewrite app_nil_r|].
  rewrite put_new.
  - rewrite IH; [now rewrite <- app_assoc|]. rewrite map_app, <- app_assoc. exact N.
  - intros H. cbn [map] in N. apply NoDup_remove_2 in N. apply N. apply in_or_app. now left.
Qed.
Lemma plain_arguments h deps f x : plain x -> apart deps f ->
  arguments h deps f x = map (fun p => (slot (fst p), enters h (snd p))) deps ++ map (fun p => (fst p, enters h (snd p))) (f_params f).
Proof.
  intros [G R] A. unfold arguments. rewrite (fold_put (fun p => slot (fst p)) (fun p => enter h x (slot (fst p)) (snd p)) deps []).
  - cbn [app]. rewrite (fold_put fst (fun p => if e_given x (fst p) then None else enter h x (fst p) (snd p))).
    + f_equal; apply map_ext; intros p; unfold enter; now rewrite ?G, ?R.
    + rewrite map_map. exact A.
  - cbn [map app]. unfold apart in A. revert A. generalize (map fst (f_params f)). intros r A. induction (map (fun p => slot (fst p)) deps) as [|n l IH]; [constructor|].
    cbn [app] in A. inversion A as [|? ? Na Nd]; subst. constructor; [intros I; apply Na; apply in_or_app; now left|now apply IH].
Qed.
Lemma plain_annotations x f a : plain x -> with_annotations x f a = a.
Proof. intros [_ R]. unfold with_annotations. induction (f_anns f) as [|p l IH]; [reflexivity|]. cbn [fold_left]. rewrite R. exact IH. Qed.

Definition kept (h : classes) (l : list nat) : list nat := flat_map (fun c => match enters h c with Some c => [c] | None => [] end) l.
Lemma plain_items h deps f x : plain x -> apart deps f ->
  items h deps f x = kept h (map snd deps ++ map snd (f_params f)) ++ map snd (f_anns f).
Proof.
  intros P A. unfold items. rewrite plain_annotations, plain_arguments by assumption. f_equal. unfold kept.
  rewrite !flat_map_app, !flat_map_concat_map, !map_map. reflexivity.
Qed.

Lemma kept_two h l a b : enter_themselves h -> share h a b -> (two (kept h l) a b <-> two l a b).
Proof.
  intros E (base & Ba & Bb & ND & DB & SB).
  assert (K : forall c, In base (mro h c) -> enters h c = Some c).
  { intros c H. destruct (E c) as [X|[_ X]]; [exact X|]. assert (I : In base (single_bases h c)) by now apply single_bases_In. rewrite X in I. destruct I. }
  assert (KA : forall l l', kept h (l ++ l') = kept h l ++ kept h l') by (intros; apply flat_map_app).
  assert (K1 : forall c l, enters h c = Some c -> kept h (c :: l) = c :: kept h l) by (intros c l' X; unfold kept; cbn [flat_map]; now rewrite X).
  split.
  - (* a kept element comes from the list *)
    assert (S : forall l l1 c l2, kept h l = l1 ++ c :: l2 -> exists m1 m2, l = m1 ++ c :: m2 /\ kept h m2 = l2).
    { clear - E. induction l as [|d l IH]; intros l1 c l2 X; [destruct l1; discriminate|]. unfold kept in X; cbn [flat_map] in X; fold (kept h l) in X.
      destruct (E d) as [Y|[Y _]]; rewrite Y in X; cbn [app] in X.
      - destruct l1 as [|e l1]; cbn [app] in X; injection X as X1 X2.
        + subst. now exists [], l.
        + destruct (IH _ _ _ X2) as (m1 & m2 & -> & Z). now exists (d :: m1), m2.
      - destruct (IH _ _ _ X) as (m1 & m2 & -> & Z). now exists (d :: m1), m2. }
    intros (l1 & l2 & l3 & X). destruct (S _ _ _ _ X) as (m1 & m2 & -> & Y). destruct (S _ _ _ _ Y) as (m3 & m4 & -> & _). now exists m1, m3, m4.
  - intros (l1 & l2 & l3 & ->). exists (kept h l1), (kept h l2), (kept h l3). rewrite KA, K1, KA, K1 by auto. reflexivity.
Qed.
Lemma kept_app_kept h l l' : enter_themselves h -> forall a b, share h a b -> (two (kept h l ++ l') a b <-> two (l ++ l') a b).
Proof.
  intros E a b S. rewrite <- (kept_two h (l ++ l') a b E S). rewrite <- (kept_two h (kept h l ++ l') a b E S).
  assert (KK : kept h (kept h l) = kept h l).
  { clear - E. unfold kept. induction l as [|c l IH]; [reflexivity|]. cbn [flat_map]. destruct (E c) as [X|[X _]]; rewrite X; cbn [flat_map app]; [rewrite X; cbn [app]; now rewrite IH|exact IH]. }
  unfold kept at 1 3. rewrite !flat_map_app. fold (kept h l) (kept h l') (kept h (kept h l)). now rewrite KK.
Qed.
Lemma clash_kept h l l' : enter_themselves h -> (clash h (kept h l ++ l') <-> clash h (l ++ l')).
Proof. intros E. split; intros (a & b & T & S); exists a, b; (split; [|exact S]); now apply (kept_app_kept h l l' E a b S). Qed.
Lemma kept_In h c l : enter_themselves h -> In c (kept h l) -> In c l.
Proof.
  intros E H. unfold kept in H. apply in_flat_map in H. destruct H as (d & Hd & H). destruct (E d) as [X|[X _]]; rewrite X in H; [|destruct H]. destruct H as [<-|[]]. exact Hd.
Qed.

Lemma plain_detect h deps f x : hierarchy h -> stays_single h -> enter_themselves h -> apart deps f -> dependencies h (everything deps f) -> plain x ->
  (detect h (items h deps f x) <> [] <-> clash h (everything deps f)).
Proof.
  intros H S E A D P. rewrite (plain_items h deps f x P A). rewrite C42_detected; auto.
  - unfold everything. rewrite app_assoc. now apply clash_kept.
  - intros c I. apply D. unfold everything. rewrite app_assoc. apply in_app_or in I. apply in_or_app. destruct I as [I|I]; [left; now apply kept_In in I|now right].
Qed.

(** A worker with dependencies, over any sequence of executions in which no dependency
    is passed in kwargs or fails to enter: an execution is rejected exactly when the
    dependencies of its function together with the worker's clash. *)
Theorem C42_executions_partial h deps fns : hierarchy h -> stays_single h -> enter_themselves h -> deps <> [] ->
  (forall f, apart deps (fns f) /\ dependencies h (everything deps (fns f))) ->
  forall xs, Forall plain xs ->
  Forall2 (fun x r => r <> [] <-> clash h (everything deps (fns (e_fn x)))) xs (verdicts h deps fns [] xs).
Proof.
  intros H S E N A xs.
  assert (G : forall xs m, (forall f r, recall m f = Some r -> (r <> [] <-> clash h (everything deps (fns f)))) -> Forall plain xs ->
    Forall2 (fun x r => r <> [] <-> clash h (everything deps (fns (e_fn x)))) xs (verdicts h deps fns m xs)); [|apply G; intros; discriminate].
  clear xs. induction xs as [|x xs IH]; intros m M P; cbn [verdicts]; [constructor|]. inversion P as [|? ? Px Pxs]; subst.
  unfold validate. destruct deps as [|p deps']; [contradiction|]. destruct (recall m (e_fn x)) as [r|] eqn:R.
  - constructor; [now apply M|]. now apply IH.
  - destruct (A (e_fn x)) as [A1 A2]. pose proof (plain_detect h _ _ x H S E A1 A2 Px) as D. constructor; [exact D|]. apply IH; [|exact Pxs].
    intros f r X. cbn [recall] in X. destruct (Nat.eqb (e_fn x) f) eqn:Q; [|now apply M]. apply Nat.eqb_eq in Q. injection X as <-. subst f. exact D.
Qed.

(** ** The memo *)
(** The verdict of the first execution is kept.  If that one was given its dependency in
    kwargs, a clash goes unnoticed from then on; *)
Definition memo_h : classes := mkClasses (fun c => match c with 2 => [2; 1; 0] | 1 => [1; 0] | _ => [c; 0] end)%nat (fun c => match c with 1 => Some true | _ => None end)%nat Some.
Definition memo_fn (_ : nat) : fn := mkFn [("retry"%string, 2%nat)] [].
Definition memo_deps : list (string * nat) := [("handler"%string, 2%nat)].
Definition as_is : exe := mkExe 7 (fun _ => false) (fun _ => false).
Definition with_kwarg : exe := mkExe 7 (fun n => String.eqb n "retry") (fun _ => false).
Theorem C42_missed_refuted : clash memo_h (everything memo_deps (memo_fn 7)) /\
  verdicts memo_h memo_deps memo_fn [] [as_is] = [[2%nat]] /\
  verdicts memo_h memo_deps memo_fn [] [with_kwarg; as_is; as_is] = [[]; []; []].
Proof.
  split; [|split; vm_compute; reflexivity]. exists 2%nat, 2%nat. split; [now exists [], [], []|]. exists 1%nat. simpl. repeat split; try tauto; discriminate.
Qed.
(** and one that has no clash, because its dependency is given in kwargs, is rejected
    after one that had. *)
Theorem C42_carried_over_refuted :
  verdicts memo_h memo_deps memo_fn [] [with_kwarg] = [[]] /\
  verdicts memo_h memo_deps memo_fn [] [as_is; with_kwarg] = [[2%nat]; [2%nat]].
Proof. split; vm_compute; reflexivity. Qed.

(** ** Worker dependencies *)
(** A mapping is accepted exactly when no name starts with two underscores and all its
    values are dependencies, and then kept as it is; *)
Theorem C42_worker_mapping l r : validate_worker_dependencies (GMap l) = VOk r <->
  l = map (fun p => (fst p, Some (snd p))) r /\ forall n, In n (map fst r) -> forall t, n <> ("__" ++ t)%string.
Proof.
  assert (RS : forall n, reserved n = false <-> forall t, n <> ("__" ++ t)%string).
  { intros n. unfold reserved. split.
    - intros E t ->. cbn in E. discriminate.
    - intros H. destruct n as [|a [|b n]]; [reflexivity|reflexivity|].
      destruct (Ascii.eqb_spec a "_") as [->|]; [|reflexivity]. destruct (Ascii.eqb_spec b "_") as [->|]; [|reflexivity]. exfalso. exact (H n eq_refl). }
  cbn [validate_worker_dependencies]. revert r. induction l as [|[n [c|]] l IH]; intros r; cbn [check_map].
  - split; [intros E; injection E as <-; split; [reflexivity|intros ? []]|]. intros [E _]. destruct r; [reflexivity|discriminate].
  - destruct (reserved n) eqn:R.
    + split; [discriminate|]. intros [E H]. destruct r as [|[m d] r]; [discriminate|]. injection E as -> -> _. assert (X : reserved m = false) by (apply RS; apply H; now left). congruence.
    + destruct (check_map l) as [q| |] eqn:Q.
      * split.
        -- intros E; injection E as <-. destruct (proj1 (IH q) eq_refl) as [-> H]. split; [reflexivity|]. intros m [<-|I]; [now apply RS|now apply H].
        -- intros [E H]. destruct r as [|[m d] r]; [discriminate|]. injection E as -> -> E. f_equal. f_equal.
           assert (X : VOk q = VOk r) by (apply IH; split; [exact E|intros k I; apply H; now right]). now injection X.
      * split; [discriminate|]. intros [E H]. destruct r as [|[m d] r]; [discriminate|]. injection E as -> -> E. exfalso.
        assert (X : VValueError = VOk r) by (apply IH; split; [exact E|intros k I; apply H; now right]). discriminate.
      * split; [discriminate|]. intros [E H]. destruct r as [|[m d] r]; [discriminate|]. injection E as -> -> E. exfalso.
        assert (X : VTypeError = VOk r) by (apply IH; split; [exact E|intros k I; apply H; now right]). discriminate.
  - split; [destruct (reserved n); discriminate|]. intros [E _]. destruct r as [|[m d] r]; discriminate.
Qed.
(** and a sequence when all its values are dependencies, which get distinct names. *)
Theorem C42_worker_sequence l r : validate_worker_dependencies (GSeq l) = VOk r -> l = map (fun p => Some (snd p)) r /\ NoDup (map fst r).
Proof.
  cbn [validate_worker_dependencies].
  assert (G : forall l i r, check_seq i l = VOk r -> l = map (fun p => Some (snd p)) r /\ NoDup (map fst r) /\ forall n, In n (map fst r) -> exists j, i <= j /\ n = seq_name j).
  { clear. induction l as [|[c|] l IH]; intros i r; cbn [check_seq]; [intros E; injection E as <-; split; [reflexivity|split; [constructor|intros ? []]]| |discriminate].
    destruct (check_seq (i + 1) l) as [q| |] eqn:Q; try discriminate. intros E; injection E as <-. destruct (IH _ _ Q) as (-> & N & S). split; [reflexivity|]. split.
    - cbn [map fst]. constructor; [|exact N]. intros I. destruct (S _ I) as (j & Hj & X). unfold seq_name in X. simpl in X.
      repeat (injection X as X). assert (Y : dec i = dec j); [|apply dec_inj in Y; lia].
      revert X. generalize (dec i) (dec j). intros u v X. revert v X. clear. 
      assert (LEN : forall a b : string, String.length (a ++ b) = (String.length a + String.length b)%nat) by (induction a; simpl; intros; auto).
      intros v X. assert (L : String.length u = String.length v) by (apply (f_equal String.length) in X; rewrite !LEN in X; lia).
      revert v X L. induction u as [|a u IH]; intros [|b v] X L; try discriminate; [reflexivity|]. simpl in X. injection X as -> X. f_equal. apply IH; [exact X|now injection L].
    - intros n [<-|I]; [exists i; split; [lia|reflexivity]|]. destruct (S n I) as (j & Hj & ->). exists j. split; [lia|reflexivity]. }
  intros E. destruct (G _ _ _ E) as (A & B & _). auto.
Qed.

(** ** Examples *)
(** A Timeout-like and another subclass of a single base, with the former on the worker. *)
Definition ex_h : classes := mkClasses (fun c => match c with 2 => [2; 1; 0] | 3 => [3; 1; 0] | 1 => [1; 0] | _ => [c; 0] end)%nat
  (fun c => match c with 1 => Some true | _ => None end)%nat (fun c => if Nat.ltb 3 c then None else Some c).
Lemma ex_h_enter : enter_themselves ex_h.
Proof. intros [|[|[|[|c]]]]; [left; reflexivity|left; reflexivity|left; reflexivity|left; reflexivity|right; split; reflexivity]. Qed.
Example ex_h_ok : hierarchy ex_h /\ stays_single ex_h.
Proof.
  split; [split; [intros [|[|[|[|c]]]]; now left|reflexivity]|].
  assert (B : forall b, single ex_h b = true -> (b = 1 \/ b = 2 \/ b = 3)%nat).
  { intros [|[|[|[|b]]]]; try tauto; discriminate. }
  intros a b I S. destruct (B b S) as [->|[->| ->]]; destruct a as [|[|[|[|a]]]]; try reflexivity; exfalso; simpl in I; intuition discriminate.
Qed.
Example ex_run : verdicts ex_h [("limit", 2%nat)]%string (fun f => if Nat.eqb f 0 then mkFn [("a", 3%nat); ("b", 9%nat)]%string [] else mkFn [("b", 9%nat)]%string [("c", 9%nat)]%string) []
  [mkExe 0 (fun _ => false) (fun _ => false); mkExe 1 (fun _ => false) (fun _ => false); mkExe 0 (fun _ => false) (fun _ => false)] = [[1%nat]; []; [1%nat]].
Proof. vm_compute. reflexivity. Qed.
Example ex_worker : validate_worker_dependencies (GSeq [Some 2; Some 9]%nat) = VOk [("__worker_dep_0__", 2%nat); ("__worker_dep_1__", 9%nat)]%string
  /\ validate_worker_dependencies (GMap [("a", Some 2%nat); ("__b", Some 9%nat)]%string) = VValueError.
Proof. split; vm_compute; reflexivity. Qed.

Print Assumptions C42_detected.
Print Assumptions C42_executions_partial.
Print Assumptions C42_worker_mapping.
Print Assumptions C42_worker_sequence.
