(** Proofs about the metrics page. *)
From Coq Require Import Ascii Permutation.
From Verif Require Import Base Prom SpecProm.

(** ** Characters *)

Lemma alnum_In c : alnum c = true -> In c (letters ++ digits).
Proof. destruct c as [b0 b1 b2 b3 b4 b5 b6 b7]; destruct b0, b1, b2, b3, b4, b5, b6, b7; vm_compute; intros H; try discriminate; repeat (try (left; reflexivity); right). Qed.
Lemma letter_In c : alnum c = true -> digit c = false -> In c letters.
Proof. destruct c as [b0 b1 b2 b3 b4 b5 b6 b7]; destruct b0, b1, b2, b3, b4, b5, b6, b7; vm_compute; intros H H'; try discriminate; repeat (try (left; reflexivity); right). Qed.

(** ** sub_runs *)

Lemma sub_chars keep s : forall run x, In x (chars (sub_runs keep run s)) -> x = "_"%char \/ keep x = true.
Proof.
  induction s as [|c s IH]; intros run x; cbn; [intros []|]. destruct (keep c) eqn:K; [|destruct run; [apply IH|]]; cbn.
  - intros [<-|H]; [now right|exact (IH _ _ H)].
  - intros [<-|H]; [now left|exact (IH _ _ H)].
Qed.

(** After a run there is no further underscore right away. *)
Lemma sub_run_head keep s d r : keep "_"%char = false -> chars (sub_runs keep true s) = d :: r -> d <> "_"%char.
Proof.
  intros U. revert d r. induction s as [|c s IH]; intros d r; cbn; [discriminate|]. destruct (keep c) eqn:K; cbn; [|apply IH].
  intros [= <- _] ->. congruence.
Qed.
Lemma sub_head keep s d r : chars (sub_runs keep false s) = d :: r -> keep "_"%char = false -> d = "_"%char ->
  forall e r', r = e :: r' -> e <> "_"%char.
Proof.
  destruct s as [|c s]; cbn; [discriminate|]. destruct (keep c) eqn:K; cbn; intros [= <- <-] U E e r' R; [congruence|].
  exact (sub_run_head keep s e r' U R).
Qed.
Lemma sub_nonempty keep s : s <> ""%string -> sub_runs keep false s <> ""%string.
Proof. destruct s as [|c s]; [congruence|]. cbn. destruct (keep c); discriminate. Qed.
Lemma sub_first keep c s : exists r, sub_runs keep false (String c s) = String (if keep c then c else "_"%char) r.
Proof. cbn. destruct (keep c); eauto. Qed.

Lemma no_digit_first s : s <> ""%string -> exists c r, no_leading_digit s = String c r /\ digit c = false.
Proof. destruct s as [|c s]; [congruence|]. intros _. cbn. destruct (digit c) eqn:D; eauto. Qed.

Theorem label_valid s : s <> ""%string -> valid_label (sanitize_attribute s).
Proof.
  intros N. destruct (no_digit_first s N) as (c & r & E & D). unfold sanitize_attribute. rewrite E. destruct (sub_first alnum c r) as [r' F].
  exists (if alnum c then c else "_"%char), (chars r'). rewrite F. split; [reflexivity|]. split; [|split].
  - destruct (alnum c) eqn:A; [right; now apply letter_In|now left].
  - intros x Hx. destruct (sub_chars alnum (String c r) false x) as [->|H]; [rewrite F; now right|now left|right; now apply alnum_In].
  - intros d q Q U. apply (sub_head alnum (String c r) (if alnum c then c else "_"%char) (chars r') ltac:(now rewrite F) eq_refl U d q Q).
Qed.

Theorem metric_valid s : s <> ""%string -> valid_metric (sanitize_full_name s).
Proof.
  intros N. destruct (no_digit_first s N) as (c & r & E & D). unfold sanitize_full_name, sanitize_name. rewrite E. destruct (sub_first name_char c r) as [r' F].
  exists (if name_char c then c else "_"%char), (chars r'). rewrite F. split; [reflexivity|]. split.
  - unfold name_char. destruct (alnum c) eqn:A; cbn; [right; right; now apply letter_In|]. destruct (Ascii.eqb_spec c ":") as [->|_]; [right; now left|now left].
  - intros x Hx. destruct (sub_chars name_char (String c r) false x) as [->|H]; [rewrite F; now right|now left|].
    unfold name_char in H. apply orb_true_iff in H as [H|H%Ascii.eqb_eq]; [right; right; now apply alnum_In|right; left; now symmetry].
Qed.

(** Sanitising twice changes nothing more. *)
Lemma sub_idem keep s : keep "_"%char = false -> forall run, sub_runs keep run (sub_runs keep run s) = sub_runs keep run s /\
  sub_runs keep true (sub_runs keep true s) = sub_runs keep true s.
Proof.
  intros U. induction s as [|c s IH]; intros run; [now split|]. cbn [sub_runs]. destruct (keep c) eqn:K.
  - cbn [sub_runs]. rewrite K. destruct (IH false) as [I1 I2]. rewrite I1. now split.
  - destruct (IH true) as [I1 I2]. destruct run; [now split|]. cbn [sub_runs]. rewrite U. split; [now rewrite I2|exact I2].
Qed.
Lemma sub_twice keep s : keep "_"%char = false -> sub_runs keep false (sub_runs keep false s) = sub_runs keep false s.
Proof. intros U. apply (sub_idem keep s U false). Qed.
Lemma sub_no_digit keep s : (forall c, digit c = true -> keep c = true) -> keep "_"%char = false ->
  no_leading_digit (sub_runs keep false (no_leading_digit s)) = sub_runs keep false (no_leading_digit s).
Proof.
  intros D U. destruct s as [|c s]; [reflexivity|]. destruct (no_digit_first (String c s)) as (d & r & E & N); [discriminate|]. rewrite E.
  destruct (sub_first keep d r) as [r' F]. rewrite F. cbn. destruct (keep d) eqn:K; [rewrite N; reflexivity|reflexivity].
Qed.
Theorem attribute_idem s : sanitize_attribute (sanitize_attribute s) = sanitize_attribute s.
Proof.
  unfold sanitize_attribute. rewrite sub_no_digit; [now apply sub_twice| |reflexivity]. intros c H. unfold alnum. rewrite H. now rewrite orb_true_r.
Qed.

(** ** Units *)

Definition tame (s : string) : Prop := forall x, In x (chars s) -> x <> "|"%char.
Lemma chars_app a b : chars (a ++ b) = chars a ++ chars b.
Proof. unfold chars. induction a as [|c a IH]; [reflexivity|]. cbn. now rewrite IH. Qed.
Lemma tame_app a b : tame a -> tame b -> tame (a ++ b).
Proof. intros A B x. rewrite chars_app. intros [H|H]%in_app_iff; auto. Qed.
Lemma sub_tame keep s : keep "|"%char = false -> tame (sub_runs keep false s).
Proof. intros K x H. destruct (sub_chars keep s false x H) as [->|E]; [discriminate|]. intros ->. congruence. Qed.
Lemma lstrip_tame s : tame s -> tame (lstrip s).
Proof.
  intros T x. assert (G : In x (chars (lstrip s)) -> In x (chars s)); [|auto]. clear T. induction s as [|c s IH]; [auto|].
  cbn [lstrip]. destruct c as [b0 b1 b2 b3 b4 b5 b6 b7]. destruct b0, b1, b2, b3, b4, b5, b6, b7; auto. intros H. right. now apply IH.
Qed.
Lemma rstrip_tame s : tame s -> tame (rstrip s).
Proof.
  intros T x. assert (G : In x (chars (rstrip s)) -> In x (chars s)); [|auto]. clear T. induction s as [|c s IH]; [auto|]. cbn [rstrip].
  destruct (rstrip s) as [|c' s'] eqn:R.
  - destruct (Ascii.eqb c "_"); [intros []|]. intros [<-|[]]. now left.
  - intros [<-|H]; [now left|right; now apply IH].
Qed.
Lemma table_tame l s u : (forall e, In e l -> tame (snd e)) -> table l s = Some u -> tame u.
Proof. unfold table. intros H. destruct (find _ l) as [e|] eqn:F; [|discriminate]. intros [= <-]. apply find_some in F as [F _]. now apply H. Qed.
Lemma units_tame e : In e unit_mappings -> tame (snd e).
Proof.
  intros H x Hx ->. assert (F : forallb (fun e => negb (existsb (Ascii.eqb "|") (chars (snd e)))) unit_mappings = true) by (vm_compute; reflexivity).
  rewrite forallb_forall in F. specialize (F e H). apply negb_true_iff in F. assert (existsb (Ascii.eqb "|") (chars (snd e)) = true); [|congruence].
  apply existsb_exists. exists "|"%char. split; [exact Hx|reflexivity].
Qed.
Lemma per_units_tame e : In e per_unit_mappings -> tame (snd e).
Proof.
  intros H x Hx ->. assert (F : forallb (fun e => negb (existsb (Ascii.eqb "|") (chars (snd e)))) per_unit_mappings = true) by (vm_compute; reflexivity).
  rewrite forallb_forall in F. specialize (F e H). apply negb_true_iff in F. assert (existsb (Ascii.eqb "|") (chars (snd e)) = true); [|congruence].
  apply existsb_exists. exists "|"%char. split; [exact Hx|reflexivity].
Qed.
Lemma unit_tame u : tame (map_unit u).
Proof.
  unfold map_unit. set (v := strip_annotation u). destruct (table unit_mappings v) as [w|] eqn:T; [exact (table_tame _ _ _ units_tame T)|].
  assert (S : forall s, tame (sanitize_name s)) by (intros s; now apply sub_tame).
  destruct (split_first "/" v) as [[a b]|]; [|now apply rstrip_tame, lstrip_tame]. destruct (String.eqb (sanitize_name b) ""); [now apply rstrip_tame, lstrip_tame|].
  assert (A : tame (default (sanitize_name a) (table unit_mappings (sanitize_name a)))).
  { destruct (table unit_mappings (sanitize_name a)) eqn:E; [exact (table_tame _ _ _ units_tame E)|apply S]. }
  assert (B : tame (default (sanitize_name b) (table per_unit_mappings (sanitize_name b)))).
  { destruct (table per_unit_mappings (sanitize_name b)) eqn:E; [exact (table_tame _ _ _ per_units_tame E)|apply S]. }
  destruct (String.eqb _ ""); repeat apply tame_app; auto; intros x; cbn; intuition (subst; discriminate).
Qed.

(** ** Family ids *)

Lemma first_sep c : forall a a' b b', ~ In c (chars a) -> ~ In c (chars a') -> (a ++ String c b = a' ++ String c b')%string -> a = a' /\ b = b'.
Proof.
  induction a as [|x a IH]; intros [|x' a'] b b' N N'; cbn.
  - intros [= ->]. auto.
  - intros [= -> _]. exfalso. apply N'. now left.
  - intros [= -> _]. exfalso. apply N. now left.
  - intros [= -> E]. destruct (IH a' b b') as [-> ->]; auto; intros H; [apply N|apply N']; now right.
Qed.
Lemma last_sep c : forall a a' b b', ~ In c (chars b) -> ~ In c (chars b') -> (a ++ String c b = a' ++ String c b')%string -> a = a' /\ b = b'.
Proof.
  induction a as [|x a IH]; intros [|x' a'] b b' N N'; cbn.
  - intros [= ->]. auto.
  - intros [= -> ->]. exfalso. apply N. rewrite chars_app. apply in_app_iff. right. now left.
  - intros [= -> <-]. exfalso. apply N'. rewrite chars_app. apply in_app_iff. right. now left.
  - intros [= -> E]. destruct (IH a' b b' N N' E) as [-> ->]. auto.
Qed.
Lemma str_assoc a b c : ((a ++ b) ++ c = a ++ (b ++ c))%string.
Proof. induction a; cbn; [reflexivity|now f_equal]. Qed.

Definition good_key (s : string) : Prop := s <> ""%string /\ ~ In "|"%char (chars s) /\ ~ In "%"%char (chars s).

Lemma concat_inj : forall l l', Forall good_key l -> Forall good_key l' -> String.concat "%" l = String.concat "%" l' -> l = l'.
Proof.
  assert (E0 : forall x l, Forall good_key (x :: l) -> String.concat "%" (x :: l) <> ""%string).
  { intros x l F. inversion F as [|? ? [N _] _]; subst. destruct l; cbn; [exact N|]. destruct x; [congruence|discriminate]. }
  assert (E1 : forall x y y' l, good_key x -> x <> (y ++ "%" ++ String.concat "%" (y' :: l))%string).
  { intros x y y' l (_ & _ & N) ->. apply N. rewrite chars_app. apply in_app_iff. right. now left. }
  induction l as [|x l IH]; intros [|x' l'] F F' E; auto.
  - exfalso. exact (E0 _ _ F' (eq_sym E)).
  - exfalso. exact (E0 _ _ F E).
  - inversion F as [|? ? G Fl]; subst. inversion F' as [|? ? G' Fl']; subst. destruct l as [|y l], l' as [|y' l'].
    + cbn in E. now subst.
    + exfalso. exact (E1 x x' y' l' G E).
    + exfalso. exact (E1 x' x y l G' (eq_sym E)).
    + change (x ++ String "%" (String.concat "%" (y :: l)) = x' ++ String "%" (String.concat "%" (y' :: l')))%string in E.
      apply first_sep in E as [-> E]; [|apply G|apply G']. f_equal. now apply IH.
Qed.
Lemma concat_tame l : Forall good_key l -> ~ In "|"%char (chars (String.concat "%" l)).
Proof.
  induction l as [|x l IH]; intros F; [intros []|]. inversion F as [|? ? G Fl]; subst. destruct l as [|y l]; [apply G|].
  change (String.concat "%" (x :: y :: l)) with (x ++ String "%" (String.concat "%" (y :: l)))%string. rewrite chars_app, in_app_iff. intros [H|[H|H]]; [now apply G in H|discriminate|now apply IH in H].
Qed.

Lemma id_inj n d l u t n' d' l' u' t' : tame n -> tame n' -> Forall good_key l -> Forall good_key l' -> tame u -> tame u' ->
  family_id n d l u t = family_id n' d' l' u' t' -> n = n' /\ d = d' /\ l = l' /\ u = u' /\ t = t'.
Proof.
  intros N N' L L' U U' E. unfold family_id in E. cbn [append] in E.
  apply first_sep in E as [-> E]; [|intros H; exact (N _ H eq_refl)|intros H; exact (N' _ H eq_refl)].
  assert (Shape : forall d k u t, (d ++ String "|" (k ++ String "|" (u ++ String "|" t)) = (((d ++ String "|" k) ++ String "|" u) ++ String "|" t))%string).
  { intros. repeat (rewrite str_assoc; cbn [append]). reflexivity. }
  rewrite !Shape in E. assert (T : forall t, ~ In "|"%char (chars (type_name t))) by (intros [| |]; cbn; intuition discriminate).
  apply last_sep in E as [E Et]; auto. apply last_sep in E as [E ->]; [|intros H; exact (U _ H eq_refl)|intros H; exact (U' _ H eq_refl)].
  apply last_sep in E as [-> E]; [|now apply concat_tame|now apply concat_tame]. apply concat_inj in E; auto. subst l'.
  repeat split; auto. destruct t, t'; try reflexivity; discriminate Et.
Qed.

(** ** Families *)

Definition fits_family (id : string) (f : family) : Prop :=
  id = family_id (f_name f) (f_doc f) (f_labels f) (f_unit f) (f_type f) /\ tame (f_name f) /\ Forall good_key (f_labels f) /\ tame (f_unit f).

Lemma label_good s : s <> ""%string -> good_key (sanitize_attribute s).
Proof.
  intros N. split; [|split].
  - unfold sanitize_attribute. apply sub_nonempty. destruct (no_digit_first s N) as (c & r & -> & _). discriminate.
  - intros H. destruct (sub_chars alnum (no_leading_digit s) false _ H) as [E|E]; discriminate.
  - intros H. destruct (sub_chars alnum (no_leading_digit s) false _ H) as [E|E]; discriminate.
Qed.

Definition put (f : family) (v : list string * string) : entry := (f_type f, f_name f, f_doc f, f_labels f, f_unit f, v).

Lemma add_sample_spec id new v l : Forall (fun e => fits_family (fst e) (snd e)) l -> fits_family id new -> f_samples new = [] ->
  Forall (fun e => fits_family (fst e) (snd e)) (add_sample id new v l) /\
  Permutation (shown (map snd (add_sample id new v l))) (put new v :: shown (map snd l)) /\
  (forall x, In x (map fst (add_sample id new v l)) <-> x = id \/ In x (map fst l)).
Proof.
  intros F (E & T1 & T2 & T3) S. induction F as [|[id' f] l (E' & T1' & T2' & T3') F (I1 & I2 & I3)]; cbn [add_sample].
  - split; [|split].
    + constructor; [|constructor]. cbn. repeat split; auto.
    + reflexivity.
    + cbn. intuition.
  - cbn [fst snd] in *. destruct (String.eqb_spec id' id) as [->|N].
    + rewrite E in E'. apply id_inj in E' as (A1 & A2 & A3 & A4 & A5); auto. split; [|split].
      * constructor; [|exact F]. cbn. rewrite <- A1, <- A2, <- A3, <- A4, <- A5. repeat split; auto.
      * cbn [map snd shown flat_map f_type f_name f_doc f_labels f_unit f_samples]. rewrite map_app. cbn [map]. rewrite <- app_assoc. cbn [app].
        unfold put. rewrite A1, A2, A3, A4, A5. apply Permutation_sym, Permutation_middle.
      * cbn. intuition.
    + split; [|split].
      * constructor; [cbn; repeat split; auto|exact I1].
      * cbn [map snd shown flat_map]. fold (shown (map snd (add_sample id new v l))). fold (shown (map snd l)). rewrite I2. apply Permutation_sym, Permutation_middle.
      * intros x. cbn [map fst In]. rewrite I3. intuition.
Qed.

Lemma add_sample_nodup id new v l : NoDup (map fst l) -> NoDup (map fst (add_sample id new v l)).
Proof.
  induction l as [|[id' f] l IH]; cbn [add_sample map fst]; intros N; [repeat constructor; intros []|]. inversion N as [|? ? N1 N2]; subst.
  destruct (String.eqb_spec id' id) as [->|D]; cbn [map fst]; constructor; auto.
  intros H. apply N1. clear -H D. induction l as [|[i g] l IH]; cbn [add_sample map fst In] in *; [destruct H as [H|[]]; congruence|].
  destruct (String.eqb_spec i id); cbn [map fst In] in H; intuition.
Qed.

Definition good (l : list (string * family)) : Prop := Forall (fun e => fits_family (fst e) (snd e)) l /\ NoDup (map fst l).

Lemma points_spec m t : family_type (mt_kind m) = Some t -> forall ps l, (forall p a, In p ps -> In a (pt_attrs p) -> fst a <> ""%string) -> good l ->
  good (fold_left (add_point m) ps l) /\
  Permutation (shown (map snd (fold_left (add_point m) ps l)))
    (map (fun p => (t, sanitize_full_name (mt_name m), mt_doc m, map (fun a => sanitize_attribute (fst a)) (pt_attrs p), map_unit (mt_unit m), (map snd (pt_attrs p), pt_value p))) ps ++ shown (map snd l)).
Proof.
  intros T. induction ps as [|p ps IH]; intros l N G; [now split|]. cbn [fold_left map app].
  assert (G' : good (add_point m l p) /\ Permutation (shown (map snd (add_point m l p)))
    ((t, sanitize_full_name (mt_name m), mt_doc m, map (fun a => sanitize_attribute (fst a)) (pt_attrs p), map_unit (mt_unit m), (map snd (pt_attrs p), pt_value p)) :: shown (map snd l))).
  { unfold add_point. rewrite T. destruct G as [G1 G2].
    destruct (add_sample_spec (family_id (sanitize_full_name (mt_name m)) (mt_doc m) (label_keys p) (map_unit (mt_unit m)) t)
      (mkFamily t (sanitize_full_name (mt_name m)) (mt_doc m) (label_keys p) (map_unit (mt_unit m)) []) (map snd (pt_attrs p), pt_value p) l G1) as (A & B & _).
    - split; [reflexivity|]. split; [now apply sub_tame|]. split; [|apply unit_tame]. cbn. apply Forall_forall. intros x X. unfold label_keys in X. apply in_map_iff in X as (a & <- & X).
      apply label_good. apply (N p a); [now left|exact X].
    - reflexivity.
    - split; [split; [exact A|now apply add_sample_nodup]|exact B]. }
  destruct G' as [G1 G2]. destruct (IH (add_point m l p) (fun q a I => N q a (or_intror I)) G1) as [I1 I2]. split; [exact I1|].
  rewrite I2, G2. apply Permutation_sym, Permutation_middle.
Qed.

Lemma points_unsupported m : family_type (mt_kind m) = None -> forall ps l, fold_left (add_point m) ps l = l.
Proof. intros T. induction ps as [|p ps IH]; intros l; [reflexivity|]. cbn [fold_left]. unfold add_point at 2. rewrite T. apply IH. Qed.

Lemma type_shown k : family_type k = shown_as k.
Proof. destruct k as [[] []| | |]; reflexivity. Qed.

Theorem translate_spec ms : forall l, named ms -> good l ->
  good (translate l ms) /\ Permutation (shown (map snd (translate l ms))) (handed_over ms ++ shown (map snd l)).
Proof.
  induction ms as [|m ms IH]; intros l N G; [now split|]. unfold translate in *. cbn [fold_left]. unfold handed_over. cbn [flat_map]. fold (handed_over ms).
  assert (N' : named ms) by (intros m' p a I; apply N; now right). rewrite <- (type_shown (mt_kind m)). destruct (family_type (mt_kind m)) as [t|] eqn:T.
  - destruct (points_spec m t T (mt_points m) l (fun p a => N m p a (or_introl eq_refl)) G) as [P1 P2]. destruct (IH _ N' P1) as [I1 I2]. split; [exact I1|].
    rewrite I2, P2. rewrite !app_assoc. apply Permutation_app_tail, Permutation_app_comm.
  - rewrite (points_unsupported m T). cbn [app]. now apply IH.
Qed.

Lemma good_nil : good [].
Proof. split; constructor. Qed.

(** ** Buckets *)

Lemma buckets_spec : forall counts bounds total i b n, nth_error (convert_buckets total bounds counts) i = Some (b, n) ->
  n = total + sumz (firstn (S i) counts) /\ nth_error (bounds ++ ["+Inf"%string]) i = Some b.
Proof.
  induction counts as [|x counts IH]; intros bounds total i b n; [intros H; destruct i; cbn in H; discriminate H|]. cbn [convert_buckets]. destruct bounds as [|c bounds].
  - destruct i as [|i]; [|intros H; destruct i; cbn in H; discriminate H]. cbn. intros [= <- <-]. split; [lia|reflexivity].
  - destruct i as [|i]; cbn [nth_error app].
    + intros [= <- <-]. split; [cbn; lia|reflexivity].
    + intros H. apply IH in H as [-> H]. split; [cbn [firstn sumz]; destruct counts; cbn; lia|exact H].
Qed.
Lemma buckets_length : forall counts bounds total, length counts = S (length bounds) -> length (convert_buckets total bounds counts) = length counts.
Proof.
  induction counts as [|x counts IH]; intros bounds total L; [discriminate|]. cbn [convert_buckets]. destruct bounds as [|b bounds]; cbn in *; [destruct counts; [reflexivity|discriminate]|].
  rewrite IH; [reflexivity|]. lia.
Qed.
