(** C36: scattering an agenda. *)
From Verif Require Import Base Agenda.

(** ** Specification *)
(** The offsets drawn for a jitter of [j]. *)
Definition offsets (j : Z) (n : nat) (os : list Z) : Prop := length os = n /\ Forall (fun o => - j <= o <= j) os.
(** The [i]-th (from 0) of [n] evenly spaced points of the window, times n-1. *)
Definition ideal (start over : Z) (i : Z) (n : nat) : Z := start * (Z.of_nat n - 1) + over * i.
(** What an entry asks for, as far as it does not depend on the registry. *)
Definition asked (e : entry) (a : added) : Prop := a_args a = e_args e /\ a_key a = e_key e.
Definition placed (x : result * list added * registry) : list added := snd (fst x).
Definition outcome (x : result * list added * registry) : result := fst (fst x).
Definition after (x : result * list added * registry) : registry := snd x.
Definition when_ (l : list added) (i : nat) : option Z := option_map a_when (nth_error l i).

(** ** Proofs *)
Lemma div_round_near a b : 0 < b -> 2 * Z.abs (b * div_round a b - a) <= b.
Proof.
  intros H. unfold div_round. pose proof (Z.div_mod a b ltac:(lia)) as E. pose proof (Z.mod_pos_bound a b H) as M.
  set (q := a / b) in *. set (r := a mod b) in *. clearbody q r.
  destruct ((b <? 2 * r) || ((2 * r =? b) && Z.odd q)) eqn:C; nia.
Qed.
Lemma div_round_exact a b : 0 < b -> (b | a) -> b * div_round a b = a.
Proof.
  intros H [q ->]. unfold div_round. rewrite Z.mod_mul, Z.div_mul by lia. replace (b <? 2 * 0) with false by lia. replace (2 * 0 =? b) with false by lia. cbn [orb andb]. lia.
Qed.
Lemma div_round_nonneg a b : 0 < b -> 0 <= a -> 0 <= div_round a b.
Proof.
  intros H Ha. unfold div_round. pose proof (Z.div_pos a b Ha H). destruct (_ || _); lia.
Qed.

Lemma range_length i n : length (range i n) = n.
Proof. revert i; induction n as [|n IH]; intros i; simpl; auto. Qed.
Lemma range_nth n : forall i k, (k < n)%nat -> nth_error (range i n) k = Some (i + Z.of_nat k).
Proof.
  induction n as [|n IH]; intros i k H; [lia|]. destruct k as [|k]; cbn [range nth_error]; [f_equal; lia|]. rewrite IH by lia. f_equal. lia.
Qed.
Lemma even_length n start over : n <> 0%nat -> length (even_times n start over) = n.
Proof. intros H. destruct n as [|[|n]]; [contradiction|reflexivity|]. unfold even_times. rewrite map_length. apply range_length. Qed.
Lemma even_nth n start over k : (k < n)%nat -> n <> 1%nat -> nth_error (even_times n start over) k = Some (start + div_round over (Z.of_nat n - 1) * Z.of_nat k).
Proof.
  intros H N. destruct n as [|[|n]]; [lia|contradiction|]. unfold even_times. rewrite nth_error_map, range_nth by exact H. reflexivity.
Qed.
Lemma even_from n start over : 0 < over -> Forall (Z.le start) (even_times n start over).
Proof.
  intros H. destruct n as [|[|n]]; [constructor| |].
  - repeat constructor. pose proof (div_round_nonneg over 2 ltac:(lia) ltac:(lia)). lia.
  - apply Forall_forall. intros t I. apply In_nth_error in I. destruct I as [k E].
    assert (K : (k < S (S n))%nat) by (rewrite <- (even_length (S (S n)) start over) by discriminate; apply nth_error_Some; congruence).
    rewrite even_nth in E by (auto; lia). apply (f_equal (fun o => match o with Some x => x | None => 0 end)) in E. cbn beta iota in E. rewrite <- E. pose proof (Z.mul_nonneg_nonneg _ (Z.of_nat k) (div_round_nonneg over (Z.of_nat (S (S n)) - 1) ltac:(lia) ltac:(lia)) ltac:(lia)). lia.
Qed.

Lemma planned_shape l : forall g ps g', planned l g = (Some ps, g') -> Forall2 (fun et p => p_args p = e_args (fst et) /\ p_key p = e_key (fst et) /\ p_when p = snd et) l ps.
Proof.
  induction l as [|[e t] l IH]; intros g ps g'; cbn [planned]; [intros E; injection E as <- _; constructor|].
  destruct (resolve (e_what e) g) as [[f g1]|]; [|discriminate]. destruct (planned l g1) as [[qs|] g2] eqn:P; [|discriminate]. intros E; injection E as <- _.
  constructor; [auto|]. exact (IH _ _ _ P).
Qed.
Lemma add_all_shape ps : forall g r g', add_all ps g = (r, g') -> r = map (fun p => mkAdded (fname (p_func p)) (p_args p) (p_key p) (p_when p)) ps.
Proof.
  induction ps as [|p ps IH]; intros g r g'; cbn [add_all]; [intros E; now injection E as <- _|].
  destruct (add_all ps (register (p_func p) g)) as [q g1] eqn:A. intros E; injection E as <- _. cbn [map]. f_equal. exact (IH _ _ _ A).
Qed.

Definition times (es : list entry) (start over : Z) (jitter : option (list Z)) : list Z := jittered start jitter (even_times (length es) start over).
Lemma scatter_eq es g over start j : es <> [] -> 0 < over -> scatter es g over start j =
  match planned (combine es (times es start over j)) g with (None, g) => (RKeyError, [], g) | (Some ps, g) => let '(r, g) := add_all ps g in (RPlaced, r, g) end.
Proof. intros N H. unfold scatter, times. replace (over <=? 0) with false by lia. destruct es; [contradiction|reflexivity]. Qed.
Lemma scatter_placed es g over start j : es <> [] -> outcome (scatter es g over start j) = RPlaced ->
  exists ps g1 g2, planned (combine es (times es start over j)) g = (Some ps, g1) /\ add_all ps g1 = (placed (scatter es g over start j), g2) /\ after (scatter es g over start j) = g2.
Proof.
  intros N. unfold outcome, placed, after, scatter, times. destruct (over <=? 0); [discriminate|]. destruct es as [|e es]; [contradiction|].
  destruct (planned _ g) as [[ps|] g1]; [|discriminate]. destruct (add_all ps g1) as [r g2] eqn:A. intros _. exists ps, g1, g2. auto.
Qed.
Lemma placed_shape es g over start j : outcome (scatter es g over start j) = RPlaced -> es <> [] ->
  length (times es start over j) = length es ->
  Forall2 asked es (placed (scatter es g over start j)) /\ map a_when (placed (scatter es g over start j)) = times es start over j.
Proof.
  intros O N L. destruct (scatter_placed es g over start j N O) as (ps & g1 & g2 & P & A & _). apply planned_shape in P. apply add_all_shape in A. rewrite A. clear A O.
  revert P L. generalize (times es start over j). intros ts. clear. revert ps ts. induction es as [|e es IH]; intros ps [|t ts] P L; simpl in L; try lia; cbn [combine] in P; inversion P as [|? p ? ps' [P1 [P2 P3]] P']; subst; cbn [map].
  - split; [constructor|reflexivity].
  - destruct (IH _ ts P' ltac:(lia)) as [H1 H2]. split; [constructor; [split; assumption|exact H1]|]. cbn [a_when]. rewrite H2. cbn [snd] in P3. now rewrite P3.
Qed.
Lemma times_length es start over j : match j with None => True | Some os => length os = length es end -> length (times es start over j) = length es.
Proof.
  intros H. unfold times, jittered. destruct es as [|e es].
  - simpl. destruct j as [os|]; [|reflexivity]. reflexivity.
  - destruct j as [os|]; [rewrite map_length, combine_length|]; rewrite even_length by discriminate; [rewrite H; apply Nat.min_id|reflexivity].
Qed.

(** ** C36 *)
(** A window that is not positive is refused and nothing is placed. *)
Theorem C36_window es g over start j : over <= 0 -> scatter es g over start j = (RValueError, [], g).
Proof. intros H. unfold scatter. now replace (over <=? 0) with true by lia. Qed.

(** So is an agenda with a name that is neither registered nor the name of a function of
    the agenda, wherever it stands. *)
Theorem C36_unknown_name es g over start j n : 0 < over -> match j with None => True | Some os => length os = length es end ->
  In (ByName n) (map e_what es) -> find_task g n = None -> (forall f, In (ByFunction f) (map e_what es) -> fname f <> n) ->
  outcome (scatter es g over start j) = RKeyError /\ placed (scatter es g over start j) = [].
Proof.
  intros H J I F NF. destruct es as [|e0 es0] eqn:E0; [destruct I|]. rewrite <- E0 in *.
  assert (X : forall l g, In (ByName n) (map (fun p => e_what (fst p)) l) -> find_task g n = None -> (forall f, In (ByFunction f) (map (fun p : entry * Z => e_what (fst p)) l) -> fname f <> n) -> fst (planned l g) = None).
  { assert (FS : forall m f g, m <> n -> find_task (set_task m f g) n = find_task g n).
    { clear. intros m f g N. induction g as [|[k h] g IH]; cbn [set_task find_task]; [now rewrite eqb_neq_string|].
      destruct (String.eqb_spec k m) as [->|D]; cbn [find_task]; [now rewrite eqb_neq_string|]. now rewrite IH. }
    clear - FS. induction l as [|[e t] l IH]; intros g I F NF; [destruct I|]. cbn [map fst] in I, NF. cbn [planned]. destruct I as [I|I].
    - rewrite I. cbn [resolve]. now rewrite F.
    - destruct (resolve (e_what e) g) as [[f g1]|] eqn:R; [|reflexivity].
      assert (F1 : find_task g1 n = None).
      { destruct (e_what e) as [m|h] eqn:W; cbn [resolve] in R; [destruct (find_task g m); [now injection R as <- <-|discriminate]|].
        injection R as <- <-. destruct (is_value h g); [exact F|]. unfold register. rewrite FS; [exact F|]. apply NF. now left. }
      specialize (IH g1 I F1 (fun f Hf => NF f (or_intror Hf))). destruct (planned l g1) as [ps g2]. cbn [fst] in *. now rewrite IH. }
  assert (M : map (fun p => e_what (fst p)) (combine es (times es start over j)) = map e_what es).
  { pose proof (times_length es start over j J) as L. revert L. generalize (times es start over j). clear. induction es as [|e es IH]; intros [|t ts] L; simpl in L; try lia; [reflexivity|]. cbn [combine map fst]. now rewrite IH by lia. }
  specialize (X (combine es (times es start over j)) g). rewrite M in X. specialize (X I F NF).
  rewrite scatter_eq by (auto; rewrite E0; discriminate).
  destruct (planned (combine es (times es start over j)) g) as [ps g1]. cbn [fst] in X. subst ps. split; reflexivity.
Qed.

(** Otherwise every entry is placed exactly once, in order, with its arguments and key. *)
Theorem C36_each_once es g over start j : match j with None => True | Some os => length os = length es end ->
  outcome (scatter es g over start j) = RPlaced -> Forall2 asked es (placed (scatter es g over start j)).
Proof.
  intros J O. destruct es as [|e es].
  - unfold placed, outcome, scatter in *. destruct (over <=? 0); [discriminate|]. constructor.
  - exact (proj1 (placed_shape (e :: es) g over start j O ltac:(discriminate) (times_length (e :: es) start over j J))).
Qed.

(** Without jitter and with several entries the times are equally spaced from the start,
    each within i/2 microseconds of the ideal point. *)
Theorem C36_even_partial es g over start : (2 <= length es)%nat -> outcome (scatter es g over start None) = RPlaced ->
  exists interval, 0 <= interval /\ forall i, (i < length es)%nat ->
    exists t, when_ (placed (scatter es g over start None)) i = Some t /\ t = start + interval * Z.of_nat i /\
      2 * Z.abs (t * (Z.of_nat (length es) - 1) - ideal start over (Z.of_nat i) (length es)) <= (Z.of_nat (length es) - 1) * Z.of_nat i.
Proof.
  intros L O. assert (N : es <> []) by (destruct es; [simpl in L; lia|discriminate]).
  assert (P : 0 < over) by (unfold outcome, scatter in O; destruct (Z.leb_spec over 0); [discriminate|assumption]).
  destruct (placed_shape es g over start None O N (times_length es start over None I)) as [_ W].
  exists (div_round over (Z.of_nat (length es) - 1)). split; [apply div_round_nonneg; lia|]. intros i Hi.
  exists (start + div_round over (Z.of_nat (length es) - 1) * Z.of_nat i). split; [|split; [reflexivity|]].
  - unfold when_. rewrite <- nth_error_map, W. unfold times, jittered. apply even_nth; lia.
  - unfold ideal. pose proof (div_round_near over (Z.of_nat (length es) - 1) ltac:(lia)) as D.
    set (b := Z.of_nat (length es) - 1) in *. set (q := div_round over b) in *.
    replace ((start + q * Z.of_nat i) * b - (start * b + over * Z.of_nat i)) with ((b * q - over) * Z.of_nat i) by ring.
    rewrite Z.abs_mul, (Z.abs_eq (Z.of_nat i)) by lia. nia.
Qed.
(** If the window divides evenly they are exact, from the start to its end. *)
Theorem C36_exact es g over start : (2 <= length es)%nat -> (Z.of_nat (length es) - 1 | over) -> outcome (scatter es g over start None) = RPlaced ->
  forall i, (i < length es)%nat -> exists t, when_ (placed (scatter es g over start None)) i = Some t /\
    t * (Z.of_nat (length es) - 1) = ideal start over (Z.of_nat i) (length es) /\ start <= t <= start + over.
Proof.
  intros L D O i Hi. assert (N : es <> []) by (destruct es; [simpl in L; lia|discriminate]).
  assert (P : 0 < over) by (unfold outcome, scatter in O; destruct (Z.leb_spec over 0); [discriminate|assumption]).
  destruct (placed_shape es g over start None O N (times_length es start over None I)) as [_ W].
  exists (start + div_round over (Z.of_nat (length es) - 1) * Z.of_nat i). pose proof (div_round_exact over (Z.of_nat (length es) - 1) ltac:(lia) D) as X.
  split; [|split].
  - unfold when_. rewrite <- nth_error_map, W. unfold times, jittered. apply even_nth; lia.
  - unfold ideal. rewrite <- X at 2. ring.
  - pose proof (div_round_nonneg over (Z.of_nat (length es) - 1) ltac:(lia) ltac:(lia)). nia.
Qed.
(** A single entry is placed in the middle of the window. *)
Theorem C36_single e g over start : outcome (scatter [e] g over start None) = RPlaced ->
  exists a, placed (scatter [e] g over start None) = [a] /\ start <= a_when a <= start + over /\ Z.abs (2 * (a_when a - start) - over) <= 1.
Proof.
  intros O. assert (P : 0 < over) by (unfold outcome, scatter in O; destruct (Z.leb_spec over 0); [discriminate|assumption]).
  destruct (placed_shape [e] g over start None O ltac:(discriminate) eq_refl) as [_ W]. unfold times, jittered in W. simpl length in W. cbn [even_times] in W.
  destruct (placed (scatter [e] g over start None)) as [|a [|b r]]; try discriminate. exists a. split; [reflexivity|]. cbn [map] in W. injection W as W. rewrite W.
  pose proof (div_round_near over 2 ltac:(lia)) as D. pose proof (div_round_nonneg over 2 ltac:(lia) ltac:(lia)).
  assert (E : Z.odd over = true \/ (2 | over)) by (destruct (Z.odd over) eqn:Q; [now left|right; apply Z.mod_divide; [lia|]; rewrite Zmod_odd, Q; reflexivity]).
  split; [|lia]. lia.
Qed.
(** With any jitter, none is before the start, and each is the even time moved by at most
    the jitter, or the start. *)
Theorem C36_jitter es g over start j os : offsets j (length es) os -> outcome (scatter es g over start (Some os)) = RPlaced ->
  Forall2 (fun t a => start <= a_when a /\ (Z.abs (a_when a - t) <= j \/ a_when a = start)) (even_times (length es) start over) (placed (scatter es g over start (Some os))) \/ es = [].
Proof.
  intros [L B] O. destruct es as [|e es]; [now right|]. left.
  destruct (placed_shape (e :: es) g over start (Some os) O ltac:(discriminate) (times_length (e :: es) start over (Some os) L)) as [_ W].
  unfold times, jittered in W. assert (EL : length (even_times (length (e :: es)) start over) = length os) by (rewrite L; apply even_length; discriminate).
  revert W EL. generalize (even_times (length (e :: es)) start over) (placed (scatter (e :: es) g over start (Some os))). clear - B. intros ts r.
  revert os B r. induction ts as [|t ts IH]; intros [|o os] B r W EL; simpl in EL; try lia; cbn [combine map] in W.
  - destruct r; [constructor|discriminate].
  - destruct r as [|a r]; cbn [map] in W; [discriminate|]. injection W as W1 W2. inversion B as [|? ? Bo Bs]; subst. cbn [fst snd] in W1.
    constructor; [|apply (IH os); auto; lia]. lia.
Qed.
(** Without jitter none is before the start either. *)
Theorem C36_not_before es g over start : outcome (scatter es g over start None) = RPlaced -> Forall (fun a => start <= a_when a) (placed (scatter es g over start None)).
Proof.
  intros O. assert (P : 0 < over) by (unfold outcome, scatter in O; destruct (Z.leb_spec over 0); [discriminate|assumption]). destruct es as [|e es].
  - unfold placed, scatter. destruct (over <=? 0); constructor.
  - destruct (placed_shape (e :: es) g over start None O ltac:(discriminate) (times_length (e :: es) start over None I)) as [_ W]. unfold times, jittered in W.
    pose proof (even_from (length (e :: es)) start over P) as F. rewrite <- W in F. rewrite Forall_forall in *. intros a Ha. apply F. now apply in_map.
Qed.

Definition noop : func := mkFunc 1 "noop".
Definition seven : list entry := repeat (mkEntry (ByFunction noop) 0 None) 7.
(** Seven entries over one second: the last is two microseconds after its end. *)
Theorem C36_after_end_refuted : exists es g over start, outcome (scatter es g over start None) = RPlaced /\ Exists (fun a => start + over < a_when a) (placed (scatter es g over start None)).
Proof.
  exists seven, [], 1000000, 0. split; [vm_compute; reflexivity|]. apply Exists_exists. exists (mkAdded "noop" 0 None 1000002). split; [vm_compute; tauto|]. simpl. lia.
Qed.

(** ** Which functions will run *)
(** Different functions of the registry and the agenda have different __name__s, and every
    registered name is that of its function. *)
Definition functions (es : list entry) (g : registry) : func -> Prop := fun f => In f (map snd g) \/ In (ByFunction f) (map e_what es).
Definition own_names (es : list entry) (g : registry) : Prop :=
  (forall f h, functions es g f -> functions es g h -> fname f = fname h -> f = h) /\ (forall n f, In (n, f) g -> n = fname f).

Lemma find_In g n f : find_task g n = Some f -> In (n, f) g.
Proof. induction g as [|[m h] g IH]; cbn [find_task]; [discriminate|]. destruct (String.eqb_spec m n) as [->|]; [intros E; injection E as ->; now left|right; auto]. Qed.
Lemma set_In n f g m h : In (m, h) (set_task n f g) -> (m, h) = (n, f) \/ In (m, h) g.
Proof.
  induction g as [|[k x] g IH]; cbn [set_task]; [intros [E|[]]; auto|]. destruct (String.eqb_spec k n) as [->|].
  - intros [E|I]; [left; congruence|right; now right].
  - intros [E|I]; [right; now left|]. destruct (IH I); [now left|right; now right].
Qed.
Lemma set_find n f g : find_task (set_task n f g) n = Some f.
Proof.
  induction g as [|[k x] g IH]; cbn [set_task find_task]; [now rewrite String.eqb_refl|].
  destruct (String.eqb_spec k n) as [->|]; cbn [find_task]; [now rewrite String.eqb_refl|]. now rewrite eqb_neq_string.
Qed.
Lemma set_find_other n f g m : m <> n -> find_task (set_task n f g) m = find_task g m.
Proof.
  intros N. induction g as [|[k x] g IH]; cbn [set_task find_task]; [now rewrite eqb_neq_string by congruence|].
  destruct (String.eqb_spec k n) as [->|]; cbn [find_task]; [now rewrite eqb_neq_string by congruence|]. now rewrite IH.
Qed.

(** A registry whose names are those of functions in [F]. *)
Definition good (F : func -> Prop) (g : registry) : Prop := forall n f, In (n, f) g -> n = fname f /\ F f.
Lemma good_register (F : func -> Prop) f g : F f -> good F g -> good F (register f g).
Proof. intros Hf G n h I. apply set_In in I. destruct I as [E|I]; [injection E as -> ->; auto|auto]. Qed.

Lemma planned_means (F : func -> Prop) l : forall g ps g', good F g -> (forall f, In (ByFunction f) (map (fun p : entry * Z => e_what (fst p)) l) -> F f) -> planned l g = (Some ps, g') ->
  good F g' /\ Forall2 (fun et p => F (p_func p) /\ match e_what (fst et) with ByFunction h => p_func p = h | ByName n => fname (p_func p) = n end) l ps.
Proof.
  induction l as [|[e t] l IH]; intros g ps g' G H; cbn [planned]; [intros E; injection E as <- <-; split; [exact G|constructor]|].
  cbn [map fst] in H. destruct (resolve (e_what e) g) as [[f g1]|] eqn:R; [|discriminate]. destruct (planned l g1) as [[qs|] g2] eqn:P; [|discriminate]. intros E; injection E as <- <-.
  assert (X : good F g1 /\ F f /\ match e_what e with ByFunction h => f = h | ByName n => fname f = n end).
  { destruct (e_what e) as [n|h] eqn:W; cbn [resolve] in R.
    - destruct (find_task g n) as [k|] eqn:Q; [|discriminate]. injection R as <- <-. apply find_In in Q. destruct (G _ _ Q). auto.
    - injection R as <- <-. assert (Fh : F h) by (apply H; now left). split; [|auto]. destruct (is_value h g); [exact G|now apply good_register]. }
  destruct X as (G1 & Ff & M). destruct (IH _ _ _ G1 (fun k Hk => H k (or_intror Hk)) P) as [G2 Q]. split; [exact G2|]. constructor; [|exact Q]. cbn [fst p_func]. auto.
Qed.
Lemma add_all_find (F : func -> Prop) ps : (forall f h, F f -> F h -> fname f = fname h -> f = h) -> forall g r g', (forall p, In p ps -> F (p_func p)) -> add_all ps g = (r, g') ->
  (forall f, F f -> find_task g (fname f) = Some f -> find_task g' (fname f) = Some f) /\ forall p, In p ps -> find_task g' (fname (p_func p)) = Some (p_func p).
Proof.
  intros U. induction ps as [|p ps IH]; intros g r g' H; cbn [add_all]; [intros E; injection E as <- <-; split; [auto|intros ? []]|].
  destruct (add_all ps (register (p_func p) g)) as [q g1] eqn:A. intros E; injection E as <- <-. destruct (IH _ _ _ (fun x Hx => H x (or_intror Hx)) A) as [I1 I2].
  assert (Fp : F (p_func p)) by (apply H; now left). split.
  - intros f Ff E. apply I1; [exact Ff|]. destruct (string_dec (fname f) (fname (p_func p))) as [Q|Q].
    + rewrite (U _ _ Ff Fp Q). apply set_find.
    + unfold register. now rewrite set_find_other.
  - intros x [<-|Hx]; [|now apply I2]. apply I1; [exact Fp|]. apply set_find.
Qed.

(** Then every message placed names, in the registry that scatter leaves, the function its
    entry asked for. *)
Theorem C36_functions es g over start j : match j with None => True | Some os => length os = length es end -> own_names es g ->
  outcome (scatter es g over start j) = RPlaced ->
  Forall2 (fun e a => exists f, find_task (after (scatter es g over start j)) (a_name a) = Some f /\ match e_what e with ByFunction h => f = h | ByName n => fname f = n end)
    es (placed (scatter es g over start j)).
Proof.
  intros J (U & N) O. destruct es as [|e0 es0] eqn:E0.
  - unfold placed, outcome, scatter in *. destruct (over <=? 0); [discriminate|]. constructor.
  - rewrite <- E0 in *. destruct (scatter_placed es g over start j ltac:(rewrite E0; discriminate) O) as (ps & g1 & g2 & P & A & ->).
    set (F := functions es g) in *. pose proof (times_length es start over j J) as L.
    assert (M : forall ts, length ts = length es -> map (fun p : entry * Z => e_what (fst p)) (combine es ts) = map e_what es).
    { clear. induction es as [|e es IH]; intros [|t ts] L; simpl in L; try lia; [reflexivity|]. cbn [combine map fst]. now rewrite IH by lia. }
    destruct (planned_means F _ _ _ _ (fun n f I => conj (N n f I) (or_introl (in_map snd _ _ I))) ltac:(rewrite (M _ L); intros f I; now right) P) as [G1 Q].
    assert (Fp : forall p, In p ps -> F (p_func p)).
    { intros p Hp. clear - Q Hp. induction Q as [|et q l qs [Hq _] _ IH]; [destruct Hp|]. destruct Hp as [<-|Hp]; auto. }
    destruct (add_all_find F ps U _ _ _ Fp A) as [_ X]. apply add_all_shape in A. rewrite A. clearbody F. clear - Q X L. revert Q L X. generalize (times es start over j). intros ts. revert es ps. 
    induction ts as [|t ts IH]; intros [|e es] ps Q L X; simpl in L; try lia; cbn [combine] in Q; inversion Q as [|? p ? ps' [_ Hp] Q']; subst; [constructor|].
    cbn [map]. constructor; [exists (p_func p); split; [apply X; now left|exact Hp]|]. apply (IH es ps' Q' ltac:(lia)). intros x Hx. apply X. now right.
Qed.

(** Two functions called "f", registered under names of their own: an agenda that asks for
    both by those names makes both messages name the second. *)
Definition f1 : func := mkFunc 1 "f".
Definition f2 : func := mkFunc 2 "f".
Theorem C36_functions_refuted : exists es g over start f h, find_task g "first" = Some f /\ find_task g "second" = Some h /\ fid f <> fid h /\
  map e_what es = [ByName "first"; ByName "second"]%string /\
  map (fun a => find_task (after (scatter es g over start None)) (a_name a)) (placed (scatter es g over start None)) = [Some h; Some h].
Proof.
  exists [mkEntry (ByName "first") 0 None; mkEntry (ByName "second") 0 None], [("first"%string, f1); ("second"%string, f2)], 1000000, 0, f1, f2.
  repeat split; try (vm_compute; reflexivity). discriminate.
Qed.

(** ** Example *)
Definition g0 : registry := [("a"%string, mkFunc 3 "a"); ("b"%string, mkFunc 4 "b")].
Definition es0 : list entry := [mkEntry (ByName "b") 7 (Some "k"%string); mkEntry (ByFunction noop) 8 None; mkEntry (ByName "noop") 9 None; mkEntry (ByName "a") 10 None].
Example C36_example : own_names es0 g0 /\
  scatter es0 g0 3000000 50 None = (RPlaced, [mkAdded "b" 7 (Some "k") 50; mkAdded "noop" 8 None 1000050; mkAdded "noop" 9 None 2000050; mkAdded "a" 10 None 3000050]%string, g0 ++ [("noop"%string, noop)]) /\
  map a_when (placed (scatter es0 g0 3000000 50 (Some [-9; -9; 9; 4]))) = [50; 1000041; 2000059; 3000054].
Proof.
  split; [|split; vm_compute; reflexivity]. assert (X : forall f, functions es0 g0 f -> f = mkFunc 3 "a" \/ f = mkFunc 4 "b" \/ f = noop).
  { intros f [I|I]; simpl in I; repeat (destruct I as [I|I]; [try discriminate; try (injection I as <-); auto|]); destruct I. }
  split.
  - intros f h Hf Hh E. destruct (X f Hf) as [->|[->| ->]], (X h Hh) as [->|[->| ->]]; auto; discriminate.
  - intros n f [E|[E|[]]]; injection E as <- <-; reflexivity.
Qed.

Print Assumptions C36_each_once.
Print Assumptions C36_even_partial.
Print Assumptions C36_functions.

(** ** Which names are known *)
(** [f] stands in the registry, under whatever name. *)
Definition stands (f : func) (g : registry) : Prop := exists n h, In (n, h) g /\ fid h = fid f.
(** Every name of the agenda is registered, or is that of a function that stands earlier in the
    agenda and was not in the registry. *)
Definition names_known (ws : list what) (g : registry) : Prop :=
  forall a n b, ws = a ++ ByName n :: b ->
    find_task g n <> None \/ exists f, In (ByFunction f) a /\ fname f = n /\ ~ stands f g.

Lemma is_value_iff f g : is_value f g = true <-> stands f g.
Proof.
  unfold is_value, stands. rewrite existsb_exists. split.
  - intros ([n h] & I & E). cbn in E. exists n, h. split; [exact I|lia].
  - intros (n & h & I & E). exists (n, h). split; [exact I|cbn; lia].
Qed.

Lemma planned_known l : forall g, (forall f h, In (ByFunction f) (map (fun p : entry * Z => e_what (fst p)) l) -> In (ByFunction h) (map (fun p : entry * Z => e_what (fst p)) l) -> fid f = fid h -> f = h) ->
  names_known (map (fun p => e_what (fst p)) l) g -> fst (planned l g) <> None.
Proof.
  induction l as [|[e t] l IH]; intros g U K; [discriminate|]. cbn [planned]. cbn [map fst] in U, K.
  assert (R : exists f g1, resolve (e_what e) g = Some (f, g1) /\ names_known (map (fun p => e_what (fst p)) l) g1).
  { destruct (e_what e) as [n|h] eqn:W; cbn [resolve].
    - destruct (K [] n (map (fun p => e_what (fst p)) l) eq_refl) as [F|(f & [] & _)]. destruct (find_task g n) as [f|] eqn:E; [|congruence].
      exists f, g. split; [reflexivity|]. intros a m b Eq. destruct (K (ByName n :: a) m b) as [F'|(f' & [I|I] & X)]; [cbn; now rewrite Eq|now left|discriminate|right; eauto].
    - exists h. eexists. split; [reflexivity|]. intros a m b Eq.
      destruct (K (ByFunction h :: a) m b) as [F|(f & I & Nm & Ns)]; [cbn; now rewrite Eq| |].
      + left. destruct (is_value h g); [exact F|]. unfold register. destruct (String.eqb_spec m (fname h)) as [->|D]; [rewrite set_find; discriminate|]. now rewrite set_find_other.
      + destruct (is_value h g) eqn:V.
        * apply is_value_iff in V. destruct I as [I|I]; [injection I as ->; contradiction|]. right. eauto.
        * assert (Fh : f = h \/ (In (ByFunction f) a /\ fid f <> fid h)).
          { destruct I as [I|I]; [injection I as ->; now left|]. destruct (Z.eq_dec (fid f) (fid h)) as [D|D]; [left|right; auto].
            apply U; [|now left|exact D]. right. rewrite Eq. apply in_app_iff. now left. }
          destruct Fh as [->|[I' D]]; [left; unfold register; rewrite Nm, set_find; discriminate|]. right. exists f. split; [exact I'|]. split; [exact Nm|].
          intros (n' & h' & I1 & E1). apply set_In in I1 as [I1|I1]; [injection I1 as -> ->; congruence|]. apply Ns. now exists n', h'. }
  destruct R as (f & g1 & -> & K1). assert (X := IH g1 (fun f h A B => U f h (or_intror A) (or_intror B)) K1).
  destruct (planned l g1) as [[ps|] g2]; [discriminate|exact X].
Qed.

(** An agenda all of whose names are known is placed; scatter registers the functions of the
    agenda as it goes, so that later entries may call them by name. *)
Theorem C36_known_names es g over start j : 0 < over -> match j with None => True | Some os => length os = length es end ->
  (forall f h, In (ByFunction f) (map e_what es) -> In (ByFunction h) (map e_what es) -> fid f = fid h -> f = h) ->
  names_known (map e_what es) g -> outcome (scatter es g over start j) = RPlaced.
Proof.
  intros H J U K. destruct es as [|e0 es0] eqn:E0; [unfold outcome, scatter; now replace (over <=? 0) with false by lia|]. rewrite <- E0 in *.
  assert (M : map (fun p => e_what (fst p)) (combine es (times es start over j)) = map e_what es).
  { pose proof (times_length es start over j J) as L. revert L. generalize (times es start over j). clear. induction es as [|e es IH]; intros [|t ts] L; simpl in L; try lia; [reflexivity|]. cbn [combine map fst]. now rewrite IH by lia. }
  assert (X := planned_known (combine es (times es start over j)) g). rewrite M in X. specialize (X U K).
  rewrite scatter_eq by (auto; rewrite E0; discriminate).
  destruct (planned (combine es (times es start over j)) g) as [[ps|] g1]; [|now destruct X]. destruct (add_all ps g1). reflexivity.
Qed.
Print Assumptions C36_known_names.

(** A function, then its name, with an empty registry: both are placed; but a function that is
    registered under another name does not make its own name known. *)
Example C36_known_case :
  names_known (map e_what [mkEntry (ByFunction noop) 0 None; mkEntry (ByName "noop") 1 None]) [] /\
  outcome (scatter [mkEntry (ByFunction noop) 0 None; mkEntry (ByName "noop") 1 None] [] 10 0 None) = RPlaced /\
  outcome (scatter [mkEntry (ByFunction noop) 0 None; mkEntry (ByName "noop") 1 None] [("alias"%string, noop)] 10 0 None) = RKeyError.
Proof.
  split; [|split; vm_compute; reflexivity]. intros a n b E. right. exists noop.
  destruct a as [|w a]; [discriminate|]. injection E as <- E. split; [now left|]. split; [|intros (m & h & [] & _)].
  destruct a as [|w a]; [injection E as <- _; reflexivity|]. injection E as <- E. destruct a; discriminate.
Qed.
