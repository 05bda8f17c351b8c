(** C37: generated keys. *)
From Coq Require Import Sorted.
From Verif Require Import Base Uuid7.

(** ** Specification *)
(** A clock reading between 1970 and the year 4147, and six random bytes. *)
Definition sensible (c : Z * Z) : Prop := 0 <= fst c < 2 ^ 32 * sixteen_secs /\ 0 <= snd c < 2 ^ 48.
(** The tick of a reading: units of 2^-24 s. *)
Definition tick (ns : Z) : Z := ns * 2 ^ 24 / 1000000000.
Definition in_tick (t : Z) (l : list (Z * Z)) : Z := Z.of_nat (length (filter (fun c => tick (fst c) =? t) l)).
(** The clock never goes back, and no tick sees more than 2^14 calls. *)
Definition never_back (l : list (Z * Z)) : Prop := StronglySorted Z.le (map fst l).
Definition unhurried (l : list (Z * Z)) : Prop := forall t, in_tick t l <= 2 ^ 14.
(** Bits of a 128-bit number, numbered from the lowest. *)
Definition bits (u lo n : Z) : Z := u / 2 ^ lo mod 2 ^ n.

(** ** Proofs *)
Lemma lor_add a b k : 0 <= k -> 0 <= a < 2 ^ k -> Z.lor a (Z.shiftl b k) = a + b * 2 ^ k.
Proof.
  intros Hk Ha. rewrite <- Z.shiftl_mul_pow2 by exact Hk. assert (L : Z.land a (Z.shiftl b k) = 0).
  { apply Z.bits_inj'. intros n Hn. rewrite Z.land_spec, Z.bits_0. destruct (Z.lt_ge_cases n k) as [H|H].
    - rewrite Z.shiftl_spec_low by exact H. apply andb_false_r.
    - replace (Z.testbit a n) with false; [reflexivity|]. symmetry. destruct (Z.eq_dec a 0) as [->|Na]; [apply Z.bits_0|]. apply Z.bits_above_log2; [lia|].
      apply Z.lt_le_trans with k; [|exact H]. apply Z.log2_lt_pow2; lia. }
  rewrite <- Z.lxor_lor by exact L. symmetry. apply Z.add_nocarry_lxor. exact L.
Qed.

Definition d1 (ns : Z) := ns / sixteen_secs.
Definition d2 (ns : Z) := Z.shiftl (ns mod sixteen_secs) 16 / sixteen_secs.
Definition d3 (ns : Z) := Z.shiftl (Z.shiftl (ns mod sixteen_secs) 16 mod sixteen_secs) 12 / sixteen_secs.

Lemma digit_range x k : 0 <= k -> 0 <= x < sixteen_secs -> 0 <= Z.shiftl x k / sixteen_secs < 2 ^ k.
Proof.
  intros Hk H. rewrite Z.shiftl_mul_pow2 by exact Hk. assert (0 < 2 ^ k) by (apply Z.pow_pos_nonneg; lia). assert (P : 0 < sixteen_secs) by reflexivity. split.
  - apply Z.div_pos; [apply Z.mul_nonneg_nonneg; lia|exact P].
  - apply Z.div_lt_upper_bound; [exact P|]. nia.
Qed.
Lemma rest_range x : 0 <= x mod sixteen_secs < sixteen_secs.
Proof. apply Z.mod_pos_bound. reflexivity. Qed.
Lemma d2_range ns : 0 <= d2 ns < 2 ^ 16.
Proof. apply digit_range; [lia|apply rest_range]. Qed.
Lemma d3_range ns : 0 <= d3 ns < 2 ^ 12.
Proof. apply digit_range; [lia|apply rest_range]. Qed.

Lemma tick_digits ns : tick ns = d1 ns * 2 ^ 28 + d2 ns * 2 ^ 12 + d3 ns.
Proof.
  unfold tick, d1, d2, d3. assert (P : 0 < sixteen_secs) by reflexivity.
  pose proof (Z.div_mod ns sixteen_secs ltac:(lia)) as E1. pose proof (rest_range ns) as R1. set (q1 := ns / sixteen_secs) in *. set (r1 := ns mod sixteen_secs) in *.
  rewrite !Z.shiftl_mul_pow2 by lia.
  pose proof (Z.div_mod (r1 * 2 ^ 16) sixteen_secs ltac:(lia)) as E2. pose proof (rest_range (r1 * 2 ^ 16)) as R2. set (q2 := r1 * 2 ^ 16 / sixteen_secs) in *. set (r2 := (r1 * 2 ^ 16) mod sixteen_secs) in *.
  pose proof (Z.div_mod (r2 * 2 ^ 12) sixteen_secs ltac:(lia)) as E3. pose proof (rest_range (r2 * 2 ^ 12)) as R3. set (q3 := r2 * 2 ^ 12 / sixteen_secs) in *. set (r3 := (r2 * 2 ^ 12) mod sixteen_secs) in *.
  clearbody q1 r1 q2 r2 q3 r3. symmetry. unfold sixteen_secs in *.
  apply (Z.div_unique_pos _ _ _ (r3 / 16 + (r3 mod 16) / 16 + (ns * 2 ^ 24 - 1000000000 * (q1 * 2 ^ 28 + q2 * 2 ^ 12 + q3) - r3 / 16))).
  - pose proof (Z.mod_pos_bound r3 16 ltac:(lia)) as M. rewrite (Z.div_small (r3 mod 16) 16) by lia. lia.
  - pose proof (Z.mod_pos_bound r3 16 ltac:(lia)) as M. rewrite (Z.div_small (r3 mod 16) 16) by lia. lia.
Qed.

(** The key of tick [t], sequence number [s] and random number [r]. *)
Definition layout (t s r : Z) : Z := (t / 2 ^ 12) * 2 ^ 80 + (7 * 2 ^ 12 + t mod 2 ^ 12) * 2 ^ 64 + (2 ^ 15 + s) * 2 ^ 48 + r.

Lemma tick_high ns : tick ns / 2 ^ 12 = d1 ns * 2 ^ 16 + d2 ns /\ tick ns mod 2 ^ 12 = d3 ns.
Proof.
  rewrite tick_digits. pose proof (d3_range ns). split.
  - symmetry. apply (Z.div_unique_pos _ _ _ (d3 ns)); lia.
  - symmetry. apply (Z.mod_unique_pos _ _ (d1 ns * 2 ^ 16 + d2 ns)); lia.
Qed.

Definition same (st : last) (ns : Z) : bool := (d1 ns =? l_t1 st) && (d2 ns =? l_t2 st) && (7 * 2 ^ 12 + d3 ns =? l_t3 st).
Definition next (st : last) (ns : Z) : last :=
  if same st ns then if l_seq st <? 16383 then mkLast (l_t1 st) (l_t2 st) (l_t3 st) (l_seq st + 1) else st
  else mkLast (d1 ns) (d2 ns) (7 * 2 ^ 12 + d3 ns) 0.
Definition seq_ok (st : last) : Prop := 0 <= l_seq st < 2 ^ 14.
Lemma next_seq st ns : seq_ok st -> seq_ok (next st ns).
Proof. unfold seq_ok, next. intros H. destruct (same st ns); [destruct (l_seq st <? 16383) eqn:E|]; cbn [l_seq]; lia. Qed.

Lemma uuid7_shape st ns r : seq_ok st -> uuid7 st ns r = (layout (tick ns) (l_seq (next st ns)) r, next st ns).
Proof.
  intros H. pose proof (next_seq st ns H) as H'. unfold uuid7.
  fold (d1 ns) (d2 ns) (d3 ns). pose proof (d2_range ns) as R2. pose proof (d3_range ns) as R3.
  rewrite (lor_add (d3 ns) 7 12) by lia. rewrite (Z.add_comm (d3 ns)). fold (same st ns). fold (next st ns).
  f_equal. rewrite Z.lor_comm, (lor_add _ 2 14) by (try lia; exact H'). unfold layout. destruct (tick_high ns) as [-> ->].
  rewrite !Z.shiftl_mul_pow2 by lia. lia.
Qed.

Lemma layout_less t s r t' s' r' : 0 <= s < 2 ^ 14 -> 0 <= s' < 2 ^ 14 -> 0 <= r < 2 ^ 48 -> 0 <= r' < 2 ^ 48 ->
  t < t' \/ (t = t' /\ s < s') -> layout t s r < layout t' s' r'.
Proof.
  intros Hs Hs' Hr Hr' L. unfold layout.
  pose proof (Z.div_mod t (2 ^ 12) ltac:(lia)) as E. pose proof (Z.mod_pos_bound t (2 ^ 12) ltac:(lia)) as M.
  pose proof (Z.div_mod t' (2 ^ 12) ltac:(lia)) as E'. pose proof (Z.mod_pos_bound t' (2 ^ 12) ltac:(lia)) as M'.
  set (q := t / 2 ^ 12) in *. set (m := t mod 2 ^ 12) in *. set (q' := t' / 2 ^ 12) in *. set (m' := t' mod 2 ^ 12) in *. clearbody q m q' m'. 
  destruct L as [L|[-> L]].
  - assert (X : q < q' \/ (q = q' /\ m < m')) by lia. destruct X as [X|[-> X]]; lia.
  - assert (q = q' /\ m = m') as [-> ->] by lia. lia.
Qed.

Lemma layout_bits t s r : 0 <= t < 2 ^ 60 -> 0 <= s < 2 ^ 14 -> 0 <= r < 2 ^ 48 ->
  0 <= layout t s r < 2 ^ 128 /\ bits (layout t s r) 76 4 = 7 /\ bits (layout t s r) 62 2 = 2 /\ layout t s r / 2 ^ 80 = t / 2 ^ 12.
Proof.
  intros Ht Hs Hr. unfold layout, bits.
  pose proof (Z.div_mod t (2 ^ 12) ltac:(lia)) as E. pose proof (Z.mod_pos_bound t (2 ^ 12) ltac:(lia)) as M.
  set (q := t / 2 ^ 12) in *. set (m := t mod 2 ^ 12) in *. clearbody q m. assert (Q : 0 <= q < 2 ^ 48) by lia.
  split; [lia|]. split; [|split].
  - replace (_ / 2 ^ 76) with (q * 2 ^ 4 + 7).
    + rewrite Z.add_comm, Z_mod_plus_full. reflexivity.
    + apply (Z.div_unique_pos _ _ _ (m * 2 ^ 64 + (2 ^ 15 + s) * 2 ^ 48 + r)); lia.
  - replace (_ / 2 ^ 62) with ((q * 2 ^ 16 + (7 * 2 ^ 12 + m)) * 2 ^ 2 + 2).
    + rewrite Z.add_comm, Z_mod_plus_full. reflexivity.
    + apply (Z.div_unique_pos _ _ _ (s * 2 ^ 48 + r)); lia.
  - symmetry. apply (Z.div_unique_pos _ _ _ ((7 * 2 ^ 12 + m) * 2 ^ 64 + (2 ^ 15 + s) * 2 ^ 48 + r)); lia.
Qed.

Lemma tick_range ns : 0 <= ns < 2 ^ 32 * sixteen_secs -> 0 <= tick ns < 2 ^ 60.
Proof.
  intros H. unfold tick, sixteen_secs in *. split; [apply Z.div_pos; lia|apply Z.div_lt_upper_bound; lia].
Qed.
Lemma tick_mono a b : a <= b -> tick a <= tick b.
Proof. intros H. unfold tick. apply Z.div_le_mono; lia. Qed.

(** [st] is the state after a call in tick [t]. *)
Definition at_tick (st : last) (t : Z) : Prop := forall ns, same st ns = true <-> tick ns = t.
Lemma tick_inj a b : tick a = tick b -> d1 a = d1 b /\ d2 a = d2 b /\ d3 a = d3 b.
Proof. rewrite !tick_digits. pose proof (d2_range a). pose proof (d2_range b). pose proof (d3_range a). pose proof (d3_range b). lia. Qed.
Lemma same_fresh ns s : at_tick (mkLast (d1 ns) (d2 ns) (7 * 2 ^ 12 + d3 ns) s) (tick ns).
Proof.
  intros ns'. unfold same. cbn [l_t1 l_t2 l_t3]. rewrite !andb_true_iff, !Z.eqb_eq. split.
  - intros [[A B] C]. rewrite !tick_digits. lia.
  - intros E. apply tick_inj in E. lia.
Qed.
Lemma same_start ns : same start ns = false.
Proof.
  unfold same, start. cbn [l_t1 l_t2 l_t3]. pose proof (d3_range ns). replace (7 * 2 ^ 12 + d3 ns =? 0) with false by lia. apply andb_false_r.
Qed.

Lemma in_tick_cons t c l : in_tick t (c :: l) = (if tick (fst c) =? t then 1 else 0) + in_tick t l.
Proof. unfold in_tick. cbn [filter]. destruct (tick (fst c) =? t); [cbn [length]; lia|lia]. Qed.

Lemma keys_sorted : forall l st t, at_tick st t -> seq_ok st -> Forall sensible l -> never_back l ->
  Forall (fun c => t <= tick (fst c)) l -> l_seq st + in_tick t l < 2 ^ 14 -> (forall t', t < t' -> in_tick t' l <= 2 ^ 14) ->
  StronglySorted Z.lt (keys st l) /\ forall r, 0 <= r < 2 ^ 48 -> Forall (Z.lt (layout t (l_seq st) r)) (keys st l).
Proof.
  induction l as [|[ns r] l IH]; intros st t A S Sn NB Ge C1 C2; [split; constructor|].
  cbn [keys]. rewrite (uuid7_shape st ns r S). inversion Sn as [|? ? [Hns Hr] Sn']; subst. cbn [fst snd] in Hns, Hr.
  unfold never_back in NB. cbn [map fst] in NB. inversion NB as [|? ? NB' Le]; subst. inversion Ge as [|? ? G Ge']; subst. cbn [fst] in G.
  assert (Ge2 : Forall (fun c => tick ns <= tick (fst c)) l).
  { rewrite Forall_forall in *. intros c I. apply tick_mono. apply Le. now apply in_map. }
  rewrite in_tick_cons in C1. cbn [fst] in C1.
  assert (NS : at_tick (next st ns) (tick ns) /\ seq_ok (next st ns) /\ l_seq (next st ns) + in_tick (tick ns) l < 2 ^ 14 /\
               (t < tick ns \/ t = tick ns /\ l_seq st < l_seq (next st ns))).
  { split; [|split; [now apply next_seq|]].
    - unfold next. destruct (same st ns) eqn:E; [|apply same_fresh]. apply A in E. subst t. destruct (l_seq st <? 16383); [|exact A].
      intros ns'. unfold same. cbn [l_t1 l_t2 l_t3]. exact (A ns').
    - unfold next. destruct (same st ns) eqn:E.
      + pose proof E as E'. apply A in E'. subst t. rewrite Z.eqb_refl in C1. unfold in_tick in *.
        replace (l_seq st <? 16383) with true by lia. cbn [l_seq]. lia.
      + cbn [l_seq]. assert (N : tick ns <> t) by (intros X; apply A in X; congruence). split; [|left; lia].
        specialize (C2 (tick ns) ltac:(lia)). rewrite in_tick_cons in C2. cbn [fst] in C2. rewrite Z.eqb_refl in C2. lia. }
  destruct NS as (A' & S' & C' & L).
  destruct (IH (next st ns) (tick ns) A' S' Sn' NB' Ge2 C') as [I1 I2].
  { intros t' Ht. specialize (C2 t' ltac:(lia)). rewrite in_tick_cons in C2. destruct (tick (fst (ns, r)) =? t'); lia. }
  split.
  - constructor; [exact I1|]. now apply I2.
  - intros r' Hr'. assert (X : layout t (l_seq st) r' < layout (tick ns) (l_seq (next st ns)) r) by (apply layout_less; assumption).
    constructor; [exact X|]. specialize (I2 r Hr). rewrite Forall_forall in *. intros u I. specialize (I2 u I). lia.
Qed.

(** ** C37 *)
(** Every key, in any sequence of calls whatever the clock does, is a version-7,
    variant-10 UUID, and its first 48 bits are the clock in units of 2^-12 s. *)
Theorem C37_well_formed l : Forall sensible l ->
  Forall2 (fun c u => 0 <= u < 2 ^ 128 /\ bits u 76 4 = 7 /\ bits u 62 2 = 2 /\ bits u 80 48 = fst c * 2 ^ 12 / 1000000000) l (keys start l).
Proof.
  assert (G : forall l st, seq_ok st -> Forall sensible l ->
    Forall2 (fun c u => 0 <= u < 2 ^ 128 /\ bits u 76 4 = 7 /\ bits u 62 2 = 2 /\ bits u 80 48 = fst c * 2 ^ 12 / 1000000000) l (keys st l)).
  { clear. induction l as [|[ns r] l IH]; intros st S F; [constructor|]. inversion F as [|? ? [Hns Hr] F']; subst. cbn [fst snd] in Hns, Hr.
    cbn [keys]. rewrite (uuid7_shape st ns r S). constructor; [|apply IH; [now apply next_seq|exact F']].
    destruct (layout_bits (tick ns) (l_seq (next st ns)) r (tick_range ns Hns) (next_seq st ns S) Hr) as (B1 & B2 & B3 & B4). split; [exact B1|]. split; [exact B2|]. split; [exact B3|].
    unfold bits. rewrite B4. cbn [fst]. pose proof (tick_range ns Hns) as TR. rewrite Z.mod_small by (split; [apply Z.div_pos; lia|apply Z.div_lt_upper_bound; lia]).
    unfold tick. rewrite Z.div_div by lia. replace (ns * 2 ^ 24) with (ns * 2 ^ 12 * 2 ^ 12) by lia. rewrite Z.div_mul_cancel_r by lia. reflexivity. }
  apply G. split; reflexivity || discriminate.
Qed.

(** While the clock does not go back and no 2^-24 s sees more than 2^14 calls, every key
    is greater than all earlier ones. *)
Theorem C37_increasing_partial l : Forall sensible l -> never_back l -> unhurried l -> StronglySorted Z.lt (keys start l).
Proof.
  intros S N U. destruct l as [|[ns r] l]; [constructor|]. cbn [keys]. assert (S0 : seq_ok start) by (split; reflexivity || discriminate).
  rewrite (uuid7_shape start ns r S0). inversion S as [|? ? [Hns Hr] S']; subst. unfold never_back in N. cbn [map fst] in N. inversion N as [|? ? N' Le]; subst.
  assert (E : next start ns = mkLast (d1 ns) (d2 ns) (7 * 2 ^ 12 + d3 ns) 0) by (unfold next; now rewrite same_start). rewrite E. cbn [l_seq].
  assert (U' : forall t, in_tick t l <= 2 ^ 14) by (intros t; specialize (U t); rewrite in_tick_cons in U; destruct (tick (fst (ns, r)) =? t); lia).
  destruct (keys_sorted l (mkLast (d1 ns) (d2 ns) (7 * 2 ^ 12 + d3 ns) 0) (tick ns)) as [K1 K2].
  - apply same_fresh.
  - split; reflexivity || discriminate.
  - exact S'.
  - exact N'.
  - rewrite Forall_forall in *. intros c I. apply tick_mono. apply Le. now apply in_map.
  - cbn [l_seq]. specialize (U (tick ns)). rewrite in_tick_cons in U. cbn [fst] in U. rewrite Z.eqb_refl in U. lia.
  - intros t' _. apply U'.
  - constructor; [exact K1|]. now apply K2.
Qed.
(** In particular no two are equal. *)
Theorem C37_distinct_partial l : Forall sensible l -> never_back l -> unhurried l -> NoDup (keys start l).
Proof.
  intros S N U. pose proof (C37_increasing_partial l S N U) as H. induction H as [|u l' _ IH F]; constructor; [|exact IH].
  intros I. rewrite Forall_forall in F. specialize (F u I). lia.
Qed.

Definition sensibleb (c : Z * Z) : bool := (0 <=? fst c) && (fst c <? 2 ^ 32 * sixteen_secs) && (0 <=? snd c) && (snd c <? 2 ^ 48).
Lemma sensibleb_ok l : forallb sensibleb l = true -> Forall sensible l.
Proof. rewrite forallb_forall, Forall_forall. intros H c I. specialize (H c I). unfold sensibleb, sensible in *. lia. Qed.

(** When the clock goes back, a later key can be smaller, and can be equal to an earlier
    one if the random bytes are; *)
Definition t0 : Z := 1763251200123456789.
Theorem C37_clock_back_refuted : exists l a b c, Forall sensible l /\ keys start l = [a; b; c] /\ b < a /\ c = a.
Proof.
  set (l := [(t0, 5); (t0 - 1000000, 6); (t0, 5)]).
  exists l, (nth 0 (keys start l) 0), (nth 1 (keys start l) 0), (nth 2 (keys start l) 0). split; [apply sensibleb_ok; vm_compute; reflexivity|]. repeat split; vm_compute; reflexivity.
Qed.
(** the same holds after 2^14 calls in one tick; *)
Fixpoint final (st : last) (l : list (Z * Z)) : last := match l with [] => st | c :: l => final (next st (fst c)) l end.
Lemma keys_app l : forall st l', seq_ok st -> keys st (l ++ l') = keys st l ++ keys (final st l) l'.
Proof.
  induction l as [|[ns r] l IH]; intros st l' S; [reflexivity|]. cbn [app keys final fst]. rewrite (uuid7_shape st ns r S). cbn [app]. f_equal. apply IH. now apply next_seq.
Qed.
Definition in_t0 (s : Z) : last := mkLast (d1 t0) (d2 t0) (7 * 2 ^ 12 + d3 t0) s.
Lemma next_in_t0 s : next (in_t0 s) t0 = in_t0 (if s <? 16383 then s + 1 else s).
Proof.
  unfold next. replace (same (in_t0 s) t0) with true by (symmetry; now apply same_fresh). cbn [in_t0 l_t1 l_t2 l_t3 l_seq]. destruct (s <? 16383); reflexivity.
Qed.
Lemma final_repeat r n : forall s, 0 <= s -> s + Z.of_nat n <= 16383 -> final (in_t0 s) (repeat (t0, r) n) = in_t0 (s + Z.of_nat n).
Proof.
  induction n as [|n IH]; intros s H0 H; cbn [repeat final fst]; [f_equal; lia|]. rewrite next_in_t0. replace (s <? 16383) with true by lia. rewrite IH by lia. f_equal. lia.
Qed.
Theorem C37_many_calls_refuted : exists l p a b c, Forall sensible l /\ never_back l /\ keys start l = p ++ [a; b; c] /\ c < b /\ c = a.
Proof.
  assert (S0 : seq_ok start) by (split; reflexivity || discriminate).
  destruct (Z_of_nat_complete (2 ^ 14 - 2) ltac:(lia)) as [n E].
  exists (repeat (t0, 5) (S n) ++ [(t0, 5); (t0, 6); (t0, 5)]), (keys start (repeat (t0, 5) (S n))), (layout (tick t0) 16383 5), (layout (tick t0) 16383 6), (layout (tick t0) 16383 5).
  split; [|split; [|split; [|split; [unfold layout; lia|reflexivity]]]].
  - apply Forall_app. split; [|apply sensibleb_ok; vm_compute; reflexivity]. apply Forall_forall. intros c I. apply repeat_spec in I. subst c. split; split; reflexivity || discriminate.
  - unfold never_back. rewrite map_app. cbn [map fst]. generalize (S n). clear.
    assert (R : forall n, Forall (Z.le t0) (map fst (repeat (t0, 5) n) ++ [t0; t0; t0])).
    { induction n as [|n IH]; cbn [repeat map fst app]; repeat constructor; try apply Z.le_refl. exact IH. }
    induction n as [|n IH]; cbn [repeat map fst app]; [repeat constructor; apply Z.le_refl|]. constructor; [exact IH|apply R].
  - rewrite keys_app by exact S0. apply (f_equal (app _)). cbn [repeat final fst].
    replace (next start t0) with (in_t0 0) by (unfold next; now rewrite same_start).
    rewrite final_repeat by lia. replace (0 + Z.of_nat n) with 16382 by lia.
    assert (K : forall s r l, 0 <= s < 2 ^ 14 -> keys (in_t0 s) ((t0, r) :: l) = layout (tick t0) (if s <? 16383 then s + 1 else s) r :: keys (in_t0 (if s <? 16383 then s + 1 else s)) l).
    { intros s r l H. cbn [keys]. rewrite uuid7_shape by exact H. now rewrite next_in_t0. }
    rewrite (K 16382) by lia. change (if 16382 <? 16383 then 16382 + 1 else 16382) with 16383. rewrite (K 16383) by lia. change (if 16383 <? 16383 then 16383 + 1 else 16383) with 16383. rewrite (K 16383) by lia. reflexivity.
Qed.
(** and the first 48 bits are not the clock in milliseconds. *)
Theorem C37_milliseconds_refuted : exists ns r, sensible (ns, r) /\ bits (fst (uuid7 start ns r)) 80 48 <> ns / 1000000.
Proof. exists t0, 5. split; [apply (proj1 (Forall_forall sensible [(t0, 5)])); [apply sensibleb_ok; vm_compute; reflexivity|now left]|]. vm_compute. discriminate. Qed.

(** Three calls in one tick and one in the next. *)
Example C37_example : let l := [(t0, 9); (t0, 4); (t0 + 1, 4); (t0 + 100, 1)] in
  Forall sensible l /\ never_back l /\ unhurried l /\ map (fun c => tick (fst c) - tick t0) l = [0; 0; 0; 1 + (tick (t0 + 100) - tick t0 - 1)] /\ tick t0 < tick (t0 + 100).
Proof.
  intros l. split; [apply sensibleb_ok; vm_compute; reflexivity|]. split; [|split].
  - unfold never_back, l. cbn [map fst]. repeat constructor; lia.
  - intros t. unfold in_tick. assert (X : forall f : Z * Z -> bool, (length (filter f l) <= length l)%nat).
    { intros f. generalize l. clear. induction l as [|c l IH]; [simpl; lia|]. simpl. destruct (f c); simpl; lia. }
    specialize (X (fun c => tick (fst c) =? t)). simpl length in X at 2. lia.
  - split; vm_compute; reflexivity.
Qed.

Print Assumptions C37_well_formed.
Print Assumptions C37_increasing_partial.
Print Assumptions C37_many_calls_refuted.
