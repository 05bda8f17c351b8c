(** Proofs about the conversion of durations to whole milliseconds. *)
From Verif Require Import Base ZSet Text Admission SpecAdm AdmProofs Durations.

Lemma rhe_near a b : 0 < b -> 2 * Z.abs (rhe a b * b - a) <= b.
Proof.
  intros Hb. unfold rhe. cbv zeta.
  pose proof (Z.div_mod a b ltac:(lia)) as E. pose proof (Z.mod_pos_bound a b Hb) as R.
  set (q := a / b) in *. set (r := a mod b) in *.
  destruct (Z.ltb_spec (2 * r) b); [nia|]. destruct (Z.ltb_spec b (2 * r)); [nia|].
  destruct (Z.even q); nia.
Qed.

Lemma rhe_exact q b : 0 < b -> rhe (q * b) b = q.
Proof.
  intros Hb. unfold rhe. cbv zeta. rewrite Z.div_mul, Z.mod_mul by lia.
  destruct (Z.ltb_spec (2 * 0) b); lia.
Qed.

Lemma scale_pos a b e : 0 < a -> 0 < b -> 0 < fst (scale a b e) /\ 0 < snd (scale a b e).
Proof.
  intros. unfold scale. destruct (Z.leb_spec 0 e); cbn [fst snd]; split; try lia;
  apply Z.mul_pos_pos; try lia; apply Z.pow_pos_nonneg; lia.
Qed.

(** At the first exponent the scaled number has at least 53 bits. *)
Lemma scale_first a b : 0 < a -> 0 < b ->
  let e1 := Z.log2 a - Z.log2 b - 53 in
  2 ^ 52 * snd (scale a b e1) <= fst (scale a b e1).
Proof.
  intros Ha Hb e1. destruct (Z.log2_spec a Ha) as [La _]. destruct (Z.log2_spec b Hb) as [_ Ub].
  pose proof (Z.log2_nonneg a). pose proof (Z.log2_nonneg b).
  unfold scale. destruct (Z.leb_spec 0 e1) as [E|E]; cbn [fst snd].
  - assert (Hp : 0 < 2 ^ e1) by (apply Z.pow_pos_nonneg; lia).
    assert (b * 2 ^ e1 * 2 ^ 52 <= 2 ^ Z.succ (Z.log2 b) * 2 ^ e1 * 2 ^ 52) by nia.
    rewrite <- !Z.pow_add_r in H1 by lia.
    replace (Z.succ (Z.log2 b) + e1 + 52) with (Z.log2 a) in H1 by (unfold e1; lia). lia.
  - assert (Hp : 0 < 2 ^ (- e1)) by (apply Z.pow_pos_nonneg; lia).
    assert (2 ^ Z.log2 a * 2 ^ (- e1) <= a * 2 ^ (- e1)) by nia.
    rewrite <- Z.pow_add_r in H1 by lia.
    replace (Z.log2 a + - e1) with (52 + Z.succ (Z.log2 b)) in H1 by (unfold e1; lia).
    rewrite Z.pow_add_r in H1 by lia. nia.
Qed.

Lemma scale_next a b e : 0 < a -> 0 < b -> 2 ^ 53 * snd (scale a b e) <= fst (scale a b e) ->
  2 ^ 52 * snd (scale a b (e + 1)) <= fst (scale a b (e + 1)).
Proof.
  intros Ha Hb. unfold scale. change (2 ^ 53) with (2 * 2 ^ 52). generalize (2 ^ 52). intros c.
  destruct (Z.leb_spec 0 e), (Z.leb_spec 0 (e + 1)); cbn [fst snd]; try lia; intros H1.
  - rewrite Z.pow_add_r by lia. change (2 ^ 1) with 2. generalize dependent (2 ^ e). intros p Hp.
    replace (c * (b * (p * 2))) with (2 * c * (b * p)) by ring. exact Hp.
  - assert (E : e = -1) by lia. subst e. change (2 ^ (- -1)) with 2 in H1. change (2 ^ (-1 + 1)) with 1. lia.
  - replace (- e) with (- (e + 1) + 1) in H1 by lia. rewrite Z.pow_add_r in H1 by lia. change (2 ^ 1) with 2 in H1.
    generalize dependent (2 ^ (- (e + 1))). intros p Hp. lia.
Qed.

(** The relative error of a rounding is at most [2 ^ -53]. *)
Lemma fl_near a b n d : 0 < a -> 0 < b -> fl a b = (n, d) ->
  0 < d /\ 2 ^ 53 * Z.abs (n * b - a * d) <= a * d.
Proof.
  intros Ha Hb. unfold fl. cbv zeta.
  pose proof (scale_first a b Ha Hb) as F. cbv zeta in F. set (e1 := Z.log2 a - Z.log2 b - 53) in *.
  destruct (scale a b e1) as [x1 y1] eqn:S1. cbn [fst snd] in F.
  set (e := if x1 <? 2 ^ 53 * y1 then e1 else e1 + 1).
  assert (G : 2 ^ 52 * snd (scale a b e) <= fst (scale a b e)).
  { unfold e. destruct (Z.ltb_spec x1 (2 ^ 53 * y1)).
    - rewrite S1. exact F.
    - apply scale_next; try assumption. rewrite S1. exact H. }
  clearbody e. clear F S1 x1 y1 e1.
  destruct (scale a b e) as [x y] eqn:S. cbn [fst snd] in G.
  pose proof (scale_pos a b e Ha Hb) as [Px Py]. rewrite S in Px, Py. cbn [fst snd] in Px, Py.
  pose proof (rhe_near x y Py) as R. generalize dependent (rhe x y). intros m R.
  unfold scale in S. change (2 ^ 53) with (2 * 2 ^ 52). generalize dependent (2 ^ 52). intros c G.
  destruct (Z.leb_spec 0 e); injection S as <- <-; intros Q; injection Q as <- <-.
  - split; [lia|]. assert (0 < 2 ^ e) by (apply Z.pow_pos_nonneg; lia).
    replace (m * 2 ^ e * b - a * 1) with (m * (b * 2 ^ e) - a) by ring.
    assert (0 <= c \/ c < 0) as [C|C] by lia; nia.
  - assert (0 < 2 ^ (- e)) by (apply Z.pow_pos_nonneg; lia). split; [lia|].
    assert (0 <= c \/ c < 0) as [C|C] by lia; nia.
Qed.

(** A whole number below [2 ^ 52] is not rounded. *)
Lemma fl_whole s b : 0 < s < 2 ^ 52 -> 0 < b -> exists d, 0 < d /\ fl (s * b) b = (s * d, d).
Proof.
  intros Hs Hb. unfold fl. cbv zeta. set (a := s * b).
  assert (Ha : 0 < a) by (unfold a; nia).
  set (e1 := Z.log2 a - Z.log2 b - 53).
  destruct (scale a b e1) as [x1 y1] eqn:S1.
  set (e := if x1 <? 2 ^ 53 * y1 then e1 else e1 + 1).
  assert (L : Z.log2 a <= Z.log2 b + 52).
  { destruct (Z.log2_spec b Hb) as [_ U]. 
    assert (Z.log2 a < Z.succ (Z.log2 b) + 52); [|lia].
    apply Z.log2_lt_pow2; [lia|]. rewrite Z.pow_add_r by (pose proof (Z.log2_nonneg b); lia).
    unfold a. set (p := 2 ^ Z.succ (Z.log2 b)) in *. set (c := 2 ^ 52) in *. clearbody p c. nia. }
  assert (E : e <= 0) by (unfold e; destruct (x1 <? 2 ^ 53 * y1); unfold e1; lia).
  clearbody e. clear L S1 e1 x1 y1.
  unfold scale. destruct (Z.leb_spec 0 e).
  - assert (e = 0) by lia. subst e. exists 1. split; [lia|]. change (2 ^ 0) with 1.
    rewrite !Z.mul_1_r. unfold a. rewrite rhe_exact by lia. reflexivity.
  - exists (2 ^ (- e)). split; [apply Z.pow_pos_nonneg; lia|].
    unfold a. replace (s * b * 2 ^ (- e)) with (s * 2 ^ (- e) * b) by ring. rewrite rhe_exact by lia. reflexivity.
Qed.

Lemma ms_of_bounds us : 0 < us <= 2 ^ 50 -> (us - 1) / 1000 <= ms_of us <= us / 1000.
Proof.
  intros [H1 H2]. unfold ms_of. destruct (Z.leb_spec us 0); [lia|].
  destruct (fl us 1000000) as [n d] eqn:E1. destruct (fl_near us 1000000 n d H1 ltac:(lia) E1) as [Hd R1].
  change (2 ^ 53) with 9007199254740992 in *. change (2 ^ 50) with 1125899906842624 in *.
  assert (Hn : 0 < n) by nia.
  destruct (fl (n * 1000) d) as [n' d'] eqn:E2.
  destruct (fl_near (n * 1000) d n' d' ltac:(lia) Hd E2) as [Hd' R2].
  change (2 ^ 53) with 9007199254740992 in R2.
  clear E1 E2 H.
  (* n/d is us/10^6 up to 1 part in 2^53; n'/d' is 1000 n/d up to the same *)
  assert (A1 : 9007199254740992 * (n * 1000000) <= 9007199254740993 * (us * d)) by lia.
  assert (A2 : 9007199254740991 * (us * d) <= 9007199254740992 * (n * 1000000)) by lia.
  assert (B1 : 9007199254740992 * (n' * d) <= 9007199254740993 * (n * 1000 * d')) by lia.
  assert (B2 : 9007199254740991 * (n * 1000 * d') <= 9007199254740992 * (n' * d)) by lia.
  assert (C1 : n' * 1000 < (us + 1) * d').
  { assert (d * (n' * 1000) < d * ((us + 1) * d')); [|nia].
    assert (X : 9007199254740992 * 9007199254740992 * (n * 1000000 * d') <= 9007199254740992 * 9007199254740993 * (us * d * d')) by nia.
    assert (Y : us * (d * d') <= 1125899906842624 * (d * d')) by nia.
    assert (0 < d * d') by nia. 
    replace (d * (n' * 1000)) with (1000 * (n' * d)) by ring.
    replace (d * ((us + 1) * d')) with (us * (d * d') + d * d') by ring.
    replace (n * 1000000 * d') with (1000 * (n * 1000 * d')) in X by ring.
    replace (us * d * d') with (us * (d * d')) in X by ring.
    set (P := d * d') in *. set (Q := n * 1000 * d') in *. set (V := n' * d) in *. set (W := us * P) in *. clearbody P Q V W. lia. }
  assert (C2 : (us - 1) * d' < n' * 1000).
  { assert (d * ((us - 1) * d') < d * (n' * 1000)); [|nia].
    assert (X : 9007199254740992 * 9007199254740991 * (us * d * d') <= 9007199254740992 * 9007199254740992 * (n * 1000000 * d')) by nia.
    assert (Y : us * (d * d') <= 1125899906842624 * (d * d')) by nia.
    assert (0 < d * d') by nia. 
    replace (d * (n' * 1000)) with (1000 * (n' * d)) by ring.
    replace (d * ((us - 1) * d')) with (us * (d * d') - d * d') by ring.
    replace (n * 1000000 * d') with (1000 * (n * 1000 * d')) in X by ring.
    replace (us * d * d') with (us * (d * d')) in X by ring.
    set (P := d * d') in *. set (Q := n * 1000 * d') in *. set (V := n' * d) in *. set (W := us * P) in *. clearbody P Q V W. lia. }
  clear - C1 C2 Hd'. split.
  - apply Z.div_le_lower_bound; [lia|]. pose proof (Z.mul_div_le (us - 1) 1000 ltac:(lia)). nia.
  - apply Z.div_le_lower_bound; [lia|]. pose proof (Z.mul_div_le n' d' Hd'). nia.
Qed.

Lemma ms_of_seconds s : 0 < s < 2 ^ 42 -> ms_of (1000000 * s) = 1000 * s.
Proof.
  intros H. unfold ms_of. destruct (Z.leb_spec (1000000 * s) 0); [lia|].
  change (2 ^ 42) with 4398046511104 in H.
  replace (1000000 * s) with (s * 1000000) by ring.
  destruct (fl_whole s 1000000) as (d & Hd & ->); [change (2 ^ 52) with 4503599627370496; lia|lia|].
  replace (s * d * 1000) with (1000 * s * d) by ring.
  destruct (fl_whole (1000 * s) d) as (d' & Hd' & ->); [change (2 ^ 52) with 4503599627370496; lia|lia|].
  rewrite Z.div_mul by lia. reflexivity.
Qed.

Lemma ms_of_below us : us < 1000 -> ms_of us = 0.
Proof.
  intros H. destruct (Z.leb_spec us 0) as [E|E].
  - unfold ms_of. destruct (Z.leb_spec us 0); [reflexivity|lia].
  - pose proof (ms_of_bounds us) as B. change (2 ^ 50) with 1125899906842624 in B.
    specialize (B ltac:(lia)). rewrite (Z.div_small us 1000) in B by lia.
    assert (0 <= (us - 1) / 1000) by (apply Z.div_pos; lia). lia.
Qed.

Lemma ms_of_pos us : 1000 <= us <= 2 ^ 50 -> 1 <= ms_of us.
Proof.
  intros H. destruct (Z.eq_dec us 1000) as [->|N]; [vm_compute; discriminate|].
  pose proof (ms_of_bounds us ltac:(lia)) as [B _].
  assert (1 <= (us - 1) / 1000) by (apply Z.div_le_lower_bound; lia). lia.
Qed.

Lemma window_count_mono T w w' l : w <= w' -> window_count T w l <= window_count T w' l.
Proof.
  intros H. unfold window_count. apply inj_le.
  induction l as [|p l IH]; cbn [filter]; [lia|].
  assert (I : in_window T w p = true -> in_window T w' p = true) by (unfold in_window; lia).
  destruct (in_window T w p), (in_window T w' p); cbn [length]; try lia.
Qed.

Lemma db_enter_ok settle st s : 0 < settle ->
  db_enter settle st s = (fst (db_step settle st s), Some (snd (db_step settle st s))).
Proof.
  intros H. unfold db_enter. destruct (fresh_value (db_winner st) (sb_srv s)).
  - destruct (db_step settle st s). reflexivity.
  - destruct (Z.leb_spec (settle * 10) 0); [lia|]. destruct (db_step settle st s). reflexivity.
Qed.

Lemma db_enters_error l : Forall (fun x => snd x = None) (db_enters 0 deb_empty l).
Proof. induction l as [|s l IH]; cbn [db_enters]; constructor; cbn; auto. Qed.

(** [N] requests of different keys at one moment. *)
Fixpoint crowd (now : Z) (N : nat) : list rl_ev :=
  match N with O => [] | S N => RLReq (dec (Z.of_nat N)) now now :: crowd now N end.

Lemma crowd_clocks now N : clocks_ok 0 now (crowd now N).
Proof. induction N; cbn [crowd clocks_ok]; [exact I|]. repeat split; try lia. assumption. Qed.

Lemma crowd_keys now N k t : In (k, t) (requests (crowd now N)) -> exists i, (i < N)%nat /\ k = dec (Z.of_nat i).
Proof.
  induction N as [|N IH]; cbn [crowd requests In]; [tauto|].
  intros [E|H]; [injection E as <- <-; exists N; split; [lia|reflexivity]|].
  destruct (IH H) as (i & L & ->). exists i. split; [lia|reflexivity].
Qed.

Lemma crowd_nodup now N : NoDup (requests (crowd now N)).
Proof.
  induction N as [|N IH]; cbn [crowd requests]; constructor; [|assumption].
  intros H. destruct (crowd_keys _ _ _ _ H) as (i & L & E). apply dec_inj in E; lia.
Qed.

Lemma crowd_net n now N acc : 0 < n -> length (filter (in_window now 1) acc) = length acc ->
  let r := fold_left net1 (rl_trace n 0 rl_empty (crowd now N)) acc in
  length (filter (in_window now 1) r) = (length acc + N)%nat.
Proof.
  intros Hn. revert acc. induction N as [|N IH]; intros acc HA; cbn [crowd rl_trace fold_left].
  - cbn zeta. lia.
  - assert (E : rl_step n 0 rl_empty (RLReq (dec (Z.of_nat N)) now now) = (rl_empty, Some RLProceed)).
    { unfold rl_step, rl_script, rl_empty, zcard. cbn [gone rl_exp rl_log filter length]. cbv zeta.
      destruct (Z.ltb_spec (Z.of_nat 0) n) as [_|F]; [|lia]. reflexivity. }
    rewrite E. cbn [fst snd net1]. cbv zeta. rewrite IH.
    + rewrite app_length. cbn [length]. lia.
    + rewrite filter_app, !app_length, HA. cbn [filter].
      replace (in_window now 1 (dec (Z.of_nat N), now)) with true by (unfold in_window; cbn [snd]; lia).
      reflexivity.
Qed.
