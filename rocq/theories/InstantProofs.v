(** Arithmetic of stored times. *)
From Verif Require Import Base Instant SpecInstant.

Lemma rne_spec a b : 0 < b -> - b <= 2 * (b * rne a b - a) <= b.
Proof.
  intros Hb. unfold rne. pose proof (Z.div_mod a b ltac:(lia)) as E. pose proof (Z.mod_pos_bound a b Hb) as M.
  set (q := a / b) in *. set (r := a mod b) in *. clearbody q r. rewrite E.
  destruct (Z.ltb_spec (2 * r) b) as [H|H]; [nia|]. destruct (Z.ltb_spec b (2 * r)) as [H'|H']; [nia|].
  destruct (Z.even q); nia.
Qed.

Lemma rne_near a b n : 0 < b -> - b < 2 * (b * n - a) < b -> rne a b = n.
Proof.
  intros Hb H. unfold rne. pose proof (Z.div_mod a b ltac:(lia)) as E. pose proof (Z.mod_pos_bound a b Hb) as M.
  set (q := a / b) in *. set (r := a mod b) in *. clearbody q r. subst a.
  assert (D : n = q \/ n = q + 1) by nia. destruct D as [-> | ->].
  - destruct (Z.ltb_spec (2 * r) b); [reflexivity|nia].
  - destruct (Z.ltb_spec (2 * r) b); [nia|]. destruct (Z.ltb_spec b (2 * r)); [reflexivity|nia].
Qed.

Lemma rne_mono a a' b : 0 < b -> a <= a' -> rne a b <= rne a' b.
Proof.
  intros Hb H. unfold rne. pose proof (Z.div_mod a b ltac:(lia)) as E. pose proof (Z.mod_pos_bound a b Hb) as M.
  pose proof (Z.div_mod a' b ltac:(lia)) as E'. pose proof (Z.mod_pos_bound a' b Hb) as M'.
  set (q := a / b) in *. set (r := a mod b) in *. set (q' := a' / b) in *. set (r' := a' mod b) in *. clearbody q r q' r'. subst a a'.
  assert (D : q < q' \/ (q = q' /\ r <= r')) by nia.
  destruct D as [D|[-> D]].
  - assert (X : (if 2 * r <? b then q else if b <? 2 * r then q + 1 else if Z.even q then q else q + 1) <= q + 1)
      by (destruct (2 * r <? b), (b <? 2 * r), (Z.even q); lia).
    assert (Y : q' <= (if 2 * r' <? b then q' else if b <? 2 * r' then q' + 1 else if Z.even q' then q' else q' + 1))
      by (destruct (2 * r' <? b), (b <? 2 * r'), (Z.even q'); lia). lia.
  - destruct (Z.ltb_spec (2 * r) b), (Z.ltb_spec (2 * r') b), (Z.ltb_spec b (2 * r)), (Z.ltb_spec b (2 * r')), (Z.even q'); lia.
Qed.

(** The exponent chosen by [dround]. *)
Definition dexp (a b : Z) : Z := 52 - (Z.log2 (a * 2 ^ 40 / b) - 40).

Lemma dround_pos a b : 0 < a -> dround a b = mkDouble (rne (a * 2 ^ dexp a b) b) (dexp a b).
Proof. intros H. unfold dround, dexp. destruct (Z.eqb_spec a 0); [lia|reflexivity]. Qed.

Lemma dexp_bound a b n : 0 < b -> 0 < a -> 0 <= n -> a < b * 2 ^ n -> 53 - n <= dexp a b.
Proof.
  intros Hb Ha Hn H2. unfold dexp.
  assert (L : Z.log2 (a * 2 ^ 40 / b) < n + 40).
  { destruct (Z_le_gt_dec (a * 2 ^ 40 / b) 0) as [Q|Q]; [rewrite Z.log2_nonpos by assumption; lia|].
    apply Z.log2_lt_pow2; [lia|]. apply Z.div_lt_upper_bound; [lia|].
    rewrite Z.pow_add_r by lia. assert (0 < 2 ^ 40) by (apply Z.pow_pos_nonneg; lia). nia. }
  lia.
Qed.

Lemma dround_spec a b : 0 < b -> 0 < a -> - b <= 2 * (b * dm (dround a b) - a * 2 ^ dk (dround a b)) <= b.
Proof. intros Hb Ha. rewrite dround_pos by assumption. cbn [dm dk]. now apply rne_spec. Qed.

Lemma timestamp_exp us n : 0 < us -> 0 <= n -> us < 1000000 * 2 ^ n -> 53 - n <= dk (timestamp us).
Proof.
  intros H Hn H2. unfold timestamp. rewrite dround_pos by assumption. cbn [dk]. apply dexp_bound; try lia.
Qed.

Lemma timestamp_error us : 0 <= us ->
  - 1000000 <= 2 * (1000000 * dm (timestamp us) - us * 2 ^ dk (timestamp us)) <= 1000000.
Proof.
  intros H. destruct (Z.eq_dec us 0) as [->|N]; [cbn; lia|].
  unfold timestamp. pose proof (dround_spec us 1000000 ltac:(lia) ltac:(lia)). lia.
Qed.

Lemma dk_nonneg us : 0 <= us < 1000000 * 2 ^ 52 -> 0 <= dk (timestamp us).
Proof.
  intros H. destruct (Z.eq_dec us 0) as [->|N]; [cbn; lia|]. pose proof (timestamp_exp us 52 ltac:(lia) ltac:(lia) ltac:(lia)). lia.
Qed.

Theorem timestamp_round_trip us : 0 <= us < 1000000 * 2 ^ 33 -> fromtimestamp (timestamp us) = us.
Proof.
  intros H. destruct (Z.eq_dec us 0) as [->|N]; [vm_compute; reflexivity|].
  pose proof (timestamp_exp us 33 ltac:(lia) ltac:(lia) ltac:(lia)) as K.
  pose proof (timestamp_error us ltac:(lia)) as E.
  unfold fromtimestamp. set (m := dm (timestamp us)) in *. set (k := dk (timestamp us)) in *. clearbody m k.
  assert (HP : 2 ^ 20 <= 2 ^ k) by (apply Z.pow_le_mono_r; lia).
  set (P := 2 ^ k) in *. clearbody P.
  assert (P20 : 1048576 <= P) by (change (2 ^ 20) with 1048576 in HP; exact HP). clear HP.
  pose proof (Z.div_mod m P ltac:(lia)) as D. pose proof (Z.mod_pos_bound m P ltac:(lia)) as B.
  set (I := m / P) in *. set (F := m mod P) in *. clearbody I F. subst m.
  set (u := us - I * 1000000).
  assert (E' : - 1000000 <= 2 * (F * 1000000 - u * P) <= 1000000) by (unfold u; nia).
  cut (rne (dm (dround (F * 1000000) P)) (2 ^ dk (dround (F * 1000000) P)) = u); [intros ->; unfold u; lia|].
  destruct (Z.eq_dec F 0) as [->|NF].
  - cbn. assert (u = 0) as -> by nia. reflexivity.
  - pose proof (dround_spec (F * 1000000) P ltac:(lia) ltac:(lia)) as S.
    assert (K2 : 33 <= dk (dround (F * 1000000) P)).
    { rewrite dround_pos by lia. cbn [dk]. pose proof (dexp_bound (F * 1000000) P 20 ltac:(lia) ltac:(lia)) as X.
      change (2 ^ 20) with 1048576 in X. lia. }
    set (m2 := dm (dround (F * 1000000) P)) in *. set (k2 := dk (dround (F * 1000000) P)) in *. clearbody m2 k2.
    assert (HP : 2 ^ 33 <= 2 ^ k2) by (apply Z.pow_le_mono_r; lia). change (2 ^ 33) with 8589934592 in HP.
    set (Q := 2 ^ k2) in *. clearbody Q. apply rne_near; [lia|].
    (* |2 P (m2 - u Q)| <= 1000000 Q + P < P Q *)
    assert (X : - (1000000 * Q + P) <= 2 * (P * m2 - u * P * Q) <= 1000000 * Q + P) by nia.
    assert (Y : 1000000 * Q + P < P * Q) by nia.
    assert (Z1 : - (P * Q) < P * (2 * (m2 - u * Q)) < P * Q) by nia.
    assert (Z2 : - Q < 2 * (m2 - u * Q) < Q) by nia. lia.
Qed.

(** ** Order *)

Lemma dle_spec x y : dle x y = true <-> dm x * 2 ^ dk y <= dm y * 2 ^ dk x.
Proof. unfold dle. apply Z.leb_le. Qed.

Theorem timestamp_order us us' : 0 <= us < 1000000 * 2 ^ 33 -> 0 <= us' < 1000000 * 2 ^ 33 ->
  dle (timestamp us) (timestamp us') = (us <=? us').
Proof.
  intros H H'.
  assert (K : us = 0 \/ 20 <= dk (timestamp us)).
  { destruct (Z.eq_dec us 0); [now left|right]. pose proof (timestamp_exp us 33 ltac:(lia) ltac:(lia) ltac:(lia)). lia. }
  assert (K' : us' = 0 \/ 20 <= dk (timestamp us')).
  { destruct (Z.eq_dec us' 0); [now left|right]. pose proof (timestamp_exp us' 33 ltac:(lia) ltac:(lia) ltac:(lia)). lia. }
  pose proof (timestamp_error us ltac:(lia)) as E. pose proof (timestamp_error us' ltac:(lia)) as E'.
  assert (G : us = 0 -> dm (timestamp us) = 0 /\ 2 ^ dk (timestamp us) = 1) by (intros ->; split; reflexivity).
  assert (G' : us' = 0 -> dm (timestamp us') = 0 /\ 2 ^ dk (timestamp us') = 1) by (intros ->; split; reflexivity).
  destruct (Z.eq_dec us us') as [->|Ne]; [rewrite Z.leb_refl; apply dle_spec; lia|].
  unfold dle. set (m := dm (timestamp us)) in *. set (k := dk (timestamp us)) in *.
  set (m' := dm (timestamp us')) in *. set (k' := dk (timestamp us')) in *. clearbody m k m' k'.
  assert (P1 : us <> 0 -> 1048576 <= 2 ^ k).
  { intros N. destruct K as [K|K]; [contradiction|]. change 1048576 with (2 ^ 20). apply Z.pow_le_mono_r; lia. }
  assert (P1' : us' <> 0 -> 1048576 <= 2 ^ k').
  { intros N. destruct K' as [K'|K']; [contradiction|]. change 1048576 with (2 ^ 20). apply Z.pow_le_mono_r; lia. }
  set (P := 2 ^ k) in *. set (P' := 2 ^ k') in *. clearbody P P'. clear K K' k k'.
  destruct (Z.leb_spec us us') as [L|L].
  - apply Z.leb_le. destruct (Z.eq_dec us 0) as [Z0|N0].
    + destruct (G Z0) as [-> ->]. specialize (P1' ltac:(lia)). nia.
    + specialize (P1 N0). specialize (P1' ltac:(lia)).
      assert (X : 2000000 * (m * P') <= (2 * us * P + 1000000) * P') by nia.
      assert (Y : (2 * us' * P' - 1000000) * P <= 2000000 * (m' * P)) by nia.
      assert (W : (2 * us * P + 1000000) * P' <= (2 * us' * P' - 1000000) * P) by nia. lia.
  - apply Z.leb_gt. destruct (Z.eq_dec us' 0) as [Z0|N0].
    + destruct (G' Z0) as [-> ->]. specialize (P1 ltac:(lia)). nia.
    + specialize (P1' N0). specialize (P1 ltac:(lia)).
      assert (X : 2000000 * (m' * P) <= (2 * us' * P' + 1000000) * P) by nia.
      assert (Y : (2 * us * P - 1000000) * P' <= 2000000 * (m * P')) by nia.
      assert (W : (2 * us' * P' + 1000000) * P < (2 * us * P - 1000000) * P') by nia. lia.
Qed.

(** For any instants at all the order is never reversed. *)
Lemma dround_binade a b : 0 < b -> 0 < a -> b <= a * 2 ^ 40 -> a < b * 2 ^ 52 ->
  2 ^ 52 <= dm (dround a b) <= 2 ^ 53.
Proof.
  intros Hb Ha H1 H2. rewrite dround_pos by assumption. cbn [dm].
  pose proof (dexp_bound a b 52 Hb Ha ltac:(lia) H2) as K. unfold dexp in *.
  assert (Q : 1 <= a * 2 ^ 40 / b) by (apply Z.div_le_lower_bound; lia).
  pose proof (Z.log2_spec (a * 2 ^ 40 / b) ltac:(lia)) as L.
  set (l := Z.log2 (a * 2 ^ 40 / b)) in *. assert (0 <= l) by apply Z.log2_nonneg. clearbody l.
  set (k := 52 - (l - 40)) in *.
  pose proof (Z.div_mod (a * 2 ^ 40) b ltac:(lia)) as D. pose proof (Z.mod_pos_bound (a * 2 ^ 40) b Hb) as B.
  set (q := a * 2 ^ 40 / b) in *. set (r := (a * 2 ^ 40) mod b) in *. clearbody q r.
  (* b 2^l <= a 2^40 < b 2^(l+1) *)
  assert (A1 : b * 2 ^ l <= a * 2 ^ 40) by nia.
  assert (A2 : a * 2 ^ 40 < b * 2 ^ Z.succ l) by nia.
  assert (E : 2 ^ l * 2 ^ k = 2 ^ 52 * 2 ^ 40) by (rewrite <- !Z.pow_add_r by lia; f_equal; lia).
  assert (E2 : 2 ^ Z.succ l * 2 ^ k = 2 ^ 53 * 2 ^ 40) by (rewrite <- !Z.pow_add_r by lia; f_equal; lia).
  assert (0 < 2 ^ k) by (apply Z.pow_pos_nonneg; lia).
  assert (0 < 2 ^ 40) by (apply Z.pow_pos_nonneg; lia).
  assert (B1 : b * 2 ^ 52 <= a * 2 ^ k).
  { apply (Z.mul_le_mono_pos_r _ _ (2 ^ 40)); [lia|]. replace (b * 2 ^ 52 * 2 ^ 40) with (b * 2 ^ l * 2 ^ k) by (rewrite <- Z.mul_assoc, E; ring). nia. }
  assert (B2 : a * 2 ^ k <= b * 2 ^ 53).
  { apply (Z.mul_le_mono_pos_r _ _ (2 ^ 40)); [lia|]. replace (b * 2 ^ 53 * 2 ^ 40) with (b * 2 ^ Z.succ l * 2 ^ k) by (rewrite <- Z.mul_assoc, E2; ring). nia. }
  assert (R : forall n, rne (n * b) b = n) by (intros n; apply rne_near; nia).
  split.
  - rewrite <- (R (2 ^ 52)). apply rne_mono; [exact Hb|lia].
  - rewrite <- (R (2 ^ 53)). apply rne_mono; [exact Hb|lia].
Qed.

Theorem timestamp_mono us us' : 0 <= us <= us' -> us' < 1000000 * 2 ^ 52 -> dle (timestamp us) (timestamp us') = true.
Proof.
  intros H H'. apply dle_spec. destruct (Z.eq_dec us 0) as [->|N].
  - cbn [timestamp dround Z.eqb dm dk]. destruct (Z.eq_dec us' 0) as [->|N']; [cbn; lia|].
    pose proof (dround_binade us' 1000000 ltac:(lia) ltac:(lia) ltac:(lia) ltac:(lia)) as B. unfold timestamp. cbn [dround Z.eqb dm dk].
    change (0 * 2 ^ dk (dround us' 1000000) <= dm (dround us' 1000000) * 2 ^ 0). rewrite Z.mul_0_l. change (2 ^ 0) with 1.
    assert (0 < 2 ^ 52) by reflexivity. lia.
  - pose proof (dround_binade us 1000000 ltac:(lia) ltac:(lia) ltac:(lia) ltac:(lia)) as B.
    pose proof (dround_binade us' 1000000 ltac:(lia) ltac:(lia) ltac:(lia) ltac:(lia)) as B'.
    unfold timestamp. assert (K : 0 <= dk (dround us' 1000000) <= dk (dround us 1000000)).
    { rewrite !dround_pos by lia. cbn [dk]. split; [pose proof (dexp_bound us' 1000000 52 ltac:(lia) ltac:(lia) ltac:(lia) ltac:(lia)); lia|].
      unfold dexp. assert (us * 2 ^ 40 / 1000000 <= us' * 2 ^ 40 / 1000000) as Q by (apply Z.div_le_mono; lia).
      apply Z.log2_le_mono in Q. lia. }
    destruct (Z.eq_dec (dk (dround us' 1000000)) (dk (dround us 1000000))) as [Ek|Nk].
    + rewrite Ek. apply Z.mul_le_mono_nonneg_r; [apply Z.pow_nonneg; lia|].
      rewrite !dround_pos in * by lia. cbn [dm dk] in *. rewrite Ek. apply rne_mono; [lia|].
      apply Z.mul_le_mono_nonneg_r; [apply Z.pow_nonneg; lia|lia].
    + set (k := dk (dround us 1000000)) in *. set (k' := dk (dround us' 1000000)) in *.
      set (m := dm (dround us 1000000)) in *. set (m' := dm (dround us' 1000000)) in *. clearbody k k' m m'.
      assert (E : 2 ^ k = 2 ^ (k - k' - 1) * 2 * 2 ^ k').
      { replace k with ((k - k' - 1) + 1 + k') at 1 by lia. rewrite !Z.pow_add_r by lia. change (2 ^ 1) with 2. ring. }
      assert (0 < 2 ^ k') by (apply Z.pow_pos_nonneg; lia).
      assert (1 <= 2 ^ (k - k' - 1)) by (apply Z.lt_pred_le, Z.pow_pos_nonneg; lia).
      change (2 ^ 53) with (2 * 2 ^ 52) in *. set (T := 2 ^ 52) in *. assert (0 < T) by reflexivity. clearbody T.
      rewrite E. assert (m <= m' * (2 ^ (k - k' - 1) * 2)) by nia. nia.
Qed.

(** ** The queue *)

Definition enc (e : Z * nat) : double * nat := (timestamp (fst e), snd e).

(** Sorted strictly by instant, then by key. *)
Definition earlier (a b : Z * nat) : Prop := fst a < fst b \/ (fst a = fst b /\ (snd a < snd b)%nat).

Record QInv (evs : list qev) (l : list (Z * nat)) : Prop := {
  qi_q : queue evs = map enc l;
  qi_near : forall w k, In (w, k) l -> near w;
  qi_sorted : ForallOrdPairs earlier l;
  qi_waits : forall w k, In (w, k) l <-> waits k evs = Some w }.

Lemma queue_snoc evs e : queue (evs ++ [e]) = qstep (queue evs) e.
Proof. unfold queue. now rewrite fold_left_app. Qed.

Lemma waits_snoc k evs e : waits k (evs ++ [e]) = waits1 k (waits k evs) e.
Proof. unfold waits. now rewrite fold_left_app. Qed.

Lemma filter_enc f g l : (forall e, In e l -> f (enc e) = g e) -> filter f (map enc l) = map enc (filter g l).
Proof.
  induction l as [|e l IH]; intros H; [reflexivity|]. cbn [map filter].
  rewrite H by (now left). rewrite IH by (intros; apply H; now right). now destruct (g e).
Qed.

Lemma filter_sorted {A} (R : A -> A -> Prop) f l : ForallOrdPairs R l -> ForallOrdPairs R (filter f l).
Proof.
  induction 1 as [|a l F S IH]; [constructor|]. cbn. destruct (f a); [|exact IH].
  constructor; [|exact IH]. rewrite Forall_forall in *. intros x Hx. apply filter_In in Hx. now apply F.
Qed.

Fixpoint einsert (a : Z * nat) (l : list (Z * nat)) : list (Z * nat) :=
  match l with
  | [] => [a]
  | b :: r => if (fst a <? fst b) || ((fst a =? fst b) && (snd a <=? snd b)%nat) then a :: l else b :: einsert a r
  end.

Lemma before_enc a b : near (fst a) -> near (fst b) ->
  before (enc a) (enc b) = (fst a <? fst b) || ((fst a =? fst b) && (snd a <=? snd b)%nat).
Proof.
  intros Ha Hb. unfold before. cbn [enc fst snd]. rewrite !timestamp_order by assumption.
  destruct (Z.leb_spec (fst a) (fst b)), (Z.leb_spec (fst b) (fst a)), (Z.ltb_spec (fst a) (fst b)), (Z.eqb_spec (fst a) (fst b));
    try lia; reflexivity.
Qed.

Lemma zinsert_enc a l : near (fst a) -> (forall w k, In (w, k) l -> near w) -> zinsert (enc a) (map enc l) = map enc (einsert a l).
Proof.
  intros Ha. induction l as [|[w k] l IH]; intros H; [reflexivity|]. cbn [map zinsert einsert].
  rewrite before_enc by (try assumption; exact (H w k (or_introl eq_refl))).
  match goal with |- context [if ?b then _ else _] => destruct b end; [reflexivity|].
  cbn [map]. f_equal. apply IH. intros w' k' Hi. apply (H w' k'). now right.
Qed.

Lemma einsert_In a l e : In e (einsert a l) <-> e = a \/ In e l.
Proof.
  induction l as [|b l IH]; cbn; [intuition|].
  match goal with |- context [if ?c then _ else _] => destruct c end; cbn; [intuition|]. rewrite IH. intuition.
Qed.

Lemma einsert_sorted a l : (forall e, In e l -> snd e <> snd a) -> ForallOrdPairs earlier l -> ForallOrdPairs earlier (einsert a l).
Proof.
  intros H S. induction S as [|b l F S IH]; cbn [einsert]; [repeat constructor|].
  assert (Nb : snd b <> snd a) by (apply H; now left).
  match goal with |- context [if ?c then _ else _] => destruct c eqn:E end.
  - assert (Eab : earlier a b) by (unfold earlier; lia).
    constructor; [|now constructor]. constructor; [exact Eab|].
    rewrite Forall_forall in *. intros x Hx. specialize (F x Hx). unfold earlier in *. lia.
  - constructor; [|apply IH; intros; apply H; now right].
    rewrite Forall_forall in *. intros x Hx. apply einsert_In in Hx. destruct Hx as [->|Hx]; [unfold earlier; lia|now apply F].
Qed.

Lemma in_span_enc now e : near now -> near (fst e) -> in_span now (enc e) = (fst e <=? now).
Proof.
  intros Hn He. unfold in_span. cbn [enc fst snd]. rewrite timestamp_order by assumption.
  change (mkDouble 0 0) with (timestamp 0). rewrite timestamp_order; [|unfold near in *; lia|assumption].
  destruct (Z.leb_spec 0 (fst e)); [reflexivity|unfold near in *; lia].
Qed.

Lemma waits_near k evs w : Forall near_ev evs -> waits k evs = Some w -> near w.
Proof.
  intros F. revert w. induction evs as [|e evs IH] using rev_ind; intros w; [discriminate|].
  apply Forall_app in F. destruct F as [F Fe]. inversion_clear Fe as [|? ? Fe' _]. rewrite waits_snoc.
  specialize (IH F). destruct e as [k' w'|k'|now]; cbn.
  - destruct (k' =? k)%nat; [intros [= <-]; exact Fe'|apply IH].
  - destruct (k' =? k)%nat; [discriminate|apply IH].
  - destruct (waits k evs) as [v|]; [|discriminate]. destruct (v <=? now); [discriminate|apply IH].
Qed.

Lemma queue_inv evs : Forall near_ev evs -> exists l, QInv evs l.
Proof.
  induction evs as [|e evs IH] using rev_ind; intros F.
  - exists []. split; [reflexivity|intros ? ? []|constructor|]. intros w k. split; [intros []|discriminate].
  - apply Forall_app in F. destruct F as [F Fe]. inversion_clear Fe as [|? ? Fe' _]. destruct (IH F) as [l I].
    assert (RM : forall k, zrem k (map enc l) = map enc (filter (fun e => negb (snd e =? k)%nat) l))
      by (intros k; apply filter_enc; reflexivity).
    destruct e as [k w|k|now]; cbn [near_ev] in Fe'.
    + exists (einsert (w, k) (filter (fun e => negb (snd e =? k)%nat) l)).
      assert (NR : forall w' k', In (w', k') (filter (fun e => negb (snd e =? k)%nat) l) -> near w').
      { intros w' k' Hi. apply filter_In in Hi. now apply (qi_near _ _ I w' k'). }
      split.
      * rewrite queue_snoc. cbn [qstep]. unfold zadd. rewrite (qi_q _ _ I), RM. now apply (zinsert_enc (w, k)).
      * intros w' k' Hi. apply einsert_In in Hi. destruct Hi as [[= -> ->]|Hi]; [exact Fe'|now apply NR in Hi].
      * apply einsert_sorted; [|apply filter_sorted, (qi_sorted _ _ I)].
        intros x Hx. apply filter_In in Hx. destruct Hx as [_ Hx]. cbn [snd].
        destruct (Nat.eqb_spec (snd x) k); [discriminate|assumption].
      * intros w' k'. rewrite einsert_In, filter_In, waits_snoc, (qi_waits _ _ I). cbn [snd waits1].
        destruct (Nat.eqb_spec k k') as [->|N].
        -- rewrite Nat.eqb_refl. cbn. split; [intros [[= ->]|[_ [=]]]; reflexivity|intros [= ->]; now left].
        -- destruct (Nat.eqb_spec k' k); [congruence|]. cbn. split; [intros [[= -> ->]|[H _]]; [congruence|exact H]|intros H; right; now split].
    + exists (filter (fun e => negb (snd e =? k)%nat) l). split.
      * rewrite queue_snoc. cbn [qstep]. now rewrite (qi_q _ _ I), RM.
      * intros w' k' Hi. apply filter_In in Hi. now apply (qi_near _ _ I w' k').
      * apply filter_sorted, (qi_sorted _ _ I).
      * intros w' k'. rewrite filter_In, waits_snoc, (qi_waits _ _ I). cbn [snd waits1]. rewrite (Nat.eqb_sym k k').
        destruct (k' =? k)%nat; cbn; intuition discriminate.
    + exists (filter (fun e => negb (fst e <=? now)) l). split.
      * rewrite queue_snoc. cbn [qstep]. rewrite (qi_q _ _ I). apply filter_enc.
        intros [w k] Hi. rewrite in_span_enc; [reflexivity|exact Fe'|exact (qi_near _ _ I _ _ Hi)].
      * intros w' k' Hi. apply filter_In in Hi. now apply (qi_near _ _ I w' k').
      * apply filter_sorted, (qi_sorted _ _ I).
      * intros w' k'. rewrite filter_In, waits_snoc, (qi_waits _ _ I). cbn [fst waits1].
        destruct (waits k' evs) as [v|]; [|intuition discriminate].
        destruct (Z.leb_spec v now) as [L|L]; (split; [intros [[= <-] H]|intros H]); try discriminate.
        -- apply Z.leb_le in L. now rewrite L in H.
        -- reflexivity.
        -- injection H as <-. split; [reflexivity|]. apply Z.leb_gt in L. now rewrite L.
Qed.

Lemma due_enc evs l now : QInv evs l -> near now -> due now (queue evs) = map snd (filter (fun e => fst e <=? now) l).
Proof.
  intros I Hn. unfold due. rewrite (qi_q _ _ I), (filter_enc _ (fun e => fst e <=? now)).
  - rewrite map_map. now apply map_ext.
  - intros [w k] Hi. apply in_span_enc; [exact Hn|exact (qi_near _ _ I _ _ Hi)].
Qed.

Lemma due_iff evs k now : Forall near_ev evs -> near now ->
  (In k (due now (queue evs)) <-> exists w, waits k evs = Some w /\ w <= now).
Proof.
  intros F Hn. destruct (queue_inv evs F) as [l I]. rewrite (due_enc _ _ _ I Hn), in_map_iff. split.
  - intros ([w k'] & E & Hi). cbn in E. subst k'. apply filter_In in Hi. destruct Hi as [Hi Hw].
    exists w. split; [now apply (qi_waits _ _ I)|]. now apply Z.leb_le.
  - intros (w & E & L). exists (w, k). split; [reflexivity|]. apply filter_In.
    split; [now apply (qi_waits _ _ I)|]. now apply Z.leb_le.
Qed.

Lemma due_sorted evs now : Forall near_ev evs -> near now ->
  ForallOrdPairs (fun k k' => exists w w', waits k evs = Some w /\ waits k' evs = Some w' /\ (w < w' \/ (w = w' /\ (k < k')%nat)))
    (due now (queue evs)).
Proof.
  intros F Hn. destruct (queue_inv evs F) as [l I]. rewrite (due_enc _ _ _ I Hn).
  pose proof (filter_sorted _ (fun e => fst e <=? now) _ (qi_sorted _ _ I)) as S.
  assert (W : forall e, In e (filter (fun e => fst e <=? now) l) -> waits (snd e) evs = Some (fst e)).
  { intros [w k] Hi. apply filter_In in Hi. now apply (qi_waits _ _ I). }
  induction S as [|a r Fa S IH]; [constructor|]. cbn [map]. constructor; [|apply IH; intros; apply W; now right].
  rewrite Forall_forall in *. intros k Hk. apply in_map_iff in Hk. destruct Hk as (b & <- & Hb).
  exists (fst a), (fst b). repeat split; [apply W; now left|apply W; now right|now apply Fa].
Qed.

Lemma due_nodup evs now : Forall near_ev evs -> near now -> NoDup (due now (queue evs)).
Proof.
  intros F Hn. pose proof (due_sorted evs now F Hn) as S. induction S as [|k r Fk S IH]; constructor; [|exact IH].
  intros Hi. rewrite Forall_forall in Fk. destruct (Fk k Hi) as (w & w' & E & E' & H). rewrite E in E'. injection E' as ->. lia.
Qed.

(** Any date the calendar has: nothing is left behind. *)
Lemma zinsert_In a q e : In e (zinsert a q) <-> e = a \/ In e q.
Proof.
  induction q as [|b q IH]; cbn; [intuition|]. destruct (before a b); cbn; [intuition|]. rewrite IH. intuition.
Qed.

Lemma due_calendar evs k w now : calendar w -> calendar now -> w <= now -> In k (due now (queue (evs ++ [QPark k w]))).
Proof.
  intros Hw Hn L. unfold calendar in *. rewrite queue_snoc. cbn [qstep]. unfold due, zadd. apply in_map_iff.
  exists (timestamp w, k). split; [reflexivity|]. apply filter_In. split; [apply zinsert_In; now left|].
  unfold in_span. cbn [fst]. change (mkDouble 0 0) with (timestamp 0).
  rewrite !timestamp_mono by lia. reflexivity.
Qed.
