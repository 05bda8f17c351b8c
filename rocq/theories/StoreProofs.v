From Verif Require Import Base Text Store SpecStore.

(** ** One write *)
Definition full (c key : string) : string := (c ++ ":" ++ key)%string.
Definition expiry (now : Z) (t : option Z) : option Z := option_map (fun t => now + 1000 * (t / 1000)) t.
Definition write {V} (now : Z) (s : kv V) (w : string * string * option (V * option Z)) : kv V :=
  let '(c, k, x) := w in upd s (full c k) (option_map (fun vt => (fst vt, expiry now (snd vt))) x).

Lemma put_write {V} d (s : kv V) now k v c t : long_enough t ->
  put d s now k v c t = Some (write now s (named d c, k, Some (v, t))).
Proof.
  intros L. unfold put, write, make_key, full, named. destruct t as [t|]; cbn [option_map fst snd expiry]; [|reflexivity].
  specialize (L t eq_refl). rewrite Z.quot_div_nonneg by lia. assert (1 <= t / 1000) by (apply Z.div_le_lower_bound; lia).
  destruct (t / 1000 <=? 0) eqn:E; [lia|reflexivity].
Qed.

Lemma put_all_writes {V} d now c t : long_enough t -> forall ks (vs : list V) s,
  fst (put_all d s now ks vs c t) = fold_left (write now) (map (fun kv => (named d c, fst kv, Some (snd kv, t))) (combine ks vs)) s.
Proof.
  intros L. induction ks as [|k ks IH]; intros [|v vs] s; try reflexivity. cbn [put_all]. rewrite put_write by exact L. rewrite IH. reflexivity.
Qed.

Lemma del_writes {V} now c ks : forall s : kv V,
  fst (del s now (map (full c) ks)) = fold_left (write now) (map (fun k => (c, k, None)) ks) s.
Proof.
  induction ks as [|k ks IH]; intros s; [reflexivity|]. cbn [map del fold_left]. change (write now s (c, k, None)) with (upd s (full c k) None).
  rewrite <- (IH (upd s (full c k) None)). destruct (del _ now _); reflexivity.
Qed.

Lemma step_writes {V} d cs (o : sop V) s now : good d cs o ->
  sstep d (s, now) o = (fold_left (write now) (writes d o) s, now + elapsed [o]).
Proof.
  destruct o as [k v c t|k c|ks vs c t|ks c|dt]; intros G; cbn [sstep elapsed writes fold_left]; rewrite ?Z.add_0_r; f_equal.
  - now rewrite put_write by apply G.
  - unfold put_many. destruct ks as [|k ks]; [reflexivity|]. apply put_all_writes, G.
  - unfold delete_many. destruct ks as [|k ks]; [reflexivity|]. apply (del_writes now (named d c) (k :: ks)).
Qed.

Lemma step_writes_in {V} d cs (o : sop V) c k x : good d cs o -> In (c, k, x) (writes d o) -> In c cs.
Proof.
  destruct o as [k0 v c0 t|k0 c0|ks vs c0 t|ks c0|dt]; cbn [good writes]; intros G I.
  - destruct I as [[= <- <- <-]|[]]. apply G.
  - destruct I as [[= <- <- <-]|[]]. exact G.
  - apply in_map_iff in I. destruct I as (e & [= <- <- <-] & _). apply G.
  - apply in_map_iff in I. destruct I as (e & [= <- <- <-] & _). exact G.
  - contradiction.
Qed.

Lemma full_inj cs c k c' k' : unambiguous cs -> In c cs -> In c' cs -> full c k = full c' k' -> c = c' /\ k = k'.
Proof.
  intros U. unfold full.
  assert (G : forall c c' k k', (c ++ ":" ++ k)%string = (c' ++ ":" ++ k')%string -> (c = c' /\ k = k') \/ (exists r, c' = (c ++ ":" ++ r)%string) \/ (exists r, c = (c' ++ ":" ++ r)%string)).
  { clear. induction c as [|a c IH]; intros [|b c'] k k' E; cbn in E.
    - injection E as ->. auto.
    - injection E as <- E. right. left. exists c'. reflexivity.
    - injection E as -> E. right. right. exists c. reflexivity.
    - injection E as -> E. destruct (IH _ _ _ E) as [[-> ->]|[[r ->]|[r ->]]]; [auto|right; left|right; right]; exists r; reflexivity. }
  intros I J E. destruct (G _ _ _ _ E) as [H|[[r H]|[r H]]]; [exact H|now apply U in H|now apply U in H].
Qed.

(** ** The last write *)
Definition touches {V} (c k : string) (w : string * string * option (V * option Z)) : bool :=
  let '(c', k', _) := w in String.eqb c c' && String.eqb k k'.
Lemma touches_spec {V} c k c' k' (x : option (V * option Z)) : touches c k (c', k', x) = true <-> c = c' /\ k = k'.
Proof. unfold touches. now rewrite andb_true_iff, !String.eqb_eq. Qed.

(** Either nothing was written to the key, or something was and then nothing more. *)
Lemma last_write {V} c k (ws : list (string * string * option (V * option Z))) :
  (forall x, ~ In (c, k, x) ws) \/ exists w1 x w2, ws = w1 ++ (c, k, x) :: w2 /\ forall y, ~ In (c, k, y) w2.
Proof.
  induction ws as [|w ws IH]; [left; auto|]. destruct IH as [N|(w1 & x & w2 & -> & N)].
  - destruct w as [[c' k'] x]. destruct (touches c k (c', k', x)) eqn:T.
    + apply touches_spec in T. destruct T as [<- <-]. right. exists [], x, ws. now split.
    + left. intros y [[= -> -> ->]|I]; [|now apply (N y)]. assert (touches c k (c, k, y) = true) by now apply touches_spec. congruence.
  - right. exists (w :: w1), x, w2. now split.
Qed.

Lemma fold_untouched {V} cs now c k : unambiguous cs -> In c cs -> forall ws (s : kv V), (forall c' k' x, In (c', k', x) ws -> In c' cs) ->
  (forall x, ~ In (c, k, x) ws) -> fold_left (write now) ws s (full c k) = s (full c k).
Proof.
  intros U I. induction ws as [|[[c' k'] x] ws IH]; intros s A N; [reflexivity|]. cbn [fold_left]. rewrite IH.
  - unfold write. apply upd_neq. intros E. apply (full_inj cs) in E; [|exact U|exact I|apply (A c' k' x); now left]. destruct E as [-> ->]. apply (N x). now left.
  - intros c1 k1 y J. apply (A c1 k1 y). now right.
  - intros y J. apply (N y). now right.
Qed.

Lemma fold_touched {V} cs now c k w1 x w2 (s : kv V) : unambiguous cs -> In c cs -> (forall c' k' x', In (c', k', x') (w1 ++ (c, k, x) :: w2) -> In c' cs) ->
  (forall y, ~ In (c, k, y) w2) ->
  fold_left (write now) (w1 ++ (c, k, x) :: w2) s (full c k) = option_map (fun vt => (fst vt, expiry now (snd vt))) x.
Proof.
  intros U I A N. rewrite fold_left_app. cbn [fold_left]. rewrite (fold_untouched cs).
  - unfold write at 1. apply upd_eq.
  - exact U.
  - exact I.
  - intros c' k' x' J. apply (A c' k' x'). apply in_or_app. right. now right.
  - exact N.
Qed.

(** ** Histories *)
Definition latest {V} (d : string) (h : list (sop V)) (c key : string) (v : V) (t : option Z) (dt : Z) : Prop :=
  exists h1 o h2 w1 w2, h = h1 ++ o :: h2 /\ writes d o = w1 ++ (c, key, Some (v, t)) :: w2 /\
    (forall x, ~ In (c, key, x) w2) /\ (forall o' x, In o' h2 -> ~ In (c, key, x) (writes d o')) /\ dt = elapsed h2.

Lemma elapsed_app {V} (a b : list (sop V)) : elapsed (a ++ b) = elapsed a + elapsed b.
Proof. induction a as [|[]  a IH]; cbn [app elapsed]; rewrite ?IH; lia. Qed.

Lemma srun_snoc {V} d (h : list (sop V)) o : srun d (h ++ [o]) = sstep d (srun d h) o.
Proof. unfold srun. now rewrite fold_left_app. Qed.

Lemma split_end {A} (h1 : list A) o h2 h x : h1 ++ o :: h2 = h ++ [x] -> (h2 = [] /\ o = x /\ h1 = h) \/ exists h3, h2 = h3 ++ [x] /\ h = h1 ++ o :: h3.
Proof.
  destruct h2 as [|y h2 _] using rev_ind; intros E.
  - left. apply app_inj_tail in E. destruct E. auto.
  - right. exists h2. change (h1 ++ o :: h2 ++ [y]) with (h1 ++ (o :: h2) ++ [y]) in E. rewrite app_assoc in E. apply app_inj_tail in E. destruct E as [<- <-]. auto.
Qed.

Lemma latest_unique {V} (c k : string) (w1 w2 w3 w4 : list (string * string * option (V * option Z))) x y :
  w1 ++ (c, k, x) :: w2 = w3 ++ (c, k, y) :: w4 -> (forall z, ~ In (c, k, z) w2) -> (forall z, ~ In (c, k, z) w4) -> x = y.
Proof.
  revert w3. induction w1 as [|a w1 IH]; intros [|b w3] E N M; cbn in E.
  - injection E as -> _. reflexivity.
  - injection E as <- E. exfalso. apply (N y). rewrite E. apply in_or_app. right. now left.
  - injection E as -> E. exfalso. apply (M x). rewrite <- E. apply in_or_app. right. now left.
  - injection E as -> E. now apply (IH w3).
Qed.

Theorem run_latest {V} d cs (h : list (sop V)) : unambiguous cs -> Forall (good d cs) h ->
  snd (srun d h) = elapsed h /\
  forall c k, In c cs -> forall v e, fst (srun d h) (full c k) = Some (v, e) <-> exists t dt, latest d h c k v t dt /\ e = expiry (elapsed h - dt) t.
Proof.
  intros U. induction h as [|o h IH] using rev_ind; intros G.
  - split; [reflexivity|]. intros c k I v e. split; [discriminate|]. intros (t & dt & (h1 & o & h2 & w1 & w2 & E & _) & _). destruct h1; discriminate E.
  - apply Forall_app in G. destruct G as [G Go]. inversion Go as [|? ? Go' _]; subst. destruct (IH G) as [T A]. clear IH Go.
    rewrite srun_snoc. destruct (srun d h) as [s now]. cbn [fst snd] in *. subst now. rewrite (step_writes d cs o s _ Go'). cbn [fst snd].
    rewrite elapsed_app. split; [reflexivity|]. intros c k I v e.
    assert (Ain : forall c' k' x, In (c', k', x) (writes d o) -> In c' cs) by (intros c' k' x J; now apply (step_writes_in d cs o c' k' x)).
    destruct (last_write c k (writes d o)) as [N|(w1 & x & w2 & W & N)].
    + rewrite (fold_untouched cs) by assumption. rewrite (A c k I v e). split.
      * intros (t & dt & (h1 & o1 & h2 & w1 & w2 & -> & W & N2 & N3 & ->) & ->). exists t, (elapsed h2 + elapsed [o]). split.
        -- exists h1, o1, (h2 ++ [o]), w1, w2. split; [now rewrite <- app_assoc|]. split; [exact W|]. split; [exact N2|]. split; [|now rewrite elapsed_app].
           intros o' y J. apply in_app_iff in J. destruct J as [J|[<-|[]]]; [now apply N3|apply N].
        -- f_equal. lia.
      * intros (t & dt & (h1 & o1 & h2 & w1 & w2 & E & W & N2 & N3 & ->) & ->). symmetry in E. apply split_end in E.
        destruct E as [(-> & -> & ->)|(h3 & -> & ->)].
        -- exfalso. apply (N (Some (v, t))). rewrite W. apply in_or_app. right. now left.
        -- exists t, (elapsed h3). split; [|rewrite (elapsed_app h3); f_equal; lia].
           exists h1, o1, h3, w1, w2. repeat split; try assumption. intros o' y J. apply N3. apply in_or_app. now left.
    + assert (Ain' := Ain). rewrite W in Ain'. rewrite W, (fold_touched cs) by assumption.
      assert (Wt : elapsed [o] = 0) by (destruct o; try reflexivity; cbn [writes] in W; destruct w1; discriminate W). rewrite Wt. split.
      * intros E. destruct x as [[v' t]|]; [|discriminate E]. cbn in E. injection E as -> <-. exists t, 0. split; [|f_equal; lia].
        exists h, o, [], w1, w2. repeat split; try assumption. intros o' y [].
      * intros (t & dt & (h1 & o1 & h2 & w3 & w4 & E & W2 & N2 & N3 & ->) & ->). symmetry in E. apply split_end in E.
        destruct E as [(-> & -> & ->)|(h3 & -> & ->)].
        -- rewrite W in W2. pose proof (latest_unique c k w1 w2 w3 w4 x (Some (v, t)) W2 N N2) as ->. cbn. do 3 f_equal. lia.
        -- exfalso. apply (N3 o x); [apply in_or_app; right; now left|]. rewrite W. apply in_or_app. right. now left.
Qed.
