(** C93: the store of results gives back what was put into it. *)
From Verif Require Import Base Text Store SpecStore StoreProofs.

Lemma stored_latest {V} d (h : list (sop V)) c k v : stored d h c k v <-> exists t dt, latest d h c k v t dt /\ lasts t dt.
Proof.
  split.
  - intros (h1 & o & h2 & w1 & t & w2 & A & B & C & D & L). exists t, (elapsed h2). split; [|exact L]. exists h1, o, h2, w1, w2. repeat split; assumption.
  - intros (t & dt & (h1 & o & h2 & w1 & w2 & A & B & C & D & ->) & L). exists h1, o, h2, w1, t, w2. repeat split; assumption.
Qed.
Lemma stored_for_latest {V} d (h : list (sop V)) c k v l : stored_for d h c k v l <->
  exists t dt, latest d h c k v t dt /\ lasts t dt /\ l = option_map (fun t => 1000 * (t / 1000) - dt) t.
Proof.
  split.
  - intros (h1 & o & h2 & w1 & t & w2 & A & B & C & D & E & L). exists t, (elapsed h2). split; [exists h1, o, h2, w1, w2; repeat split; assumption|].
    split; [|exact E]. destruct t as [t|]; [|exact I]. cbn [lasts option_map] in E |- *. specialize (L _ E). lia.
  - intros (t & dt & (h1 & o & h2 & w1 & w2 & A & B & C & D & ->) & L & E). exists h1, o, h2, w1, t, w2. repeat split; try assumption.
    intros ms. subst l. destruct t as [t|]; [|discriminate]. cbn [lasts option_map] in L |- *. intros X. assert (Y : ms = 1000 * (t / 1000) - elapsed h2) by congruence. lia.
Qed.

Lemma entry_run {V} d cs (h : list (sop V)) c k : unambiguous cs -> In c cs -> Forall (good d cs) h -> forall v e,
  entry (fst (srun d h)) (snd (srun d h)) (full c k) = Some (v, e) <->
  exists t dt, latest d h c k v t dt /\ lasts t dt /\ e = expiry (elapsed h - dt) t.
Proof.
  intros U I G v e. destruct (run_latest d cs h U G) as [T A]. rewrite T. unfold entry. split.
  - destruct (fst (srun d h) (full c k)) as [[v' e']|] eqn:F; [|discriminate]. apply (A c k I) in F. destruct F as (t & dt & L & ->).
    destruct t as [t|]; cbn [expiry option_map].
    + destruct (_ <=? _) eqn:E; [discriminate|]. intros [= <- <-]. exists (Some t), dt. split; [exact L|]. split; [cbn [lasts]; lia|reflexivity].
    + intros [= <- <-]. exists None, dt. repeat split. exact L.
  - intros (t & dt & L & La & ->).
    assert (F : fst (srun d h) (full c k) = Some (v, expiry (elapsed h - dt) t)) by (apply (A c k I); exists t, dt; now split). rewrite F.
    destruct t as [t|]; cbn [expiry option_map]; [|reflexivity]. cbn [lasts] in La. destruct (_ <=? _) eqn:E; [lia|reflexivity].
Qed.

(** [get] answers the last value put into that key of that collection, unless it was
    deleted or its time to live, in whole seconds, has passed.  Missing from the full
    statement: collections that contain colons so that another one begins with them, times
    to live below a second, and fractions of seconds (false, below). *)
Theorem C93_get_partial {V} d cs (h : list (sop V)) c k v : unambiguous cs -> In (named d c) cs -> Forall (good d cs) h ->
  (get d (fst (srun d h)) (snd (srun d h)) k c = Some v <-> stored d h (named d c) k v).
Proof.
  intros U I G. unfold get. change (make_key d k c) with (full (named d c) k). rewrite stored_latest.
  pose proof (entry_run d cs h (named d c) k U I G) as E. destruct (entry _ _ _) as [[v' e]|] eqn:F.
  - destruct (proj1 (E v' e) eq_refl) as (t & dt & L & La & ->). cbn. split.
    + intros [= <-]. exists t, dt. now split.
    + intros (t' & dt' & L' & La'). assert (X : Some (v', expiry (elapsed h - dt) t) = Some (v, expiry (elapsed h - dt') t')) by (apply E; exists t', dt'; repeat split; assumption). congruence.
  - split; [discriminate|]. intros (t & dt & L & La). assert (X : None = Some (v, expiry (elapsed h - dt) t)) by (apply E; exists t, dt; repeat split; assumption). discriminate X.
Qed.
Print Assumptions C93_get_partial.

(** [get_many] is [get] for each key, in order. *)
Theorem C93_get_many_partial {V} d cs (h : list (sop V)) c ks : unambiguous cs -> In (named d c) cs -> Forall (good d cs) h ->
  let r := get_many d (fst (srun d h)) (snd (srun d h)) ks c in
  length r = length ks /\ forall i k, nth_error ks i = Some k -> exists o, nth_error r i = Some o /\ forall v, o = Some v <-> stored d h (named d c) k v.
Proof.
  intros U I G r. assert (R : r = map (fun k => get d (fst (srun d h)) (snd (srun d h)) k c) ks) by (unfold r, get_many; destruct ks as [|k ks]; [reflexivity|now rewrite map_map]).
  rewrite R, map_length. split; [reflexivity|]. intros i k X. exists (get d (fst (srun d h)) (snd (srun d h)) k c). split; [exact (map_nth_error (fun k => get d (fst (srun d h)) (snd (srun d h)) k c) i ks X)|].
  intros v. now apply (C93_get_partial d cs).
Qed.
Print Assumptions C93_get_many_partial.

(** [ttl] answers the value and the time left, rounded to the nearest second. *)
Theorem C93_ttl_partial {V} d cs (h : list (sop V)) c k v o : unambiguous cs -> In (named d c) cs -> Forall (good d cs) h ->
  let '(s, now) := srun d h in
  (ttl d s now s now k c = Some (v, o) <-> exists l, stored_for d h (named d c) k v l /\
     match l, o with None, None => True | Some ms, Some sec => -500 < 1000 * sec - ms <= 500 | _, _ => False end).
Proof.
  intros U I G. pose proof (entry_run d cs h (named d c) k U I G) as E. destruct (run_latest d cs h U G) as [T _]. destruct (srun d h) as [s now]. cbn [fst snd] in *. subst now.
  unfold ttl, redis_ttl. change (make_key d k c) with (full (named d c) k). destruct (entry s (elapsed h) (full (named d c) k)) as [[v' e]|] eqn:F.
  - destruct (proj1 (E v' e) eq_refl) as (t & dt & L & La & ->).
    assert (Un : forall l, stored_for d h (named d c) k v l -> v = v' /\ l = option_map (fun t => 1000 * (t / 1000) - dt) t).
    { intros l Sl. apply stored_for_latest in Sl. destruct Sl as (t' & dt' & L' & La' & ->).
      assert (X : Some (v', expiry (elapsed h - dt) t) = Some (v, expiry (elapsed h - dt') t')) by (apply E; exists t', dt'; repeat split; assumption).
      injection X as -> X. split; [reflexivity|]. destruct t as [t|], t' as [t'|]; cbn in X |- *; try discriminate X; [|reflexivity]. injection X as X. f_equal. lia. }
    assert (Sf : stored_for d h (named d c) k v' (option_map (fun t => 1000 * (t / 1000) - dt) t)) by (apply stored_for_latest; exists t, dt; repeat split; assumption).
    destruct t as [t|]; cbn [expiry option_map] in *.
    + replace (elapsed h - dt + 1000 * (t / 1000) - elapsed h) with (1000 * (t / 1000) - dt) by lia. cbn [lasts] in La. set (ms := 1000 * (t / 1000) - dt) in *. assert (0 < ms) by (unfold ms; lia). clearbody ms.
      pose proof (Z.div_mod (ms + 500) 1000 ltac:(lia)) as Dm. pose proof (Z.mod_pos_bound (ms + 500) 1000 ltac:(lia)) as Mb. set (q := (ms + 500) / 1000) in *. clearbody q.
      destruct (0 <=? q) eqn:Q; [|lia]. split.
      * intros [= <- <-]. exists (Some ms). split; [exact Sf|lia].
      * intros (l & Sl & M). destruct (Un l Sl) as [-> ->]. destruct o as [sec|]; [|contradiction]. do 3 f_equal. lia.
    + change (0 <=? -1) with false. cbn [Z.leb]. split.
      * intros [= <- <-]. exists None. now split.
      * intros (l & Sl & M). destruct (Un l Sl) as [-> ->]. destruct o; [contradiction|reflexivity].
  - split; [discriminate|]. intros (l & Sl & _). apply stored_for_latest in Sl. destruct Sl as (t & dt & L & La & _).
    assert (X : None = Some (v, expiry (elapsed h - dt) t)) by (apply E; exists t, dt; repeat split; assumption). discriminate X.
Qed.
Print Assumptions C93_ttl_partial.

(** ** Deletions *)
Lemma del_count {V} now c : forall ks (s : kv V), exists l, NoDup l /\ (forall k, In k l <-> In k ks /\ is_some (entry s now (full c k)) = true) /\ snd (del s now (map (full c) ks)) = Z.of_nat (length l).
Proof.
  assert (Fi : forall k k', full c k = full c k' -> k = k').
  { intros k k' E. unfold full in E. assert (G : forall p a b, (p ++ a)%string = (p ++ b)%string -> a = b) by (induction p; cbn; [auto|intros a0 b [= X]; auto]). apply G in E. now injection E. }
  induction ks as [|k ks IH]; intros s.
  - exists []. split; [constructor|]. split; [intros k; split; [intros []|intros [[] _]]|reflexivity].
  - destruct (IH (upd s (full c k) None)) as (l & Nd & M & C). cbn [map del].
    assert (Same : forall k', k' <> k -> entry (upd s (full c k) None) now (full c k') = entry s now (full c k')).
    { intros k' N. unfold entry. rewrite upd_neq by (intros X; apply N; now apply Fi). reflexivity. }
    assert (Gone : entry (upd s (full c k) None) now (full c k) = None) by (unfold entry; now rewrite upd_eq).
    destruct (del (upd s (full c k) None) now (map (full c) ks)) as [s' n]. cbn [snd] in *. subst n.
    assert (Nk : ~ In k l) by (rewrite M, Gone; intros [_ X]; discriminate X).
    destruct (is_some (entry s now (full c k))) eqn:Ek.
    + exists (k :: l). split; [now constructor|]. split; [|cbn [length]; lia]. intros k'. destruct (string_dec k' k) as [->|N].
      * split; [intros _; split; [now left|exact Ek]|intros _; now left].
      * cbn [In]. rewrite M, (Same k' N). intuition congruence.
    + exists l. split; [exact Nd|]. split; [|lia]. intros k'. destruct (string_dec k' k) as [->|N].
      * split; [contradiction|]. intros [_ X]. congruence.
      * cbn [In]. rewrite M, (Same k' N). intuition congruence.
Qed.

Lemma present_entry {V} d cs (h : list (sop V)) c k : unambiguous cs -> In c cs -> Forall (good d cs) h ->
  (is_some (entry (fst (srun d h)) (snd (srun d h)) (full c k)) = true <-> present d h c k).
Proof.
  intros U I G. pose proof (entry_run d cs h c k U I G) as E. rewrite is_some_true. unfold present. split.
  - intros [[v e] X]. apply E in X. destruct X as (t & dt & L & La & _). exists v. apply stored_latest. exists t, dt. now split.
  - intros [v X]. apply stored_latest in X. destruct X as (t & dt & L & La). exists (v, expiry (elapsed h - dt) t). apply E. exists t, dt. repeat split; assumption.
Qed.

(** [delete] answers whether there was a value; [delete_many] how many different keys had
    one. *)
Theorem C93_delete_partial {V} d cs (h : list (sop V)) c : unambiguous cs -> In (named d c) cs -> Forall (good d cs) h ->
  let '(s, now) := srun d h in
  (forall k, snd (delete d s now k c) = true <-> present d h (named d c) k) /\
  (forall ks, exists l, NoDup l /\ (forall k, In k l <-> In k ks /\ present d h (named d c) k) /\ snd (delete_many d s now ks c) = Z.of_nat (length l)).
Proof.
  intros U I G. pose proof (fun k => present_entry d cs h (named d c) k U I G) as P. destruct (srun d h) as [s now]. cbn [fst snd] in P. split.
  - intros k. rewrite <- P. unfold delete. cbn [del]. change (make_key d k c) with (full (named d c) k). cbn [snd]. destruct (is_some _); cbn; split; auto; discriminate.
  - intros ks. destruct (del_count now (named d c) ks s) as (l & Nd & M & C). exists l. split; [exact Nd|]. split; [intros k; now rewrite M, P|].
    unfold delete_many. destruct ks as [|k ks]; [exact C|exact C].
Qed.
Print Assumptions C93_delete_partial.

(** A put with a time to live of a second or more returns, and a put_many with as many values as
    keys; with a different number of them it raises, unless there are no keys. *)
Theorem C93_put_returns {V} d (s : kv V) now c t : long_enough t ->
  (forall k v, put d s now k v c t <> None) /\
  forall ks vs, snd (put_many d s now ks vs c t) = true <-> length ks = length vs \/ ks = [].
Proof.
  intros L. assert (P : forall (s : kv V) k v, put d s now k v c t <> None).
  { intros s' k v. rewrite put_write by exact L. discriminate. }
  split; [apply P|]. intros ks vs.
  assert (A : forall ks vs (s : kv V), snd (put_all d s now ks vs c t) = true <-> length ks = length vs).
  { induction ks0 as [|k ks0 IH]; intros [|v vs0] s'; cbn [put_all length snd]; try (split; [discriminate|discriminate]); [tauto|].
    pose proof (P s' k v) as Q. destruct (put d s' now k v c t) as [s1|]; [|contradiction]. rewrite IH. split; [congruence|]. now intros [=]. }
  unfold put_many. destruct ks as [|k ks]; [cbn; tauto|]. rewrite A. split; [tauto|]. intros [H|H]; [exact H|discriminate H].
Qed.
Print Assumptions C93_put_returns.

(** A time to live below a second is refused, and nothing changes. *)
Theorem C93_short_refuted : forall (V : Type) d (s : kv V) now k v c t, t < 1000 ->
  put d s now k v c (Some t) = None /\ sstep d (s, now) (SPut k v c (Some t)) = (s, now) /\
  forall ks vs, ks <> [] -> put_many d s now ks vs c (Some t) = (s, false).
Proof.
  intros V d s now k v c t L. assert (Z.quot t 1000 <= 0) by (destruct (Z_le_gt_dec 0 t); [rewrite Z.quot_small by lia; lia|rewrite <- (Z.opp_involutive t), Z.quot_opp_l by lia; assert (0 <= Z.quot (-t) 1000) by (apply Z.quot_pos; lia); lia]).
  assert (P : put d s now k v c (Some t) = None) by (unfold put; destruct (_ <=? 0) eqn:E; [reflexivity|lia]). split; [exact P|]. split; [cbn [sstep]; now rewrite P|].
  assert (P' : forall k v, put d s now k v c (Some t) = None) by (intros k' v'; unfold put; destruct (_ <=? 0) eqn:E; [reflexivity|lia]).
  intros [|k' ks] [|v' vs] N; try contradiction; cbn [put_many put_all]; [reflexivity|]. now rewrite P'.
Qed.
Print Assumptions C93_short_refuted.

(** A value to be kept for 1.9 s is gone after 1.5 s. *)
Theorem C93_fraction_refuted : exists d (h : list (sop nat)), h = [SPut "k" 1%nat None (Some 1900); SWait 1500] /\
  get d (fst (srun d h)) (snd (srun d h)) "k" None = None.
Proof. exists "d:results"%string, [SPut "k" 1%nat None (Some 1900); SWait 1500]. split; reflexivity. Qed.
Print Assumptions C93_fraction_refuted.

(** Key "c" of collection "a:b" and key "b:c" of collection "a" are the same. *)
Theorem C93_collision_refuted : exists d (h : list (sop nat)), h = [SPut "c" 1%nat (Some "a:b") None] /\
  get d (fst (srun d h)) (snd (srun d h)) "b:c" (Some "a"%string) = Some 1%nat.
Proof. exists "d:results"%string, [SPut "c" 1%nat (Some "a:b"%string) None]. split; reflexivity. Qed.
Print Assumptions C93_collision_refuted.

(** [put_many] with more keys than values raises, but has stored the ones before; with
    values and no keys it does not even raise. *)
Theorem C93_put_many_refuted : exists d (s s' : kv nat), put_many d s 0 ["a"; "b"] [1%nat] None None = (s', false) /\ get d s 0 "a" None = None /\ get d s' 0 "a" None = Some 1%nat /\
  put_many d s 0 [] [1%nat] None None = (s, true).
Proof. exists "d:results"%string, (fun _ => None). eexists. repeat split. Qed.
Print Assumptions C93_put_many_refuted.

(** [ttl] asks twice: another client's put in between, and a value that was only to be kept
    for a time is said to be kept for ever. *)
Theorem C93_ttl_refuted : exists d (h : list (sop nat)) o, h = [SPut "k" 1%nat None (Some 60000)] /\
  let '(s, now) := srun d h in let '(s', now') := srun d (h ++ [o]) in
  now' = now /\ ttl d s now s' now' "k" None = Some (1%nat, None) /\
  forall l, stored_for d h d "k" 1%nat l -> l <> None.
Proof.
  exists "d:results"%string, [SPut "k" 1%nat None (Some 60000)], (SPut "k" 2%nat None None). split; [reflexivity|]. vm_compute srun. split; [reflexivity|]. split; [reflexivity|].
  intros l Sl E. subst l. destruct Sl as (h1 & o & h2 & w1 & t & w2 & A & B & _ & _ & L & _).
  destruct h1 as [|x h1]; [|destruct h1; discriminate A]. injection A as <- <-. cbn [writes] in B. destruct w1 as [|y w1]; [|destruct w1; discriminate B].
  injection B as <- <-. discriminate L.
Qed.
Print Assumptions C93_ttl_refuted.

(** A history that meets the hypotheses: the result of a task overwritten, another deleted,
    another collection. *)
Definition shop : list (sop nat) := [SPut "t1" 1%nat None (Some 900000); SPut "t1" 7%nat (Some "cache"%string) None; SPutMany ["t2"; "t3"; "t1"] [2; 3; 4]%nat None (Some 2500); SWait 1000; SDeleteMany ["t2"; "t9"; "t2"] None; SWait 500].
Example C93_example_hyps : unambiguous ["d:results"; "cache"]%string /\ Forall (good "d:results" ["d:results"; "cache"]%string) shop.
Proof.
  split.
  - intros c c' r I J E. cbn in I, J. destruct I as [<-|[<-|[]]], J as [<-|[<-|[]]]; cbn in E; discriminate E.
  - unfold shop. repeat (apply Forall_cons; [cbn [good]; try (split; [cbn; tauto|intros x [= <-]; lia]); try (split; [cbn; tauto|discriminate]); try (cbn; tauto); try lia|]). apply Forall_nil.
Qed.
Example C93_example_get : let '(s, now) := srun "d:results" shop in
  get_many "d:results" s now ["t1"; "t2"; "t3"; "t4"] None = [Some 4%nat; None; Some 3%nat; None] /\
  get "d:results" s now "t1" (Some "cache"%string) = Some 7%nat /\
  ttl "d:results" s now s now "t3" None = Some (3%nat, Some 1) /\
  get "d:results" s (now + 500) "t3" None = None /\
  snd (delete_many "d:results" s now ["t1"; "t3"; "t1"; "t2"] None) = 2.
Proof. vm_compute. repeat split. Qed.
