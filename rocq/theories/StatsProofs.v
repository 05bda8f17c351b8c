(** Proofs about task statistics and the testing helpers. *)
From Coq Require Import Permutation.
From Verif Require Import Base ZSet Model GInv Spec Snapshot QueueInv PropsSnapshot Stats SpecStats.

Lemma lookup_change f g l f' : lookup f' (change f g l) =
  if String.eqb f f' then Some (g (default no_stats (lookup f l))) else lookup f' l.
Proof.
  unfold lookup. induction l as [|[h t] l IH]; cbn [change find fst].
  - cbn. destruct (String.eqb f f'); reflexivity.
  - destruct (String.eqb_spec h f) as [->|N].
    + cbn [find fst]. destruct (String.eqb f f'); reflexivity.
    + cbn [find fst]. destruct (String.eqb_spec h f') as [->|N'].
      * destruct (String.eqb_spec f f') as [->|_]; [congruence|reflexivity].
      * exact IH.
Qed.

(** What the folds keep for one name. *)
Record exact (rs qs : list Z) (o : option tstats) : Prop := mkExact {
  e_none : o = None <-> rs = [] /\ qs = [];
  e_running : t_running (default no_stats o) = Z.of_nat (length rs);
  e_queued : t_queued (default no_stats o) = Z.of_nat (length qs);
  e_total : t_total (default no_stats o) = Z.of_nat (length rs) + Z.of_nat (length qs);
  e_oq : least qs (t_oldest_queued (default no_stats o)); e_lq : greatest qs (t_latest_queued (default no_stats o));
  e_os : least rs (t_oldest_started (default no_stats o)); e_ls : greatest rs (t_latest_started (default no_stats o)) }.

Lemma exact_nil : exact [] [] None.
Proof. constructor; cbn; auto. tauto. Qed.

Lemma least_snoc l o x : least l o -> least (l ++ [x]) (older o x).
Proof.
  unfold older. destruct o as [y|]; cbn.
  - intros [I L]. destruct (Z.ltb_spec x y); cbn; split.
    + apply in_app_iff. right. now left.
    + intros z [H'|[<-|[]]]%in_app_iff; [specialize (L z H')|]; lia.
    + apply in_app_iff. now left.
    + intros z [H'|[<-|[]]]%in_app_iff; [specialize (L z H')|]; lia.
  - intros ->. cbn. split; [now left|]. intros y [<-|[]]. lia.
Qed.
Lemma greatest_snoc l o x : greatest l o -> greatest (l ++ [x]) (later o x).
Proof.
  unfold later. destruct o as [y|]; cbn.
  - intros [I L]. destruct (Z.ltb_spec y x); cbn; split.
    + apply in_app_iff. right. now left.
    + intros z [H'|[<-|[]]]%in_app_iff; [specialize (L z H')|]; lia.
    + apply in_app_iff. now left.
    + intros z [H'|[<-|[]]]%in_app_iff; [specialize (L z H')|]; lia.
  - intros ->. cbn. split; [now left|]. intros y [<-|[]]. lia.
Qed.

Lemma exact_running rs o x : exact rs [] o -> exact (rs ++ [x]) [] (Some (count_running x (default no_stats o))).
Proof.
  intros [A B C D E F G H]. constructor; cbn [default count_running t_running t_queued t_total t_oldest_queued t_latest_queued t_oldest_started t_latest_started]; auto;
    rewrite ?app_length, ?B, ?C, ?D; cbn [length]; try lia; auto using least_snoc, greatest_snoc.
  split; [discriminate|]. intros [Z _]. destruct rs; discriminate.
Qed.
Lemma exact_queued rs qs o x : exact rs qs o -> exact rs (qs ++ [x]) (Some (count_queued x (default no_stats o))).
Proof.
  intros [A B C D E F G H]. constructor; cbn [default count_queued t_running t_queued t_total t_oldest_queued t_latest_queued t_oldest_started t_latest_started]; auto;
    rewrite ?app_length, ?B, ?C, ?D; cbn [length]; try lia; auto using least_snoc, greatest_snoc.
  split; [discriminate|]. intros [_ Z]. destruct qs; discriminate.
Qed.

Lemma times_snoc f l e : times f (l ++ [e]) = times f l ++ (if String.eqb (fst e) f then [snd e] else []).
Proof. unfold times. rewrite filter_app', map_app. f_equal. cbn. destruct (String.eqb (fst e) f); reflexivity. Qed.

Theorem stats_exact running future f : exact (times f running) (times f future) (lookup f (get_task_stats running future)).
Proof.
  unfold get_task_stats. induction future as [|e future IH] using rev_ind.
  - cbn [fold_left]. change (times f []) with (@nil Z). induction running as [|e running IH] using rev_ind; [exact exact_nil|].
    rewrite fold_left_app. cbn [fold_left]. rewrite lookup_change, times_snoc. destruct (String.eqb_spec (fst e) f) as [->|N]; [now apply exact_running|now rewrite app_nil_r].
  - rewrite fold_left_app. cbn [fold_left]. rewrite lookup_change, times_snoc. destruct (String.eqb_spec (fst e) f) as [->|N]; [now apply exact_queued|now rewrite app_nil_r].
Qed.

(** ** The whole docket *)

Lemma times_length f l : length (times f l) = length (filter (fun e => String.eqb (fst e) f) l).
Proof. unfold times. apply map_length. Qed.

Lemma filter_map_length {A B} (g : A -> B) (p : B -> bool) l : length (filter p (map g l)) = length (filter (fun x => p (g x)) l).
Proof. induction l as [|x l IH]; [reflexivity|]. cbn. destruct (p (g x)); cbn; now rewrite IH. Qed.

Lemma filter_perm {A} (p : A -> bool) l l' : Permutation l l' -> length (filter p l) = length (filter p l').
Proof.
  induction 1 as [|x l l' P IH|x y l|l1 l2 l3 P1 IH1 P2 IH2]; cbn; auto; [|destruct (p x), (p y); reflexivity|congruence].
  destruct (p x); cbn; congruence.
Qed.

Lemma future_split (p : msg -> bool) (l : list (option sid * msg)) : length (filter (fun e => p (snd e)) l) =
  (length (filter (fun e => p (snd e)) (from_stream l)) + length (filter p (from_queue l)))%nat.
Proof.
  induction l as [|[[i|] m] l IH]; [reflexivity| |]; unfold from_stream, from_queue in *; cbn [flat_map fst snd filter app]; destruct (p m); cbn [length]; rewrite IH; lia.
Qed.

Lemma queue_of f s reg sn c : reachable c s -> (length (d_stream (s_db s)) <= 1000)%nat -> (length (d_pel (s_db s)) <= 1000)%nat ->
  snapshot reg (s_db s) (s_db s) = Some sn -> Z.of_nat (length (filter (fun m => String.eqb (m_fn m) f) (from_queue (sn_future sn)))) = on_queue_of f s.
Proof.
  intros R Ls Lp E. pose proof (reachable_GInv c s R) as [D _].
  assert (Fq : from_queue (sn_future sn) = flat_map (fun k => match d_parked (s_db s) k with Some m => [m] | None => [] end) (map snd (d_queue (s_db s)))).
  { unfold snapshot in E. destruct (forallb _ _); [|discriminate]. injection E as <-. cbn [sn_future]. apply fq_split. }
  rewrite Fq. unfold on_queue_of. f_equal. clear. induction (map snd (d_queue (s_db s))) as [|k l IH]; [reflexivity|]. cbn [flat_map filter].
  rewrite filter_app', app_length, IH. destruct (d_parked (s_db s) k) as [m|]; cbn; [destruct (String.eqb (m_fn m) f); reflexivity|reflexivity].
Qed.

Theorem stats_of_docket c s reg sn pyname started f : reachable c s ->
  (length (d_stream (s_db s)) <= 1000)%nat -> (length (d_pel (s_db s)) <= 1000)%nat -> snapshot reg (s_db s) (s_db s) = Some sn ->
  (forall i m, on_stream s i m -> pyname (m_fn m) = m_fn m) ->
  t_total (default no_stats (lookup f (docket_stats pyname started sn))) = on_stream_of f s + on_queue_of f s.
Proof.
  intros R Ls Lp E Py. pose proof (stats_exact (running_names pyname started sn) (future_names sn) f) as X. unfold docket_stats. rewrite (e_total _ _ _ X), !times_length.
  pose proof (queue_of f s reg sn c R Ls Lp E) as Q. destruct (C45_lists_partial c s [] reg sn R Ls Lp E) as (_ & P & _).
  unfold running_names, future_names. rewrite !filter_map_length. cbn [fst snd]. rewrite (future_split (fun m => String.eqb (m_fn m) f)).
  rewrite Nat2Z.inj_add, Q. unfold on_stream_of. rewrite <- (filter_perm _ _ _ P), filter_app', app_length, filter_map_length.
  assert (RP : forall e, In e (sn_running sn) -> pyname (m_fn (snd (fst e))) = m_fn (snd (fst e))).
  { intros [[i m] w] I. cbn. apply (Py i m). apply (Permutation_in (i, m) P). apply in_app_iff. left. change (i, m) with (fst (i, m, w)). now apply in_map. }
  assert (L : forall l, (forall e : sid * msg * string, In e l -> pyname (m_fn (snd (fst e))) = m_fn (snd (fst e))) ->
    length (filter (fun e => String.eqb (pyname (m_fn (snd (fst e)))) f) l) = length (filter (fun e => String.eqb (m_fn (snd (fst e))) f) l)).
  { induction l as [|e l IH]; intros H; [reflexivity|]. cbn. rewrite (H e (or_introl eq_refl)). specialize (IH (fun e I => H e (or_intror I))). destruct (String.eqb _ f); cbn; now rewrite IH. }
  rewrite (L _ RP). lia.
Qed.

(** ** The testing helpers *)

Lemma matches_fits kw q m : matches kw q m = true <-> fits kw (c_fn q) (c_args q) (c_kwargs q) (c_key q) m.
Proof.
  unfold matches, fits. rewrite !andb_true_iff, String.eqb_eq. destruct q as [f a l k]; cbn. split.
  - intros (((H1 & H2) & H3) & H4). split; [exact H1|]. split; [intros x ->; now apply String.eqb_eq|]. split; [intros x ->; now apply String.eqb_eq|].
    intros l' n v -> I. rewrite forallb_forall in H4. specialize (H4 (n, v) I). cbn in H4. destruct (kw (m_kwargs m) n); [|discriminate]. apply String.eqb_eq in H4. congruence.
  - intros (H1 & H2 & H3 & H4). split; [split; [split; [exact H1|]|]|].
    + destruct k; [apply String.eqb_eq; now apply H3|reflexivity].
    + destruct a; [apply String.eqb_eq; now apply H2|reflexivity].
    + destruct l as [l|]; [|reflexivity]. apply forallb_forall. intros [n v] I. cbn. rewrite (H4 l n v eq_refl I). apply String.eqb_refl.
Qed.

Lemma future_not_begun c s reg sn m : reachable c s -> (length (d_stream (s_db s)) <= 1000)%nat -> (length (d_pel (s_db s)) <= 1000)%nat ->
  snapshot reg (s_db s) (s_db s) = Some sn -> In m (map snd (sn_future sn)) <-> not_begun s m.
Proof.
  intros R Ls Lp E. pose proof (reachable_GInv c s R) as [D _]. destruct (C45_lists_partial c s [] reg sn R Ls Lp E) as (_ & P & Rn & Fs & _ & Q). split.
  - intros ([[i|] m'] & <- & I)%in_map_iff; cbn [snd].
    + left. exists i. split; [|now apply (Fs i m')]. apply (Permutation_in (i, m') P). apply in_app_iff. right. unfold from_stream. apply in_flat_map. exists (Some i, m'). split; [exact I|now left].
    + right. apply Q. unfold from_queue. apply in_flat_map. exists (None, m'). split; [exact I|now left].
  - intros [(i & O & L)|H].
    + apply (Permutation_in (i, m) (Permutation_sym P)) in O as O'. apply in_app_iff in O' as [O'|O'].
      * exfalso. apply in_map_iff in O' as ([[j n] w] & [= -> ->] & I). destruct (Rn i m w I) as (p & Ip & Ep & _). pose proof (di_pel _ D i ltac:(rewrite <- Ep; now apply in_map)). lia.
      * unfold from_stream in O'. apply in_flat_map in O' as ([[j|] n] & I & H'); cbn in H'; [|destruct H']. destruct H' as [[= -> ->]|[]]. change m with (snd (Some i, m)). now apply in_map.
    + apply Q in H. unfold from_queue in H. apply in_flat_map in H as ([[j|] n] & I & H'); cbn in H'; [destruct H'|]. destruct H' as [->|[]]. change m with (snd (@None sid, m)). now apply in_map.
Qed.

(** ** How many *)
Lemma queue_count (p : msg -> bool) s reg sn : snapshot reg (s_db s) (s_db s) = Some sn ->
  length (filter p (from_queue (sn_future sn))) = length (filter (fun k => match d_parked (s_db s) k with Some m => p m | None => false end) (map snd (d_queue (s_db s)))).
Proof.
  intros E. assert (Fq : from_queue (sn_future sn) = flat_map (fun k => match d_parked (s_db s) k with Some m => [m] | None => [] end) (map snd (d_queue (s_db s)))).
  { unfold snapshot in E. destruct (forallb _ _); [|discriminate]. injection E as <-. cbn [sn_future]. apply fq_split. }
  rewrite Fq. clear. induction (map snd (d_queue (s_db s))) as [|k l IH]; [reflexivity|]. cbn [flat_map filter].
  rewrite filter_app', app_length, IH. destruct (d_parked (s_db s) k) as [m|]; cbn; [destruct (p m); reflexivity|reflexivity].
Qed.

Lemma filter_none {A} (p : A -> bool) l : (forall x, In x l -> p x = false) -> filter p l = [].
Proof. induction l as [|x l IH]; intros H; [reflexivity|]. cbn. rewrite (H x (or_introl eq_refl)). apply IH. intros y I. apply H. now right. Qed.

Lemma snap_counts c s reg sn (p : msg -> bool) : reachable c s -> (length (d_stream (s_db s)) <= 1000)%nat -> (length (d_pel (s_db s)) <= 1000)%nat ->
  snapshot reg (s_db s) (s_db s) = Some sn ->
  Z.of_nat (length (filter (fun e => p (snd (fst e))) (sn_running sn))) = handed_out p s /\
  Z.of_nat (length (filter (fun e => p (snd e)) (sn_future sn))) = yet_to_begin p s.
Proof.
  intros R Ls Lp E. pose proof (reachable_GInv c s R) as [D _]. destruct (C45_lists_partial c s [] reg sn R Ls Lp E) as (_ & P & Rn & Fs & _ & Q).
  set (rs := map fst (sn_running sn)) in *. set (fs := from_stream (sn_future sn)) in *.
  assert (Hr : forall e, In e rs -> fst e <= d_last (s_db s)).
  { intros [i m] H. unfold rs in H. apply in_map_iff in H as ([[j n] w] & [= -> ->] & I). destruct (Rn i m w I) as (q & Iq & Eq & _). apply (di_pel _ D). cbn. rewrite <- Eq. now apply in_map. }
  assert (Hf : forall e, In e fs -> d_last (s_db s) < fst e).
  { intros [i m] H. unfold fs, from_stream in H. apply in_flat_map in H as ([[j|] n] & I & H'); cbn in H'; [|destruct H']. destruct H' as [[= -> ->]|[]]. cbn. now apply (Fs i m). }
  split.
  - unfold handed_out. f_equal. rewrite <- (filter_perm _ _ _ P), filter_app', app_length.
    rewrite (filter_none _ fs) by (intros e H; apply Hf in H; apply andb_false_iff; left; apply Z.leb_gt; exact H).
    rewrite (filter_ext_in _ (fun e => p (snd e)) rs) by (intros [i m] H; apply Hr in H; cbn in *; apply Z.leb_le in H; now rewrite H).
    unfold rs. rewrite filter_map_length. cbn [length]. lia.
  - unfold yet_to_begin. rewrite future_split, Nat2Z.inj_add, (queue_count p s reg sn E). f_equal. f_equal. rewrite <- (filter_perm _ _ _ P), filter_app', app_length.
    rewrite (filter_none _ rs) by (intros e H; apply Hr in H; apply andb_false_iff; left; apply Z.ltb_ge; exact H).
    cbn [length Nat.add]. f_equal. apply filter_ext_in. intros [i m] H. apply Hf in H. cbn [fst snd] in *. apply Z.ltb_lt in H. now rewrite H.
Qed.

Theorem rows_of_docket c s reg sn pyname started f : reachable c s ->
  (length (d_stream (s_db s)) <= 1000)%nat -> (length (d_pel (s_db s)) <= 1000)%nat -> snapshot reg (s_db s) (s_db s) = Some sn ->
  (forall i m, on_stream s i m -> pyname (m_fn m) = m_fn m) ->
  let t := default no_stats (lookup f (docket_stats pyname started sn)) in
  t_running t = handed_out (calls_fn (Some f)) s /\ t_queued t = yet_to_begin (calls_fn (Some f)) s.
Proof.
  intros R Ls Lp E Py t. destruct (snap_counts c s reg sn (calls_fn (Some f)) R Ls Lp E) as [A B]. destruct (C45_lists_partial c s [] reg sn R Ls Lp E) as (_ & P & _).
  pose proof (stats_exact (running_names pyname started sn) (future_names sn) f) as X. unfold t, docket_stats. rewrite (e_running _ _ _ X), (e_queued _ _ _ X), !times_length.
  unfold running_names, future_names. rewrite !filter_map_length. cbn [fst snd]. rewrite <- A, <- B. split; [|reflexivity]. f_equal. f_equal. apply filter_ext_in.
  intros [[i m] w] I. cbn. rewrite (Py i m); [reflexivity|]. apply (Permutation_in (i, m) P). apply in_app_iff. left. change (i, m) with (fst (i, m, w)). now apply in_map.
Qed.
