(** C85, C86: the strike monitor. *)
From Verif Require Import Base Strike SpecStrike StrikeProofs StrikeMon SpecStrikeMon.

(** ** Proofs *)
Lemma batch_ok l : decodable l -> exists is_, apply_batch l = (is_, true) /\ l = map Some is_.
Proof.
  induction l as [|e l IH]; intros D; [exists []; now split|]. destruct IH as (is_ & A & B); [intros x I; apply D; now right|].
  destruct e as [i|]; [|now destruct (D None (or_introl eq_refl))]. exists (i :: is_). cbn. rewrite A, B. now split.
Qed.
Lemma batch_spec l : match apply_batch l with
  | (is_, true) => l = map Some is_
  | (is_, false) => exists r, l = map Some is_ ++ None :: r
  end.
Proof.
  induction l as [|[i|] l IH]; cbn; [reflexivity| |now exists l]. destruct (apply_batch l) as [is_ [|]]; [now rewrite IH|].
  destruct IH as [r ->]. now exists r.
Qed.
Lemma stream_run ops : forall m, mo_stream (mon_run m ops) = sent (mo_stream m) ops.
Proof.
  induction ops as [|o ops IH]; intros m; [reflexivity|]. cbn [mon_run fold_left]. change (mo_stream (mon_run (mon_step m o) ops) = sent (mo_stream m) (o :: ops)). rewrite IH.
  destruct o; cbn [sent mon_step mo_stream]; try reflexivity. destruct (firstn 100 _) eqn:E; [reflexivity|]. destruct (apply_batch _). reflexivity.
Qed.
Lemma sent_app a : forall l b, sent l (a ++ b) = sent (sent l a) b.
Proof. induction a as [|[e| |] a IH]; intros l b; cbn; auto. Qed.
Lemma sent_grows ops : forall l, exists r, sent l ops = l ++ r.
Proof.
  induction ops as [|[e| |] ops IH]; intros l; cbn; [exists []; now rewrite app_nil_r| |apply IH|apply IH].
  destruct (IH (l ++ [e])) as [r E]. exists (e :: r). rewrite E, <- app_assoc. reflexivity.
Qed.
Lemma mon_run_app m a b : mon_run m (a ++ b) = mon_run (mon_run m a) b.
Proof. apply fold_left_app. Qed.

(** Everything up to last_id was decodable and has been applied, in order; in between,
    beginnings of batches may have been applied again. *)
Definition MonInv (m : mon) : Prop :=
  (mo_last m <= length (mo_stream m))%nat /\ decodable (firstn (mo_last m) (mo_stream m)) /\
  (forall i, In (Some i) (firstn (mo_last m) (mo_stream m)) -> In i (mo_applied m)) /\
  (forall i, In i (mo_applied m) -> In (Some i) (mo_stream m)).
Lemma firstn_plus {A : Type} n k (l : list A) : firstn (n + k) l = firstn n l ++ firstn k (skipn n l).
Proof. revert l. induction n as [|n IH]; intros [|x l]; cbn; try reflexivity; [now rewrite firstn_nil|]. now rewrite IH. Qed.
Lemma batch_firstn n (l : list (option instr)) : (n <= length l)%nat ->
  firstn (n + length (firstn 100 (skipn n l))) l = firstn n l ++ firstn 100 (skipn n l).
Proof.
  intros L. rewrite firstn_plus. f_equal. rewrite firstn_length. set (r := skipn n l). destruct (Nat.le_gt_cases (length r) 100) as [H|H].
  - rewrite Nat.min_r by lia. rewrite firstn_all, firstn_all2 by lia. reflexivity.
  - rewrite Nat.min_l by lia. reflexivity.
Qed.
Lemma moninv_step m o : MonInv m -> MonInv (mon_step m o).
Proof.
  intros (L & D & A & B). destruct o as [e| |]; cbn [mon_step].
  - split; [cbn; rewrite app_length; cbn; lia|]. cbn [mo_stream mo_last mo_applied]. rewrite firstn_app. replace (mo_last m - length (mo_stream m))%nat with O by lia. cbn [firstn]. rewrite app_nil_r.
    split; [exact D|]. split; [exact A|]. intros i I. apply in_app_iff. left. now apply B.
  - remember (firstn 100 (skipn (mo_last m) (mo_stream m))) as batch eqn:Eb. destruct batch as [|e batch]; [now split|]. rewrite Eb. set (bt := firstn 100 (skipn (mo_last m) (mo_stream m))) in *.
    assert (Sub : forall x, In x bt -> In x (mo_stream m)).
    { intros x I. unfold bt in I. rewrite <- (firstn_skipn (mo_last m) (mo_stream m)). apply in_app_iff. right. rewrite <- (firstn_skipn 100 (skipn (mo_last m) (mo_stream m))). apply in_app_iff. now left. }
    assert (Lb : (mo_last m + length bt <= length (mo_stream m))%nat) by (unfold bt; rewrite firstn_length, skipn_length; lia).
    pose proof (batch_spec bt) as S. destruct (apply_batch bt) as [is_ [|]] eqn:Ea; unfold MonInv; cbn [mo_stream mo_last mo_applied].
    + split; [exact Lb|]. unfold bt at 1 2. rewrite batch_firstn by exact L. fold bt. split; [|split].
      * intros x I. apply in_app_iff in I. destruct I as [I|I]; [now apply D|]. rewrite S in I. apply in_map_iff in I. destruct I as (i & <- & _). discriminate.
      * intros i I. apply in_app_iff. apply in_app_iff in I. destruct I as [I|I]; [left; now apply A|right]. rewrite S in I. apply in_map_iff in I. destruct I as (j & E & I). congruence.
      * intros i I. apply in_app_iff in I. destruct I as [I|I]; [now apply B|]. apply Sub. rewrite S. now apply in_map.
    + split; [exact L|]. split; [exact D|]. split; [intros i I; apply in_app_iff; left; now apply A|].
      intros i I. apply in_app_iff in I. destruct I as [I|I]; [now apply B|]. apply Sub. destruct S as [r ->]. apply in_app_iff. left. now apply in_map.
  - now split.
Qed.
Lemma moninv_init l : MonInv (mon_init l).
Proof. split; [cbn; lia|]. split; [now intros e []|]. split; [intros i []|intros i []]. Qed.
Lemma moninv_run ops : forall m, MonInv m -> MonInv (mon_run m ops).
Proof. induction ops as [|o ops IH]; intros m I; [exact I|]. apply (IH (mon_step m o)). now apply moninv_step. Qed.

(** ** C85 *)

(** Instructions that the process can decode are applied exactly once and in order, whatever
    errors occur in reading. *)
Theorem C85_once_partial l ops : decodable (sent l ops) ->
  map Some (mo_applied (mon_run (mon_init l) ops)) = firstn (mo_last (mon_run (mon_init l) ops)) (sent l ops).
Proof.
  intros D. pose proof (stream_run ops (mon_init l)) as E. cbn [mo_stream mon_init] in E. rewrite <- E in *. clear E.
  assert (X : forall ops m, decodable (mo_stream (mon_run m ops)) -> (mo_last m <= length (mo_stream m))%nat ->
    map Some (mo_applied m) = firstn (mo_last m) (mo_stream m) -> map Some (mo_applied (mon_run m ops)) = firstn (mo_last (mon_run m ops)) (mo_stream (mon_run m ops))).
  { clear. intros ops. induction ops as [|o ops IH]; intros m D L H; [exact H|]. cbn [mon_run fold_left] in *. fold (mon_run (mon_step m o) ops) in *.
    assert (Dm : decodable (mo_stream (mon_step m o))).
    { intros e I. apply D. rewrite stream_run. destruct (sent_grows ops (mo_stream (mon_step m o))) as [r ->]. apply in_app_iff. now left. }
    assert (Ls : (mo_last (mon_step m o) <= length (mo_stream (mon_step m o)))%nat).
    { destruct o as [e| |]; cbn [mon_step]; [cbn; rewrite app_length; lia| |exact L]. destruct (firstn 100 _) as [|e b] eqn:E; [exact L|].
      destruct (apply_batch (e :: b)) as [is_ [|]]; cbn [mo_last mo_stream]; [|exact L]. rewrite <- E, firstn_length, skipn_length. lia. }
    apply IH; [exact D|exact Ls|]. clear IH D Ls. destruct o as [e| |]; cbn [mon_step] in *; [| |exact H].
    - cbn [mo_stream mo_last mo_applied] in *. rewrite H, firstn_app. replace (mo_last m - length (mo_stream m))%nat with O by lia. cbn [firstn]. now rewrite app_nil_r.
    - pose proof (batch_firstn (mo_last m) (mo_stream m) L) as F. destruct (firstn 100 (skipn (mo_last m) (mo_stream m))) as [|e b] eqn:E; [exact H|].
      assert (Db : decodable (e :: b)).
      { intros x I. assert (Dm' : decodable (mo_stream m)) by (destruct (apply_batch (e :: b)) as [is_ ok]; exact Dm). apply Dm'.
        rewrite <- (firstn_skipn (mo_last m) (mo_stream m)). apply in_app_iff. right. rewrite <- (firstn_skipn 100 (skipn (mo_last m) (mo_stream m))). apply in_app_iff. left. now rewrite E. }
      destruct (batch_ok _ Db) as (is_ & Ea & Ei). rewrite Ea. cbn [mo_stream mo_last mo_applied]. rewrite F, map_app, H, <- Ei. reflexivity. }
  apply X; [exact D|cbn; lia|reflexivity].
Qed.
Print Assumptions C85_once_partial.

(** wait_for_strikes_loaded returns only when everything sent before it (before the read that
    ends the wait, even) has been applied. *)
Theorem C85_loaded l ops1 ops2 : mo_loaded (mon_run (mon_init l) ops1) = false -> mo_loaded (mon_run (mon_init l) (ops1 ++ ops2)) = true ->
  forall e, In e (sent l ops1) -> exists i, e = Some i /\ In i (mo_applied (mon_run (mon_init l) (ops1 ++ ops2))).
Proof.
  rewrite mon_run_app. pose proof (stream_run ops1 (mon_init l)) as E. cbn [mo_stream mon_init] in E. rewrite <- E. clear E.
  pose proof (moninv_run ops1 _ (moninv_init l)) as I. set (m := mon_run (mon_init l) ops1) in *. clearbody m. clear l ops1.
  assert (Keep : forall ops m i, In i (mo_applied m) -> In i (mo_applied (mon_run m ops))).
  { clear. intros ops. induction ops as [|o ops IH]; intros m i I; [exact I|]. apply (IH (mon_step m o)). destruct o; cbn [mon_step]; try exact I.
    destruct (firstn 100 _); [exact I|]. destruct (apply_batch _). cbn. apply in_app_iff. now left. }
  revert m I. induction ops2 as [|o ops IH]; intros m Iv F T e J; [cbn in T; congruence|].
  cbn [mon_run fold_left] in *. fold (mon_run (mon_step m o) ops) in *. destruct (mo_loaded (mon_step m o)) eqn:Fo.
  - clear IH. destruct o as [x| |]; cbn [mon_step] in Fo; try (cbn in Fo; congruence).
    destruct (firstn 100 (skipn (mo_last m) (mo_stream m))) as [|b0 b] eqn:Eb; [|destruct (apply_batch (b0 :: b)); cbn in Fo; congruence].
    assert (Nil : skipn (mo_last m) (mo_stream m) = []) by (destruct (skipn (mo_last m) (mo_stream m)); [reflexivity|discriminate]).
    destruct Iv as (L & D & A & B). assert (All : firstn (mo_last m) (mo_stream m) = mo_stream m) by (rewrite <- (firstn_skipn (mo_last m) (mo_stream m)) at 2; now rewrite Nil, app_nil_r).
    rewrite All in D, A. destruct e as [i|]; [|now destruct (D None J)]. exists i. split; [reflexivity|]. apply Keep. unfold mon_step. rewrite Eb. now apply A.
  - apply (IH (mon_step m o)); auto; [now apply moninv_step|]. destruct o as [x| |]; cbn [mon_step]; [cbn; apply in_app_iff; now left| |exact J].
    destruct (firstn 100 _); [exact J|]. now destruct (apply_batch _).
Qed.
Print Assumptions C85_loaded.

(** As long as reads succeed, the monitor gets to the end and says so. *)
Lemma read_step m : decodable (mo_stream m) -> (mo_last m <= length (mo_stream m))%nat ->
  mo_stream (mon_step m NRead) = mo_stream m /\ (mo_last (mon_step m NRead) = Nat.min (length (mo_stream m)) (mo_last m + 100))%nat /\
  (mo_last m = length (mo_stream m) -> mo_loaded (mon_step m NRead) = true).
Proof.
  intros D L. cbn [mon_step]. pose proof (firstn_length 100 (skipn (mo_last m) (mo_stream m))) as Ln. rewrite skipn_length in Ln.
  destruct (firstn 100 (skipn (mo_last m) (mo_stream m))) as [|e b] eqn:E.
  - cbn [mo_stream mo_last mo_loaded length] in *. split; [reflexivity|]. split; [lia|reflexivity].
  - assert (Db : decodable (e :: b)).
    { intros x I. apply D. rewrite <- (firstn_skipn (mo_last m) (mo_stream m)). apply in_app_iff. right. rewrite <- (firstn_skipn 100 (skipn (mo_last m) (mo_stream m))). apply in_app_iff. left. now rewrite E. }
    destruct (batch_ok _ Db) as (is_ & Ea & _). rewrite Ea. cbn [mo_stream mo_last mo_loaded]. split; [reflexivity|]. rewrite Ln. split; [lia|]. intros X. rewrite X in Ln. cbn [length] in Ln. lia.
Qed.
Theorem C85_reaches_partial l ops n : decodable (sent l ops) -> (length (sent l ops) <= 100 * n)%nat ->
  let m := mon_run (mon_init l) (ops ++ repeat NRead (S n)) in
  map Some (mo_applied m) = sent l ops /\ mo_loaded m = true.
Proof.
  intros D Ln. cbv zeta.
  assert (Se : forall k s, sent s (repeat NRead k) = s) by (intros k; induction k as [|k IH]; intros s; cbn; auto).
  assert (So : sent l (ops ++ repeat NRead (S n)) = sent l ops) by (rewrite sent_app; apply Se).
  assert (D' : decodable (sent l (ops ++ repeat NRead (S n)))) by now rewrite So.
  pose proof (C85_once_partial l _ D') as H. rewrite So in H. rewrite mon_run_app in *.
  pose proof (moninv_run ops _ (moninv_init l)) as (L & _). pose proof (stream_run ops (mon_init l)) as E. cbn [mo_stream mon_init] in E. rewrite <- E in *. clear E So D'.
  set (m := mon_run (mon_init l) ops) in *. clearbody m.
  assert (X : forall k, mo_stream (mon_run m (repeat NRead k)) = mo_stream m /\ mo_last (mon_run m (repeat NRead k)) = Nat.min (length (mo_stream m)) (mo_last m + 100 * k)).
  { intros k. induction k as [|k [IH1 IH2]]; [cbn [repeat mon_run fold_left]; split; [reflexivity|lia]|].
    replace (repeat NRead (S k)) with (repeat NRead k ++ [NRead]) by (rewrite <- repeat_cons; reflexivity). rewrite mon_run_app. cbn [mon_run fold_left].
    destruct (read_step (mon_run m (repeat NRead k))) as (A & B & _); [now rewrite IH1|rewrite IH1, IH2; lia|]. rewrite A, B, IH1, IH2. split; [reflexivity|lia]. }
  replace (repeat NRead (S n)) with (repeat NRead n ++ [NRead]) in * by (rewrite <- repeat_cons; reflexivity). rewrite mon_run_app in *. cbn [mon_run fold_left] in *.
  fold (mon_run m (repeat NRead n)) in *. destruct (X n) as [X1 X2]. set (k := mon_run m (repeat NRead n)) in *. clearbody k.
  assert (End : mo_last k = length (mo_stream k)) by (rewrite X1, X2; lia).
  destruct (read_step k) as (A & B & C); [now rewrite X1|lia|]. split; [|now apply C]. rewrite H, B, X1. rewrite firstn_all2; [reflexivity|]. rewrite X2. lia.
Qed.
Print Assumptions C85_reaches_partial.

(** One instruction that a process cannot decode keeps it from seeing any later one, for
    ever, and from saying that strikes are loaded; the instructions before it are applied
    again and again. *)
Theorem C85_undecodable_refuted good rest ops :
  let m := mon_run (mon_init (map Some good ++ None :: rest)) ops in
  mo_loaded m = false /\ (forall i, In i (mo_applied m) -> In i good).
Proof.
  cbv zeta.
  assert (X : forall ops m r, mo_stream m = map Some good ++ None :: r -> (mo_last m <= length good)%nat -> mo_loaded m = false -> (forall i, In i (mo_applied m) -> In i good) ->
    mo_loaded (mon_run m ops) = false /\ (forall i, In i (mo_applied (mon_run m ops)) -> In i good)).
  { clear. intros ops. induction ops as [|o ops IH]; intros m r E L F A; [now split|]. cbn [mon_run fold_left]. fold (mon_run (mon_step m o) ops).
    destruct o as [e| |]; cbn [mon_step].
    - apply (IH _ (r ++ [e])); cbn [mo_stream mo_last mo_loaded mo_applied]; auto. rewrite E, <- app_assoc. reflexivity.
    - assert (Sk : skipn (mo_last m) (mo_stream m) = map Some (skipn (mo_last m) good) ++ None :: r).
      { rewrite E, skipn_app, map_length. replace (mo_last m - length good)%nat with O by lia. cbn [skipn]. f_equal. now rewrite skipn_map. }
      pose proof (firstn_app 100 (map Some (skipn (mo_last m) good)) (None :: r)) as Fa. rewrite <- Sk, map_length in Fa.
      destruct (firstn 100 (skipn (mo_last m) (mo_stream m))) as [|b0 b] eqn:Eb.
      { exfalso. rewrite Sk in Eb. destruct (skipn (mo_last m) good); discriminate. }
      rewrite Fa. set (g := skipn (mo_last m) good) in *. assert (Lg : length g = (length good - mo_last m)%nat) by apply skipn_length.
      assert (Ig : forall i, In i g -> In i good) by (intros i I; rewrite <- (firstn_skipn (mo_last m) good); apply in_app_iff; now right).
      assert (Ap : forall h t, apply_batch (map Some h ++ t) = (let '(is_, ok) := apply_batch t in (h ++ is_, ok))).
      { clear. intros h t. induction h as [|i h IH]; cbn; [now destruct (apply_batch t)|]. rewrite IH. now destruct (apply_batch t). }
      rewrite firstn_map, Ap. pose proof (firstn_length 100 g) as Lh. assert (Ih : forall i, In i (firstn 100 g) -> In i good) by (intros i I; apply Ig; rewrite <- (firstn_skipn 100 g); apply in_app_iff; now left). set (h := firstn 100 g) in *. clearbody h.
      destruct (100 - length g)%nat as [|d] eqn:Ed; cbn [firstn apply_batch].
      + apply (IH _ r); cbn [mo_stream mo_last mo_loaded mo_applied]; auto.
        * rewrite app_nil_r, map_length. lia.
        * intros i I. rewrite app_nil_r in I. apply in_app_iff in I. destruct I as [I|I]; [now apply A|now apply Ih].
      + apply (IH _ r); cbn [mo_stream mo_last mo_loaded mo_applied]; auto.
        intros i I. rewrite app_nil_r in I. apply in_app_iff in I. destruct I as [I|I]; [now apply A|now apply Ih].
    - now apply (IH m r). }
  apply (X ops _ rest); cbn; auto; [lia|intros i []].
Qed.
Print Assumptions C85_undecodable_refuted.

Definition pause (f : string) : instr := mkInstr true (Some f) None OpEq (PInt 0).
Definition resume (f : string) : instr := mkInstr false (Some f) None OpEq (PInt 0).
Example C85_case :
  let l := [Some (pause "a"); Some (pause "b"); Some (resume "a")] in
  let ops := [NLost; NRead; NSend (Some (pause "c")); NRead; NLost; NRead] in
  decodable (sent l ops) /\ mo_loaded (mon_run (mon_init l) [NLost; NRead]) = false /\ mo_loaded (mon_run (mon_init l) ops) = true /\
  mo_applied (mon_run (mon_init l) ops) = [pause "a"; pause "b"; resume "a"; pause "c"].
Proof.
  cbv zeta. split; [|repeat split; vm_compute; reflexivity].
  intros e I. cbn in I. destruct I as [<-|[<-|[<-|[<-|[]]]]]; discriminate.
Qed.
Example C85_undecodable_case :
  let m := mon_run (mon_init [Some (pause "a"); None; Some (pause "b")]) [NRead; NRead; NRead] in
  mo_applied m = [pause "a"; pause "a"; pause "a"] /\ mo_loaded m = false /\ gauge_of (mo_applied m) (label_of (pause "a")) = 3.
Proof. repeat split; vm_compute; reflexivity. Qed.

(** ** C86 *)

Lemma op_eqb_iff a b : op_eqb a b = true <-> a = b.
Proof. destruct a, b; cbn; split; congruence. Qed.
Lemma label_eqb_iff a b : label_eqb a b = true <-> a = b.
Proof.
  destruct a as [f p], b as [g q]. unfold label_eqb. cbn [fst snd]. rewrite andb_true_iff. split.
  - intros [A B]. f_equal.
    + destruct f, g; try discriminate; [apply String.eqb_eq in A; now subst|reflexivity].
    + destruct p as [[[x o] v]|], q as [[[y o'] w]|]; try discriminate; [|reflexivity]. apply andb_true_iff in B. destruct B as [B C]. apply andb_true_iff in B. destruct B as [B B'].
      apply String.eqb_eq in B. apply op_eqb_iff in B'. apply pv_eqb_iff in C. now subst.
  - intros E. injection E as -> ->. split; [destruct g; [apply String.eqb_refl|reflexivity]|]. destruct q as [[[y o] w]|]; [|reflexivity].
    rewrite String.eqb_refl. cbn [andb]. apply andb_true_iff. split; [now apply op_eqb_iff|now apply pv_eqb_iff].
Qed.
Lemma rule_same i j : of_rule i j = true <-> same_strike i j.
Proof.
  unfold of_rule, same_strike. rewrite label_eqb_iff. unfold label_of. split.
  - intros E. injection E as E1 E2. destruct (given (in_param i)), (given (in_param j)); try discriminate E2.
    + injection E2 as E2 E3 E4. split; [congruence|]. split; [congruence|]. intros _. split; congruence.
    + split; [congruence|]. split; [reflexivity|]. intros N. now destruct N.
  - intros (A & B & C). rewrite A, B in *. f_equal. destruct (given (in_param j)); [|reflexivity]. destruct C as [-> ->]; [discriminate|reflexivity].
Qed.
Lemma gauge_rule l i : gauge_of l (label_of i) = gauge_of (filter (of_rule i) l) (label_of i).
Proof.
  induction l as [|j l IH]; [reflexivity|]. cbn [gauge_of filter]. change (label_eqb (label_of j) (label_of i)) with (of_rule i j). destruct (of_rule i j) eqn:E; [|exact IH].
  cbn [gauge_of]. change (label_eqb (label_of j) (label_of i)) with (of_rule i j). rewrite E. now rewrite IH.
Qed.
Lemma force_rule l i : in_force l i <-> exists l1 j, filter (of_rule i) l = l1 ++ [j] /\ in_strike j = true.
Proof.
  split.
  - intros (l1 & j & l2 & -> & S & R & N). rewrite filter_app. cbn [filter]. assert (E : of_rule i j = true) by now apply rule_same. rewrite E.
    assert (F : forall x, In x (filter (of_rule i) l2) -> in_strike x = true) by (intros x I; apply filter_In in I; apply N; [tauto|now apply rule_same]).
    destruct (@exists_last _ (j :: filter (of_rule i) l2)) as (l' & x & X); [discriminate|]. exists (filter (of_rule i) l1 ++ l'), x. rewrite X, app_assoc. split; [reflexivity|].
    assert (I : In x (j :: filter (of_rule i) l2)) by (rewrite X; apply in_app_iff; right; now left). destruct I as [<-|I]; [exact S|now apply F].
  - intros (l1 & j & E & S). revert l1 E. induction l as [|x l IH]; intros l1 E; [destruct l1; discriminate|]. cbn [filter] in E. destruct (of_rule i x) eqn:R.
    + destruct l1 as [|y l1]; cbn [app] in E.
      * injection E as -> E. exists [], j, l. split; [reflexivity|]. split; [exact S|]. split; [now apply rule_same|]. intros k I Sk. exfalso.
        assert (J : In k (filter (of_rule i) l)) by (apply filter_In; split; [exact I|now apply rule_same]). rewrite E in J. destruct J.
      * injection E as -> E. destruct (IH l1 E) as (a & k & b & -> & Q). exists (y :: a), k, b. split; [reflexivity|exact Q].
    + destruct (IH l1 E) as (a & k & b & -> & Q). exists (x :: a), k, b. split; [reflexivity|exact Q].
Qed.

(** If every rule is struck and restored in turns, its series is 1 while it is in force and
    0 otherwise. *)
Theorem C86_turns_partial l i : take_turns true (filter (of_rule i) l) ->
  (in_force l i -> gauge_of l (label_of i) = 1) /\ (~ in_force l i -> gauge_of l (label_of i) = 0).
Proof.
  rewrite force_rule, gauge_rule. assert (A : forall j, In j (filter (of_rule i) l) -> of_rule i j = true) by (intros j I; now apply filter_In in I).
  set (r := filter (of_rule i) l) in *. clearbody r. clear l. intros T.
  assert (X : forall b r, (forall j, In j r -> of_rule i j = true) -> take_turns b r ->
    gauge_of r (label_of i) = (match rev r with [] => 0 | j :: _ => if in_strike j then 1 else 0 end) - (if b then 0 else match r with [] => 0 | _ => 1 end)).
  { clear. intros b r. revert b. induction r as [|j r IH]; intros b A T; [now destruct b|]. destruct T as [S T]. cbn [gauge_of].
    change (label_eqb (label_of j) (label_of i)) with (of_rule i j). rewrite (A j (or_introl eq_refl)), (IH (negb b)) by (auto; intros k I; apply A; now right). cbn [rev].
    destruct (rev r) as [|k t] eqn:Er.
    - assert (r = []) by (rewrite <- (rev_involutive r), Er; reflexivity). subst r. cbn [app]. rewrite S. destruct b; cbn; lia.
    - cbn [app]. rewrite S. destruct r as [|k' r]; [discriminate|]. destruct b; cbn [negb]; destruct (in_strike k); lia. }
  rewrite (X true r A T). destruct (rev r) as [|j t] eqn:Er.
  - split; [|reflexivity]. intros (l1 & j & E & _). rewrite E, rev_app_distr in Er. discriminate.
  - assert (E : r = rev t ++ [j]) by (rewrite <- (rev_involutive r), Er; reflexivity). split.
    + intros (l1 & k & E' & S). rewrite E in E'. apply app_inj_tail in E'. destruct E' as [_ ->]. now rewrite S.
    + intros N. destruct (in_strike j) eqn:S; [|reflexivity]. exfalso. apply N. exists (rev t), j. now split.
Qed.
Print Assumptions C86_turns_partial.

(** Not so in general: striking twice and restoring once leaves nothing in force but the
    count at 1; a restore of what was not struck makes it negative. *)
Theorem C86_count_refuted :
  (let l := [pause "a"; pause "a"; resume "a"] in ~ in_force l (pause "a") /\ gauge_of l (label_of (pause "a")) = 1) /\
  (let l := [resume "a"] in ~ in_force l (pause "a") /\ gauge_of l (label_of (pause "a")) = -1).
Proof.
  split; cbv zeta; (split; [|vm_compute; reflexivity]); rewrite force_rule; intros (l1 & j & E & S); vm_compute in E.
  - destruct l1 as [|x [|y [|z l1]]]; cbn [app] in E; try discriminate E.
    + injection E as _ _ <-. discriminate S.
    + injection E as _ _ _ E. destruct l1; discriminate E.
  - destruct l1 as [|x l1]; cbn [app] in E; [injection E as <-; discriminate S|]. injection E as _ E. destruct l1; discriminate E.
Qed.
Print Assumptions C86_count_refuted.

Example C86_case :
  let l := [pause "a"; pause "b"; resume "a"; pause "a"] in
  take_turns true (filter (of_rule (pause "a")) l) /\ in_force l (pause "a") /\ gauge_of l (label_of (pause "a")) = 1 /\ gauge_of l (label_of (pause "c")) = 0.
Proof.
  cbv zeta. split; [vm_compute; auto|]. split; [|split; vm_compute; reflexivity]. apply force_rule. exists [pause "a"; resume "a"], (pause "a"). split; vm_compute; reflexivity.
Qed.
