(** Property theorems: the metrics page. *)
From Coq Require Import Ascii Permutation.
From Verif Require Import Base Prom SpecProm PromProofs.

(** C71: a page for one batch shows every data point of the supported metrics exactly once, with
    its type, name, description, label names, unit, label values and value, and nothing else. *)
Theorem C71_every_point_once_partial ms : named ms -> Permutation (shown (collect [] [ms])) (handed_over ms).
Proof.
  intros N. cbn [collect]. rewrite app_nil_r. destruct (translate_spec ms [] N good_nil) as [_ P]. rewrite P. now rewrite app_nil_r.
Qed.
Print Assumptions C71_every_point_once_partial.

(** Points share a family exactly when type, name, description, label names and unit agree: there
    are no two families with the same. *)
Theorem C71_families_distinct ms : named ms ->
  NoDup (map (fun f => (f_type f, f_name f, f_doc f, f_labels f, f_unit f)) (map snd (translate [] ms))).
Proof.
  intros N. destruct (translate_spec ms [] N good_nil) as [[F D] _]. induction (translate [] ms) as [|[id f] l IH]; [constructor|].
  cbn in *. inversion F as [|? ? (E & _) F']; subst. inversion D as [|? ? D1 D2]; subst. constructor; [|now apply IH].
  intros H. apply in_map_iff in H as (g & Eg & H). apply in_map_iff in H as ([id' g'] & <- & H). apply D1. apply in_map_iff. exists (id', g'). split; [|exact H].
  rewrite Forall_forall in F'. destruct (F' _ H) as (E' & _). cbn in *. injection Eg as E1 E2 E3 E4 E5. cbn in E. rewrite E', E, E1, E2, E3, E4, E5. reflexivity.
Qed.
Print Assumptions C71_families_distinct.

(** Label and metric names are valid, and names that are valid already stay. *)
Theorem C71_names_valid s : s <> ""%string -> valid_label (sanitize_attribute s) /\ valid_metric (sanitize_full_name s).
Proof. intros N. split; [now apply label_valid|now apply metric_valid]. Qed.
Print Assumptions C71_names_valid.
(** Valid names without double underscores are shown as they are. *)
Theorem C71_names_kept s : single s ->
  (valid_label s -> sanitize_attribute s = s) /\ (valid_metric s -> sanitize_full_name s = s).
Proof.
  assert (Al : forall c, alnum c = true <-> In c (letters ++ digits)) by (intros [[|] [|] [|] [|] [|] [|] [|] [|]]; vm_compute; intuition discriminate).
  assert (Dg : forall c, digit c = true <-> In c digits) by (intros [[|] [|] [|] [|] [|] [|] [|] [|]]; vm_compute; intuition discriminate).
  assert (K : forall keep, keep "_"%char = false -> forall s, single s -> (forall x, In x (chars s) -> x = "_"%char \/ keep x = true) -> sub_runs keep false s = s).
  { clear s. intros keep Ku s. induction s as [|c s IH]; intros Si Ch; [reflexivity|]. cbn [sub_runs].
    assert (Si' : single s) by (intros a b E; apply (Si (c :: a) b); unfold chars in *; cbn; now rewrite E).
    assert (Ch' : forall x, In x (chars s) -> x = "_"%char \/ keep x = true) by (intros x I; apply Ch; now right).
    destruct (Ch c (or_introl eq_refl)) as [->|Kc]; [|rewrite Kc; now rewrite IH]. rewrite Ku. f_equal.
    destruct s as [|d s]; [reflexivity|]. specialize (IH Si' Ch'). cbn [sub_runs] in *. destruct (Ch' d (or_introl eq_refl)) as [->|Kd].
    - exfalso. now apply (Si [] (chars s)).
    - rewrite Kd in *. exact IH. }
  assert (L : forall c, In c letters -> digit c = false).
  { intros c I. destruct (digit c) eqn:D; [|reflexivity]. apply Dg in D. exfalso. revert c I D. vm_compute. intuition (subst; discriminate). }
  intros Si. split; intros (c & r & E & Hc & Hr); [destruct Hr as [Hr _]|]; (destruct s as [|c' s]; [discriminate|]; cbn in E; injection E as <- <-).
  - unfold sanitize_attribute, no_leading_digit. assert (D : digit c' = false) by (destruct Hc as [<-|Hc]; [reflexivity|now apply L]). rewrite D. apply K; [reflexivity|exact Si|].
    intros x [<-|I]; [destruct Hc as [<-|Hc]; [now left|right; apply Al; apply in_or_app; now left]|]. destruct (Hr x I) as [<-|J]; [now left|right; now apply Al].
  - unfold sanitize_full_name, sanitize_name, no_leading_digit. assert (D : digit c' = false) by (destruct Hc as [<-|[<-|Hc]]; [reflexivity|reflexivity|now apply L]). rewrite D. apply K; [reflexivity|exact Si|].
    unfold name_char. intros x [<-|I].
    + destruct Hc as [<-|[<-|Hc]]; [now left|now right|right]. apply orb_true_iff. left. apply Al. apply in_or_app. now left.
    + destruct (Hr x I) as [<-|[<-|J]]; [now left|now right|right]. apply orb_true_iff. left. now apply Al.
Qed.
Print Assumptions C71_names_kept.
Example C71_names_case : sanitize_full_name "docket:tasks_added9" = "docket:tasks_added9"%string /\ sanitize_attribute "9.b" = "_b"%string /\ sanitize_attribute "z__Z" = "z_Z"%string.
Proof. repeat split; vm_compute; reflexivity. Qed.
Theorem C71_sanitize_idempotent s : sanitize_attribute (sanitize_attribute s) = sanitize_attribute s.
Proof. apply attribute_idem. Qed.
Print Assumptions C71_sanitize_idempotent.

(** Histogram buckets: the [i]-th carries the [i]-th bound (the last "+Inf") and the number
    of all observations up to it; they never decrease, and the last is the number of all. *)
Theorem C71_buckets bounds counts : length counts = S (length bounds) -> (forall x, In x counts -> 0 <= x) ->
  length (convert_buckets 0 bounds counts) = length counts /\
  (forall i b n, nth_error (convert_buckets 0 bounds counts) i = Some (b, n) ->
     n = sumz (firstn (S i) counts) /\ nth_error (bounds ++ ["+Inf"%string]) i = Some b) /\
  (forall i j b n b' n', (i <= j)%nat -> nth_error (convert_buckets 0 bounds counts) i = Some (b, n) ->
     nth_error (convert_buckets 0 bounds counts) j = Some (b', n') -> n <= n') /\
  (forall b n, nth_error (convert_buckets 0 bounds counts) (length bounds) = Some (b, n) -> b = "+Inf"%string /\ n = sumz counts).
Proof.
  intros L P. assert (S : forall i b n, nth_error (convert_buckets 0 bounds counts) i = Some (b, n) ->
     n = sumz (firstn (S i) counts) /\ nth_error (bounds ++ ["+Inf"%string]) i = Some b).
  { intros i b n H. apply buckets_spec in H as [H1 H2]. split; [lia|exact H2]. }
  assert (M : forall l (i j : nat), (forall x, In x l -> 0 <= x) -> (i <= j)%nat -> sumz (firstn i l) <= sumz (firstn j l)).
  { induction l as [|x l IH]; intros i j Q Le; [rewrite !firstn_nil; lia|]. destruct i as [|i], j as [|j]; cbn [firstn sumz]; try lia.
    - pose proof (Q x (or_introl eq_refl)). specialize (IH O j (fun y I => Q y (or_intror I))). cbn in IH. lia.
    - specialize (IH i j (fun y I => Q y (or_intror I))). lia. }
  split; [now apply buckets_length|]. split; [exact S|]. split.
  - intros i j b n b' n' Le H H'. apply S in H as [-> _]. apply S in H' as [-> _]. apply M; [exact P|lia].
  - intros b n H. apply S in H as [-> H]. rewrite nth_error_app2, Nat.sub_diag in H by lia. injection H as <-. split; [reflexivity|]. now rewrite <- L, firstn_all.
Qed.
Print Assumptions C71_buckets.

(** Example: two counters, one with two label sets, and a histogram. *)
Definition pr_cancel : point := mkPoint [("docket.name", "d")]%string "1".
Definition pr_replace : point := mkPoint [("docket.name", "d"); ("docket.task", "f")]%string "1".
Definition pr_cancelled : metric := mkMetric "docket_tasks_cancelled" "How many tasks cancelled from the docket" "1" (MSum true true) [pr_replace; pr_cancel].
Definition pr_duration : metric := mkMetric "docket_task_duration" "" "s" MHistogram [mkPoint [("docket.name", "d")]%string "(0.5,1)"].
Example C71_example : named [pr_cancelled; pr_duration] /\ length (handed_over [pr_cancelled; pr_duration]) = 3%nat /\
  map f_unit (collect [] [[pr_cancelled; pr_duration]]) = [""; ""; "seconds"]%string /\
  map f_labels (collect [] [[pr_cancelled; pr_duration]]) = [["docket_name"; "docket_task"]; ["docket_name"]; ["docket_name"]]%string.
Proof.
  split; [|vm_compute; auto]. intros m p a [<-|[<-|[]]]; cbn; [intros [<-|[<-|[]]]|intros [<-|[]]]; cbn; intuition (subst; discriminate).
Qed.
Example C71_buckets_example : convert_buckets 0 ["0.5"; "1.0"]%string [3; 0; 2] = [("0.5"%string, 3); ("1.0"%string, 3); ("+Inf"%string, 5)].
Proof. reflexivity. Qed.
Example C71_units : map map_unit ["1"; "s"; "{tasks}/s"; "By/s"; "ms{x}"; "a b/"]%string = [""; "seconds"; "per_second"; "bytes_per_second"; "milliseconds"; "a_b"]%string.
Proof. reflexivity. Qed.

(** Refutation: a metric is not one family.  Docket.replace counts docket_tasks_cancelled with
    a task label, Docket.cancel without (docket.py:549, 613); a process that did both has
    two families of that name on its page. *)
Theorem C71_one_family_refuted : exists m f g, named [m] /\ collect [] [[m]] = [f; g] /\ f_name f = f_name g /\ f_type f = f_type g /\ f_labels f <> f_labels g /\
  mt_points m = [pr_replace; pr_cancel].
Proof.
  exists pr_cancelled. do 2 eexists. split; [|split; [vm_compute; reflexivity|repeat split; discriminate]].
  intros m p a [<-|[]]; cbn. intros [<-|[<-|[]]]; cbn; intuition (subst; discriminate).
Qed.
Print Assumptions C71_one_family_refuted.

(** Refutation: different attributes may get the same label name. *)
Theorem C71_label_collision_refuted : exists p m, named [m] /\ In p (mt_points m) /\ NoDup (map fst (pt_attrs p)) /\
  forall f, In f (collect [] [[m]]) -> ~ NoDup (f_labels f).
Proof.
  exists (mkPoint [("a.b", "1"); ("a_b", "2")]%string "1"). exists (mkMetric "m" "" "" MGauge [mkPoint [("a.b", "1"); ("a_b", "2")]%string "1"]).
  split; [intros m p a [<-|[]] [<-|[]]; cbn; intuition (subst; discriminate)|]. split; [now left|]. split; [repeat constructor; cbn; intuition discriminate|].
  intros f [<-|[]] N. cbn in N. inversion N as [|? ? N1 _]. apply N1. now left.
Qed.
Print Assumptions C71_label_collision_refuted.

(** Refutation: when two batches are queued (two scrapes at once), the points of the first are
    on the page twice. *)
Theorem C71_two_batches_refuted : exists ms ms' e, named ms /\ named ms' /\
  handed_over ms = [e] /\ ~ In e (handed_over ms') /\ exists e', shown (collect [] [ms; ms']) = [e; e; e'].
Proof.
  exists [mkMetric "m" "" "" MGauge [mkPoint [("a", "1")]%string "1"]], [mkMetric "n" "" "" MGauge [mkPoint [("b", "1")]%string "1"]].
  exists (FGauge, "m"%string, ""%string, ["a"%string], ""%string, (["1"%string], "1"%string)).
  split; [intros m p a [<-|[]] [<-|[]]; cbn; intuition (subst; discriminate)|]. split; [intros m p a [<-|[]] [<-|[]]; cbn; intuition (subst; discriminate)|].
  split; [vm_compute; reflexivity|]. split; [vm_compute; intuition discriminate|]. eexists. vm_compute. reflexivity.
Qed.
Print Assumptions C71_two_batches_refuted.
