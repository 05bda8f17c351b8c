(** C39: storage keys of different things are different. *)
From Verif Require Import Base Text Keys.

(** Task keys that docket uses for itself. *)
Definition reserved (k : string) : Prop :=
  In k ["queue"; "stream"; "strikes"; "workers"; "perpetual:lock"]%string \/
  exists p r, k = (p ++ r)%string /\
    In p ["known:"; "stream-id:"; "runs:"; "progress:"; "worker-tasks:"; "task-workers:"; "concurrency:"; "results:"; "cooldown:"; "ratelimit:"; "debounce:"]%string.
(** Names that are not confused: task keys are not reserved, argument names have no
    colon (they are Python identifiers), nor have names of functions with a limit, and
    values are not "waiters" and do not end in ":waiters". *)
Definition clear_name (x : skey) : Prop :=
  match x with
  | KParked k => ~ reserved k
  | KSlots a v => occurs ":"%char a = false /\ v <> "waiters"%string /\ forall r, v <> (r ++ ":waiters")%string
  | KWaiters a v | KGateArg _ a v => occurs ":"%char a = false
  | KTaskSlots f | KTaskWaiters f | KGate _ f => occurs ":"%char f = false
  | _ => True
  end.

Lemma append_inj_l p s t : (p ++ s)%string = (p ++ t)%string -> s = t.
Proof. induction p; simpl; [auto|]. intros [= H]; auto. Qed.

Lemma append_inj_r s t p : (s ++ p)%string = (t ++ p)%string -> s = t.
Proof.
  intros H. assert (L : String.length s = String.length t).
  { assert (G : forall a b, String.length (a ++ b)%string = (String.length a + String.length b)%nat)
      by (intros a b; induction a; simpl; congruence).
    apply (f_equal String.length) in H. rewrite !G in H. lia. }
  revert t H L. induction s as [|c s IH]; intros [|d t]; simpl; try discriminate; auto.
  intros [= -> H] [= L]. f_equal. auto.
Qed.

Lemma append_length s t : String.length (s ++ t)%string = (String.length s + String.length t)%nat.
Proof. induction s; simpl; congruence. Qed.
Lemma append_inj_length a b c d : String.length a = String.length b -> (a ++ c)%string = (b ++ d)%string -> a = b /\ c = d.
Proof.
  revert b. induction a as [|x a IH]; intros [|y b] L E; simpl in *; try discriminate; [auto|]. injection L as L. injection E as -> E.
  destruct (IH b L E) as [-> ->]. auto.
Qed.

Lemma colon_split a v b w : occurs ":"%char a = false -> occurs ":"%char b = false ->
  (a ++ ":" ++ v)%string = (b ++ ":" ++ w)%string -> a = b /\ v = w.
Proof. intros Ha Hb E. apply (split_first ":"%char); assumption. Qed.
Lemma colon_free f a v : occurs ":"%char f = false -> f <> (a ++ ":" ++ v)%string.
Proof. intros H ->. rewrite occurs_app in H. simpl in H. now rewrite orb_true_r in H. Qed.

Lemma gate_key_inj g h t u : gate_key g t = gate_key h u -> g = h /\ t = u.
Proof.
  assert (L : forall e e' t u, String.length e = String.length e' -> ("debounce:" ++ t ++ ":{" ++ t ++ e)%string = ("debounce:" ++ u ++ ":{" ++ u ++ e')%string -> t = u /\ e = e').
  { intros e e' t' u' Le E. apply append_inj_l in E. pose proof (f_equal String.length E) as Ln. rewrite !append_length in Ln. simpl in Ln. rewrite ?append_length in Ln.
    apply append_inj_length in E; [|lia]. destruct E as [-> E]. split; [reflexivity|]. apply append_inj_l in E. now apply append_inj_l in E. }
  assert (W : forall t u, ("debounce:" ++ t ++ ":{" ++ t ++ "}:winner")%string <> ("debounce:" ++ u ++ ":{" ++ u ++ "}:last_seen")%string).
  { intros t' u' E. rewrite <- !append_assoc' in E.
    assert (G : forall a b, (a ++ "}:winner")%string <> (b ++ "}:last_seen")%string); [|now apply G in E].
    clear. intros a b E. change "}:winner"%string with ("}:winne" ++ "r")%string in E. change "}:last_seen"%string with ("}:last_see" ++ "n")%string in E. rewrite <- !append_assoc' in E.
    pose proof (f_equal String.length E) as Ln. rewrite (append_length (a ++ _)), (append_length (b ++ _)) in Ln. simpl in Ln. apply append_inj_length in E; [|lia]. destruct E as [_ E]. discriminate E. }
  destruct g, h; cbn [gate_key]; intros E; try discriminate E; try (now apply append_inj_l in E); try (split; [reflexivity|]; now apply L in E).
  - now apply W in E.
  - symmetry in E. now apply W in E.
Qed.

Lemma suffix_inj x y : clear_name x -> clear_name y -> suffix x = suffix y -> x = y.
Proof.
  assert (P : forall k z, ~ reserved k -> (match z with KParked _ => False | _ => True end) -> k <> suffix z).
  { intros k z N Hz E. apply N. subst k. destruct z as [ | | | | |k|k|k|k|k|w|f|a v|a v|f|f|k|g f|g a v]; try contradiction; try (left; simpl; tauto); right; cbn [suffix].
    - exists "known:"%string, k. split; [reflexivity|simpl; tauto].
    - exists "stream-id:"%string, k. split; [reflexivity|simpl; tauto].
    - exists "runs:"%string, k. split; [reflexivity|simpl; tauto].
    - exists "progress:"%string, k. split; [reflexivity|simpl; tauto].
    - exists "worker-tasks:"%string, w. split; [reflexivity|simpl; tauto].
    - exists "task-workers:"%string, f. split; [reflexivity|simpl; tauto].
    - exists "concurrency:"%string, (a ++ ":" ++ v)%string. split; [reflexivity|simpl; tauto].
    - exists "concurrency:"%string, (a ++ ":" ++ v ++ ":waiters")%string. split; [reflexivity|simpl; tauto].
    - exists "concurrency:"%string, f. split; [reflexivity|simpl; tauto].
    - exists "concurrency:"%string, (f ++ ":waiters")%string. split; [reflexivity|simpl; tauto].
    - exists "results:"%string, k. split; [reflexivity|simpl; tauto].
    - destruct g; cbn [gate_key]; do 2 eexists; (split; [reflexivity|simpl; tauto]).
    - destruct g; cbn [gate_key]; do 2 eexists; (split; [reflexivity|simpl; tauto]). }
  assert (Px : forall k z, suffix z = k -> (match z with KParked _ => False | _ => True end) -> clear_name (KParked k) -> False)
    by (intros k z E Hz Hk; apply (P k z Hk Hz); now symmetry).
  assert (Wt : forall f g, (f ++ ":waiters")%string = (g ++ ":waiters")%string -> f = g) by (intros f g; apply append_inj_r).
  destruct x as [ | | | | |k|k|k|k|k|w|f|a v|a v|f|f|k|g f|g a v], y as [ | | | | |k'|k'|k'|k'|k'|w'|f'|a' v'|a' v'|f'|f'|k'|g' f'|g' a' v']; intros Hx Hy E; try reflexivity;
    try (exfalso; exact (Px _ _ E I Hy)); try (exfalso; symmetry in E; exact (Px _ _ E I Hx));
    cbn [suffix] in E; try discriminate E; try (apply append_inj_l in E; congruence);
    try (destruct g; cbn [gate_key] in E; discriminate E); try (destruct g'; cbn [gate_key] in E; discriminate E);
    try (apply append_inj_l in E); cbn [clear_name] in Hx, Hy.
  - congruence.
  - destruct Hx as (Hx & _), Hy as (Hy & _). apply colon_split in E; auto. destruct E; congruence.
  - destruct Hx as (Hx & _ & Hv). apply colon_split in E; auto. destruct E as [_ E]. exfalso; exact (Hv _ E).
  - exfalso. symmetry in E. now apply colon_free in E.
  - destruct Hx as (Hx & Hv & _). change (f' ++ ":waiters")%string with (f' ++ ":" ++ "waiters")%string in E. apply colon_split in E; auto. destruct E as [_ E]. contradiction.
  - destruct Hy as (Hy & _ & Hv). apply colon_split in E; auto. destruct E as [_ E]. symmetry in E. exfalso; exact (Hv _ E).
  - apply colon_split in E; auto. destruct E as [-> E]. apply append_inj_r in E. congruence.
  - exfalso. symmetry in E. now apply colon_free in E.
  - exfalso. rewrite <- !append_assoc' in E. apply Wt in E. rewrite append_assoc' in E. symmetry in E. now apply colon_free in E.
  - exfalso. now apply colon_free in E.
  - exfalso. now apply colon_free in E.
  - exfalso. change (f' ++ ":waiters")%string with (f' ++ ":" ++ "waiters")%string in E. now apply colon_free in E.
  - destruct Hy as (Hy & Hv & _). change (f ++ ":waiters")%string with (f ++ ":" ++ "waiters")%string in E. apply colon_split in E; auto. destruct E as [_ E]. symmetry in E. contradiction.
  - exfalso. rewrite <- !append_assoc' in E. apply Wt in E. rewrite append_assoc' in E. now apply colon_free in E.
  - exfalso. symmetry in E. change (f ++ ":waiters")%string with (f ++ ":" ++ "waiters")%string in E. now apply colon_free in E.
  - apply Wt in E. congruence.
  - apply gate_key_inj in E. destruct E as [-> ->]. reflexivity.
  - apply gate_key_inj in E. destruct E as [_ E]. exfalso. now apply colon_free in E.
  - apply gate_key_inj in E. destruct E as [_ E]. exfalso. symmetry in E. now apply colon_free in E.
  - apply gate_key_inj in E. destruct E as [-> E]. apply colon_split in E; auto. destruct E as [-> ->]. reflexivity.
Qed.

(** A name with a colon after it is no name in braces, whatever the name. *)
Lemma braces n s t : (n ++ ":" ++ s)%string <> (docket_prefix true n ++ t)%string.
Proof.
  assert (G : forall n c s u, (n ++ String ":" s)%string = String c (n ++ u)%string -> c = ":"%char).
  { induction n0 as [|d n0 IH]; simpl; intros c s0 u E; [congruence|]. injection E as -> E. now apply IH in E. }
  unfold docket_prefix. intros E. simpl in E. rewrite append_assoc' in E. apply G in E. discriminate E.
Qed.

(** Within one docket, different things have different storage keys.  Missing from
    the full statement: task keys that docket reserves for itself, function names with
    colons, and argument values "waiters" or ending in ":waiters", where it is false
    (below). *)
Theorem C39_distinct_partial cluster name x y : clear_name x -> clear_name y ->
  storage_key cluster name x = storage_key cluster name y -> x = y.
Proof.
  intros Hx Hy E. unfold storage_key in E. destruct cluster; [|apply suffix_inj; auto].
  - assert (D : key_prefix true name x = key_prefix true name y \/ (key_prefix true name x = name /\ key_prefix true name y = docket_prefix true name) \/ (key_prefix true name y = name /\ key_prefix true name x = docket_prefix true name))
      by (unfold key_prefix; destruct x, y; auto).
    destruct D as [D|[[D1 D2]|[D1 D2]]].
    + rewrite D in E. apply append_inj_l in E. apply suffix_inj; auto. simpl in E. now injection E.
    + rewrite D1, D2 in E. now apply braces in E.
    + rewrite D1, D2 in E. symmetry in E. now apply braces in E.
  - assert (D : forall z, key_prefix false name z = name) by (intros z; unfold key_prefix; destruct z; reflexivity). rewrite !D in E. apply append_inj_l in E. simpl in E. now injection E.
Qed.
Print Assumptions C39_distinct_partial.

(** In particular the records of distinct tasks are always distinct, whatever their
    keys. *)
Theorem C39_records cluster name k k' : k <> k' ->
  storage_key cluster name (KRuns k) <> storage_key cluster name (KRuns k') /\
  storage_key cluster name (KParked k) <> storage_key cluster name (KParked k') /\
  storage_key cluster name (KKnown k) <> storage_key cluster name (KKnown k') /\
  storage_key cluster name (KStreamId k) <> storage_key cluster name (KStreamId k') /\
  storage_key cluster name (KProgress k) <> storage_key cluster name (KProgress k').
Proof.
  intros N. unfold storage_key. repeat split; intros E; apply append_inj_l in E; simpl in E; injection E; auto.
Qed.
Print Assumptions C39_records.

Example C39_case : clear_name (KParked "report:2024") /\ clear_name (KSlots "customer" "12:3") /\ clear_name (KGateArg GWinner "customer" "waiters") /\
  storage_key true "d" (KParked "report:2024") = "{d}:report:2024"%string /\
  storage_key false "d" (KWaiters "customer" "12:3") = "d:concurrency:customer:12:3:waiters"%string.
Proof.
  split.
  - unfold clear_name, reserved. intros [H|(p & r & E & H)].
    + simpl in H. repeat destruct H as [H|H]; try discriminate H; contradiction.
    + simpl in H. repeat destruct H as [<-|H]; try discriminate E; contradiction.
  - split; [|split; [reflexivity|split; reflexivity]]. split; [reflexivity|]. split; [discriminate|]. intros r H.
    apply (f_equal String.length) in H. change (String.length "12:3") with 4%nat in H.
    assert (L : String.length (r ++ ":waiters") = (String.length r + 8)%nat) by (clear; induction r; simpl; [reflexivity|now rewrite IHr]).
    lia.
Qed.

(** False in general: a task with key "queue" parks its payload under the key of the
    queue itself, and one with key "runs:k" under the record of "k". *)
Theorem C39_parked_refuted cluster name :
  storage_key cluster name (KParked "queue") = storage_key cluster name KQueue /\
  (forall k, storage_key cluster name (KParked ("runs:" ++ k)) = storage_key cluster name (KRuns k)) /\
  (forall k, storage_key cluster name (KParked ("known:" ++ k)) = storage_key cluster name (KKnown k)) /\
  (forall k, storage_key cluster name (KParked ("results:" ++ k)) = storage_key cluster name (KResult k)).
Proof. repeat split. Qed.
Print Assumptions C39_parked_refuted.

(** The slots of value "v:waiters" are stored under the waiting line of value "v". *)
Theorem C39_waiters_refuted cluster name a v :
  storage_key cluster name (KSlots a (v ++ ":waiters")) = storage_key cluster name (KWaiters a v).
Proof. reflexivity. Qed.
Print Assumptions C39_waiters_refuted.

(** The waiting line of a function limited as a whole is stored under the slots of the
    value "waiters" of an argument of that name, and a function named like an argument and a
    value shares their counters. *)
Theorem C39_functions_refuted cluster name f a v g :
  storage_key cluster name (KTaskWaiters f) = storage_key cluster name (KSlots f "waiters") /\
  storage_key cluster name (KTaskSlots (a ++ ":" ++ v)) = storage_key cluster name (KSlots a v) /\
  storage_key cluster name (KGate g (a ++ ":" ++ v)) = storage_key cluster name (KGateArg g a v).
Proof. repeat split. Qed.
Print Assumptions C39_functions_refuted.

(** Two dockets can share keys outside cluster mode: *)
Theorem C39_dockets_refuted : exists n n' x y, n <> n' /\ x = KParked "a:queue" /\ y = KQueue /\
  storage_key false n x = storage_key false n' y.
Proof. exists "d"%string, "d:a"%string, (KParked "a:queue"), KQueue. repeat split. discriminate. Qed.
Print Assumptions C39_dockets_refuted.

(** On a cluster also a docket whose name is another's in braces: the one's cooldowns are
    where the other parks a task. *)
Theorem C39_braces_refuted n f : exists n', n' <> n /\ storage_key true n' (KGate GCooldown f) = storage_key true n (KParked ("cooldown:" ++ f)).
Proof.
  exists ("{" ++ n ++ "}")%string. split; [|reflexivity]. intros E. apply (f_equal String.length) in E. simpl in E. rewrite append_length in E. simpl in E. lia.
Qed.
Print Assumptions C39_braces_refuted.

(** but not if no docket's name contains a colon or begins with a brace. *)
Theorem C39_dockets cluster n n' x y : occurs ":"%char n = false -> occurs ":"%char n' = false ->
  (forall r, n <> String "{" r) -> (forall r, n' <> String "{" r) -> n <> n' ->
  storage_key cluster n x <> storage_key cluster n' y.
Proof.
  intros H H' B B' N E. unfold storage_key in E.
  assert (Cn : forall m z, occurs ":"%char m = false -> occurs ":"%char (key_prefix cluster m z) = false).
  { intros m z Hm. unfold key_prefix, docket_prefix. destruct z, cluster; try assumption; now rewrite !occurs_app, Hm. }
  apply (split_first ":"%char) in E; [|now apply Cn|now apply Cn]. destruct E as [E _].
  assert (Dp : forall m z, key_prefix cluster m z = m \/ key_prefix cluster m z = ("{" ++ m ++ "}")%string) by (intros m z; unfold key_prefix, docket_prefix; destruct z, cluster; auto).
  destruct (Dp n x) as [Ex|Ex], (Dp n' y) as [Ey|Ey]; rewrite Ex, Ey in E.
  - contradiction.
  - now apply (B _) in E.
  - symmetry in E. now apply (B' _) in E.
  - apply append_inj_l, append_inj_r in E. contradiction.
Qed.
Print Assumptions C39_dockets.
