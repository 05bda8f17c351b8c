(** C109: the limits of run_at_most calls in a shared strike list. *)
From Verif Require Import Base Conditions SpecConditions ConditionsProofs.
From Coq Require Import Lia.

(** ** C109: run_at_most limits its own worker, and only while it runs *)

(** When no call is running, however many have been (also overlapping ones, ended in any
    order): the answer is that of the strikes. *)
Theorem C109_no_trace l base k : (forall i w lim l2, ~ running l i w lim l2) -> is_stricken (conds_after l) base k = AVerdict base.
Proof. intros H. now apply none_running. Qed.
Print Assumptions C109_no_trace.

(** When no worker makes two calls at the same time, whatever the calls of different workers
    do: asking never fails, and the answer is yes exactly when a strike matches, or the worker
    of some running call has counted the key as often as that call allows since it began. *)
Theorem C109_verdict_partial l base k : one_each l ->
  exists b, is_stricken (conds_after l) base k = AVerdict b /\ (b = true <-> base = true \/ limit_reached l k).
Proof. intros H. now apply verdict. Qed.
Print Assumptions C109_verdict_partial.

(** So when all calls are those of one worker, its running call alone decides.  Missing from
    the full statement: other workers, and a second call of the worker (false, see below). *)
Theorem C109_one_worker_partial l base k w : one_each l -> (forall v lim, In (CBegin v lim) l -> v = w) ->
  exists b, is_stricken (conds_after l) base k = AVerdict b /\
    (b = true <-> base = true \/ exists i lim l2 n, running l i w lim l2 /\ lim k = Some n /\ n <= times w k l2).
Proof.
  intros O H. destruct (verdict l O base k) as (b & E1 & E2). exists b. split; [exact E1|]. rewrite E2.
  apply or_iff_compat_l. split.
  - intros (i & v & lim & l2 & n & R & X). assert (v = w); [|subst v; exists i, lim, l2, n; auto].
    destruct R as (l1 & -> & _). eapply H, in_elt.
  - intros (i & lim & l2 & n & R & X). exists i, w, lim, l2, n. auto.
Qed.
Print Assumptions C109_one_worker_partial.

Lemma one_each_add l o : one_each l -> (forall w lim, o = CBegin w lim -> forall i lim' l3, ~ running l i w lim' l3) -> one_each (l ++ [o]).
Proof.
  intros H N l1 w lim l2 E. apply snoc_split in E as [(-> & -> & <-)|(l2' & -> & ->)]; [eapply N; reflexivity|eapply H; reflexivity].
Qed.
Lemma one_each_nil : one_each [].
Proof. intros l1 w lim l2 E. destruct l1; discriminate. Qed.
Lemma not_running_nil i w lim l3 : ~ running [] i w lim l3.
Proof. intros (l1 & E & _). destruct l1; discriminate. Qed.

Definition only (k : string) (n : Z) : string -> option Z := fun k' => if String.eqb k' k then Some n else None.
(** Worker w1 may run k once, worker w2 five times; w1 has run it once. *)
Definition ex_two : list cop := [CBegin "w1" (only "k" 1); CBegin "w2" (only "k" 5); CCount "w1" "k"].
Lemma ex_two_one_each : one_each ex_two.
Proof.
  unfold ex_two. change (one_each ((([] ++ [CBegin "w1" (only "k" 1)]) ++ [CBegin "w2" (only "k" 5)]) ++ [CCount "w1" "k"])).
  apply one_each_add; [apply one_each_add; [apply one_each_add; [apply one_each_nil|]|]|].
  - intros w lim _ i lim' l3. apply not_running_nil.
  - intros w lim [= <- <-] i lim' l3 H. apply running_snoc in H as [([=] & _)|(l2 & _ & H & _)]. now apply not_running_nil in H.
  - discriminate.
Qed.
Lemma ex_two_running : running ex_two 1 "w2" (only "k" 5) [CCount "w1" "k"].
Proof. exists [CBegin "w1" (only "k" 1)]. split; [reflexivity|]. split; [reflexivity|]. intros [H|[]]. discriminate H. Qed.

(** The calls of two workers, one at its limit; when it ends, only the other is left. *)
Example C109_verdict_case :
  one_each ex_two /\ limit_reached ex_two "k" /\
  is_stricken (conds_after ex_two) false "k" = AVerdict true /\ is_stricken (conds_after ex_two) false "j" = AVerdict false /\
  is_stricken (conds_after (ex_two ++ [CEnd 0])) false "k" = AVerdict false /\
  is_stricken (conds_after (ex_two ++ [CEnd 0; CCount "w2" "k"; CCount "w2" "k"; CCount "w2" "k"; CCount "w2" "k"; CCount "w2" "k"])) false "k" = AVerdict true /\
  is_stricken (conds_after (ex_two ++ [CEnd 0; CEnd 1])) true "k" = AVerdict true.
Proof.
  split; [apply ex_two_one_each|]. split; [|repeat split].
  exists 0%nat, "w1"%string, (only "k" 1), [CBegin "w2" (only "k" 5); CCount "w1" "k"], 1.
  split; [exists []; split; [reflexivity|]; split; [reflexivity|]; intros [H|[H|[]]]; discriminate H|]. split; [reflexivity|vm_compute; discriminate].
Qed.

(** The full statement is false.  The list belongs to the Docket object, which workers share:
    a limit reached by one worker strikes the key for the others.  Worker w2, in its own call,
    has run k never and may run it five times; its next delivery of k is struck (and so
    discarded), as is every add() through this object. *)
Theorem C109_other_worker_refuted :
  exists l i w lim l2 k n, one_each l /\ running l i w lim l2 /\ lim k = Some n /\ times w k l2 < n /\
    (forall j lim' l3, running l j w lim' l3 -> j = i) /\ is_stricken (conds_after l) false k = AVerdict true.
Proof.
  exists ex_two, 1%nat, "w2"%string, (only "k" 5), [CCount "w1" "k"], "k"%string, 5.
  split; [apply ex_two_one_each|]. split; [apply ex_two_running|]. split; [reflexivity|]. split; [vm_compute; reflexivity|].
  split; [|reflexivity]. intros j lim' l3 H. eapply one_each_same; [apply ex_two_one_each|apply ex_two_running|exact H].
Qed.
Print Assumptions C109_other_worker_refuted.

(** A worker that makes a second call while the first is running loses the counts of the first:
    from then on asking about a key of the first call raises KeyError, in every worker and
    add() that shares the object; also when the second call has ended. *)
Theorem C109_second_call_refuted :
  exists l k, is_stricken (conds_after l) false k = AKeyError /\ is_stricken (conds_after (l ++ [CEnd 1])) false k = AKeyError.
Proof. exists [CBegin "w" (only "k" 2); CBegin "w" (only "j" 1)], "k"%string. split; reflexivity. Qed.
Print Assumptions C109_second_call_refuted.
