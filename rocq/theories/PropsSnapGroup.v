(** C130: snapshots of a docket without consumer group. *)
From Coq Require Import Ascii String List.
From Verif Require Import Base Duration PropsDuration Cli PropsCli Url SpecUrl PropsUrl CliUrl PropsCliUrl SnapGroup.
Import ListNotations.

(** ** C130: a snapshot comes to an end *)

(** The text [p] occurs in [l]. *)
Definition occurs (p l : text) : Prop := exists a b, l = a ++ p ++ b.
Lemma contains_spec l p : contains l p = true <-> occurs p l.
Proof.
  unfold occurs. induction l as [|x l IH]; cbn [contains]; rewrite orb_true_iff, starts_spec.
  - split; [intros [(r & E)|E]; [exists [], r; exact E|discriminate E]|]. intros (a & b & E). left. destruct a; [exists b; exact E|discriminate E].
  - rewrite IH. split.
    + intros [(r & E)|(a & b & ->)]; [exists [], r; exact E|exists (x :: a), b; reflexivity].
    + intros ([|y a] & b & E); [left; exists b; exact E|right; injection E as -> E; exists a, b; exact E].
Qed.

Lemma retried s e : xpending s = Some e -> contains e (lit "NOGROUP") || contains e (lit "XPENDING") = true.
Proof.
  intros H. apply orb_true_iff. right. apply contains_spec. unfold xpending in H.
  match type of H with option_map _ ?m = _ => destruct m as [x|]; [|discriminate H] end. cbn [option_map] in H. injection H as <-.
  exists (lit "Command # 3 ("), (lit " docket:stream docket-workers - + 1000) of pipeline caused error: " ++ x). reflexivity.
Qed.
Lemma busy : contains (lit "BUSYGROUP Consumer Group name already exists") (lit "BUSYGROUP") = true.
Proof. vm_compute. reflexivity. Qed.

Lemma attempt_here n lost k s : v_xpending s = None -> v_group s = true -> lost k = false -> snapshot_after (S n) lost k s = Some Answer.
Proof. intros P G L. cbn [snapshot_after]. rewrite L. unfold xpending. rewrite P, G. reflexivity. Qed.
Lemma ensured s s' : ensure s = Some s' -> v_xgroup s = None -> v_group s' = true /\ v_xpending s' = v_xpending s /\ v_xgroup s' = None.
Proof.
  unfold ensure, xgroup_create. intros E X. rewrite X in E. destruct (v_group s) eqn:G; [rewrite busy in E; injection E as <-; auto|]. injection E as <-. cbn. auto.
Qed.
Lemma ensures s : v_xgroup s = None -> ensure s <> None.
Proof. intros X. unfold ensure, xgroup_create. rewrite X. destruct (v_group s); [rewrite busy|]; discriminate. Qed.

(** If the client may use both commands: however often the group is removed, the snapshot has its
    answer by the first attempt before which - after it has put the group up - nobody removes it. *)
Theorem C130_ends_partial j lost s : v_xpending s = None -> v_xgroup s = None -> lost (S j) = false ->
  snapshot_after (S (S j)) lost 0 s = Some Answer.
Proof.
  intros P X L. enough (G : forall j k s, v_xpending s = None -> v_xgroup s = None -> lost (S j + k)%nat = false -> snapshot_after (S (S j)) lost k s = Some Answer)
    by (apply G; [exact P|exact X|now rewrite Nat.add_0_r]).
  clear. intros j. induction j as [|j IH]; intros k s P X L; remember (if lost k then with_group false s else s) as s1 eqn:E1;
    assert (P1 : v_xpending s1 = None) by (subst s1; destruct (lost k); exact P);
    assert (X1 : v_xgroup s1 = None) by (subst s1; destruct (lost k); exact X).
  - change (snapshot_after 2 lost k s) with
      (let s := if lost k then with_group false s else s in match xpending s with None => Some Answer | Some e =>
         if contains e (lit "NOGROUP") || contains e (lit "XPENDING") then match ensure s with Some s' => snapshot_after 1 lost (S k) s' | None => Some Raises end else Some Raises end).
    cbv zeta. rewrite <- E1. destruct (xpending s1) as [e|] eqn:Q; [|reflexivity]. rewrite (retried s1 e Q).
    destruct (ensure s1) as [s'|] eqn:N; [|elim (ensures s1 X1 N)]. destruct (ensured s1 s' N X1) as (A & B & C). apply attempt_here; [congruence|exact A|exact L].
  - change (snapshot_after (S (S (S j))) lost k s) with
      (let s := if lost k then with_group false s else s in match xpending s with None => Some Answer | Some e =>
         if contains e (lit "NOGROUP") || contains e (lit "XPENDING") then match ensure s with Some s' => snapshot_after (S (S j)) lost (S k) s' | None => Some Raises end else Some Raises end).
    cbv zeta. rewrite <- E1. destruct (xpending s1) as [e|] eqn:Q; [|reflexivity]. rewrite (retried s1 e Q).
    destruct (ensure s1) as [s'|] eqn:N; [|elim (ensures s1 X1 N)]. destruct (ensured s1 s' N X1) as (A & B & C).
    apply IH; [congruence|exact C|]. replace (S j + S k)%nat with (S (S j) + k)%nat by lia. exact L.
Qed.
Print Assumptions C130_ends_partial.

(** If the group is missing and may not be created, the snapshot raises at once. *)
Theorem C130_raises_partial n lost s e : v_xpending s = None -> v_group s = false -> v_xgroup s = Some e -> ~ occurs (chars "BUSYGROUP") e ->
  snapshot_after (S n) lost 0 s = Some Raises.
Proof.
  intros P G X N. cbn [snapshot_after]. remember (if lost 0%nat then with_group false s else s) as s1 eqn:E1.
  assert (F : v_xpending s1 = None /\ v_group s1 = false /\ v_xgroup s1 = Some e) by (subst s1; destruct (lost 0%nat); auto). destruct F as (P1 & G1 & X1).
  destruct (xpending s1) as [x|] eqn:Q; [|unfold xpending in Q; rewrite P1, G1 in Q; discriminate Q]. rewrite (retried s1 x Q).
  unfold ensure, xgroup_create. rewrite X1. destruct (contains e (lit "BUSYGROUP")) eqn:B; [|reflexivity]. elim N. now apply contains_spec.
Qed.
Print Assumptions C130_raises_partial.

Example C130_case : snapshot_after 2 (fun _ => false) 0 (mkServer false None None) = Some Answer /\
  snapshot_after 1 (fun _ => false) 0 (mkServer false None None) = None /\
  snapshot_after 4 (fun k => Nat.leb k 2) 0 (mkServer true None None) = Some Answer /\
  snapshot_after 1 (fun _ => false) 0 (mkServer false None (Some (lit "OOM command not allowed"))) = Some Raises.
Proof. vm_compute. repeat split. Qed.

(** If XPENDING is refused for any other reason, the snapshot takes it for a missing group - the
    text of the error has the name of the command in it - and tries for ever: until Python's limit
    of recursion, after two commands to the server for each level. *)
Theorem C130_for_ever_refuted e g lost n : snapshot_after n lost 0 (mkServer g (Some e) None) = None.
Proof.
  enough (G : forall k s, v_xpending s = Some e -> v_xgroup s = None -> snapshot_after n lost k s = None) by now apply G.
  induction n as [|n IH]; intros k s P X; [reflexivity|]. cbn [snapshot_after]. remember (if lost k then with_group false s else s) as s1 eqn:E1.
  assert (P1 : v_xpending s1 = Some e) by (subst s1; destruct (lost k); exact P). assert (X1 : v_xgroup s1 = None) by (subst s1; destruct (lost k); exact X).
  destruct (xpending s1) as [x|] eqn:Q; [|unfold xpending in Q; rewrite P1 in Q; discriminate Q]. rewrite (retried s1 x Q).
  destruct (ensure s1) as [s'|] eqn:N; [|elim (ensures s1 X1 N)]. destruct (ensured s1 s' N X1) as (_ & B & C). apply IH; [congruence|exact C].
Qed.
Print Assumptions C130_for_ever_refuted.
