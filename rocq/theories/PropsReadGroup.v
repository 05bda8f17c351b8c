(** C131: reading from a docket without consumer group. *)
From Coq Require Import Ascii String List.
From Verif Require Import Base Duration PropsDuration Cli PropsCli Url SpecUrl PropsUrl CliUrl PropsCliUrl SnapGroup PropsSnapGroup ReadGroup.
Import ListNotations.

(** ** C131: a worker creates a missing consumer group and reads; other errors reach its loop *)

Lemma deliveries_step n lost refused k s : deliveries_after (S n) lost refused k s =
  let s := if lost k then with_group false s else s in
  match xread (refused k) s with
  | None => Some Answer
  | Some e => if contains e (lit "NOGROUP")
              then match ensure s with Some s' => deliveries_after n lost refused (S k) s' | None => Some Raises end
              else Some Raises
  end.
Proof. reflexivity. Qed.
Lemma nogroup : contains (lit "NOGROUP No such key 'docket:stream' or consumer group 'docket-workers'") (lit "NOGROUP") = true.
Proof. vm_compute. reflexivity. Qed.
Lemma lost_same (b : bool) s : v_xgroup (if b then with_group false s else s) = v_xgroup s.
Proof. destruct b; reflexivity. Qed.

(** With the group there, it is one command. *)
Theorem C131_there n lost refused s : v_group s = true -> lost 0%nat = false -> refused 0%nat = None -> deliveries_after (S n) lost refused 0 s = Some Answer.
Proof. intros G L R. rewrite deliveries_step, L, R. cbn [xread]. now rewrite G. Qed.
Print Assumptions C131_there.

(** However often the group is removed, the worker has its messages by the first attempt - after
    it has put the group up - before which nobody removes it. *)
Theorem C131_created j lost s : v_xgroup s = None -> lost (S j) = false ->
  deliveries_after (S (S j)) lost (fun _ => None) 0 s = Some Answer.
Proof.
  intros X L. enough (G : forall j k s, v_xgroup s = None -> lost (S j + k)%nat = false -> deliveries_after (S (S j)) lost (fun _ => None) k s = Some Answer)
    by (apply G; [exact X|now rewrite Nat.add_0_r]).
  clear. intros j. induction j as [|j IH]; intros k s X L; rewrite deliveries_step; cbv zeta; set (s1 := if lost k then with_group false s else s);
    assert (X1 : v_xgroup s1 = None) by (unfold s1; now rewrite lost_same); unfold xread; destruct (v_group s1); try reflexivity; rewrite nogroup;
    (destruct (ensure s1) as [s'|] eqn:N; [|elim (ensures s1 X1 N)]); destruct (ensured s1 s' N X1) as (A & _ & C).
  - rewrite deliveries_step. cbn [Nat.add] in L. rewrite L. cbn [xread]. now rewrite A.
  - apply IH; [exact C|]. replace (S j + S k)%nat with (S (S j) + k)%nat by lia. exact L.
Qed.
Print Assumptions C131_created.

(** Any other error - of reading, at whichever attempt, or of creating the group - ends the
    call with that exception. *)
Theorem C131_raises j lost refused s e : (forall i, (i < j)%nat -> lost i = true /\ refused i = None) -> v_xgroup s = None ->
  refused j = Some e -> ~ occurs (chars "NOGROUP") e -> deliveries_after (S j) lost refused 0 s = Some Raises.
Proof.
  intros B X R N. enough (G : forall j k s, (forall i, (i < j)%nat -> lost (i + k)%nat = true /\ refused (i + k)%nat = None) -> v_xgroup s = None -> refused (j + k)%nat = Some e ->
    deliveries_after (S j) lost refused k s = Some Raises).
  { apply G; [intros i I; rewrite Nat.add_0_r; now apply B|exact X|now rewrite Nat.add_0_r]. }
  assert (F : contains e (lit "NOGROUP") = false) by (destruct (contains e (lit "NOGROUP")) eqn:E; [elim N; now apply contains_spec|reflexivity]).
  clear - F. intros j. induction j as [|j IH]; intros k s B X R; rewrite deliveries_step; cbv zeta.
  - cbn in R. rewrite R. cbn [xread]. now rewrite F.
  - destruct (B 0%nat ltac:(lia)) as [B1 B2]. cbn [Nat.add] in B1, B2. rewrite B1, B2. cbn [xread with_group v_group]. rewrite nogroup.
    assert (X1 : v_xgroup (with_group false s) = None) by exact X. destruct (ensure (with_group false s)) as [s'|] eqn:E; [|elim (ensures _ X1 E)].
    destruct (ensured _ s' E X1) as (_ & _ & C). apply IH; [|exact C|].
    + intros i I. replace (i + S k)%nat with (S i + k)%nat by lia. apply B. lia.
    + replace (j + S k)%nat with (S j + k)%nat by lia. exact R.
Qed.
Print Assumptions C131_raises.
Theorem C131_not_created n lost refused s e : v_group s = false -> refused 0%nat = None -> v_xgroup s = Some e -> ~ occurs (chars "BUSYGROUP") e ->
  deliveries_after (S n) lost refused 0 s = Some Raises.
Proof.
  intros G R X N. rewrite deliveries_step. cbv zeta. rewrite R. set (s1 := if lost 0%nat then with_group false s else s).
  assert (G1 : v_group s1 = false) by (unfold s1; destruct (lost 0%nat); auto). assert (X1 : v_xgroup s1 = Some e) by (unfold s1; now rewrite lost_same).
  cbn [xread]. rewrite G1, nogroup. unfold ensure, xgroup_create. rewrite X1. destruct (contains e (lit "BUSYGROUP")) eqn:B; [|reflexivity]. elim N. now apply contains_spec.
Qed.
Print Assumptions C131_not_created.

Example C131_case :
  deliveries_after 2 (fun _ => false) (fun _ => None) 0 (mkServer false None None) = Some Answer /\
  deliveries_after 4 (fun k => Nat.leb k 2) (fun _ => None) 0 (mkServer true None None) = Some Answer /\
  deliveries_after 3 (fun k => Nat.leb k 1) (fun k => if Nat.eqb k 2 then Some (lit "NOPERM no permission for XREADGROUP") else None) 0 (mkServer true None None) = Some Raises /\
  ~ occurs (chars "NOGROUP") (lit "NOPERM no permission for XREADGROUP") /\
  deliveries_after 1 (fun _ => false) (fun _ => None) 0 (mkServer false None (Some (lit "OOM command not allowed"))) = Some Raises.
Proof.
  split; [vm_compute; reflexivity|]. split; [vm_compute; reflexivity|]. split; [vm_compute; reflexivity|]. split; [|vm_compute; reflexivity].
  intros H. apply contains_spec in H. vm_compute in H. discriminate H.
Qed.
