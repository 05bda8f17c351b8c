(** C115: a listing shows a worker while it works and not afterwards. *)
From Verif Require Import Base ZSet Heartbeat SpecHeartbeat HeartbeatProofs Departed SpecDeparted DepartedProofs.
Local Open Scope string_scope.

Lemma listing_In age s b t w : In w (listing age s b t) <-> exists u, In (u, w) (on_board (dp_hb s) b) /\ ~ (0 <= u <= t - age).
Proof.
  unfold listing. rewrite in_map_iff. cbn [dstep with_hb dp_hb]. split.
  - intros ([u w'] & <- & H). apply board_purge in H as [H N]. exists u. split; [exact H|]. apply N. destruct b; [reflexivity|apply String.eqb_refl].
  - intros (u & H & N). exists (u, w). split; [reflexivity|]. apply board_purge. auto.
Qed.

(** A worker that is at rest and has withdrawn is on no listing until it comes back, whatever
    else happens.  Missing from the full statement: heartbeats on their way, a withdrawal that
    fails, and an earlier attempt under the name with other tasks (false, see below). *)
Theorem C115_left_partial age l1 l2 i y b t :
  let s1 := drun age dep_init l1 in
  nth_error (dp_stays s1) i = Some y -> at_rest (st_name y) s1 -> knows_all (st_name y) s1 y ->
  Forall (not_coming (st_name y)) l2 ->
  ~ In (st_name y) (listing age (drun age dep_init (l1 ++ DWithdraw i true :: l2)) b t).
Proof.
  intros s1 E R A F H. rewrite drun_app in H. cbn [drun] in H. fold s1 in H.
  assert (W : Away (st_name y) (dstep age s1 (DWithdraw i true))).
  { cbn [dstep]. rewrite E. assert (Oy : st_on y = false) by (apply (proj1 R); split; [now apply nth_error_In in E|reflexivity]). rewrite Oy.
    cbn [negb andb]. split; [exact R|]. intros b' u Hb. cbn [with_hb dp_hb] in Hb. apply board_remove in Hb.
    destruct (concerns b' (st_tasks y)) eqn:C; [now destruct Hb|]. destruct b' as [|n]; [discriminate|].
    assert (K : Kn s1) by apply Kn_run, Kn_init. destruct (kn_board _ K _ _ _ Hb) as (z & Nz & Hz). apply (A _ _ Nz) in Hz.
    apply existsb_eqb in Hz. cbn in C. congruence. }
  apply (Away_run age _ l2) in W; [|exact F]. apply listing_In in H as (u & H & _). now apply W in H.
Qed.
Print Assumptions C115_left_partial.

(** Whatever is lost, late or fails: the allowed age after its last heartbeat a worker is on no listing. *)
Theorem C115_gone_in_time age l w b t :
  (forall u, In u (sent age w dep_init l) -> 0 <= u <= t - age) -> ~ In w (listing age (drun age dep_init l) b t).
Proof.
  intros F H. apply listing_In in H as (u & H & N). apply N, F.
  assert (T : Told w [] dep_init) by (split; cbn; [destruct b0|]; contradiction).
  apply (Told_run age w l) in T. now apply (proj1 T) in H.
Qed.
Print Assumptions C115_gone_in_time.

(** A withdrawal takes no worker of another name off a listing. *)
Theorem C115_others_stay age s i ok y b t w : nth_error (dp_stays s) i = Some y -> w <> st_name y ->
  In w (listing age (dstep age s (DWithdraw i ok)) b t) <-> In w (listing age s b t).
Proof.
  intros E N. rewrite !listing_In. cbn [dstep]. rewrite E. destruct (_ && _); [|reflexivity]. cbn [with_hb dp_hb].
  split; intros (u & H & P); exists u; (split; [|exact P]).
  - apply board_remove in H. destruct (concerns _ _); [now destruct H|exact H].
  - apply board_remove. destruct (concerns _ _); [split; [exact H|exact N]|exact H].
Qed.
Print Assumptions C115_others_stay.

(** Two workers; "w" learns a further task, leaves, and "v" stays. *)
Definition ex_two : list dev :=
  [DCome "w" ["f"]; DCome "v" ["f"]; DSend 0 1000000; DArrive 0; DRegister 0 "g"; DSend 1 2000000; DSend 0 3000000; DArrive 1; DArrive 0].
Example C115_case :
  let age := 10000000 in
  let s1 := drun age dep_init (ex_two ++ [DStop 0]) in
  nth_error (dp_stays s1) 0 = Some (mkStay "w" ["f"; "g"] false 0) /\ at_rest "w" s1 /\ knows_all "w" s1 (mkStay "w" ["f"; "g"] false 0) /\
  listing age s1 (BTask "f") 4000000 = ["v"; "w"] /\ listing age s1 (BTask "g") 4000000 = ["w"] /\
  let s2 := dstep age s1 (DWithdraw 0 true) in
  listing age s2 (BTask "f") 4000000 = ["v"] /\ listing age s2 (BTask "g") 4000000 = [] /\ listing age s2 BAll 4000000 = ["v"] /\
  sent age "w" dep_init ex_two = [1000000; 3000000] /\ listing age s1 BAll 13000000 = [].
Proof.
  cbv zeta. split; [vm_compute; reflexivity|]. split.
  { split; [|vm_compute; tauto]. intros y [H N]. vm_compute in H. destruct H as [<-|[<-|[]]]; [reflexivity|discriminate N]. }
  split.
  { intros z n [H N]. vm_compute in H. destruct H as [<-|[<-|[]]]; [exact (fun H => H)|discriminate N]. }
  repeat split; vm_compute; reflexivity.
Qed.

(** A heartbeat that is on its way when the worker withdraws puts it on the listings again. *)
Theorem C115_stray_heartbeat_refuted :
  let age := 10000000 in
  let s := drun age dep_init [DCome "w" ["f"]; DSend 0 1000000; DStop 0; DWithdraw 0 true; DArrive 0] in
  (forall y, named "w" s y -> st_on y = false) /\ dp_air s = [] /\ listing age s BAll 10000000 = ["w"] /\ listing age s (BTask "f") 10000000 = ["w"].
Proof.
  cbv zeta. split; [intros y [H N]; vm_compute in H; destruct H as [<-|[]]; reflexivity|]. repeat split; vm_compute; reflexivity.
Qed.
Print Assumptions C115_stray_heartbeat_refuted.

(** A withdrawal that fails is logged and not tried again. *)
Theorem C115_failed_withdrawal_refuted :
  let age := 10000000 in
  let s := drun age dep_init [DCome "w" ["f"]; DSend 0 1000000; DArrive 0; DStop 0; DWithdraw 0 false] in
  (forall y, named "w" s y -> st_on y = false) /\ dp_air s = [] /\ listing age s BAll 10000000 = ["w"].
Proof.
  cbv zeta. split; [intros y [H N]; vm_compute in H; destruct H as [<-|[]]; reflexivity|]. repeat split; vm_compute; reflexivity.
Qed.
Print Assumptions C115_failed_withdrawal_refuted.

(** A worker that crashed and was started again with fewer tasks withdraws from those only. *)
Theorem C115_older_tasks_refuted :
  let age := 10000000 in
  let s := drun age dep_init [DCome "w" ["f"; "old"]; DSend 0 1000000; DArrive 0; DStop 0; DCome "w" ["f"]; DSend 1 2000000; DArrive 0; DStop 1; DWithdraw 1 true] in
  at_rest "w" s /\ listing age s BAll 9000000 = [] /\ listing age s (BTask "old") 9000000 = ["w"].
Proof.
  cbv zeta. split; [split; [intros y [H N]; vm_compute in H; destruct H as [<-|[<-|[]]]; reflexivity|vm_compute; tauto]|]. split; vm_compute; reflexivity.
Qed.
Print Assumptions C115_older_tasks_refuted.

(** Two workers of one process have the same default name; the one that leaves withdraws the other. *)
Theorem C115_same_name_refuted :
  let age := 10000000 in
  let s := drun age dep_init [DCome "host#1" ["f"]; DCome "host#1" ["f"]; DSend 0 1000000; DArrive 0; DSend 1 1000001; DArrive 0; DStop 0; DWithdraw 0 true] in
  nth_error (dp_stays s) 1 = Some (mkStay "host#1" ["f"] true 0) /\ listing age s BAll 1000002 = [].
Proof. split; vm_compute; reflexivity. Qed.
Print Assumptions C115_same_name_refuted.

(** A worker that shuts down withdraws before it waits for its tasks: it runs them unlisted. *)
Theorem C115_draining_refuted :
  let age := 10000000 in
  let s := drun age dep_init [DCome "w" ["f"]; DSend 0 1000000; DArrive 0; DStart 0; DStop 0; DWithdraw 0 true] in
  nth_error (dp_stays s) 0 = Some (mkStay "w" ["f"] false 1) /\ listing age s BAll 1000001 = [].
Proof. split; vm_compute; reflexivity. Qed.
Print Assumptions C115_draining_refuted.
