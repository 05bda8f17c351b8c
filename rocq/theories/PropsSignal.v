(** C95: a cancellation signal reaches the workers of its docket, and no others. *)
From Verif Require Import Base Text Keys Signal SpecSignal SignalProofs.

(** While a worker's listener is subscribed and the worker runs [h] under the key [k], the
    cancellation of [k] on its docket cancels [h] as soon as the listener has handled as many
    messages as dockets have sent, if the listener is not interrupted and [k] stays the key of
    [h] there.  The docket's name must mean itself in a Redis pattern. *)
Theorem C95_reaches_partial cl dn w k h l1 l2 :
  literal (dn w) = true -> mood_of w l1 = Tuned -> runs_as w k l1 = Some h ->
  forallb (fun e => negb (disturbs w k e)) l2 = true -> (cancels l1 < handlings w l2)%nat ->
  In h (w_cancelled (sig_run cl dn (l1 ++ ECancel (dn w) k :: l2) w)).
Proof.
  intros L M T D N. destruct (mood_run cl dn l1 w) as [M1 M2]. rewrite M in M1.
  destruct (w_link (sig_run cl dn l1 w)) as [|q| |] eqn:E; try discriminate. specialize (M2 q eq_refl).
  destruct (arrives cl dn w k h l1 l2 q E L T D) as [_ [H|(q1 & q2 & _ & H)]]; [exact H|lia].
Qed.
Print Assumptions C95_reaches_partial.

(** If the names of all dockets on the server are plain, a worker cancels only a task it ran
    under a key whose cancellation was requested before, on this worker's docket; and the
    subscriber of the concurrency limits cleans up only after such keys. *)
Theorem C95_only_partial cl dn l w :
  (forall n k, In (ECancel n k) l -> plain cl n = true) -> (forall w, plain cl (dn w) = true) ->
  (forall h, In h (w_cancelled (sig_run cl dn l w)) ->
     exists l1 l2 k, l = l1 ++ EHandle w :: l2 /\ runs_as w k l1 = Some h /\ In (ECancel (dn w) k) l1) /\
  (forall k, In k (w_cleaned (sig_run cl dn l w)) -> In (ECancel (dn w) k) l).
Proof. intros P Q. destruct (only_run cl dn l w P Q) as [_ _ C D]. split; auto. Qed.
Print Assumptions C95_only_partial.

(** Two dockets and three workers; w2 reconnects; the tasks "k" of docket "a" are cancelled on both of
    its workers, the task "k" of docket "b" is not. *)
Definition ex_dn (w : string) : string := if String.eqb w "w3" then "b" else "a".
Definition ex_sig : list ev :=
  [ESubscribe "w1"; ESubscribe "w2"; ESubscribe "w3"; ESubStart "w1"; EFail "w2"; EAgain "w2"; ESubscribe "w2";
   EStart "w1" "k" 1; EStart "w2" "k" 2; EStart "w3" "k" 3; EStart "w1" "j" 4; ECancel "b" "j"].
Definition ex_sig2 : list ev := [EHandle "w1"; EHandle "w2"; EHandle "w3"; ESubHandle "w1"; EHandle "w1"; EHandle "w2"].
Example C95_case :
  literal (ex_dn "w1") = true /\ mood_of "w2" ex_sig = Tuned /\ runs_as "w2" "k" ex_sig = Some 2 /\
  forallb (fun e => negb (disturbs "w2" "k" e)) ex_sig2 = true /\ (cancels ex_sig < handlings "w2" ex_sig2)%nat /\
  (forall n k, In (ECancel n k) (ex_sig ++ ECancel "a" "k" :: ex_sig2) -> plain false n = true) /\ (forall w, plain false (ex_dn w) = true) /\
  let s := sig_run false ex_dn (ex_sig ++ ECancel "a" "k" :: ex_sig2) in
  (w_cancelled (s "w1"), w_cancelled (s "w2"), w_cancelled (s "w3"), w_cleaned (s "w1")) = ([1], [2], [], ["k"]) %string.
Proof.
  split; [reflexivity|]. split; [reflexivity|]. split; [reflexivity|]. split; [reflexivity|]. split; [vm_compute; repeat constructor|]. split; [|split].
  - intros n k H. cbn in H. repeat (destruct H as [H|H]; [first [discriminate H|injection H as <- <-; reflexivity]|]). contradiction.
  - intros w. unfold ex_dn. destruct (String.eqb w "w3"); reflexivity.
  - vm_compute. reflexivity.
Qed.

(** A docket whose name contains a pattern character misses its own cancellations. *)
Theorem C95_name_refuted : exists cl dn w k h l1 l2,
  mood_of w l1 = Tuned /\ runs_as w k l1 = Some h /\ forallb (fun e => negb (disturbs w k e)) l2 = true /\
  (cancels l1 < handlings w l2)%nat /\
  w_cancelled (sig_run cl dn (l1 ++ ECancel (dn w) k :: l2) w) = [] /\ w_link (sig_run cl dn (l1 ++ ECancel (dn w) k :: l2) w) = LOn [].
Proof.
  exists false, (fun _ => "app[eu]"%string), "w"%string, "k"%string, 1, [ESubscribe "w"; EStart "w" "k" 1], [EHandle "w"].
  repeat split; vm_compute; auto.
Qed.
Print Assumptions C95_name_refuted.

(** ... or obeys those of another docket, on a cluster too. *)
Theorem C95_star_refuted : forall cl, exists dn n w k l,
  n <> dn w /\ (forall k', ~ In (ECancel (dn w) k') l) /\ runs_as w k l = Some 1 /\ In (ECancel n k) l /\ w_cancelled (sig_run cl dn l w) = [1].
Proof.
  intros cl. exists (fun _ => "app*"%string), "app-two"%string, "w"%string, "k"%string, [ESubscribe "w"; EStart "w" "k" 1; ECancel "app-two" "k"; EHandle "w"].
  split; [discriminate|]. split.
  - intros k' H. repeat (destruct H as [H|H]; [discriminate H|]). contradiction.
  - split; [reflexivity|]. split; [cbn; auto|]. destruct cl; vm_compute; reflexivity.
Qed.
Print Assumptions C95_star_refuted.

(** Without any pattern character: the docket "a" obeys the cancellations of the docket "a:cancel". *)
Theorem C95_colon_refuted : exists dn n w k l,
  literal n = true /\ literal (dn w) = true /\ n <> dn w /\ (forall k', ~ In (ECancel (dn w) k') l) /\
  runs_as w k l = Some 1 /\ In (ECancel n k) l /\ w_cancelled (sig_run false dn l w) = [1].
Proof.
  exists (fun _ => "a"%string), "a:cancel"%string, "w"%string, "k"%string, [ESubscribe "w"; EStart "w" "k" 1; ECancel "a:cancel" "k"; EHandle "w"].
  split; [reflexivity|]. split; [reflexivity|]. split; [discriminate|]. split.
  - intros k' H. repeat (destruct H as [H|H]; [discriminate H|]). contradiction.
  - split; [reflexivity|]. split; [cbn; auto|]. vm_compute; reflexivity.
Qed.
Print Assumptions C95_colon_refuted.

(** A signal sent while the listener pauses after an error is lost for good: the task runs on
    although the listener is subscribed again. *)
Theorem C95_gap_refuted : exists cl dn w k l1 l2,
  plain cl (dn w) = true /\ runs_as w k l1 = Some 1 /\ mood_of w (l1 ++ ECancel (dn w) k :: l2) = Tuned /\
  runs_as w k (l1 ++ ECancel (dn w) k :: l2) = Some 1 /\
  forall n, w_cancelled (sig_run cl dn (l1 ++ ECancel (dn w) k :: l2 ++ repeat (EHandle w) n) w) = [].
Proof.
  exists false, (fun _ => "a"%string), "w"%string, "k"%string, [ESubscribe "w"; EStart "w" "k" 1; EFail "w"], [EAgain "w"; ESubscribe "w"].
  split; [reflexivity|]. split; [reflexivity|]. split; [reflexivity|]. split; [reflexivity|].
  assert (H : forall n, w_link (sig_run false (fun _ => "a"%string) ([ESubscribe "w"; EStart "w" "k" 1; EFail "w"; ECancel "a" "k"; EAgain "w"; ESubscribe "w"] ++ repeat (EHandle "w") n) "w") = LOn [] /\
     w_cancelled (sig_run false (fun _ => "a"%string) ([ESubscribe "w"; EStart "w" "k" 1; EFail "w"; ECancel "a" "k"; EAgain "w"; ESubscribe "w"] ++ repeat (EHandle "w") n) "w") = []).
  { induction n as [|n [IH1 IH2]]; [vm_compute; auto|].
    replace (repeat (EHandle "w") (S n)) with (repeat (EHandle "w") n ++ [EHandle "w"]) by (now rewrite <- repeat_cons).
    rewrite app_assoc, sig_run_snoc. cbn [sig_step]. rewrite IH1. auto. }
  intros n. exact (proj2 (H n)).
Qed.
Print Assumptions C95_gap_refuted.

(** The subscriber that cleans up after parked tasks does not come back from its first error:
    whatever happens later, it cleans up nothing more. *)
Theorem C95_cleanup_refuted cl dn w l1 l2 :
  w_cleaned (sig_run cl dn (l1 ++ ESubFail w :: l2) w) = w_cleaned (sig_run cl dn l1 w).
Proof.
  replace (l1 ++ ESubFail w :: l2) with ((l1 ++ [ESubFail w]) ++ l2) by (now rewrite <- app_assoc).
  destruct (over_stays cl dn w (l1 ++ [ESubFail w]) l2) as (_ & _ & ->); rewrite sig_run_snoc; cbn [sig_step]; rewrite upd_eq; reflexivity.
Qed.
Print Assumptions C95_cleanup_refuted.
(** In particular the cancellation of a parked task, which an undisturbed subscriber would see. *)
Example C95_cleanup_case :
  w_cleaned (sig_run false ex_dn [ESubStart "w1"; ECancel "a" "k"; ESubHandle "w1"] "w1") = ["k"%string] /\
  w_cleaned (sig_run false ex_dn [ESubStart "w1"; ESubFail "w1"; ESubStart "w1"; ECancel "a" "k"; ESubHandle "w1"] "w1") = [].
Proof. vm_compute. auto. Qed.

(** The patterns of the Redis manual. *)
Example glob_manual :
  map (fun '(p, s) => glob p s)
    [("h?llo", "hallo"); ("h?llo", "hllo"); ("h*llo", "hllo"); ("h*llo", "heeeello"); ("h[ae]llo", "hello"); ("h[ae]llo", "hillo");
     ("h[^e]llo", "hallo"); ("h[^e]llo", "hello"); ("h[a-b]llo", "hbllo"); ("h[a-b]llo", "hcllo"); ("h\*llo", "h*llo"); ("h\*llo", "hello");
     ("a:cancel:*", "a:cancel:"); ("*cancel*", "a:cancel:x")]%string =
    [true; false; true; true; true; false; true; false; true; false; true; false; true; true].
Proof. vm_compute. reflexivity. Qed.

(** Tests of [glob] against the behaviour of Redis. *)
Example glob_tests :
  map (fun '(p, x) => glob p x) [("h[a-c]llo", "hallo"); ("h[a-c]llo", "hcllo"); ("h[c-a]llo", "hbllo"); ("h[^e]llo", "hallo"); ("h\[a]", "h[a]"); ("h?llo", "hxllo");
    ("a*b*c", "axxbyc"); ("abc", "abc"); ("h[\]]x", "h]x"); ("abc*", "abc"); ("h[a", "ha"); ("h[\-z]", "h-")]%string = repeat true 12 /\
  map (fun '(p, x) => glob p x) [("h[a-c]llo", "hdllo"); ("h[^e]llo", "hello"); ("h?llo", "hllo"); ("a*b", "axc"); ("abc", "ab"); ("ab", "abc");
    ("h[\]]x", "h\x"); ("h\[a]", "ha"); ("a*b", "a"); ("h[\-z]", "hy")]%string = repeat false 10.
Proof. split; reflexivity. Qed.
