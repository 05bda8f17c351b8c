(** C80: TaskArgument. *)
From Verif Require Import Base Strike Bind SpecBind BindProofs PropsBind.

(** It never gives a wrong value: what it gives was passed by the caller, and is what the
    body gets; and every argument the caller passed is given. *)
Theorem C80_passed_partial o ps args kw n v : signature ps -> call_ok kw -> clear_names ps kw -> accepted ps args kw -> no_star ps n ->
  (task_argument o ps args kw n = TAValue v <-> passed ps args kw n v) /\
  (task_argument o ps args kw n = TAValue v -> gets ps args kw n v) /\
  (task_argument o ps args kw n = TANone -> o = true) /\
  task_argument o ps args kw n <> TATypeError.
Proof.
  intros S O C A Ns.
  assert (P : task_argument o ps args kw n = TAValue v <-> passed ps args kw n v).
  { split.
    - unfold task_argument. destruct (bind ps args kw) as [b|] eqn:Hb; [|discriminate]. destruct (kget b n) as [w|] eqn:G; [|now destruct o].
      intros E. injection E as ->. destruct (bind_spec ps args kw b S Hb) as (B1 & B2 & _).
      destruct (in_dec string_dec n (map q_name ps)) as [I|N]; [|rewrite (B2 n N) in G; discriminate].
      apply in_map_iff in I. destruct I as (p & <- & I). destruct (In_nth_error ps p I) as [i X]. rewrite (B1 i p X (Ns p I eq_refl)) in G.
      exists i, p. split; [exact X|]. split; [reflexivity|]. unfold bound in G. destruct (by_pos p) eqn:Bp.
      + destruct (nth_error args i) eqn:Nt; [left; split; [now apply by_pos_spec|congruence]|].
        destruct (keywordable p) eqn:Kp; [|discriminate]. right. split; [now apply keywordable_spec|now apply kget_In].
      + destruct (keywordable p) eqn:Kp; [|discriminate]. right. split; [now apply keywordable_spec|now apply kget_In].
    - intros Pa. pose proof (passed_argument ps args kw n v S O C A Pa) as G. unfold get_argument in G. unfold task_argument.
      destruct (bind ps args kw); [|discriminate]. now rewrite G. }
  split; [exact P|]. split; [|split].
  - intros E. apply P in E. destruct E as (i & p & X & En & [G|G]); exists i, p; (split; [exact X|]; split; [exact En|]); [now left|right; now left].
  - unfold task_argument. destruct (bind ps args kw); [|discriminate]. destruct (kget _ n); [discriminate|]. now destruct o.
  - unfold task_argument. destruct (bind_complete ps args kw S C A) as [b ->]. destruct (kget b n); [discriminate|]. now destruct o.
Qed.
Print Assumptions C80_passed_partial.

Example C80_case :
  let kw := [("retries"%string, PInt 5); ("team"%string, PStr "a")] in
  signature send /\ call_ok kw /\ clear_names send kw /\ accepted send [PInt 7; PStr "hi"] kw /\ no_star send "retries" /\
  task_argument false send [PInt 7; PStr "hi"] kw "to" = TAValue (PInt 7) /\
  task_argument false send [PInt 7; PStr "hi"] kw "retries" = TAValue (PInt 5) /\
  task_argument false send [PInt 7; PStr "hi"] kw "nope" = TAKeyError /\ task_argument true send [PInt 7; PStr "hi"] kw "nope" = TANone.
Proof.
  cbv zeta. split; [exact send_signature|].
  split; [cbn; repeat (apply NoDup_cons; [cbn; intuition discriminate|]); apply NoDup_nil|].
  split; [intros p I J; cbn in I, J; listed; subst p; cbn in J; try discriminate J; now left|].
  split; [apply send_accepted; cbn; [lia|intuition discriminate|now left]|].
  split; [intros p I E; cbn in I; listed; subst p; cbn in E; try discriminate E; reflexivity|].
  repeat split; vm_compute; reflexivity.
Qed.

(** Not so for arguments the caller left at their default, nor for extra keywords: the body
    gets a value, the dependency an error or, if optional, None. *)
Theorem C80_default_refuted :
  let args := [PInt 7; PStr "hi"] in let kw := [("team"%string, PStr "a")] in
  signature send /\ call_ok kw /\ clear_names send kw /\ accepted send args kw /\
  gets send args kw "retries" (PInt 3) /\
  task_argument false send args kw "retries" = TAKeyError /\ task_argument true send args kw "retries" = TANone /\
  gets_extra send kw "team" (PStr "a") /\
  task_argument false send args kw "team" = TAKeyError /\ task_argument true send args kw "team" = TANone.
Proof.
  cbv zeta. destruct C78_case as (A & B & _ & C & _ & D & _ & _ & E & _ & _ & F & _).
  split; [exact A|]. split; [exact B|]. split; [exact C|]. split; [exact D|]. split; [exact E|].
  split; [vm_compute; reflexivity|]. split; [vm_compute; reflexivity|]. split; [exact F|]. split; vm_compute; reflexivity.
Qed.
Print Assumptions C80_default_refuted.
