(** C74: a task arrives as it was sent, byte for byte.  C75: so does its trace - only if it
    goes straight to the stream. *)
From Verif Require Import Base Text Instant Wire SpecWire WireProofs.

(** However often the task is parked, moved, put among the waiters, woken or sent again for
    a retry: the worker reads its key, function, arguments, due time, attempt and
    generation. *)
Theorem C74_arrives : forall hs x tr,
  is_text (x_key x) -> ~ has_surrogate (x_key x) -> is_text (x_fn x) -> ~ has_surrogate (x_fn x) ->
  real (x_when x) -> Forall real_hop hs ->
  exists tr', travel hs x tr = Some (fold_left arrived hs x, tr').
Proof.
  intros hs x tr T1 S1 T2 S2 R H. eexists. apply travel_arrived; [|exact H]. split; [split|split|]; assumption.
Qed.
Print Assumptions C74_arrives.

(** A key or name that is not text is refused before anything is stored. *)
Theorem C74_refused : forall h x, is_text (x_key x) -> is_text (x_fn x) ->
  has_surrogate (x_key x) \/ has_surrogate (x_fn x) -> take h x = None.
Proof.
  assert (N : forall t, is_text t -> has_surrogate t -> encode t = None).
  { intros t T S. destruct (encode t) eqn:E; [|reflexivity]. exfalso.
    assert (encode t <> None) as X by congruence. apply (encode_iff t T) in X. now apply X. }
  assert (A : forall x, is_text (x_key x) -> is_text (x_fn x) ->
    has_surrogate (x_key x) \/ has_surrogate (x_fn x) -> as_message x = None).
  { intros x T1 T2 [S|S]; unfold as_message.
    - now rewrite (N _ T1 S).
    - rewrite (N _ T2 S). destruct (encode (x_key x)); [|reflexivity]. now destruct (encode (isoformat (x_when x))). }
  intros h x T1 T2 S. destruct h as [p gen tr w a|g1 g2]; cbn [take].
  - now rewrite (A (mkEx (x_key x) w (x_fn x) (x_args x) (x_kwargs x) a (x_gen x))).
  - now rewrite (A x).
Qed.
Print Assumptions C74_refused.

(** Two tasks that differ in anything differ in their messages. *)
Theorem C74_distinct : forall x y, sendable x -> sendable y -> as_message x = as_message y -> x = y.
Proof.
  assert (B : forall x, sendable x -> exists m, as_message x = Some m /\ from_message m = Some (x, no_trace)).
  { intros x S. destruct (as_message_some x S) as (k & f & Ek & Ef & Ex). eexists. split; [exact Ex|].
    rewrite <- (inject_none (seven _ _ _ _ _ _ _)). now apply from_seven. }
  intros x y Sx Sy E. destruct (B x Sx) as (m & Ex & Fx). destruct (B y Sy) as (m' & Ey & Fy).
  rewrite E, Ey in Ex. injection Ex as ->. rewrite Fy in Fx. now injection Fx.
Qed.
Print Assumptions C74_distinct.

(** The counter of a key has to stay below 10^14: Lua writes the next value as 1e+14, which
    int() refuses. *)
Theorem C74_counter_refuted : exists x h, sendable x /\
  h = Send false (10 ^ 14) no_trace (x_when x) 1 /\ take h x = None.
Proof.
  exists (mkEx [107] (mkDt 2026 11 16 0 0 0 0 0) [102] [] [] 1 0). eexists. split; [|split; [reflexivity|vm_compute; reflexivity]].
  split; cbn [x_key x_fn x_when].
  - split; [apply Forall_forall; intros c Hc; cbn in Hc; lia|intros (c & [<-|[]] & H); lia].
  - split; [apply Forall_forall; intros c Hc; cbn in Hc; lia|intros (c & [<-|[]] & H); lia].
  - vm_compute. repeat match goal with |- _ /\ _ => split end; first [reflexivity|discriminate].
Qed.
Print Assumptions C74_counter_refuted.

(** "käy☃😀", due in a zone with seconds in its offset, through everything. *)
Definition ex_x : execution :=
  mkEx [107; 228; 121; 9731; 128512] (mkDt 2026 2 28 23 59 59 7 (-17762000000)) [102] [128; 5; 75; 1; 133; 148; 46] [128; 5; 125; 148; 46] 1 0.
Definition ex_hops : list hop :=
  [Send true 1 (mkTrace (Some [48; 48]) None None) (mkDt 2026 2 28 23 59 59 7 (-17762000000)) 1;
   Slot 2 3; Send false 4 (mkTrace (Some [48; 49]) (Some [120]) None) (mkDt 9999 12 31 0 0 0 0 86399999999) 2; Slot 5 6].

Example C74_ex_sendable : sendable ex_x /\ Forall real_hop ex_hops.
Proof.
  split.
  - split; cbn [x_key x_fn x_when ex_x].
    + split; [apply Forall_forall; intros c Hc; cbn in Hc; lia|]. intros (c & Hc & H). cbn in Hc. lia.
    + split; [apply Forall_forall; intros c Hc; cbn in Hc; lia|]. intros (c & Hc & H). cbn in Hc. lia.
    + vm_compute. repeat match goal with |- _ /\ _ => split end; first [reflexivity|discriminate].
  - unfold ex_hops. repeat apply Forall_cons; try apply Forall_nil; vm_compute;
      repeat match goal with |- _ /\ _ => split end; first [reflexivity|discriminate].
Qed.
Example C74_ex_iso : isoformat (x_when ex_x) = codes "2026-02-28T23:59:59.000007-04:56:02" /\
  encode (x_key ex_x) = Some [107; 195; 164; 121; 226; 152; 131; 240; 159; 152; 128].
Proof. vm_compute. split; reflexivity. Qed.
Example C74_ex_travel : option_map fst (travel ex_hops ex_x no_trace) =
  Some (mkEx (x_key ex_x) (mkDt 9999 12 31 0 0 0 0 86399999999) [102] (x_args ex_x) (x_kwargs ex_x) 2 6).
Proof. vm_compute. reflexivity. Qed.
Example C74_ex_surrogate : take (Slot 1 2) (mkEx [55296] (x_when ex_x) [102] [] [] 1 0) = None.
Proof. vm_compute. reflexivity. Qed.
Example C74_ex_strict : decode [192; 175] = None /\ decode [237; 160; 128] = None /\ decode [226; 152] = None /\ tostring (10 ^ 14) = codes "1e+14".
Proof. vm_compute. repeat split. Qed.

(** ** C75 *)

(** Straight to the stream, the trace of the last schedule() call is what the worker
    sees. *)
Theorem C75_immediate_partial : forall hs gen tr w a x tr0, sendable x -> Forall real_hop (hs ++ [Send false gen tr w a]) ->
  exists x', travel (hs ++ [Send false gen tr w a]) x tr0 = Some (x', tr) /\
    tr = fold_left sent_in (hs ++ [Send false gen tr w a]) tr0.
Proof.
  intros hs gen tr w a x tr0 S R. eexists. rewrite travel_arrived by assumption. rewrite !fold_left_app. cbn. split; reflexivity.
Qed.
Print Assumptions C75_immediate_partial.

(** A task with a later due time loses it when the scheduler moves it. *)
Theorem C75_parked_refuted : forall x gen tr w a tr0, sendable x -> counter gen -> real w -> t_parent tr <> None ->
  exists x' tr', travel [Send true gen tr w a] x tr0 = Some (x', tr') /\
    fold_left sent_in [Send true gen tr w a] tr0 = tr /\ tr' <> tr /\ tr' = no_trace.
Proof.
  intros x gen tr w a tr0 S C R N. rewrite travel_arrived; [|assumption|repeat apply Forall_cons; try apply Forall_nil; split; assumption].
  do 2 eexists. split; [reflexivity|]. cbn. repeat split. intros <-. now apply N.
Qed.
Print Assumptions C75_parked_refuted.

(** So does one that had to wait for a concurrency slot. *)
Theorem C75_waited_refuted : forall x gen tr w a g1 g2 tr0, sendable x -> counter gen -> counter g1 -> counter g2 -> real w ->
  t_parent tr <> None ->
  exists x' tr', travel [Send false gen tr w a; Slot g1 g2] x tr0 = Some (x', tr') /\
    fold_left sent_in [Send false gen tr w a; Slot g1 g2] tr0 = tr /\ tr' <> tr /\ tr' = no_trace.
Proof.
  intros x gen tr w a g1 g2 tr0 S C C1 C2 R N. rewrite travel_arrived; [|assumption|repeat apply Forall_cons; try apply Forall_nil; split; assumption].
  do 2 eexists. split; [reflexivity|]. cbn. repeat split. intros <-. now apply N.
Qed.
Print Assumptions C75_waited_refuted.

Example C75_ex : let h := Send false 4 (mkTrace (Some [48; 49]) (Some [120]) None) (mkDt 9999 12 31 0 0 0 0 86399999999) 2 in
  option_map snd (travel [Slot 2 3; h] ex_x no_trace) = Some (mkTrace (Some [48; 49]) (Some [120]) None) /\
  option_map snd (travel ex_hops ex_x no_trace) = Some no_trace.
Proof. vm_compute. split; reflexivity. Qed.
