(** Vocabulary of C116. *)
From Verif Require Import Base Model WorkerLoop SpecLoop Poll.

(** The loop, its requests and the tasks it handles take no longer than [p] allows. *)
Definition in_pace (p : pace) (s : tloop) : Prop := match allow p (l_pc (tl s)) with Some a => tl_now s <= tl_in s + a | None => True end.
Fixpoint paced (p : pace) (n : Z) (forever : bool) (s : tloop) (l : list tevent) : Prop :=
  match l with [] => True | e :: l => in_pace p (fst (tstep n forever s e)) /\ paced p n forever (fst (tstep n forever s e)) l end.
Definition sane_pace (p : pace) : Prop := 0 <= pa_check p /\ 0 <= pa_busy p /\ 0 <= pa_net p.
Fixpoint lasts (l : list tevent) : Z :=
  match l with [] => 0 | TTick dt :: l => Z.max 0 dt + lasts l | _ :: l => lasts l end.
(** One time around the loop: the check interval as a sleep and as a blocking read, three
    requests, and the handling of as many tasks and messages as the worker runs at once. *)
Definition lap (p : pace) (n : Z) : Z := 2 * pa_check p + 3 * pa_net p + (3 * Z.max 0 n + 6) * pa_busy p.
(** The worker asks for abandoned messages. *)
Definition looks (o : lout) : Prop := exists c, o = WAsk true c.
(** As many tasks as it may run are in its table. *)
Definition full (n : Z) (s : tloop) : Prop := l_pc (tl s) = PRoom /\ n <= Z.of_nat (length (l_active (tl s))).
(** Nothing is on the docket: every request for messages comes back empty. *)
Definition nothing_there (e : tevent) : Prop :=
  match e with
  | TTick _ | TDo LGo => True
  | TDo (LReply ms) => ms = []
  | TDo (LChecked a b) => a = 0 /\ b = 0
  | _ => False
  end.
