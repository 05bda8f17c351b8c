(** Vocabulary of the statements about admission control: only events, replies and
    clock readings. *)
From Verif Require Import Base Admission.

(** The admissions that stand at the end of a trace: those that proceeded and were
    not taken back because another admission control blocked the task. *)
Definition net1 (acc : list (string * Z)) (x : rl_ev * option rl_reply) : list (string * Z) :=
  match x with
  | (RLReq k t _, Some RLProceed) => acc ++ [(k, t)]
  | (RLUndo k t, _) => filter (fun p => negb (String.eqb (fst p) k && (snd p =? t))) acc
  | _ => acc
  end.
Definition net (l : list (rl_ev * option rl_reply)) : list (string * Z) := fold_left net1 l [].

(** How many of them fall in the half-open interval (T - w, T]. *)
Definition in_window (T w : Z) (p : string * Z) : bool := (T - w <? snd p) && (snd p <=? T).
Definition window_count (T w : Z) (l : list (string * Z)) : Z := Z.of_nat (length (filter (in_window T w) l)).

(** The workers' clock readings do not decrease (from [t] on) and differ from the
    server's by at most [d]. *)
Fixpoint clocks_ok (d t : Z) (l : list rl_ev) : Prop :=
  match l with
  | [] => True
  | RLReq _ now srv :: l => t <= now /\ Z.abs (now - srv) <= d /\ clocks_ok d now l
  | RLUndo _ _ :: l => clocks_ok d t l
  end.

(** The requests of a history: task key and clock reading. *)
Fixpoint requests (l : list rl_ev) : list (string * Z) :=
  match l with
  | [] => []
  | RLReq k now _ :: l => (k, now) :: requests l
  | RLUndo _ _ :: l => requests l
  end.

(** Non-decreasing from [t]. *)
Fixpoint rising (t : Z) (l : list Z) : Prop := match l with [] => True | x :: l => t <= x /\ rising x l end.

(** The times at which a cooldown admitted. *)
Definition cd_admitted (tr : list (Z * cd_reply)) : list Z :=
  map fst (filter (fun x => match snd x with CDProceed => true | _ => false end) tr).

(** Non-decreasing worker clocks, from [t]. *)
Definition db_rising (t : Z) (l : list db_ev) : Prop := rising t (map sb_now l).

(** The group's keys do not expire at submission [s] made in state [st]. *)
Definition db_retained (st : deb) (s : db_ev) : Prop :=
  (forall w e, db_winner st = Some (w, e) -> sb_srv s <= e) /\ (forall t e, db_seen st = Some (t, e) -> sb_srv s <= e).
Fixpoint db_along (settle : Z) (P : deb -> db_ev -> Prop) (st : deb) (l : list db_ev) : Prop :=
  match l with [] => True | s :: l => P st s /\ db_along settle P (fst (db_step settle st s)) l end.
