(** Vocabulary for heartbeats: what the history says about a worker. *)
From Verif Require Import Base ZSet Heartbeat.

(** Does a heartbeat (or removal) with these task names concern the board? *)
Definition concerns (b : board) (names : list string) : bool := match b with BAll => true | BTask n => existsb (String.eqb n) names end.

(** When [w] last sent a heartbeat for the board that it has not withdrawn since. *)
Fixpoint last_beat (b : board) (w : string) (acc : option Z) (l : list hev) : option Z :=
  match l with
  | [] => acc
  | HBeat _ w' t names :: l => last_beat b w (if String.eqb w' w && concerns b names then Some t else acc) l
  | HRemove w' names :: l => last_beat b w (if String.eqb w' w && concerns b names then None else acc) l
  | _ :: l => last_beat b w acc l
  end.

(** Everybody allows the same age, and the clock readings never go back; they lie between
    [lo] and [hi]. *)
Fixpoint steady (age lo hi : Z) (l : list hev) : Prop :=
  match l with
  | [] => lo <= hi
  | HBeat a _ t _ :: l | HPurge _ a t :: l => a = age /\ lo <= t /\ steady age t hi l
  | _ :: l => steady age lo hi l
  end.

(** The names in the last heartbeat of [w], the age it allowed and the time gone by in the
    store since. *)
Fixpoint since_beat (w : string) (acc : option (list string * Z * Z)) (l : list hev) : option (list string * Z * Z) :=
  match l with
  | [] => acc
  | HBeat age w' _ names :: l => since_beat w (if String.eqb w' w then Some (names, age, 0) else acc) l
  | HRemove w' _ :: l => since_beat w (if String.eqb w' w then None else acc) l
  | HTick dt :: l => since_beat w (if 0 <=? dt then option_map (fun '(ns, a, e) => (ns, a, e + dt)) acc else acc) l
  | _ :: l => since_beat w acc l
  end.
(** Some heartbeat of [w] that it has not withdrawn since named [n]. *)
Fixpoint announced (w n : string) (acc : Prop) (l : list hev) : Prop :=
  match l with
  | [] => acc
  | HBeat _ w' _ names :: l => announced w n (acc \/ (w' = w /\ In n names)) l
  | HRemove w' _ :: l => announced w n (w' <> w /\ acc) l
  | _ :: l => announced w n acc l
  end.
