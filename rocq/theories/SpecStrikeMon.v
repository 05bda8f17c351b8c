(** Vocabulary of C85 and C86. *)
From Verif Require Import Base Strike SpecStrike StrikeMon.

(** What is in the stream after [ops]. *)
Fixpoint sent (l : list (option instr)) (ops : list nop) : list (option instr) :=
  match ops with
  | [] => l
  | NSend e :: ops => sent (l ++ [e]) ops
  | _ :: ops => sent l ops
  end.
Definition decodable (l : list (option instr)) : Prop := forall e, In e l -> e <> None.

(** Strikes and restores of a rule take turns, beginning with a strike if [b]. *)
Fixpoint take_turns (b : bool) (l : list instr) : Prop :=
  match l with [] => True | i :: l => in_strike i = b /\ take_turns (negb b) l end.
Definition of_rule (i j : instr) : bool := label_eqb (label_of j) (label_of i).
