(** Vocabulary of C87 to C90. *)
From Verif Require Import Base Strike Agenda Registry.

(** Everybody means the same by a name: [table] is what every process registers, and every
    function answers to its own name. *)
Definition table := string -> option func.
Definition own_names (t : table) : Prop := forall n f, t n = Some f -> t (fname f) = Some f.
Definition agrees (t : table) (o : wop) : Prop :=
  match o with
  | WRegister _ f names => t (fname f) = Some f /\ forall n, In n names -> t n = Some f
  | WSubmit _ (ByFunction f) => t (fname f) = Some f
  | _ => True
  end.

(** Every function goes by its own name. *)
Definition plain (o : wop) : Prop :=
  match o with WRegister _ f names => forall n, In n names -> n = fname f | _ => True end.

(** Seeding: one step for each function and one that ends the loop. *)
Definition nexts (lives : list bool) : list sop := map SNext lives.
