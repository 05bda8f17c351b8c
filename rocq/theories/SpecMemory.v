(** Vocabulary of C81. *)
From Verif Require Import Base Memory.

(** In the history [ops], the [i]-th step gave the client [c] to a docket with this URL on
    the loop [l]. *)
Definition gave (ops : list mop) (i : nat) (l : Z) (url : string) (c : Z) : Prop :=
  (nth_error ops i = Some (MLookup l url) \/ nth_error ops i = Some (MPeek l url)) /\
  nth_error (snd (mrun world0 ops)) i = Some (MClient c).
(** No clear between the steps [i] and [j]. *)
Definition undisturbed (ops : list mop) (i j : nat) : Prop :=
  forall n, (i < n < j)%nat -> nth_error ops n <> Some MClear.
