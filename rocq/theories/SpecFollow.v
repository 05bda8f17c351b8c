(** Vocabulary of C120: what a caller of subscribe() is shown. *)
From Verif Require Import Base ZSet Model GInv Spec SpecEvents GetResult Follow.

(** The states announced for [k], in order. *)
Definition told_of (k : key) (evs : list (key * state)) : list state :=
  map snd (filter (fun e => String.eqb (fst e) k) evs).

(** The last of a list. *)
Definition newest {A} (l : list A) : option A := match rev l with [] => None | x :: _ => Some x end.

(** What the caller was shown last. *)
Definition shown (q : fsys) : option state := newest (f_seen (fs_f q)).

(** The generator has handed over all there was. *)
Definition caught_up (q : fsys) : Prop := f_pc (fs_f q) = FListen (length (d_pubs (s_db (fs_sys q)))).

(** Every operation of the docket on the way is as [P] says. *)
Fixpoint falong (c : cfg) (P : sys -> op -> Prop) (q : fsys) (l : list fop) : Prop :=
  match l with
  | [] => True
  | o :: l => match o with FOp o => P (fs_sys q) o | FTurn => True end /\ falong c P (fstep c q o) l
  end.

(** No turn of the generator. *)
Definition docket_only (l : list fop) : Prop := ~ In FTurn l.
