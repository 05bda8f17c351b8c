(** Vocabulary of the strike properties. *)
From Verif Require Import Base Strike.

(** Two instructions name the same strike: the same function and parameter, and, if
    there is a parameter, the same operator and value. *)
Definition same_strike (i j : instr) : Prop :=
  given (in_fn i) = given (in_fn j) /\ given (in_param i) = given (in_param j) /\
  (given (in_param i) <> None -> in_op i = in_op j /\ in_val i = in_val j).

(** [i] is in force after [l]: it was struck, and not restored since. *)
Definition in_force (l : list instr) (i : instr) : Prop :=
  exists l1 j l2, l = l1 ++ j :: l2 /\ in_strike j = true /\ same_strike i j /\
    (forall j', In j' l2 -> same_strike i j' -> in_strike j' = true).

(** The order of values, as Python compares them: texts and sequences at the first place
    where they differ, and a beginning comes before the whole. *)
Inductive text_before : string -> string -> Prop :=
| tb_end p c s : text_before p (p ++ String c s)%string
| tb_at p c d s t : (Ascii.N_of_ascii c < Ascii.N_of_ascii d)%N -> text_before (p ++ String c s)%string (p ++ String d t)%string.
Inductive before : pv -> pv -> Prop :=
| be_int a b : a < b -> before (PInt a) (PInt b)
| be_str a b : text_before a b -> before (PStr a) (PStr b)
| be_tup_end p x s : before (PTup p) (PTup (p ++ x :: s))
| be_tup_at p x y s t : before x y -> before (PTup (p ++ x :: s)) (PTup (p ++ y :: t))
| be_list_end p x s : before (PList p) (PList (p ++ x :: s))
| be_list_at p x y s t : before x y -> before (PList (p ++ x :: s)) (PList (p ++ y :: t)).

(** A list somewhere inside. *)
Inductive has_list : pv -> Prop :=
| hl_here l : has_list (PList l)
| hl_in l x : In x l -> has_list x -> has_list (PTup l).

(** The strike [i] describes the call [t]. *)
Definition describes (i : instr) (t : target) : Prop :=
  match given (in_fn i), given (in_param i) with
  | Some f, None => tg_fn t = f
  | None, None => False
  | fo, Some p => (fo = None \/ fo = Some (tg_fn t)) /\
      exists args v, tg_args t = Some args /\ In (p, v) args /\ is_match v (in_op i) (in_val i) = true
  end.

(** No function has both a full strike (or restore) and one on a parameter. *)
Definition unmixed (l : list instr) : Prop :=
  forall i j f, In i l -> In j l -> given (in_fn i) = Some f -> given (in_fn j) = Some f ->
    (given (in_param i) = None <-> given (in_param j) = None).

(** A strike of the whole of [f] takes effect and lasts: no parameter of [f] was struck
    when it came, and since then none has been and the function has not been restored. *)
Definition wholly_struck (l : list instr) (f : string) : Prop :=
  exists l1 j l2, l = l1 ++ j :: l2 /\ in_strike j = true /\ given (in_fn j) = Some f /\ given (in_param j) = None /\
    (forall i, given (in_fn i) = Some f -> given (in_param i) <> None -> ~ in_force l1 i) /\
    (forall j', In j' l2 -> given (in_fn j') = Some f -> if in_strike j' then given (in_param j') = None else given (in_param j') <> None).

Definition all_hashable (l : list instr) : Prop := forall i, In i l -> hashable (in_val i) = true.

(** Every local application happens before the monitor reads that instruction; and
    all of [L] is read. *)
Fixpoint applied_early (L : list instr) (n : nat) (evs : list sev) : Prop :=
  match evs with
  | [] => n = length L
  | SRead :: evs => (n < length L)%nat /\ applied_early L (S n) evs
  | SLocal j :: evs => (n <= j < length L)%nat /\ applied_early L n evs
  end.
(** A process that only reads. *)
Definition reader (L : list instr) : list sev := repeat SRead (length L).
