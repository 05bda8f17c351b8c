(** Conflicting dependencies (src/docket/dependencies/_resolution.py and
    worker.py:352-371).  Classes are numbers; registration-time checks belong to the
    library uncalled-for and are not modelled. *)
From Verif Require Import Base Text.

(** A class hierarchy: [mro] is __mro__ (the class itself first), [own] the attribute
    [single] set in the class body, and [enters] the class of the value produced by
    entering a dependency of that class (None: that value is not a Dependency). *)
Record classes := mkClasses { mro : nat -> list nat; own : nat -> option bool; enters : nat -> option nat }.
(** The class Dependency of uncalled-for. *)
Definition Dependency := 0%nat.

(** getattr(c, "single", False) *)
Fixpoint first_set (own : nat -> option bool) (l : list nat) : bool :=
  match l with [] => false | c :: l => match own c with Some b => b | None => first_set own l end end.
Definition single (h : classes) (c : nat) : bool := first_set (own h) (mro h c).
Definition mem (c : nat) (l : list nat) : bool := existsb (Nat.eqb c) l.
(** issubclass(c, b), which is isinstance(v, b) for a value [v] of class [c]. *)
Definition subclass (h : classes) (c b : nat) : bool := mem b (mro h c).

(** _resolution.py:24-34 _single_bases *)
Definition single_bases (h : classes) (c : nat) : list nat :=
  filter (fun b => negb (Nat.eqb b Dependency) && subclass h b Dependency && single h b) (mro h c).

(** _resolution.py:102-164 detect_single_conflicts, given the classes of the items; the
    classes and bases reported (their names and messages are not modelled). *)
Definition detect (h : classes) (items : list nat) : list nat :=
  let reported := filter (fun c => single h c && Nat.ltb 1 (count_occ Nat.eq_dec items c)) (nodup Nat.eq_dec items) in
  let bases := nodup Nat.eq_dec (flat_map (single_bases h) items) in
  reported ++
  filter (fun b => negb (mem b reported) && Nat.ltb 1 (length (nodup Nat.eq_dec (filter (fun c => subclass h c b) items)))) bases.

(** A worker and a task function: named dependencies and annotated ones. *)
Record fn := mkFn { f_params : list (string * nat); f_anns : list (string * nat) }.
(** One execution: the parameters given in kwargs (plain values, never dependencies) and
    the dependencies whose entering raises, by the name of their slot. *)
Record exe := mkExe { e_fn : nat; e_given : string -> bool; e_raises : string -> bool }.

(** Assignment to a key of a dict. *)
Fixpoint put (n : string) (v : option nat) (l : list (string * option nat)) : list (string * option nat) :=
  match l with [] => [(n, v)] | (m, w) :: l => if String.eqb m n then (n, v) :: l else (m, w) :: put n v l end.
(** _resolution.py:177-207 the arguments; None: a value that is not a Dependency. *)
Definition slot (n : string) : string := ("__worker_dep__" ++ n)%string.
Definition enter (h : classes) (x : exe) (n : string) (c : nat) : option nat := if e_raises x n then None else enters h c.
Definition arguments (h : classes) (deps : list (string * nat)) (f : fn) (x : exe) : list (string * option nat) :=
  fold_left (fun a p => put (fst p) (if e_given x (fst p) then None else enter h x (fst p) (snd p)) a) (f_params f)
    (fold_left (fun a p => put (slot (fst p)) (enter h x (slot (fst p)) (snd p)) a) deps []).
(** _resolution.py:211-225: entering a bound annotation that raises replaces the
    argument of that parameter. *)
Definition with_annotations (x : exe) (f : fn) (a : list (string * option nat)) : list (string * option nat) :=
  fold_left (fun a p => if e_raises x (fst p) then put (fst p) None a else a) (f_anns f) a.
(** _resolution.py:112-119 the items. *)
Definition items (h : classes) (deps : list (string * nat)) (f : fn) (x : exe) : list nat :=
  flat_map (fun p => match snd p with Some c => [c] | None => [] end) (with_annotations x f (arguments h deps f x)) ++ map snd (f_anns f).

(** worker.py:352-371 validate_task_dependencies, with the memo it keeps per function. *)
Definition memo := list (nat * list nat).
Fixpoint recall (m : memo) (f : nat) : option (list nat) :=
  match m with [] => None | (g, r) :: m => if Nat.eqb g f then Some r else recall m f end.
Definition validate (h : classes) (deps : list (string * nat)) (fns : nat -> fn) (m : memo) (x : exe) : list nat * memo :=
  match deps with
  | [] => ([], m)
  | _ => match recall m (e_fn x) with
         | Some r => (r, m)
         | None => let r := detect h (items h deps (fns (e_fn x)) x) in (r, (e_fn x, r) :: m)
         end
  end.
(** The verdicts of a sequence of executions by one worker. *)
Fixpoint verdicts (h : classes) (deps : list (string * nat)) (fns : nat -> fn) (m : memo) (xs : list exe) : list (list nat) :=
  match xs with [] => [] | x :: xs => let '(r, m) := validate h deps fns m x in r :: verdicts h deps fns m xs end.

(** _resolution.py:37-68 validate_worker_dependencies: a value is the class of a
    dependency, or None for anything else. *)
Inductive given := GNone | GMap (l : list (string * option nat)) | GSeq (l : list (option nat)).
Inductive validated := VOk (l : list (string * nat)) | VValueError | VTypeError.
Definition reserved (n : string) : bool :=
  match n with String a (String b _) => Ascii.eqb a "_" && Ascii.eqb b "_" | _ => false end.
Fixpoint check_map (l : list (string * option nat)) : validated :=
  match l with
  | [] => VOk []
  | (n, v) :: l =>
      if reserved n then VValueError
      else match v with
           | None => VTypeError
           | Some c => match check_map l with VOk r => VOk ((n, c) :: r) | e => e end
           end
  end.
Definition seq_name (i : Z) : string := ("__worker_dep_" ++ dec i ++ "__")%string.
Fixpoint check_seq (i : Z) (l : list (option nat)) : validated :=
  match l with
  | [] => VOk []
  | None :: _ => VTypeError
  | Some c :: l => match check_seq (i + 1) l with VOk r => VOk ((seq_name i, c) :: r) | e => e end
  end.
Definition validate_worker_dependencies (g : given) : validated :=
  match g with GNone => VOk [] | GMap l => check_map l | GSeq l => check_seq 0 l end.
