(** Model of the strike list (src/docket/strikelist.py).

    Python values are represented by integers, texts, tuples and lists (lists are not
    hashable); other types, and values that compare equal across types (1 == 1.0 ==
    True), are not modelled.  Texts compare by UTF-8 bytes, the same order as by code
    points. *)
From Verif Require Import Base.

Inductive pv := PInt (z : Z) | PStr (s : string) | PTup (l : list pv) | PList (l : list pv).

Section list_eq.
Variable A : Type.
Variable f : A -> A -> bool.
(** Infrastructure: element-wise equality. *)
Fixpoint list_eqb (l l' : list A) : bool :=
  match l, l' with [], [] => true | x :: l, y :: l' => f x y && list_eqb l l' | _, _ => false end.
End list_eq.

(** Python ==. *)
Fixpoint pv_eqb (a b : pv) : bool :=
  match a, b with
  | PInt x, PInt y => x =? y
  | PStr x, PStr y => String.eqb x y
  | PTup x, PTup y => list_eqb pv pv_eqb x y
  | PList x, PList y => list_eqb pv pv_eqb x y
  | _, _ => false
  end.

(** Python < on texts. *)
Fixpoint str_ltb (a b : string) : bool :=
  match a, b with
  | EmptyString, EmptyString => false
  | EmptyString, String _ _ => true
  | String _ _, EmptyString => false
  | String x a, String y b =>
      if (Ascii.N_of_ascii x <? Ascii.N_of_ascii y)%N then true
      else if (Ascii.N_of_ascii y <? Ascii.N_of_ascii x)%N then false else str_ltb a b
  end.

(** Python < : None is a TypeError.  Sequences compare at the first element that
    differs. *)
Section lex.
Variable eq : pv -> pv -> bool.
Variable lt : pv -> pv -> option bool.
Fixpoint lex_lt (l l' : list pv) : option bool :=
  match l, l' with
  | [], [] => Some false
  | [], _ :: _ => Some true
  | _ :: _, [] => Some false
  | x :: l, y :: l' => if eq x y then lex_lt l l' else lt x y
  end.
End lex.
Fixpoint pv_lt (a b : pv) : option bool :=
  match a, b with
  | PInt x, PInt y => Some (x <? y)
  | PStr x, PStr y => Some (str_ltb x y)
  | PTup x, PTup y => lex_lt pv_eqb pv_lt x y
  | PList x, PList y => lex_lt pv_eqb pv_lt x y
  | _, _ => None
  end.
(** Python <= : equal values of these types are always comparable. *)
Definition pv_le (a b : pv) : option bool := if pv_eqb a b then Some true else pv_lt a b.

(** Python hash(): lists, and tuples containing them, are not hashable. *)
Fixpoint hashable (v : pv) : bool :=
  match v with PInt _ | PStr _ => true | PTup l => forallb hashable l | PList _ => false end.

(** strikelist.py:45-52. *)
Inductive operator := OpEq | OpNe | OpGt | OpGe | OpLt | OpLe | OpBetween.
Definition op_eqb (a b : operator) : bool :=
  match a, b with
  | OpEq, OpEq | OpNe, OpNe | OpGt, OpGt | OpGe, OpGe | OpLt, OpLt | OpLe, OpLe | OpBetween, OpBetween => true
  | _, _ => false
  end.

(** `lower, upper = strike_value`: unpacking fails unless there are two elements. *)
Definition unpack2 (v : pv) : option (pv * pv) :=
  match v with
  | PTup [a; b] | PList [a; b] => Some (a, b)
  | PStr (String a (String b EmptyString)) => Some (PStr (String a EmptyString), PStr (String b EmptyString))
  | _ => None
  end.

Definition truth (o : option bool) : bool := match o with Some b => b | None => false end.

(** strikelist.py:420-451 _is_match: errors count as no match. *)
Definition is_match (value : pv) (o : operator) (strike : pv) : bool :=
  match o with
  | OpEq => pv_eqb value strike
  | OpNe => negb (pv_eqb value strike)
  | OpGt => truth (pv_lt strike value)
  | OpGe => truth (pv_le strike value)
  | OpLt => truth (pv_lt value strike)
  | OpLe => truth (pv_le value strike)
  | OpBetween =>
      match unpack2 strike with
      | Some (lower, upper) => truth (pv_le lower value) && truth (pv_le value upper)
      | None => false
      end
  end.

(** strikelist.py:58-72, 122-126. *)
Record instr := mkInstr { in_strike : bool; in_fn : option string; in_param : option string; in_op : operator; in_val : pv }.

(** A MinimalStrike (line 130), and the dicts and sets of strikes (131-132). *)
Definition cond : Type := operator * pv.
Definition cond_eqb (a b : cond) : bool := op_eqb (fst a) (fst b) && pv_eqb (snd a) (snd b).
Definition pstrikes := list (string * list cond).
Definition dget (d : pstrikes) (p : string) : option (list cond) := option_map snd (find (fun e => String.eqb (fst e) p) d).
Definition dpop (d : pstrikes) (p : string) : pstrikes := filter (fun e => negb (String.eqb (fst e) p)) d.
Definition dset (d : pstrikes) (p : string) (s : list cond) : pstrikes := (p, s) :: dpop d p.
Definition sadd (s : list cond) (x : cond) : list cond := if existsb (cond_eqb x) s then s else x :: s.
Definition sremove (s : list cond) (x : cond) : list cond := filter (fun y => negb (cond_eqb x y)) s.

(** strikelist.py:170-171, 197-198: task_strikes and parameter_strikes. *)
Record slist := mkSlist { sl_tasks : string -> option pstrikes; sl_params : pstrikes }.
Definition sl_empty : slist := mkSlist (fun _ => None) [].

(** Python truth of `self.function`: None and "" are false. *)
Definition given (o : option string) : option string := match o with Some EmptyString => None | _ => o end.

(** strikelist.py:469-495 _strike. *)
Definition do_strike (l : slist) (i : instr) : slist :=
  match given (in_fn i), given (in_param i) with
  | Some f, Some p =>
      let ts := default [] (sl_tasks l f) in
      let ps := default [] (dget ts p) in
      mkSlist (upd (sl_tasks l) f (Some (dset ts p (sadd ps (in_op i, in_val i))))) (sl_params l)
  | Some f, None =>
      match sl_tasks l f with
      | Some _ => l
      | None => mkSlist (upd (sl_tasks l) f (Some [])) (sl_params l)
      end
  | None, Some p =>
      let ps := default [] (dget (sl_params l) p) in
      mkSlist (sl_tasks l) (dset (sl_params l) p (sadd ps (in_op i, in_val i)))
  | None, None => l
  end.

(** strikelist.py:497-542 _restore. *)
Definition do_restore (l : slist) (i : instr) : slist :=
  match given (in_fn i), given (in_param i) with
  | Some f, Some p =>
      match sl_tasks l f with
      | None => l
      | Some ts =>
          match dget ts p with
          | None => l
          | Some ps =>
              match sremove ps (in_op i, in_val i) with
              | [] => let ts := dpop ts p in
                      mkSlist (upd (sl_tasks l) f (match ts with [] => None | _ => Some ts end)) (sl_params l)
              | ps => mkSlist (upd (sl_tasks l) f (Some (dset ts p ps))) (sl_params l)
              end
          end
      end
  | Some f, None =>
      match sl_tasks l f with
      | Some [] => mkSlist (upd (sl_tasks l) f None) (sl_params l)
      | _ => l
      end
  | None, Some p =>
      match dget (sl_params l) p with
      | None => l
      | Some ps =>
          match sremove ps (in_op i, in_val i) with
          | [] => mkSlist (sl_tasks l) (dpop (sl_params l) p)
          | ps => mkSlist (sl_tasks l) (dset (sl_params l) p ps)
          end
      end
  | None, None => l
  end.

(** strikelist.py:453-467 update. *)
Definition sl_update (l : slist) (i : instr) : slist :=
  if hashable (in_val i) then (if in_strike i then do_strike l i else do_restore l i) else l.
Definition sl_run (l : slist) (is_ : list instr) : slist := fold_left sl_update is_ l.

(** An execution as the strike list sees it: the function's name and all its
    arguments by parameter name, defaults included (lines 391-408); None if the
    arguments do not fit the signature.  inspect.Signature.bind is not modelled. *)
Record target := mkTarget { tg_fn : string; tg_args : option (list (string * pv)) }.

Definition strikes_on (d : pstrikes) (p : string) (v : pv) : bool :=
  existsb (fun c => is_match v (fst c) (snd c)) (default [] (dget d p)).

(** strikelist.py:381-418 _matches_task_or_parameter_strike. *)
Definition stricken (l : slist) (t : target) : bool :=
  match sl_tasks l (tg_fn t) with
  | Some [] => true
  | o =>
      match tg_args t with
      | None => false
      | Some args => existsb (fun a => strikes_on (default [] o) (fst a) (snd a) || strikes_on (sl_params l) (fst a) (snd a)) args
      end
  end.

(** strikelist.py:362-379 _is_dict_stricken. *)
Definition dict_stricken (l : slist) (params : list (string * pv)) : bool :=
  existsb (fun a => strikes_on (sl_params l) (fst a) (snd a)) params.

(** ** The wire format *)

(** Operator values, strikelist.py:46-52. *)
Definition op_text (o : operator) : string :=
  match o with
  | OpEq => "==" | OpNe => "!=" | OpGt => ">" | OpGe => ">=" | OpLt => "<" | OpLe => "<=" | OpBetween => "between"
  end.
(** Line 88 casts the text without checking it; here an unknown operator is None. *)
Definition op_parse (s : string) : option operator :=
  find (fun o => String.eqb (op_text o) s) [OpEq; OpNe; OpGt; OpGe; OpLt; OpLe; OpBetween].

(** A field holds text (UTF-8) or a pickled value; pickling is taken to be faithful. *)
Inductive field := FText (s : string) | FPickle (v : pv).
Definition smsg := list (string * field).
Definition sfield (m : smsg) (k : string) : option field := option_map snd (find (fun e => String.eqb (fst e) k) m).

(** strikelist.py:74-82 as_message. *)
Definition sas_message (i : instr) : smsg :=
  [("direction", FText (if in_strike i then "strike" else "restore"))%string] ++
  match given (in_fn i) with Some f => [("function", FText f)%string] | None => [] end ++
  match given (in_param i) with Some p => [("parameter", FText p)%string] | None => [] end ++
  [("operator", FText (op_text (in_op i)))%string; ("value", FPickle (in_val i))%string].

(** strikelist.py:84-94 from_message; None: a KeyError or undecodable field. *)
Definition sfrom_message (m : smsg) : option instr :=
  match sfield m "direction", sfield m "operator", sfield m "value" with
  | Some (FText d), Some (FText o), Some (FPickle v) =>
      match op_parse o with
      | Some o =>
          let text k := match sfield m k with Some (FText s) => Some s | _ => None end in
          Some (mkInstr (String.eqb d "strike") (text "function"%string) (text "parameter"%string) o v)
      | None => None
      end
  | _, _, _ => None
  end.

(** ** Several processes *)

(** What one process does while the instruction stream grows to [L]: its monitor
    reads the next instruction (lines 567-619), or send_instruction (276-297) applies
    the instruction it appended at position [j] to its own list.  Instructions are
    taken as sent (the wire format is above). *)
Inductive sev := SRead | SLocal (j : nat).
Fixpoint played (L : list instr) (n : nat) (evs : list sev) : list instr :=
  match evs with
  | [] => []
  | SRead :: evs => match nth_error L n with Some i => i :: played L (S n) evs | None => played L n evs end
  | SLocal j :: evs => match nth_error L j with Some i => i :: played L n evs | None => played L n evs end
  end.
