(** Agendas (src/docket/agenda.py).  Times and lengths are in microseconds; the range of
    datetime is not modelled.  The random offsets of the jitter are inputs. *)
From Verif Require Import Base.

(** Functions, told apart by [fid], with their __name__. *)
Record func := mkFunc { fid : Z; fname : string }.
(** docket.tasks: a dict from names to functions. *)
Definition registry := list (string * func).
Fixpoint find_task (g : registry) (n : string) : option func :=
  match g with [] => None | (m, f) :: g => if String.eqb m n then Some f else find_task g n end.
Fixpoint set_task (n : string) (f : func) (g : registry) : registry :=
  match g with [] => [(n, f)] | (m, h) :: g => if String.eqb m n then (n, f) :: g else (m, h) :: set_task n f g end.
(** docket.py:284-299 register, without names. *)
Definition register (f : func) (g : registry) : registry := set_task (fname f) f g.

(** agenda.py:116-117: what [add] remembers; arguments are a number. *)
Inductive what := ByName (n : string) | ByFunction (f : func).
Record entry := mkEntry { e_what : what; e_args : Z; e_key : option string }.

(** timedelta / int rounds to the nearest microsecond, half to even. *)
Definition div_round (a b : Z) : Z :=
  let q := a / b in let r := 2 * (a mod b) in
  if (b <? r) || ((r =? b) && Z.odd q) then q + 1 else q.
(** range(n) *)
Fixpoint range (i : Z) (n : nat) : list Z := match n with O => [] | S n => i :: range (i + 1) n end.
(** agenda.py:159-172 *)
Definition even_times (n : nat) (start over : Z) : list Z :=
  match n with
  | 1%nat => [start + div_round over 2]
  | _ => let interval := div_round over (Z.of_nat n - 1) in map (fun i => start + interval * i) (range 0 n)
  end.
(** agenda.py:175-187: None: no jitter; otherwise one offset for each time. *)
Definition jittered (start : Z) (jitter : option (list Z)) (ts : list Z) : list Z :=
  match jitter with None => ts | Some os => map (fun p => Z.max (fst p + snd p) start) (combine ts os) end.

Record plan := mkPlan { p_func : func; p_args : Z; p_key : option string; p_when : Z }.
(** agenda.py:191-207: resolving; None: KeyError.  The key None stands for a fresh one.
    Functions registered before the error stay registered. *)
Definition is_value (f : func) (g : registry) : bool := existsb (fun p => fid (snd p) =? fid f) g.
Definition resolve (w : what) (g : registry) : option (func * registry) :=
  match w with
  | ByName n => match find_task g n with Some f => Some (f, g) | None => None end
  | ByFunction f => Some (f, if is_value f g then g else register f g)
  end.
Fixpoint planned (l : list (entry * Z)) (g : registry) : option (list plan) * registry :=
  match l with
  | [] => (Some [], g)
  | (e, t) :: l =>
      match resolve (e_what e) g with
      | None => (None, g)
      | Some (f, g) =>
          let '(ps, g) := planned l g in
          (match ps with Some ps => Some (mkPlan f (e_args e) (e_key e) t :: ps) | None => None end, g)
      end
  end.

(** agenda.py:212-215 with docket.py:375-403: each plan becomes a call of docket.add with
    the function itself, which registers it under its __name__; the message carries that
    name.  A strike makes add return without scheduling (modelled in Strike.v). *)
Record added := mkAdded { a_name : string; a_args : Z; a_key : option string; a_when : Z }.
Fixpoint add_all (ps : list plan) (g : registry) : list added * registry :=
  match ps with
  | [] => ([], g)
  | p :: ps => let '(r, g) := add_all ps (register (p_func p) g) in (mkAdded (fname (p_func p)) (p_args p) (p_key p) (p_when p) :: r, g)
  end.

(** agenda.py:125-215 scatter *)
Inductive result := RValueError | RKeyError | RPlaced.
Definition scatter (es : list entry) (g : registry) (over start : Z) (jitter : option (list Z)) : result * list added * registry :=
  if over <=? 0 then (RValueError, [], g)
  else match es with
  | [] => (RPlaced, [], g)
  | _ =>
      let ts := jittered start jitter (even_times (length es) start over) in
      match planned (combine es ts) g with
      | (None, g) => (RKeyError, [], g)
      | (Some ps, g) => let '(r, g) := add_all ps g in (RPlaced, r, g)
      end
  end.
