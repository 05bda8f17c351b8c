(** The duration arguments of the command line (src/docket/cli/_support.py:73-105).
    Texts are lists of ASCII characters; the non-ASCII digits and spaces that Python's
    int() also takes, and its limit of 4300 digits, are not modelled. *)
From Coq Require Import Ascii String List.
From Verif Require Import Base.
Import ListNotations.

Definition text := list ascii.
Definition code (c : ascii) : Z := Z.of_nat (nat_of_ascii c).
Definition is_digit (c : ascii) : bool := (48 <=? code c) && (code c <=? 57).
(** str.isspace for ASCII. *)
Definition is_space (c : ascii) : bool := ((9 <=? code c) && (code c <=? 13)) || ((28 <=? code c) && (code c <=? 32)).

(** int(): spaces around, a sign, digits with single underscores between them. *)
Fixpoint lstrip (l : text) : text := match l with c :: r => if is_space c then lstrip r else l | [] => [] end.
Definition strip (l : text) : text := rev (lstrip (rev (lstrip l))).
Fixpoint digits (l : text) (acc : Z) : option Z :=
  match l with
  | [] => Some acc
  | c :: l =>
      if is_digit c then digits l (10 * acc + (code c - 48))
      else if Ascii.eqb c "_" then
        match l with
        | c' :: l' => if is_digit c' then digits l' (10 * acc + (code c' - 48)) else None
        | [] => None
        end
      else None
  end.
Definition number (l : text) : option Z :=
  match l with c :: l => if is_digit c then digits l (code c - 48) else None | [] => None end.
Definition int (l : text) : option Z :=
  match strip l with
  | c :: r => if Ascii.eqb c "-" then option_map Z.opp (number r) else if Ascii.eqb c "+" then number r else number (c :: r)
  | [] => None
  end.

(** str.split(":") *)
Fixpoint split (l : text) : list text :=
  match l with
  | [] => [[]]
  | c :: l => if Ascii.eqb c ":" then [] :: split l
              else match split l with p :: ps => (c :: p) :: ps | [] => [[c]] end
  end.
Definition has_colon (l : text) : bool := existsb (fun c => Ascii.eqb c ":") l.
(** The last character and what precedes it. *)
Definition last_char (l : text) : option (text * ascii) := match rev l with c :: r => Some (rev r, c) | [] => None end.
Definition ends (l : text) (c : ascii) : option text :=
  match last_char l with Some (p, d) => if Ascii.eqb d c then Some p else None | None => None end.

(** timedelta(hours, minutes, seconds) in seconds; None: OverflowError. *)
Definition day_limit : Z := 86400 * 1000000000.
Definition timedelta (h m s : Z) : option Z :=
  let t := 3600 * h + 60 * m + s in if (86400 - day_limit <=? t) && (t <? day_limit) then Some t else None.

(** cli/_support.py:73-105 duration; None: ValueError or OverflowError. *)
Definition duration (l : text) : option Z :=
  if has_colon l then
    match split l with
    | [m; s] => match int m, int s with Some m, Some s => timedelta 0 m s | _, _ => None end
    | [h; m; s] => match int h, int m, int s with Some h, Some m, Some s => timedelta h m s | _, _, _ => None end
    | _ => None
    end
  else match ends l "s" with
  | Some p => match int p with Some n => timedelta 0 0 n | None => None end
  | None =>
  match ends l "m" with
  | Some p => match int p with Some n => timedelta 0 n 0 | None => None end
  | None =>
  match ends l "h" with
  | Some p => match int p with Some n => timedelta n 0 0 | None => None end
  | None => match int l with Some n => timedelta 0 0 n | None => None end
  end end end.
