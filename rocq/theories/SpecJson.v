(** Reading JSON objects whose members are strings (RFC 8259; \u escapes and white
    space outside strings are left out, the events contain none). *)
From Verif Require Import Base Text.

Definition control (c : ascii) : bool := (N_of_ascii c <? 32)%N.
Definition unescape (c : ascii) : option ascii :=
  match c with
  | "034"%char => Some "034"%char | "\"%char => Some "\"%char | "/"%char => Some "/"%char
  | "b"%char => Some "008"%char | "f"%char => Some "012"%char | "n"%char => Some "010"%char
  | "r"%char => Some "013"%char | "t"%char => Some "009"%char
  | _ => None
  end.
(** The rest of a string, after the opening quote. *)
Fixpoint jstr (s : string) : option (string * string) :=
  match s with
  | EmptyString => None
  | String c r =>
      if Ascii.eqb c "034" then Some (EmptyString, r)
      else if Ascii.eqb c "\" then
        match r with
        | String e r => match unescape e, jstr r with Some a, Some (x, r) => Some (String a x, r) | _, _ => None end
        | EmptyString => None
        end
      else if control c then None
      else match jstr r with Some (x, r) => Some (String c x, r) | None => None end
  end.
Definition eat (c : ascii) (s : string) : option string :=
  match s with String a r => if Ascii.eqb a c then Some r else None | EmptyString => None end.
Definition bind {A B} (o : option A) (f : A -> option B) : option B := match o with Some a => f a | None => None end.
(** Members up to the closing brace; [n] bounds their number. *)
Fixpoint jmembers (n : nat) (s : string) : option (list (string * string)) :=
  match n with
  | O => None
  | S n =>
      bind (eat "034" s) (fun s => bind (jstr s) (fun '(name, s) => bind (eat ":" s) (fun s =>
      bind (eat "034" s) (fun s => bind (jstr s) (fun '(value, s) =>
      match s with
      | "}"%string => Some [(name, value)]
      | String "," s => bind (jmembers n s) (fun l => Some ((name, value) :: l))
      | _ => None
      end)))))
  end.
Definition json_object (s : string) : option (list (string * string)) := bind (eat "{" s) (jmembers 100).

(** No control characters other than newline, carriage return and tab. *)
Definition readable (k : string) : Prop :=
  all_chars (fun c => negb (control c) || Ascii.eqb c "010" || Ascii.eqb c "013" || Ascii.eqb c "009") k = true.
(** No control characters, quotes or backslashes. *)
Definition plain (k : string) : Prop :=
  all_chars (fun c => negb (control c) && negb (Ascii.eqb c "034") && negb (Ascii.eqb c "\")) k = true.
