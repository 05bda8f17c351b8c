(** Vocabulary of the property of cancellation signals (C95): specification, not model. *)
From Verif Require Import Base Text Signal.

(** A docket name without the characters that mean something else in a Redis pattern. *)
Definition literal (n : string) : bool :=
  negb (occurs "*" n || occurs "?" n || occurs "[" n || occurs "\" n)%char.
(** ... and without the character that ends the name inside a channel: ":" on a single server,
    "}" on a cluster. *)
Definition plain (cluster : bool) (n : string) : bool :=
  (literal n && negb (occurs (if cluster then "}" else ":")%char n))%bool.

(** The task that worker [w] runs under the key [k] after the history [l]: the last one that started
    there under this key, unless one ended there under this key since. *)
Fixpoint running (w k : string) (l : list ev) (now : option Z) : option Z :=
  match l with
  | [] => now
  | EStart w' k' h :: l => running w k l (if (String.eqb w' w && String.eqb k' k)%bool then Some h else now)
  | EDone w' k' :: l => running w k l (if (String.eqb w' w && String.eqb k' k)%bool then None else now)
  | _ :: l => running w k l now
  end.
Definition runs_as (w k : string) (l : list ev) : option Z := running w k l None.

(** What the listener of [w] is doing after [l]: not yet subscribed, subscribed, waiting a second
    after an error, or gone for good. *)
Inductive mood := Away | Tuned | Resting | Gone.
Definition mood_step (w : string) (m : mood) (e : ev) : mood :=
  match e with
  | EStop w' => if String.eqb w' w then Gone else m
  | ESubscribe w' => match m with Away => if String.eqb w' w then Tuned else m | _ => m end
  | EFail w' => match m with Away | Tuned => if String.eqb w' w then Resting else m | _ => m end
  | EAgain w' => match m with Resting => if String.eqb w' w then Away else m | _ => m end
  | _ => m
  end.
Definition mood_of (w : string) (l : list ev) : mood := fold_left (mood_step w) l Away.
Definition cancels (l : list ev) : nat := length (filter (fun e => match e with ECancel _ _ => true | _ => false end) l).

(** Events that disturb the listener of [w], or change what runs there under [k]. *)
Definition disturbs (w k : string) (e : ev) : bool :=
  match e with
  | EFail w' | EStop w' => String.eqb w' w
  | EStart w' k' _ | EDone w' k' => String.eqb w' w && String.eqb k' k
  | _ => false
  end.
Definition handlings (w : string) (l : list ev) : nat :=
  length (filter (fun e => match e with EHandle w' => String.eqb w' w | _ => false end) l).
