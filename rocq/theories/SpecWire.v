(** What "the task arrives as it was sent" means. *)
From Verif Require Import Base Instant Wire.

(** Code points a Python str may hold, and those that are characters. *)
Definition is_text (t : text) : Prop := Forall (fun c => 0 <= c <= 1114111) t.
Definition has_surrogate (t : text) : Prop := exists c, In c t /\ 55296 <= c <= 57343.

(** A point of the calendar with an offset below one day, in microseconds. *)
Definition month_length (y m : Z) : Z :=
  nth (Z.to_nat (m - 1))
    [31; if Z.eqb (y mod 4) 0 && (negb (Z.eqb (y mod 100) 0) || Z.eqb (y mod 400) 0) then 29 else 28;
     31; 30; 31; 30; 31; 31; 30; 31; 30; 31] 0.
Definition real (d : datetime) : Prop :=
  1 <= d_year d <= 9999 /\ 1 <= d_month d <= 12 /\ 1 <= d_day d <= month_length (d_year d) (d_month d) /\
  0 <= d_hour d < 24 /\ 0 <= d_min d < 60 /\ 0 <= d_sec d < 60 /\ 0 <= d_us d < 1000000 /\
  - 86400000000 < d_off d < 86400000000.

Definition counter (g : Z) : Prop := 0 <= g < 100000000000000.

Definition real_hop (h : hop) : Prop :=
  match h with Send _ gen _ w _ => counter gen /\ real w | Slot g1 g2 => counter g1 /\ counter g2 end.

(** The task after a hop: what the hop is meant to change, and nothing else. *)
Definition arrived (x : execution) (h : hop) : execution :=
  match h with
  | Send _ gen _ w a => mkEx (x_key x) w (x_fn x) (x_args x) (x_kwargs x) a gen
  | Slot _ g => mkEx (x_key x) (x_when x) (x_fn x) (x_args x) (x_kwargs x) (x_attempt x) g
  end.

(** The trace of the schedule() call that sent it last. *)
Definition sent_in (tr : trace) (h : hop) : trace :=
  match h with Send _ _ t _ _ => t | Slot _ _ => tr end.
