(** Vocabulary for the metrics page. *)
From Coq Require Import Ascii.
From Verif Require Import Base Prom.

(** The characters of a string. *)
Definition chars (s : string) : list ascii := list_ascii_of_string s.
Definition letters : list ascii := chars "abcdefghijklmnopqrstuvwxyzABCDEFGHIJKLMNOPQRSTUVWXYZ".
Definition digits : list ascii := chars "0123456789".

(** Prometheus data model: a label name is [a-zA-Z_][a-zA-Z0-9_]*, a metric name may also
    contain colons; label names starting with two underscores are reserved. *)
Definition valid_label (s : string) : Prop := exists c r, chars s = c :: r /\
  In c ("_"%char :: letters) /\ (forall x, In x r -> In x ("_"%char :: letters ++ digits)) /\
  (forall d r', r = d :: r' -> c = "_"%char -> d <> "_"%char).
Definition valid_metric (s : string) : Prop := exists c r, chars s = c :: r /\
  In c ("_"%char :: ":"%char :: letters) /\ forall x, In x r -> In x ("_"%char :: ":"%char :: letters ++ digits).

(** No two underscores in a row. *)
Definition single (s : string) : Prop := forall a b, chars s <> a ++ "_"%char :: "_"%char :: b.

(** How a metric is shown: a sum that can only grow, or that is reported as increments, is a
    counter; one that can go down and is reported as a total is a gauge. *)
Definition shown_as (k : mkind) : option ftype :=
  match k with
  | MSum true true => Some FCounter
  | MSum true false => Some FCounter
  | MSum false true => Some FGauge
  | MSum false false => Some FCounter
  | MGauge => Some FGauge
  | MHistogram => Some FHistogram
  | MUnsupported => None
  end.

(** What the SDK handed over: type, name, description, label names, unit, label values, value of
    each point of each supported metric. *)
Definition entry : Type := ftype * string * string * list string * string * (list string * string).
Definition handed_over (ms : list metric) : list entry :=
  flat_map (fun m => match shown_as (mt_kind m) with
    | Some t => map (fun p => (t, sanitize_full_name (mt_name m), mt_doc m, map (fun a => sanitize_attribute (fst a)) (pt_attrs p), map_unit (mt_unit m),
                               (map snd (pt_attrs p), pt_value p))) (mt_points m)
    | None => [] end) ms.
(** What the page shows. *)
Definition shown (l : list family) : list entry :=
  flat_map (fun f => map (fun v => (f_type f, f_name f, f_doc f, f_labels f, f_unit f, v)) (f_samples f)) l.

(** Attribute names are not empty. *)
Definition named (ms : list metric) : Prop :=
  forall m p a, In m ms -> In p (mt_points m) -> In a (pt_attrs p) -> fst a <> ""%string.

Fixpoint sumz (l : list Z) : Z := match l with [] => 0 | x :: l => x + sumz l end.
