(** Vocabulary for requests of the metrics page that overlap. *)
From Verif Require Import Base Prom SpecProm Scrape.

(** The batches handed over, the batches taken, and those taken by one request, in order. *)
Fixpoint queued (l : list pout) : list batch :=
  match l with [] => [] | PQueued _ b :: l => b :: queued l | _ :: l => queued l end.
Fixpoint taken (l : list pout) : list batch :=
  match l with [] => [] | PTook _ b :: l => b :: taken l | _ :: l => taken l end.
Fixpoint taken_by (i : Z) (l : list pout) : list batch :=
  match l with [] => [] | PTook j b :: l => if j =? i then b :: taken_by i l else taken_by i l | _ :: l => taken_by i l end.

(** The families and the target infos of a page. *)
Definition page_fams (p : list yield) : list family := flat_map (fun y => match y with YFam f => [f] | YInfo _ => [] end) p.
Definition page_infos (p : list yield) : list (list (string * string)) := flat_map (fun y => match y with YInfo x => [x] | YFam _ => [] end) p.

(** Measurements of [n] batches one after the other, where those of a batch are given again
    with each later one. *)
Fixpoint again (l : list batch) : list entry :=
  match l with [] => [] | b :: l => concat (repeat (handed_over (snd b)) (S (length l))) ++ again l end.

(** The requests that came, with what they handed over; those that are over or broken. *)
Definition asks (l : list pevent) (i : Z) (b : option batch) : Prop := In (PAskFor i b) l.
Definition ended (i : Z) (l : list pout) : Prop := In (PEnds i) l.
Definition broken (i : Z) (l : list pout) : Prop := In (PFails i) l.

(** Requests come one at a time: each has its own number, and comes when those before it
    are over. *)
Definition one_at_a_time (noinfo : bool) (l : list pevent) : Prop :=
  forall l1 j b l2, l = l1 ++ PAskFor j b :: l2 -> forall i b', asks l1 i b' -> i <> j /\ ended i (pouts noinfo init_pages l1).

(** All attribute names of all batches are non-empty. *)
Definition all_named (l : list pevent) : Prop := forall i b, asks l i (Some b) -> named (snd b).

(** What the SDK says of the process: all attributes of all resources, in order. *)
Definition attrs (b : batch) : list (string * string) := concat (fst b).
(** The last word on attribute [k] is [v]. *)
Definition last_word (k v : string) (l : list (string * string)) : Prop :=
  exists l1 l2, l = l1 ++ (k, v) :: l2 /\ forall a, In a l2 -> fst a <> k.
