(** Vocabulary of C93: what a key-value store should hold. *)
From Verif Require Import Base Text Store.

(** The collection meant. *)
Definition named (d : string) (c : option string) : string := match c with Some c => c | None => d end.

(** What an operation writes, in order: collection, key, and the value with its time to
    live, or None for a deletion. *)
Definition writes {V} (d : string) (o : sop V) : list (string * string * option (V * option Z)) :=
  match o with
  | SPut k v c t => [(named d c, k, Some (v, t))]
  | SDelete k c => [(named d c, k, None)]
  | SPutMany ks vs c t => map (fun kv => (named d c, fst kv, Some (snd kv, t))) (combine ks vs)
  | SDeleteMany ks c => map (fun k => (named d c, k, None)) ks
  | SWait _ => []
  end.

Fixpoint elapsed {V} (h : list (sop V)) : Z :=
  match h with [] => 0 | SWait dt :: h => dt + elapsed h | _ :: h => elapsed h end.

(** Whole seconds of a time to live. *)
Definition lasts (t : option Z) (dt : Z) : Prop := match t with None => True | Some t => dt < 1000 * (t / 1000) end.

(** [v] was the last value written to the key of the collection, it was not deleted since,
    and its time to live has not passed. *)
Definition stored {V} (d : string) (h : list (sop V)) (c key : string) (v : V) : Prop :=
  exists h1 o h2 w1 t w2, h = h1 ++ o :: h2 /\ writes d o = w1 ++ (c, key, Some (v, t)) :: w2 /\
    (forall x, ~ In (c, key, x) w2) /\ (forall o' x, In o' h2 -> ~ In (c, key, x) (writes d o')) /\ lasts t (elapsed h2).

(** The collections [cs] are unambiguous: none is another one with a colon and more. *)
Definition unambiguous (cs : list string) : Prop :=
  forall c c' r, In c cs -> In c' cs -> c' <> (c ++ ":" ++ r)%string.
(** Times to live are at least a second, time does not run backwards, collections are of
    [cs]. *)
Definition long_enough (t : option Z) : Prop := forall x, t = Some x -> 1000 <= x.
Definition good {V} (d : string) (cs : list string) (o : sop V) : Prop :=
  match o with
  | SPut _ _ c t | SPutMany _ _ c t => In (named d c) cs /\ long_enough t
  | SDelete _ c | SDeleteMany _ c => In (named d c) cs
  | SWait dt => 0 <= dt
  end.

(** The key has a value. *)
Definition present {V} (d : string) (h : list (sop V)) (c key : string) : Prop := exists v, stored d h c key v.
(** As [stored], with the time that is left (None: for ever). *)
Definition stored_for {V} (d : string) (h : list (sop V)) (c key : string) (v : V) (left : option Z) : Prop :=
  exists h1 o h2 w1 t w2, h = h1 ++ o :: h2 /\ writes d o = w1 ++ (c, key, Some (v, t)) :: w2 /\
    (forall x, ~ In (c, key, x) w2) /\ (forall o' x, In o' h2 -> ~ In (c, key, x) (writes d o')) /\
    left = option_map (fun t => 1000 * (t / 1000) - elapsed h2) t /\ forall ms, left = Some ms -> 0 < ms.
