(** The cancellation signals of dockets sharing one Redis: channels, patterns, and the two
    subscribers of a worker. *)
From Verif Require Import Base Text Keys.

(** ** Glob patterns of Redis (the environment: stringmatchlen in Redis's util.c; its
    pruning of hopeless longer matches, which does not change the answer, is left out) *)

(** The part of a pattern after "[" (and "^"): does the class contain [c], and what follows
    the class.  A class that is never closed ends with the pattern. *)
Definition in_range (a b c : ascii) : bool :=
  let x := nat_of_ascii a in let y := nat_of_ascii b in let z := nat_of_ascii c in
  (Nat.leb (Nat.min x y) z && Nat.leb z (Nat.max x y))%bool.
Fixpoint class (c : ascii) (p : string) (acc : bool) {struct p} : bool * string :=
  match p with
  | EmptyString => (acc, EmptyString)
  | String a p1 =>
      if (Ascii.eqb a "\" && negb (String.eqb p1 ""))%bool then
        match p1 with String b p2 => class c p2 (acc || Ascii.eqb b c) | EmptyString => (acc, EmptyString) end
      else if Ascii.eqb a "]" then (acc, p1)
      else match p1 with
           | String d (String b p3) =>
               if Ascii.eqb d "-" then class c p3 (acc || in_range a b c) else class c p1 (acc || Ascii.eqb a c)
           | _ => class c p1 (acc || Ascii.eqb a c)
           end
  end%char.

Fixpoint stars (p : string) : bool :=
  match p with EmptyString => true | String a p => Ascii.eqb a "*" && stars p end.
(** [f] holds of some nonempty ending of [s]. *)
Fixpoint some_suffix (f : string -> bool) (s : string) : bool :=
  match s with EmptyString => false | String _ s' => f s || some_suffix f s' end.

Fixpoint glob_fuel (n : nat) (p s : string) : bool :=
  match n with
  | O => false
  | S n =>
      let next p s := match s with EmptyString => stars p | _ => glob_fuel n p s end in
      match p, s with
      | EmptyString, EmptyString => true
      | EmptyString, _ => false
      | _, EmptyString => false
      | String a p', String c s' =>
          if Ascii.eqb a "*" then match p' with EmptyString => true | _ => some_suffix (glob_fuel n p') s end
          else if Ascii.eqb a "?" then next p' s'
          else if Ascii.eqb a "[" then
            let neg := match p' with String b _ => Ascii.eqb b "^" | EmptyString => false end in
            let '(m, p'') := class c (match p' with String b q => if Ascii.eqb b "^" then q else p' | EmptyString => p' end) false in
            (if neg then negb m else m) && next p'' s'
          else match p' with
               | String b p'' =>
                   if Ascii.eqb a "\" then Ascii.eqb b c && next p'' s'
                   else Ascii.eqb a c && next p' s'
               | EmptyString => Ascii.eqb a c && next p' s'
               end
      end
  end%char.
Definition glob (p s : string) : bool := glob_fuel (S (String.length p + String.length s)) p s.

(** ** Channels *)

(** docket.py:712-714 cancel_channel with docket.py:208-217. *)
Definition cancel_channel (cluster : bool) (name : string) (k : string) : string :=
  (docket_prefix cluster name ++ ":" ++ "cancel:" ++ k)%string.
(** worker.py:1343 and dependencies/_concurrency.py:692: the pattern both subscribers use. *)
Definition cancel_pattern (cluster : bool) (name : string) : string :=
  (docket_prefix cluster name ++ ":" ++ "cancel:*")%string.

(** ** The subscribers of a worker *)

(** The listener of worker.py:1338-1375: not subscribed (before line 1348), subscribed with the
    messages not yet handled (1350-1355), in the pause after an error (1366, 1374), left. *)
Inductive link := LOff | LOn (inbox : list string) | LPause | LLeft.
(** A worker: the docket it serves, its listener, [_tasks_by_key] (worker.py:313), the tasks whose
    asyncio task was cancelled by the listener, the inbox of the subscriber of the concurrency
    limits (_concurrency.py:676-717; [None] before the subscription and after its end,
    [w_over] tells which), and the keys it has cleaned up, latest first. *)
Record wk := mkWk { w_link : link; w_tasks : list (string * Z); w_cancelled : list Z;
                    w_sub : option (list string); w_over : bool; w_cleaned : list string }.
Definition wk0 : wk := mkWk LOff [] [] None false [].

Definition with_link (w : wk) (x : link) : wk := mkWk x (w_tasks w) (w_cancelled w) (w_sub w) (w_over w) (w_cleaned w).
Definition with_tasks (w : wk) (x : list (string * Z)) : wk := mkWk (w_link w) x (w_cancelled w) (w_sub w) (w_over w) (w_cleaned w).
Definition with_cancelled (w : wk) (x : list Z) : wk := mkWk (w_link w) (w_tasks w) x (w_sub w) (w_over w) (w_cleaned w).
Definition with_sub (w : wk) (x : option (list string)) (o : bool) : wk := mkWk (w_link w) (w_tasks w) (w_cancelled w) x o (w_cleaned w).
Definition with_cleaned (w : wk) (x : list string) : wk := mkWk (w_link w) (w_tasks w) (w_cancelled w) (w_sub w) (w_over w) x.

Definition task_of (k : string) (l : list (string * Z)) : option Z :=
  match find (fun p => String.eqb (fst p) k) l with Some p => Some (snd p) | None => None end.
Definition task_pop (k : string) (l : list (string * Z)) : list (string * Z) := filter (fun p => negb (String.eqb (fst p) k)) l.

(** What happens, in the order in which Redis and the event loops make it happen.
    [ECancel n k]: Docket(n).cancel(k) publishes, docket.py:611 and _redis.py:888-897;
    [ESubscribe w]: worker.py:1347-1349; [EHandle w]: one message taken and handled, 1351-1355;
    [EFail w]: any exception there, 1356-1375; [EAgain w]: the pause is over;
    [EStop w]: session.stopping is seen (1345, 1350, 1366, 1374);
    [EStart w k h]: worker.py:688; [EDone w k]: worker.py:698;
    [ESubStart w], [ESubHandle w], [ESubFail w]: the same for the subscriber of
    _concurrency.py:676-717, where an exception ends the task and nothing starts it again. *)
Inductive ev :=
| ECancel (n : string) (k : string)
| ESubscribe (w : string) | EHandle (w : string) | EFail (w : string) | EAgain (w : string) | EStop (w : string)
| EStart (w : string) (k : string) (h : Z) | EDone (w : string) (k : string)
| ESubStart (w : string) | ESubHandle (w : string) | ESubFail (w : string).

(** Redis PUBLISH: one copy of [k] to every subscriber whose pattern matches the channel. *)
Definition hear (cluster : bool) (mine n : string) (k : string) (w : wk) : wk :=
  if glob (cancel_pattern cluster mine) (cancel_channel cluster n k) then
    let w := match w_link w with LOn q => with_link w (LOn (q ++ [k])) | _ => w end in
    match w_sub w with Some q => with_sub w (Some (q ++ [k])) (w_over w) | None => w end
  else w.

(** worker.py:1377-1388 _handle_cancellation. *)
Definition handle (k : string) (w : wk) : wk :=
  match task_of k (w_tasks w) with Some h => with_cancelled w (h :: w_cancelled w) | None => w end.

(** [dn w] is the docket of worker [w]. *)
Definition sig_step (cluster : bool) (dn : string -> string) (s : string -> wk) (e : ev) : string -> wk :=
  match e with
  | ECancel n k => fun w => hear cluster (dn w) n k (s w)
  | ESubscribe w => match w_link (s w) with LOff => upd s w (with_link (s w) (LOn [])) | _ => s end
  | EHandle w => match w_link (s w) with LOn (k :: q) => upd s w (handle k (with_link (s w) (LOn q))) | _ => s end
  | EFail w => match w_link (s w) with LOff | LOn _ => upd s w (with_link (s w) LPause) | _ => s end
  | EAgain w => match w_link (s w) with LPause => upd s w (with_link (s w) LOff) | _ => s end
  | EStop w => upd s w (with_link (s w) LLeft)
  | EStart w k h => upd s w (with_tasks (s w) ((k, h) :: task_pop k (w_tasks (s w))))
  | EDone w k => upd s w (with_tasks (s w) (task_pop k (w_tasks (s w))))
  | ESubStart w => match w_sub (s w), w_over (s w) with None, false => upd s w (with_sub (s w) (Some []) false) | _, _ => s end
  | ESubHandle w =>
      match w_sub (s w) with
      | Some (k :: q) =>
          let x := with_sub (s w) (Some q) (w_over (s w)) in
          upd s w (if String.eqb k "" then x else with_cleaned x (k :: w_cleaned x))
      | _ => s
      end
  | ESubFail w => upd s w (with_sub (s w) None true)
  end.
Definition sig_run (cluster : bool) (dn : string -> string) (l : list ev) : string -> wk :=
  fold_left (sig_step cluster dn) l (fun _ => wk0).
