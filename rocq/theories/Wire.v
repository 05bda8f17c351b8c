(** A task as bytes: the message a call becomes, the copies the store makes of it, and the
    execution a worker reads from it.  No proofs in this file.

    [W1] Arguments are the bytes cloudpickle.dumps gave; loads of these bytes is not
         modelled.
    [W2] Texts are lists of Unicode code points, bytes are lists of numbers.
    [W3] A due time is an aware datetime: its fields and its utcoffset.  (A naive one fails
         at execution.py:695, before anything is stored.)  The name of its zone does not
         travel. *)
From Verif Require Import Base Text Instant.

Definition text := list Z.
Definition bytes := list Z.

(** ** str.encode() and bytes.decode(): UTF-8 *)

Definition surrogate (c : Z) : bool := (55296 <=? c) && (c <=? 57343).

(** One code point; lone surrogates raise UnicodeEncodeError. *)
Definition encode1 (c : Z) : option bytes :=
  if c <? 128 then Some [c]
  else if c <? 2048 then Some [192 + c / 64; 128 + c mod 64]
  else if surrogate c then None
  else if c <? 65536 then Some [224 + c / 4096; 128 + c / 64 mod 64; 128 + c mod 64]
  else Some [240 + c / 262144; 128 + c / 4096 mod 64; 128 + c / 64 mod 64; 128 + c mod 64].

Fixpoint encode (t : text) : option bytes :=
  match t with
  | [] => Some []
  | c :: r =>
      match encode1 c, encode r with Some b, Some b' => Some (b ++ b') | _, _ => None end
  end.

Definition cont (b : Z) : bool := (128 <=? b) && (b <? 192).

(** Strict decoding: no stray or missing continuation bytes, no overlong forms, no
    surrogates, nothing above U+10FFFF (UnicodeDecodeError). *)
Fixpoint decode (b : bytes) : option text :=
  match b with
  | [] => Some []
  | b0 :: r0 =>
      if b0 <? 128 then option_map (cons b0) (decode r0)
      else if b0 <? 194 then None
      else
        match r0 with
        | b1 :: r1 =>
            if negb (cont b1) then None
            else if b0 <? 224 then option_map (cons ((b0 - 192) * 64 + (b1 - 128))) (decode r1)
            else
              match r1 with
              | b2 :: r2 =>
                  if negb (cont b2) then None
                  else if b0 <? 240 then
                    let c := (b0 - 224) * 4096 + (b1 - 128) * 64 + (b2 - 128) in
                    if (c <? 2048) || surrogate c then None else option_map (cons c) (decode r2)
                  else
                    match r2 with
                    | b3 :: r3 =>
                        let c := (b0 - 240) * 262144 + (b1 - 128) * 4096 + (b2 - 128) * 64 + (b3 - 128) in
                        if negb (cont b3) || (c <? 65536) || (1114111 <? c) then None
                        else option_map (cons c) (decode r3)
                    | [] => None
                    end
              | [] => None
              end
        | [] => None
        end
  end.

(** ** Numbers *)

(** The codes of an ASCII literal. *)
Fixpoint codes (s : string) : text :=
  match s with EmptyString => [] | String a r => Z.of_nat (nat_of_ascii a) :: codes r end.
Fixpoint uncodes (t : text) : string :=
  match t with [] => EmptyString | c :: r => String (ascii_of_nat (Z.to_nat c)) (uncodes r) end.
Definition ascii_text (t : text) : bool := forallb (fun c => (0 <=? c) && (c <? 128)) t.

(** str(n). *)
Definition str (n : Z) : text := codes (dec n).
(** int(t), for plain decimal numerals (others it also takes, with spaces or underscores,
    are never written). *)
Definition int (t : text) : option Z := if ascii_text t then undec (uncodes t) else None.

(** Lua's tostring of a number n >= 0 holding an integer: "%.14g", so from 10^14 on
    fourteen digits and an exponent. *)
Fixpoint strip0 (fuel : nat) (m : Z) : Z :=
  match fuel with O => m | S f => if m mod 10 =? 0 then strip0 f (m / 10) else m end.
Definition two (n : Z) : text := if n <? 10 then 48 :: str n else str n.
Definition sci (n : Z) : text :=
  let e := Z.of_nat (List.length (str n)) - 1 in
  let m := rne n (10 ^ (e - 13)) in
  let e' := if m =? 10 ^ 14 then e + 1 else e in
  match str (strip0 14 m) with
  | d :: [] => d :: codes "e+" ++ two e'
  | d :: r => d :: 46 :: r ++ codes "e+" ++ two e'
  | [] => []
  end.
Definition tostring (n : Z) : text := if n <? 10 ^ 14 then str n else sci n.

(** ** datetime.isoformat() and datetime.fromisoformat() *)

(** An aware datetime; [d_off] is its utcoffset in microseconds. *)
Record datetime := mkDt
  { d_year : Z; d_month : Z; d_day : Z; d_hour : Z; d_min : Z; d_sec : Z; d_us : Z; d_off : Z }.

Definition pad2 (n : Z) : text := [48 + n / 10; 48 + n mod 10].
Definition pad4 (n : Z) : text := pad2 (n / 100) ++ pad2 (n mod 100).
Definition pad6 (n : Z) : text := pad2 (n / 10000) ++ pad4 (n mod 10000).

(** Seconds and microseconds of an offset are written only if needed. *)
Definition iso_offset (off : Z) : text :=
  let a := Z.abs off in
  let us := a mod 1000000 in
  let s := a / 1000000 in
  (if off <? 0 then [45] else [43]) ++ pad2 (s / 3600) ++ [58] ++ pad2 (s / 60 mod 60) ++
  (if (s mod 60 =? 0) && (us =? 0) then []
   else [58] ++ pad2 (s mod 60) ++ (if us =? 0 then [] else [46] ++ pad6 us)).

Definition isoformat (d : datetime) : text :=
  pad4 (d_year d) ++ [45] ++ pad2 (d_month d) ++ [45] ++ pad2 (d_day d) ++ [84] ++
  pad2 (d_hour d) ++ [58] ++ pad2 (d_min d) ++ [58] ++ pad2 (d_sec d) ++
  (if d_us d =? 0 then [] else [46] ++ pad6 (d_us d)) ++ iso_offset (d_off d).

(** [n] digits. *)
Fixpoint digits (n : nat) (acc : Z) (t : text) : option (Z * text) :=
  match n with
  | O => Some (acc, t)
  | S n =>
      match t with
      | c :: r => if (48 <=? c) && (c <=? 57) then digits n (acc * 10 + (c - 48)) r else None
      | [] => None
      end
  end.
Definition num (n : nat) (t : text) : option (Z * text) := digits n 0 t.
Definition lit (c : Z) (t : text) : option text :=
  match t with c' :: r => if c' =? c then Some r else None | [] => None end.

Notation "'let?' p := e 'in' k" := (match e with Some p => k | None => None end)
  (at level 200, p pattern, right associativity).

(** hh:mm[:ss[.ffffff]] in microseconds, and what follows. *)
Definition clock (t : text) : option (Z * Z * Z * Z * text) :=
  let? (h, t) := num 2 t in let? t := lit 58 t in let? (m, t) := num 2 t in
  match lit 58 t with
  | Some t =>
      let? (s, t) := num 2 t in
      match lit 46 t with
      | Some t => let? (us, t) := num 6 t in Some (h, m, s, us, t)
      | None => Some (h, m, s, 0, t)
      end
  | None => Some (h, m, 0, 0, t)
  end.

Definition leap (y : Z) : bool := (y mod 4 =? 0) && (negb (y mod 100 =? 0) || (y mod 400 =? 0)).
Definition days_in (y m : Z) : Z :=
  if m =? 2 then if leap y then 29 else 28
  else if (m =? 4) || (m =? 6) || (m =? 9) || (m =? 11) then 30 else 31.

(** The checks of the datetime constructor. *)
Definition dt_ok (d : datetime) : bool :=
  (1 <=? d_year d) && (d_year d <=? 9999) && (1 <=? d_month d) && (d_month d <=? 12) &&
  (1 <=? d_day d) && (d_day d <=? days_in (d_year d) (d_month d)) &&
  (0 <=? d_hour d) && (d_hour d <? 24) && (0 <=? d_min d) && (d_min d <? 60) &&
  (0 <=? d_sec d) && (d_sec d <? 60) && (0 <=? d_us d) && (d_us d <? 1000000) &&
  (Z.abs (d_off d) <? 86400000000).

(** fromisoformat on the long form with an offset (the only one written; the shorter ones
    it also takes are not modelled). *)
Definition fromisoformat (t : text) : option datetime :=
  let? (y, t) := num 4 t in let? t := lit 45 t in let? (mo, t) := num 2 t in let? t := lit 45 t in
  let? (d, t) := num 2 t in
  match t with
  | _ :: t =>
      let? (h, m, s, us, t) := clock t in
      match t with
      | sign :: t =>
          let? (oh, om, os, ous, t) := clock t in
          match t with
          | [] =>
              let o := ((oh * 60 + om) * 60 + os) * 1000000 + ous in
              let d := mkDt y mo d h m s us (if sign =? 45 then - o else o) in
              if ((sign =? 45) || (sign =? 43)) && dt_ok d then Some d else None
          | _ => None
          end
      | [] => None
      end
  | [] => None
  end.

(** ** Messages *)

Record execution := mkEx
  { x_key : text; x_when : datetime; x_fn : text; x_args : bytes; x_kwargs : bytes;
    x_attempt : Z; x_gen : Z }.

(** Field names and values, as in a Python dict, a Redis hash or a stream entry. *)
Definition message := list (bytes * bytes).

Definition beq (a b : bytes) : bool := if list_eq_dec Z.eq_dec a b then true else false.

(** Reading pairs into a dict (or a Lua table): the last one counts. *)
Fixpoint field (f : bytes) (m : message) : option bytes :=
  match m with
  | [] => None
  | (g, v) :: r => match field f r with Some v' => Some v' | None => if beq g f then Some v else None end
  end.

(** d[f] = v. *)
Fixpoint set_field (f v : bytes) (m : message) : message :=
  match m with
  | [] => [(f, v)]
  | (g, w) :: r => if beq g f then (g, v) :: r else (g, w) :: set_field f v r
  end.

(** execution.py:567-576 as_message. *)
Definition as_message (x : execution) : option message :=
  let? k := encode (x_key x) in
  let? w := encode (isoformat (x_when x)) in
  let? f := encode (x_fn x) in
  let? a := encode (str (x_attempt x)) in
  let? g := encode (str (x_gen x)) in
  Some [(codes "key", k); (codes "when", w); (codes "function", f); (codes "args", x_args x);
        (codes "kwargs", x_kwargs x); (codes "attempt", a); (codes "generation", g)].

(** The caller's trace, as the W3C propagators write it: traceparent, tracestate and
    baggage, each there or not. *)
Record trace := mkTrace { t_parent : option bytes; t_state : option bytes; t_baggage : option bytes }.
Definition no_trace : trace := mkTrace None None None.

Definition set_some (f : bytes) (o : option bytes) (m : message) : message :=
  match o with Some v => set_field f v m | None => m end.

(** execution.py:690 propagate.inject(message, setter=message_setter),
    instrumentation.py:150-157. *)
Definition inject (tr : trace) (m : message) : message :=
  set_some (codes "baggage") (t_baggage tr)
    (set_some (codes "tracestate") (t_state tr) (set_some (codes "traceparent") (t_parent tr) m)).

(** execution.py:603 propagate.extract(message, getter=message_getter),
    instrumentation.py:139-147. *)
Definition extract (m : message) : trace :=
  mkTrace (field (codes "traceparent") m) (field (codes "tracestate") m) (field (codes "baggage") m).

(** message[generation_index] = tostring(new_gen) (execution.py:119-122, 200-203;
    _concurrency.py:114-115, 234-238); the names in a message are different, so every
    field called generation is the last one. *)
Definition splice (gen : Z) (m : message) : message :=
  map (fun e => if beq (fst e) (codes "generation") then (fst e, tostring gen) else e) m.

(** execution.py:124-127, 205-207: straight to the stream. *)
Definition to_stream (gen : Z) (m : message) : message := splice gen m.

(** execution.py:138, 221 (HSET parked) and worker.py:187-203: the scheduler
    copies seven fields to the stream.  A field that is not there is nil, and the script
    fails. *)
Definition through_queue (gen : Z) (m : message) : option message :=
  let task := splice gen m in
  let? k := field (codes "key") task in
  let? w := field (codes "when") task in
  let? f := field (codes "function") task in
  let? a := field (codes "args") task in
  let? kw := field (codes "kwargs") task in
  let? at_ := field (codes "attempt") task in
  let g := match field (codes "generation") task with Some g => g | None => codes "0" end in
  Some [(codes "key", k); (codes "when", w); (codes "function", f); (codes "args", a);
        (codes "kwargs", kw); (codes "attempt", at_); (codes "generation", g)].

(** execution.py:578-610 from_message: the name is looked up by the caller; the generation
    defaults to 0. *)
Definition from_message (m : message) : option (execution * trace) :=
  let? f := field (codes "function") m in let? f := decode f in
  let? a := field (codes "args") m in
  let? kw := field (codes "kwargs") m in
  let? k := field (codes "key") m in let? k := decode k in
  let? w := field (codes "when") m in let? w := decode w in let? w := fromisoformat w in
  let? at_ := field (codes "attempt") m in let? at_ := decode at_ in let? at_ := int at_ in
  let g := match field (codes "generation") m with Some g => g | None => codes "0" end in
  let? g := int g in
  Some (mkEx k w f a kw at_ g, extract m).

(** ** The way of a task *)

(** [Send parked gen tr w a]: schedule() (execution.py:689-746) of the execution at hand
    with due time [w] and attempt [a] (the first time, or for a retry), inside trace [tr];
    the store counts generation [gen]; then delivery.
    [Slot g1 g2]: the worker has no slot for it and moves it to the waiters
    (_concurrency.py:557, 103-127: as_message, no inject); a release moves it back
    (_concurrency.py:233-240); then delivery. *)
Inductive hop :=
| Send (parked : bool) (gen : Z) (tr : trace) (w : datetime) (a : Z)
| Slot (g1 g2 : Z).

Definition take (h : hop) (x : execution) : option (execution * trace) :=
  match h with
  | Send parked gen tr w a =>
      let x := mkEx (x_key x) w (x_fn x) (x_args x) (x_kwargs x) a (x_gen x) in
      let? m := as_message x in
      let m := inject tr m in
      let? m := (if parked then through_queue gen m else Some (to_stream gen m)) in
      from_message m
  | Slot g1 g2 =>
      let? m := as_message x in
      from_message (splice g2 (splice g1 m))
  end.

Fixpoint travel (hs : list hop) (x : execution) (tr : trace) : option (execution * trace) :=
  match hs with
  | [] => Some (x, tr)
  | h :: r => let? (x', tr') := take h x in travel r x' tr'
  end.
