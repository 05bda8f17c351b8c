(** Generated keys on Python before 3.14 (src/docket/_uuid7.py:28-92).  The clock
    readings (nanoseconds) and the random numbers (six bytes) are inputs. *)
From Verif Require Import Base.

(** _uuid7.py:25 _last *)
Record last := mkLast { l_t1 : Z; l_t2 : Z; l_t3 : Z; l_seq : Z }.
Definition start : last := mkLast 0 0 0 0.
Definition sixteen_secs : Z := 16000000000.

(** _uuid7.py:59-92 *)
Definition uuid7 (st : last) (ns r : Z) : Z * last :=
  let t1 := ns / sixteen_secs in
  let rest1 := ns mod sixteen_secs in
  let t2 := Z.shiftl rest1 16 / sixteen_secs in
  let rest2 := Z.shiftl rest1 16 mod sixteen_secs in
  let t3 := Z.lor (Z.shiftl rest2 12 / sixteen_secs) (Z.shiftl 7 12) in
  let st :=
    if (t1 =? l_t1 st) && (t2 =? l_t2 st) && (t3 =? l_t3 st)
    then if l_seq st <? 16383 then mkLast (l_t1 st) (l_t2 st) (l_t3 st) (l_seq st + 1) else st
    else mkLast t1 t2 t3 0 in
  let t4 := Z.lor (Z.shiftl 2 14) (l_seq st) in
  (Z.shiftl t1 96 + Z.shiftl t2 80 + Z.shiftl t3 64 + Z.shiftl t4 48 + r, st).

(** The keys of successive calls of one process. *)
Fixpoint keys (st : last) (l : list (Z * Z)) : list Z :=
  match l with [] => [] | (ns, r) :: l => let '(u, st) := uuid7 st ns r in u :: keys st l end.
