(** Model of the counters a docket keeps of its callers' calls: docket.py:413-442 add, 523-552 replace, 555-589 schedule,
    591-613 cancel, instrumentation.py:11-57.  The counters are those of all processes together; labels are left out
    (C71 for the names).  The worker's counters are in Execute.v (C61). *)
From Verif Require Import Base Model Strike StrikeSys.

(** instrumentation.py:11-33, 48-51. *)
Record ctr := mkCtr { c_added : Z; c_replaced : Z; c_sched : Z; c_cancelled : Z; c_stricken : Z }.
(** instrumentation.py:11-33: counters start at 0. *)
Definition ctr0 : ctr := mkCtr 0 0 0 0 0.

(** A step of some process.  [lost]: the script took effect but its answer did not come back (a ConnectionError
    leaves the call, nothing after it happens).  [NCancelEnd] is the rest of cancel, after the script of [NCancel]. *)
Inductive nop :=
| NAdd (p : string) (a : call) (t : Z) (lost : bool)
| NReplace (p : string) (a : call) (t : Z) (lost : bool)
| NSchedule (p : string) (a : call) (t : Z) (lost : bool)
| NCancel (k : key) (t : Z)
| NCancelEnd (k : key) (lost : bool)
| NDo (o : sop).

(** docket.py:441, 551, 588-589: SCHEDULED is the only disposition counted. *)
Definition is_scheduled (o : out) : bool := match o with ODisp DScheduled => true | _ => false end.
(** docket.py:414, 524, 566: the call was struck. *)
Definition is_struck (o : out) : bool := match o with ODisp DStruck => true | _ => false end.
(** A counter goes up by one (docket.py:441, 589). *)
Definition plus1 (b : bool) : Z := if b then 1 else 0.

(** docket.py:413-442: the struck call counts as stricken and nothing else. *)
Definition count_add (x : ctr) (o : out) (lost : bool) : ctr :=
  if is_struck o then mkCtr (c_added x) (c_replaced x) (c_sched x) (c_cancelled x) (c_stricken x + 1)
  else if lost then x
  else mkCtr (c_added x + 1) (c_replaced x) (c_sched x + plus1 (is_scheduled o)) (c_cancelled x) (c_stricken x).
(** docket.py:523-552. *)
Definition count_replace (x : ctr) (o : out) (lost : bool) : ctr :=
  if is_struck o then mkCtr (c_added x) (c_replaced x) (c_sched x) (c_cancelled x) (c_stricken x + 1)
  else if lost then x
  else mkCtr (c_added x) (c_replaced x + 1) (c_sched x + 1) (c_cancelled x + 1) (c_stricken x).
(** docket.py:564-589. *)
Definition count_schedule (x : ctr) (o : out) (lost : bool) : ctr :=
  if is_struck o then mkCtr (c_added x) (c_replaced x) (c_sched x) (c_cancelled x) (c_stricken x + 1)
  else if lost then x
  else mkCtr (c_added x) (c_replaced x) (c_sched x + plus1 (is_scheduled o)) (c_cancelled x) (c_stricken x).

(** What the step does to the docket: docket.py:556-589 schedule is add without the first counter. *)
Definition nsop (o : nop) : sop :=
  match o with
  | NAdd p a t _ | NSchedule p a t _ => SAdd p a t
  | NReplace p a t _ => SReplace p a t
  | NCancel k t => SDo (OCancel k t)
  | NCancelEnd k _ => SDo (OCancelFinish k)
  | NDo o => o
  end.
(** docket.py:413-442, 523-552, 556-589, 591-613. *)
Definition nstep (c : cfg) (bind : binder) (s : ssys * ctr) (o : nop) : ssys * ctr :=
  let (s', out) := sstep c bind (fst s) (nsop o) in
  (s', match o with
       | NAdd _ _ _ lost => count_add (snd s) out lost
       | NReplace _ _ _ lost => count_replace (snd s) out lost
       | NSchedule _ _ _ lost => count_schedule (snd s) out lost
       | NCancelEnd _ lost => if lost then snd s else let x := snd s in mkCtr (c_added x) (c_replaced x) (c_sched x) (c_cancelled x + 1) (c_stricken x)
       | NCancel _ _ | NDo _ => snd s
       end).
(** Histories (docket.py:355-613). *)
Fixpoint nrun (c : cfg) (bind : binder) (s : ssys * ctr) (l : list nop) : ssys * ctr :=
  match l with [] => s | o :: l => nrun c bind (nstep c bind s o) l end.
