(** Vocabulary of C114. *)
From Verif Require Import Base ZSet Model SpecConc Stray.

(** A slot of [cc] is taken for the task [k]. *)
Definition slot_taken (cc : string) (k : key) (s : sys) : Prop := exists t, In (t, k) (d_slots (s_db s) cc).
(** A live execution of [k] holds a slot of [cc]. *)
Definition held (cc : string) (k : key) (s : sys) : Prop := exists x, In x (holders cc s) /\ m_key (x_msg x) = k.
(** A renewal for [k] is on its way. *)
Definition in_air (cc : string) (k : key) (s : asys) : Prop := exists t, In (cc, k, t) (as_air s).
(** [o] gives [k] a slot of [cc]. *)
Definition gives (c : cfg) (cc : string) (k : key) (s : asys) (o : aop) : Prop :=
  exists h mx t x, o = ADo (OAcquire h cc mx t) /\ get_exec (s_execs (as_sys s)) h = Some x /\ m_key (x_msg x) = k /\
    snd (astep c s o) = OAcquired true.
Fixpoint a_never (c : cfg) (P : asys -> aop -> Prop) (s : asys) (l : list aop) : Prop :=
  match l with [] => True | o :: l => ~ P s o /\ a_never c P (fst (astep c s o)) l end.
