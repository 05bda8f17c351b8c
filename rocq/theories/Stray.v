(** Renewals of a slot on their way: dependencies/_concurrency.py:793-802 sends ZADD, and EXPIRE
    when it has the reply, from a loop that is cancelled (649-651, _cancellation.py:44-68) before
    the slot is released over another connection; cancelling does not call a command back, and
    the EXPIRE after it is not sent. *)
From Verif Require Import Base ZSet Model.

(** [as_air]: the renewals that were sent and that the store has not seen yet: limit, task
    key, clock. *)
Record asys := mkA { as_sys : sys; as_air : list (string * key * Z) }.
Definition as_init : asys := mkA init_sys [].
Inductive aop :=
| ASend (h : Z) (t : Z)        (* _concurrency.py:796-800, by a loop that is not cancelled *)
| AArrive (n : nat)            (* the store executes one of them *)
| AExpire (h : Z)              (* _concurrency.py:802, at any time while the loop is not cancelled *)
| ALost (n : nat)              (* the connection breaks before *)
| ADo (o : op).                (* anything else; ORenewSlot is told as ASend, AArrive, AExpire *)

(** _concurrency.py:797-800: ZADD alone; a set that did not exist is made without an expiry. *)
Definition zadd_slot (d : db) (cc : string) (k : key) (t : Z) : db :=
  set_slotexp (set_slots d (upd (d_slots d) cc (zadd t k (d_slots d cc))))
    (match d_slots d cc with [] => upd (d_slotexp d) cc None | _ => d_slotexp d end).
(** _concurrency.py:802: EXPIRE of a set that exists. *)
Definition expire_slots (d : db) (cc : string) (ttl : Z) : db :=
  match d_slots d cc with [] => d | _ => set_slotexp d (upd (d_slotexp d) cc (Some (d_now d + ttl * 1000000))) end.

Definition drop_nth {A} (n : nat) (l : list A) : list A := firstn n l ++ skipn (S n) l.
Definition astep (c : cfg) (s : asys) (o : aop) : asys * out :=
  match o with
  | ASend h t =>
      match get_exec (s_execs (as_sys s)) h with
      | Some x =>
          match x_slot x with
          | Some (cc, _) => (mkA (as_sys s) (as_air s ++ [(cc, m_key (x_msg x), t)]), ODone)
          | None => (s, ORefused)
          end
      | None => (s, ORefused)
      end
  | AArrive n =>
      match nth_error (as_air s) n with
      | Some (cc, k, t) =>
          (mkA (set_db (as_sys s) (zadd_slot (s_db (as_sys s)) cc k t)) (drop_nth n (as_air s)), ODone)
      | None => (s, ORefused)
      end
  | AExpire h =>
      match get_exec (s_execs (as_sys s)) h with
      | Some x =>
          match x_slot x with
          | Some (cc, _) => (mkA (set_db (as_sys s) (expire_slots (s_db (as_sys s)) cc (slot_ttl c))) (as_air s), ODone)
          | None => (s, ORefused)
          end
      | None => (s, ORefused)
      end
  | ALost n => (mkA (as_sys s) (drop_nth n (as_air s)), ODone)
  | ADo (ORenewSlot _ _) => (s, ORefused)
  | ADo o => (mkA (fst (step c (as_sys s) o)) (as_air s), snd (step c (as_sys s) o))
  end.
Fixpoint arun (c : cfg) (s : asys) (l : list aop) : asys :=
  match l with [] => s | o :: l => arun c (fst (astep c s o)) l end.
