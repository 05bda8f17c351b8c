(** The cancel subscriber of the concurrency limits
    (/repo/src/docket/dependencies/_concurrency.py:676-755): every worker listens to the
    cancellations of its docket; for each it reads the place of the task in a waiting line,
    removes that place with a script and cancels the safeguard.  These are separate calls to
    Redis, in every worker, so everybody else's operations may come in between.

    The docket itself is the model of Model.v, where the script is [OCancelCleanup].  Not
    modelled: messages of other types than pmessage (708), the pattern (Signal.v, C95). *)
From Verif Require Import Base ZSet Model.

(** Where a subscriber is (_concurrency.py:707-720, 735-755): waiting for the next message;
    with the place it has read for [k]; before docket.cancel of the safeguard (docket.py:609),
    between its two calls (docket.py:756-777), before its publish (docket.py:612). *)
Inductive xpc := XIdle | XHave (k : key) (cc : string) (i : sid) | XSafe (k : key) | XSafeFinish (k : key) | XSafePublish (k : key).

(** A subscriber: the messages not yet taken (_concurrency.py:707), and where it is. *)
Record sub := mkSub { u_inbox : list key; u_pc : xpc }.
(** [x_subs w] is [None] before worker [w] has subscribed (706) and after its end (721-731). *)
Record xsys := mkXsys { x_sys : sys; x_subs : string -> option sub }.
Definition init_xsys : xsys := mkXsys init_sys (fun _ => None).

(** An operation of the docket model other than the script; the publish of docket.cancel
    (docket.py:612), its third call; worker [w] subscribes; the next call of [w]'s subscriber,
    with its clock at [t]; [w]'s subscriber ends, cancelled or by an exception. *)
Inductive xop := XOp (o : op) | XPublish (k : key) | XSubscribe (w : string) | XGo (w : string) (t : Z) | XEnd (w : string).

(** Redis PUBLISH: one copy to every subscriber. *)
Definition tell (k : key) (u : option sub) : option sub :=
  match u with Some u => Some (mkSub (u_inbox u ++ [k]) (u_pc u)) | None => None end.
Definition tell_all (k : key) (us : string -> option sub) : string -> option sub := fun w => tell k (us w).

(** The call to the docket that a subscriber makes next, if it is one
    (_concurrency.py:744-750, 755). *)
Definition sub_call (u : sub) (t : Z) : option op :=
  match u_pc u with
  | XHave k cc i => Some (OCancelCleanup k cc i)
  | XSafe k => Some (OCancel (safeguard_key k) t)
  | XSafeFinish k => Some (OCancelFinish (safeguard_key k))
  | XIdle | XSafePublish _ => None
  end.

(** _concurrency.py:707-720, 735-755: the subscriber after this call.  The message "" is passed
    over (718); a record without a place ends the handling (739-740). *)
Definition sub_next (d : db) (u : sub) : sub :=
  match u_pc u, u_inbox u with
  | XIdle, [] => u
  | XIdle, k :: q =>
      mkSub q (if String.eqb k "" then XIdle
               else match r_wstream (rget d k), r_wid (rget d k) with Some cc, Some i => XHave k cc i | _, _ => XIdle end)
  | XHave k _ _, q => mkSub q (XSafe k)
  | XSafe k, q => mkSub q (XSafeFinish k)
  | XSafeFinish k, q => mkSub q (XSafePublish k)
  | XSafePublish _, q => mkSub q XIdle
  end.

(** One step (_concurrency.py:650-755); a worker that dies leaves its subscription. *)
Definition xstep (c : cfg) (g : xsys) (o : xop) : xsys * out :=
  match o with
  | XOp (OCancelCleanup _ _ _) => (g, ORefused)
  | XOp o =>
      let '(s, r) := step c (x_sys g) o in
      (mkXsys s (match o with OCrash w => upd (x_subs g) w None | _ => x_subs g end), r)
  | XPublish k => (mkXsys (x_sys g) (tell_all k (x_subs g)), ODone)
  | XSubscribe w =>
      match x_subs g w with
      | None => (mkXsys (x_sys g) (upd (x_subs g) w (Some (mkSub [] XIdle))), ODone)
      | Some _ => (g, ORefused)
      end
  | XGo w t =>
      match x_subs g w with
      | None => (g, ORefused)
      | Some u =>
          let '(s, r) := match sub_call u t with Some o => step c (x_sys g) o | None => (x_sys g, ODone) end in
          let us := upd (x_subs g) w (Some (sub_next (s_db (x_sys g)) u)) in
          (mkXsys s (match u_pc u with XSafePublish k => tell_all (safeguard_key k) us | _ => us end), r)
      end
  | XEnd w => (mkXsys (x_sys g) (upd (x_subs g) w None), ODone)
  end.
Fixpoint xfinal (c : cfg) (g : xsys) (l : list xop) : xsys :=
  match l with [] => g | o :: l => xfinal c (fst (xstep c g o)) l end.
Fixpoint xouts (c : cfg) (g : xsys) (l : list xop) : list out :=
  match l with [] => [] | o :: l => snd (xstep c g o) :: xouts c (fst (xstep c g o)) l end.
