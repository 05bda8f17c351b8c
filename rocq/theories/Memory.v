(** The in-process servers behind memory:// URLs (/repo/src/docket/_redis.py:548-609,
    837-852).  No proofs in this file.

    Event loops are objects with an identity and an address; id() is the address.  Two
    objects that exist at the same time have different addresses; the address of a loop that
    no longer exists may be used again.  An object that the cache refers to exists.  Each
    block under the lock is one step, so steps of several threads and loops may
    interleave. *)
From Verif Require Import Base.

Record loop := mkLoop { lp_ref : Z; lp_addr : Z; lp_closed : bool }.

(** _memory_servers (line 552): (url, id(loop)) -> (loop, client); the loop by its identity,
    clients numbered in the order of creation. *)
Record entry := mkEntry { e_url : string; e_addr : Z; e_loop : Z; e_client : Z }.
Record world := mkWorld { wd_loops : list loop; wd_refs : Z; wd_cache : list entry; wd_clients : Z; wd_closed : list Z }.
Definition world0 : world := mkWorld [] 0 [] 0 [].

Definition find_loop (w : world) (l : Z) : option loop := find (fun x => lp_ref x =? l) (wd_loops w).
Definition find_entry (w : world) (url : string) (a : Z) : option entry :=
  find (fun e => String.eqb (e_url e) url && (e_addr e =? a)) (wd_cache w).

Inductive mop :=
| MNew (a : Z)                    (* a new event loop, at address [a] *)
| MClose (l : Z)                  (* loop.close() *)
| MFree (l : Z)                   (* the loop is garbage *)
| MDrop                           (* lines 565-573 *)
| MLookup (l : Z) (url : string)  (* lines 841-852, the second block, on the running loop [l] *)
| MPeek (l : Z) (url : string)    (* lines 599-609 get_memory_server *)
| MClear.                         (* lines 592-596 *)
Inductive mout := MNone | MLoop (l : Z) | MClient (c : Z).

Definition loop_closed (w : world) (l : Z) : bool := match find_loop w l with Some x => lp_closed x | None => true end.

Definition mstep (w : world) (o : mop) : world * mout :=
  match o with
  | MNew a =>
      if existsb (fun x => lp_addr x =? a) (wd_loops w) then (w, MNone)
      else (mkWorld (mkLoop (wd_refs w) a false :: wd_loops w) (wd_refs w + 1) (wd_cache w) (wd_clients w) (wd_closed w), MLoop (wd_refs w))
  | MClose l =>
      (mkWorld (map (fun x => if lp_ref x =? l then mkLoop (lp_ref x) (lp_addr x) true else x) (wd_loops w))
         (wd_refs w) (wd_cache w) (wd_clients w) (wd_closed w), MNone)
  | MFree l =>
      if existsb (fun e => e_loop e =? l) (wd_cache w) then (w, MNone)
      else (mkWorld (filter (fun x => negb (lp_ref x =? l)) (wd_loops w)) (wd_refs w) (wd_cache w) (wd_clients w) (wd_closed w), MNone)
  | MDrop =>
      let gone := filter (fun e => loop_closed w (e_loop e)) (wd_cache w) in
      (mkWorld (wd_loops w) (wd_refs w) (filter (fun e => negb (loop_closed w (e_loop e))) (wd_cache w)) (wd_clients w)
         (map e_client gone ++ wd_closed w), MNone)
  | MLookup l url =>
      match find_loop w l with
      | None => (w, MNone)
      | Some x =>
          if lp_closed x then (w, MNone)
          else match find_entry w url (lp_addr x) with
               | Some e => (w, MClient (e_client e))
               | None => (mkWorld (wd_loops w) (wd_refs w) (mkEntry url (lp_addr x) l (wd_clients w) :: wd_cache w) (wd_clients w + 1) (wd_closed w),
                          MClient (wd_clients w))
               end
      end
  | MPeek l url =>
      match find_loop w l with
      | None => (w, MNone)
      | Some x =>
          if lp_closed x then (w, MNone)
          else match find_entry w url (lp_addr x) with Some e => (w, MClient (e_client e)) | None => (w, MNone) end
      end
  | MClear =>
      (mkWorld (wd_loops w) (wd_refs w) [] (wd_clients w) (map e_client (wd_cache w) ++ wd_closed w), MNone)
  end.

Fixpoint mrun (w : world) (l : list mop) : world * list mout :=
  match l with
  | [] => (w, [])
  | o :: l => let '(w, x) := mstep w o in let '(w', xs) := mrun w l in (w', x :: xs)
  end.
