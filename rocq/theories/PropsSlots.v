(** C76: on a cluster, the keys of each script are in one slot. *)
From Verif Require Import Base Text Keys Slots.

(** ** Facts about hash tags *)

Lemma cut_app c a s : cut c (a ++ s)%string =
  match cut c a with Some (x, r) => Some (x, (r ++ s)%string) | None => match cut c s with Some (x, r) => Some ((a ++ x)%string, r) | None => None end end.
Proof.
  induction a as [|b a IH]; cbn; [destruct (cut c s) as [[? ?]|]; reflexivity|].
  destruct (Ascii.eqb b c); [reflexivity|]. rewrite IH. destruct (cut c a) as [[? ?]|]; [reflexivity|].
  destruct (cut c s) as [[? ?]|]; reflexivity.
Qed.

(** A tag within a prefix is the tag of every key with that prefix. *)
Lemma hashed_prefix p s a b c t r : cut "{" p = Some (a, b) -> cut "}" b = Some (String c t, r) -> hashed (p ++ s) = String c t.
Proof.
  intros H1 H2. unfold hashed. rewrite cut_app, H1, cut_app, H2. reflexivity.
Qed.

(** The first character of a name, if there is one. *)
Definition starts_with (c : ascii) (s : string) : Prop := exists r, s = String c r.

Lemma cut_none c s : occurs c s = false -> cut c s = None.
Proof.
  induction s as [|b s IH]; cbn; [reflexivity|]. intros H. apply orb_false_elim in H. destruct H as [H1 H2].
  rewrite Ascii.eqb_sym, H1, IH by exact H2. reflexivity.
Qed.

(** The text before the first closing brace. *)
Definition tag_of (name : string) : string := match cut "}" name with Some (t, _) => t | None => name end.

Lemma prefix_tag name : name <> ""%string -> ~ starts_with "}" name ->
  exists c t r, tag_of name = String c t /\ cut "}" (name ++ "}")%string = Some (String c t, r).
Proof.
  intros N S. destruct name as [|c name]; [contradiction|].
  assert (Nc : Ascii.eqb c "}" = false).
  { destruct (Ascii.eqb_spec c "}"%char) as [->|Nc]; [exfalso; apply S; now exists name|reflexivity]. }
  unfold tag_of. rewrite cut_app. cbn [cut]. rewrite Nc. destruct (cut "}" name) as [[t r]|].
  - exists c, t. eexists. split; reflexivity.
  - exists c, name. eexists. split; [reflexivity|]. cbn. now rewrite append_nil_r.
Qed.

Lemma docket_hashed name rest : name <> ""%string -> ~ starts_with "}" name ->
  hashed (dkey true name rest) = tag_of name.
Proof.
  intros N S. destruct (prefix_tag name N S) as (c & t & r & E & C). rewrite E. unfold dkey, docket_prefix.
  apply (hashed_prefix _ _ ""%string (name ++ "}")%string c t r); [reflexivity|exact C].
Qed.

(** ** C76 *)

(** Every key a docket forms with its prefix - those of all scripts, for all tasks, limits
    and scopes - is in one slot. *)
Theorem C76_one_slot_partial : forall name s key key', name <> ""%string -> ~ starts_with "}" name ->
  (forall scope tag, s <> SDebounce scope tag) ->
  In key (script_keys true name s) -> In key' (script_keys true name s) -> slot key = slot key'.
Proof.
  intros name s key key' N S D H H'.
  assert (G : forall l, In key (map (dkey true name) l) -> In key' (map (dkey true name) l) -> slot key = slot key').
  { intros l I I'. apply in_map_iff in I. destruct I as (r & <- & _). apply in_map_iff in I'. destruct I' as (r' & <- & _).
    unfold slot. now rewrite !docket_hashed. }
  destruct s; cbn [script_keys] in H, H'; try (exact (G _ H H')).
  - destruct H as [<-|[]], H' as [<-|[]]. reflexivity.
  - destruct H as [<-|[]], H' as [<-|[]]. reflexivity.
  - exfalso. now apply (D scope tag).
Qed.
Print Assumptions C76_one_slot_partial.

(** Two scripts as well: the whole docket is on one node. *)
Theorem C76_docket_slot : forall name rest rest', name <> ""%string -> ~ starts_with "}" name ->
  slot (dkey true name rest) = slot (dkey true name rest').
Proof. intros name rest rest' N S. unfold slot. now rewrite !docket_hashed. Qed.
Print Assumptions C76_docket_slot.

(** Debounce: its two keys share a slot if no empty pair of braces comes first: whenever
    the text before the names has a hash tag at all. *)
Lemma debounce_same scope tag name key key' :
  (match cut "{" (scope ++ ":debounce:" ++ tag ++ ":{" ++ tag ++ "}:")%string with
   | Some (_, r) => match cut "}" r with Some (t, _) => t <> ""%string | None => False end
   | None => False end) ->
  In key (script_keys true name (SDebounce scope tag)) -> In key' (script_keys true name (SDebounce scope tag)) -> slot key = slot key'.
Proof.
  intros T H H'. cbn [script_keys] in H, H'.
  set (p := (scope ++ ":debounce:" ++ tag ++ ":{" ++ tag ++ "}:")%string) in *.
  assert (E : forall x, ((scope ++ ":debounce:" ++ tag) ++ ":{" ++ tag ++ "}:" ++ x)%string = (p ++ x)%string).
  { intros x. unfold p. cbn [append]. rewrite !append_assoc'. cbn [append]. rewrite !append_assoc'. cbn [append]. rewrite ?append_assoc'. reflexivity. }
  assert (K : forall k, In k [((scope ++ ":debounce:" ++ tag) ++ ":{" ++ tag ++ "}:winner")%string; ((scope ++ ":debounce:" ++ tag) ++ ":{" ++ tag ++ "}:last_seen")%string] ->
    exists x, k = (p ++ x)%string).
  { intros k [<-|[<-|[]]]; [exists "winner"%string|exists "last_seen"%string]; rewrite <- E; reflexivity. }
  destruct (K key H) as [x ->]. destruct (K key' H') as [x' ->]. clearbody p. clear H H' K E.
  destruct (cut "{" p) as [[a b]|] eqn:C1; [|contradiction]. destruct (cut "}" b) as [[t r]|] eqn:C2; [|contradiction].
  destruct t as [|c t]; [contradiction|]. unfold slot. now rewrite !(hashed_prefix p _ a b c t r).
Qed.

Theorem C76_debounce_partial : forall scope tag name key key',
  occurs "{" scope = false -> occurs "{" tag = false -> tag <> ""%string -> ~ starts_with "}" tag ->
  In key (script_keys true name (SDebounce scope tag)) -> In key' (script_keys true name (SDebounce scope tag)) -> slot key = slot key'.
Proof.
  intros scope tag name key key' Hs Ht N S H H'. apply (debounce_same scope tag name); try assumption. clear H H'.
  rewrite cut_app, cut_none by exact Hs. rewrite (cut_app _ ":debounce:"). cbn [cut]. 
  change (cut "{" ":debounce:") with (@None (string * string)). cbv iota.
  rewrite cut_app, cut_none by exact Ht. cbn [append cut Ascii.eqb Bool.eqb].
  destruct (prefix_tag tag N S) as (c & t & r & _ & C).
  replace (tag ++ "}:")%string with ((tag ++ "}") ++ ":")%string by (rewrite append_assoc'; reflexivity).
  rewrite cut_app, C. discriminate.
Qed.
Print Assumptions C76_debounce_partial.

(** Refutation: the docket name "" is accepted, and then the keys of claim are spread. *)
Theorem C76_empty_name_refuted : exists k key key',
  In key (script_keys true "" (SClaim k)) /\ In key' (script_keys true "" (SClaim k)) /\ slot key <> slot key'.
Proof.
  exists "k"%string, "{}:runs:k"%string, "{}:stream"%string.
  split; [vm_compute; tauto|]. split; [vm_compute; tauto|]. vm_compute. congruence.
Qed.
Print Assumptions C76_empty_name_refuted.

(** Refutation: a task debounced on an argument whose value is the empty dictionary (its
    text is "{}") cannot run its script on a cluster, whatever the docket is called. *)
Theorem C76_debounce_empty_dict_refuted : forall name, exists key key',
  In key (script_keys true name (SDebounce "d" "filters:{}")) /\
  In key' (script_keys true name (SDebounce "d" "filters:{}")) /\ slot key <> slot key'.
Proof.
  intros name. exists "d:debounce:filters:{}:{filters:{}}:winner"%string, "d:debounce:filters:{}:{filters:{}}:last_seen"%string.
  split; [vm_compute; tauto|]. split; [vm_compute; tauto|]. vm_compute. congruence.
Qed.
Print Assumptions C76_debounce_empty_dict_refuted.

(** Examples: the slot of "123456789" (from the Redis documentation), and a docket whose
    keys contain braces of their own. *)
Example C76_ex_crc : slot "123456789" = 12739.
Proof. vm_compute. reflexivity. Qed.
Example C76_ex_tags : map hashed ["{user1000}.following"; "foo{}{bar}"; "foo{{bar}}zap"; "foo{bar}{zap}"; "{a}b}:k{x}"]%string =
  ["user1000"; "foo{}{bar}"; "{bar"; "bar"; "a"]%string.
Proof. vm_compute. reflexivity. Qed.
Example C76_ex_claim : map slot (script_keys true "orders" (SClaim "a{b}c")) = repeat (slot "orders") 6 /\ slot "orders" <> slot "{x}".
Proof. vm_compute. split; [reflexivity|congruence]. Qed.
Example C76_ex_standalone : map slot (script_keys false "orders" (SProgress "k")) <> map slot (script_keys false "orders" (SProgress "l")).
Proof. vm_compute. congruence. Qed.
