(** C40: published state events are valid JSON naming the right key. *)
From Verif Require Import Base Text Json SpecJson.

Lemma gsub_app c r s t : gsub c r (s ++ t)%string = (gsub c r s ++ gsub c r t)%string.
Proof. induction s as [|a s IH]; simpl; [reflexivity|]. destruct (Ascii.eqb a c); simpl; rewrite IH; [now rewrite append_assoc'|reflexivity]. Qed.

Lemma escape_cons c s : json_escape (String c s) = (json_escape (String c "") ++ json_escape s)%string.
Proof. change (String c s) with (String c "" ++ s)%string. unfold json_escape. now rewrite !gsub_app. Qed.

Lemma jstr_char c r : (negb (control c) || Ascii.eqb c "010" || Ascii.eqb c "013" || Ascii.eqb c "009") = true ->
  jstr (json_escape (String c "") ++ r)%string = match jstr r with Some (x, r) => Some (String c x, r) | None => None end.
Proof.
  destruct c as [[] [] [] [] [] [] [] []]; intros H; try discriminate H; reflexivity.
Qed.

Lemma jstr_escape k r : readable k -> jstr (json_escape k ++ String quote r)%string = Some (k, r).
Proof.
  unfold readable. induction k as [|c k IH]; simpl all_chars; intros H; [reflexivity|].
  apply andb_prop in H as [Hc H]. rewrite escape_cons, append_assoc', (jstr_char c _ Hc), (IH H). reflexivity.
Qed.

Lemma jstr_plain k r : plain k -> jstr (k ++ String quote r)%string = Some (k, r).
Proof.
  unfold plain. induction k as [|c k IH]; simpl all_chars; intros H; [reflexivity|].
  apply andb_prop in H as [Hc H]. apply andb_prop in Hc as [Hc Hb]. apply andb_prop in Hc as [Hc Hq].
  simpl. apply negb_true_iff in Hc, Hb, Hq. rewrite Hq, Hb, Hc, (IH H). reflexivity.
Qed.

Lemma q_app s r : (q s ++ r)%string = String quote (s ++ String quote r).
Proof. unfold q. simpl. now rewrite append_assoc'. Qed.

Lemma wake_shape k : wake_event k =
  ("{" ++ String quote "type" ++ String quote ":" ++ String quote "state" ++ String quote "," ++ String quote "key" ++ String quote ":" ++
   String quote (json_escape k ++ String quote ("," ++ String quote "state" ++ String quote ":" ++ String quote "queued" ++ String quote "}")))%string.
Proof. unfold wake_event. rewrite !q_app. reflexivity. Qed.

Lemma due_shape k w : due_event k w =
  ("{" ++ String quote "type" ++ String quote ":" ++ String quote "state" ++ String quote "," ++ String quote "key" ++ String quote ":" ++
   String quote (json_escape k ++ String quote ("," ++ String quote "state" ++ String quote ":" ++ String quote "queued" ++ String quote "," ++
     String quote "when" ++ String quote ":" ++ String quote (w ++ String quote "}"))))%string.
Proof. unfold due_event. rewrite !q_app. reflexivity. Qed.

(** The event of a woken waiter reads as an object with exactly that key. *)
Theorem C40_wake_event k : readable k ->
  json_object (wake_event k) = Some [("type", "state"); ("key", k); ("state", "queued")]%string.
Proof. intros H. rewrite wake_shape. unfold json_object. simpl. rewrite (jstr_escape k _ H). reflexivity. Qed.
Print Assumptions C40_wake_event.

(** So does the event of a task moved to the stream. *)
Theorem C40_due_event k w : readable k -> plain w ->
  json_object (due_event k w) = Some [("type", "state"); ("key", k); ("state", "queued"); ("when", w)]%string.
Proof. intros H Hw. rewrite due_shape. unfold json_object. simpl. rewrite (jstr_escape k _ H). simpl. rewrite (jstr_plain w _ Hw). reflexivity. Qed.
Print Assumptions C40_due_event.

(** A key with a quote, a backslash and a newline. *)
Definition ex_key : string := String quote (String backslash (String nl "n}"%string)).
Example C40_case : readable ex_key /\ plain "2024-01-01T00:00:00+00:00" /\
  json_object (due_event ex_key "2024-01-01T00:00:00+00:00") =
    Some [("type", "state"); ("key", ex_key); ("state", "queued"); ("when", "2024-01-01T00:00:00+00:00")]%string.
Proof. repeat split; vm_compute; reflexivity. Qed.

(** The exclusion of other control characters is needed: *)
Theorem C40_control_characters_refuted : exists k, json_object (wake_event k) = None.
Proof. exists (String "007" ""). vm_compute. reflexivity. Qed.
Print Assumptions C40_control_characters_refuted.
