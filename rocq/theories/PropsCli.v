(** C77: strikes from the command line. *)
From Coq Require Import Ascii String List.
From Verif Require Import Base Duration Strike SpecStrike StrikeProofs PropsStrike PropsDuration Cli SpecCli.
Import ListNotations.

(** ** Proofs *)
Lemma teq_spec a b : teq a b = true <-> a = b.
Proof.
  unfold teq. revert b. induction a as [|x a IH]; intros [|y b]; cbn; try (split; congruence).
  rewrite andb_true_iff, IH. destruct (Ascii.eqb_spec x y); split; try (intros [? ?]; congruence); intros E; injection E; auto; congruence.
Qed.

Lemma wild l : handle_strike_wildcard l = None <-> anything l.
Proof.
  unfold handle_strike_wildcard, anything. rewrite <- (teq_spec l []), <- (teq_spec l (lit "*")).
  destruct (teq l []), (teq l (lit "*")); cbn; intuition congruence.
Qed.
Lemma tame l : ~ anything l -> handle_strike_wildcard l = Some l.
Proof.
  intros H. destruct (handle_strike_wildcard l) eqn:E; [|exfalso; apply H; now apply wild].
  unfold handle_strike_wildcard in E. destruct (_ || _); congruence.
Qed.

Lemma exb_in c l : existsb (Ascii.eqb c) l = true <-> In c l.
Proof.
  rewrite existsb_exists. split; [intros (x & H & E); apply Ascii.eqb_eq in E; now subst|intros H; exists c; split; [exact H|apply Ascii.eqb_refl]].
Qed.
Lemma exb_out c l : existsb (Ascii.eqb c) l = false <-> ~ In c l.
Proof. rewrite <- exb_in. destruct (existsb _ l); intuition congruence. Qed.

Lemma rpart_none c l : ~ In c l -> rpartition c l = ([], l).
Proof.
  destruct l as [|x l]; [reflexivity|]. intros H. cbn. rewrite (proj2 (exb_out c l)) by (intros I; apply H; now right).
  destruct (Ascii.eqb_spec x c) as [->|]; [exfalso; apply H; now left|reflexivity].
Qed.
Lemma rpart_app c a b : ~ In c b -> rpartition c (a ++ c :: b) = (a, b).
Proof.
  intros H. induction a as [|x a IH]; cbn.
  - rewrite (proj2 (exb_out c b) H), Ascii.eqb_refl. reflexivity.
  - assert (I : existsb (Ascii.eqb c) (a ++ c :: b) = true) by (apply exb_in, in_or_app; right; now left). now rewrite I, IH.
Qed.
Lemma rpart_after c l : ~ In c (snd (rpartition c l)).
Proof.
  induction l as [|x l IH]; [intros []|]. cbn. destruct (existsb (Ascii.eqb c) l) eqn:E.
  - destruct (rpartition c l); exact IH.
  - apply exb_out in E. destruct (Ascii.eqb_spec x c) as [->|N]; cbn; [exact E|]. intros [->|I]; auto.
Qed.

Lemma lower_either c d : either_case c d -> 97 <= code d <= 122 -> lower1 c = d.
Proof.
  unfold either_case, lower1, code. intros [->|[H1 H2]] H.
  - assert (E : (65 <=? Z.of_nat (nat_of_ascii d)) && (Z.of_nat (nat_of_ascii d) <=? 90) = false) by lia. now rewrite E.
  - assert (E : (65 <=? Z.of_nat (nat_of_ascii c)) && (Z.of_nat (nat_of_ascii c) <=? 90) = true) by lia. rewrite E.
    replace (nat_of_ascii c + 32)%nat with (nat_of_ascii d) by lia. apply ascii_nat_embedding.
Qed.
Lemma lower_word l w : Forall2 either_case l w -> Forall (fun d => 97 <= code d <= 122) w -> lower l = w.
Proof. induction 1 as [|c d l w E _ IH]; intros F; [reflexivity|]. inversion F; subst. cbn. f_equal; [now apply lower_either|now apply IH]. Qed.

Lemma either_colon l w : Forall2 either_case l w -> Forall (fun d => 97 <= code d <= 122) w -> ~ In ":"%char l.
Proof.
  induction 1 as [|c d l w E _ IH]; intros F; [intros []|]. inversion F; subst. intros [->|I]; [|now apply (IH H2)].
  destruct E as [<-|[E _]]; vm_compute in *; intuition congruence.
Qed.
Lemma letters (b : bool) : Forall (fun d => 97 <= code d <= 122) (lit (if b then "true" else "false")).
Proof. apply Forall_forall. intros d H. destruct b; cbn in H; repeat destruct H as [<-|H]; try destruct H; vm_compute; split; discriminate. Qed.

Lemma digits_no_colon l : all_digits l -> ~ In ":"%char l.
Proof. intros A I. apply A in I. discriminate. Qed.

Lemma int_negative l n : numeral l n -> int ("-"%char :: l) = Some (- n).
Proof.
  intros H. pose proof (int_numeral l n H) as E. apply numeral_shape in H. destruct H as (A & N & _).
  unfold int in *. rewrite strip_id in E by (intros c I; apply digit_space; auto).
  rewrite strip_id by (intros c [<-|I]; [reflexivity|apply digit_space; auto]). cbn [Ascii.eqb]. cbv beta iota.
  change (Ascii.eqb "-" "-") with true. cbv iota. destruct l as [|c l]; [contradiction|].
  pose proof (A c (or_introl eq_refl)) as D. rewrite (digit_not c "-"), (digit_not c "+") in E by (auto; reflexivity). now rewrite E.
Qed.

(** The type in front of the last colon. *)
Lemma interpret_typed e ty m n v : ty <> [] -> ~ In ":"%char v -> rpartition "." ty = (m, n) ->
  interpret_python_value e (Some (ty ++ ":"%char :: v)) =
  match e (match m with [] => lit "builtins" | _ => m end) n with
  | None => None
  | Some MTimedelta => match int v with Some n => option_map CDelta (timedelta 0 0 n) | None => None end
  | Some MBool => Some (CBool (teq (lower v) (lit "true")))
  | Some (MCall f) => f v
  end.
Proof. intros N C R. cbn. rewrite (rpart_app _ _ _ C). destruct ty; [contradiction|]. now rewrite R. Qed.

Lemma builtin_found e n ty v : builtin n ty -> n <> ""%string -> ~ In "."%char (lit n) -> ~ In ":"%char v ->
  interpret_python_value e (Some (ty ++ ":"%char :: v)) =
  match e (lit "builtins") (lit n) with
  | None => None
  | Some MTimedelta => match int v with Some n => option_map CDelta (timedelta 0 0 n) | None => None end
  | Some MBool => Some (CBool (teq (lower v) (lit "true")))
  | Some (MCall f) => f v
  end.
Proof.
  intros [->| ->] N D C.
  - rewrite (interpret_typed e (lit n) [] (lit n) v); [reflexivity| |exact C|now apply rpart_none].
    destruct n; [contradiction|discriminate].
  - rewrite (interpret_typed e (lit ("builtins." ++ n)) (lit "builtins") (lit n) v); [reflexivity|discriminate|exact C|].
    change (lit ("builtins." ++ n)) with (lit "builtins" ++ "."%char :: lit n). now apply rpart_app.
Qed.

Ltac nodot := let H := fresh in intros H; cbn in H; intuition discriminate.

Lemma interpreted e v l : ordinary_python e -> written v l -> interpret_python_value e (Some l) = Some v.
Proof.
  intros (Es & Ei & Eb & Ed) W. destruct W as [s C|ty s B C|ty l n B Nm|ty l n B Nm|ty l b B F|l n Nm L].
  - cbn. now rewrite rpart_none.
  - etransitivity; [apply (builtin_found e "str" ty s B); [discriminate|nodot|exact C]|]. now rewrite Es.
  - etransitivity; [apply (builtin_found e "int" ty l B); [discriminate|nodot|]|rewrite Ei, (int_numeral _ _ Nm); reflexivity].
    apply digits_no_colon. now apply numeral_shape in Nm.
  - etransitivity; [apply (builtin_found e "int" ty ("-"%char :: l) B); [discriminate|nodot|]|rewrite Ei, (int_negative _ _ Nm); reflexivity].
    intros [I|I]; [discriminate|]. revert I. apply digits_no_colon. now apply numeral_shape in Nm.
  - etransitivity; [apply (builtin_found e "bool" ty l B); [discriminate|nodot|exact (either_colon _ _ F (letters b))]|].
    rewrite Eb, (lower_word _ _ F (letters b)). now destruct b.
  - etransitivity; [apply (interpret_typed e (lit "datetime.timedelta") (lit "datetime") (lit "timedelta") l); [discriminate| |reflexivity]|].
    + apply digits_no_colon. now apply numeral_shape in Nm.
    + change (match lit "datetime" with [] => lit "builtins" | _ => lit "datetime" end) with (lit "datetime"). rewrite Ed.
      rewrite (int_numeral _ _ Nm), timedelta_ok; [cbn [option_map]; do 2 f_equal; lia|]. pose proof (numeral_nonneg _ _ Nm). lia.
Qed.

Lemma written_once v v' l : written v l -> written v' l -> v = v'.
Proof.
  intros H H'.
  set (e := fun m n : text =>
    if teq m (lit "builtins") then
      if teq n (lit "str") then Some (MCall (fun t => Some (CStr t)))
      else if teq n (lit "int") then Some (MCall (fun t => option_map CInt (int t)))
      else if teq n (lit "bool") then Some MBool else None
    else if teq m (lit "datetime") then if teq n (lit "timedelta") then Some MTimedelta else None else None).
  assert (O : ordinary_python e) by (repeat split).
  pose proof (interpreted e v l O H). pose proof (interpreted e v' l O H'). congruence.
Qed.

Lemma string_inj l l' : string_of_list_ascii l = string_of_list_ascii l' -> l = l'.
Proof. intros E. rewrite <- (list_ascii_of_string_of_list_ascii l), E. apply list_ascii_of_string_of_list_ascii. Qed.

Lemma given_wild l : given (option_map string_of_list_ascii (handle_strike_wildcard l)) = option_map string_of_list_ascii (handle_strike_wildcard l).
Proof.
  destruct (handle_strike_wildcard l) as [t|] eqn:E; [|reflexivity]. cbn. destruct t; [|reflexivity].
  exfalso. unfold handle_strike_wildcard in E. destruct (teq l []) eqn:T; [discriminate|]. destruct (teq l (lit "*")); [discriminate|].
  cbn in E. injection E as ->. discriminate.
Qed.

Lemma hits_match o v n : is_match v o (PInt n) = true <-> hits o v n.
Proof.
  destruct v as [a|s|l|l].
  - destruct (C29_operators a n n) as (H1 & H2 & H3 & H4 & H5 & H6 & _). destruct o; cbn [hits]; try assumption. cbn. intuition discriminate.
  - cbn [hits]. destruct o; cbn; split; intros; try discriminate; reflexivity.
  - cbn [hits]. destruct o; cbn; split; intros; try discriminate; reflexivity.
  - cbn [hits]. destruct o; cbn; split; intros; try discriminate; reflexivity.
Qed.

(** One strike, alone. *)
Lemma alone i t : in_strike i = true -> hashable (in_val i) = true ->
  (stricken (sl_run sl_empty [i]) t = true <-> describes i t).
Proof.
  intros S H. rewrite (blocked_iff [i] t).
  - split; [intros (j & [<-|[]] & _ & D); exact D|]. intros D. exists i. split; [now left|]. split; [|exact D].
    exists [], i, []. split; [reflexivity|]. split; [exact S|]. split; [apply same_refl|]. intros ? [].
  - intros a b f [<-|[]] [<-|[]]. tauto.
  - intros a [<-|[]]. exact H.
Qed.
(** A strike and the same restored. *)
Lemma undone i j t : in_strike j = false -> hashable (in_val i) = true -> in_val i = in_val j -> in_op i = in_op j ->
  in_fn i = in_fn j -> in_param i = in_param j -> stricken (sl_run sl_empty [i; j]) t = false.
Proof.
  intros S H E1 E2 E3 E4. destruct (stricken (sl_run sl_empty [i; j]) t) eqn:B; [|reflexivity].
  apply (restored [i] j t) in B; [| | |exact S].
  - destruct B as (k & [<-|[]] & _ & N & _). exfalso. apply N. unfold same_strike. now rewrite E3, E4, E2, E1.
  - intros a b f [<-|[<-|[]]] [<-|[<-|[]]]; rewrite ?E4; tauto.
  - intros a [<-|[<-|[]]]; [exact H|now rewrite <- E1].
Qed.

Lemma commanded e b f p o v l w : ordinary_python e -> written v l -> pv_of v = Some w -> ~ anything p ->
  exists x, command e b f p o (Some l) = Some x /\
    instruction x = Some (mkInstr b (option_map string_of_list_ascii (handle_strike_wildcard f)) (Some (string_of_list_ascii p)) o w).
Proof.
  intros O W P A. unfold command. rewrite (tame p A), (interpreted e v l O W). cbn [option_map].
  destruct (handle_strike_wildcard f); (eexists; split; [reflexivity|]; unfold instruction; cbn [or_val]; rewrite P; reflexivity).
Qed.

Lemma described f p o w t : ~ anything p ->
  describes (mkInstr true (option_map string_of_list_ascii (handle_strike_wildcard f)) (Some (string_of_list_ascii p)) o w) t <->
  meant f (tg_fn t) /\ exists args v, tg_args t = Some args /\ In (string_of_list_ascii p, v) args /\ is_match v o w = true.
Proof.
  intros A. unfold describes. cbn [in_fn in_param in_op in_val]. rewrite given_wild.
  pose proof (given_wild p) as G. rewrite (tame p A) in G. cbn [option_map] in G. rewrite G.
  assert (M : (option_map string_of_list_ascii (handle_strike_wildcard f) = None \/
               option_map string_of_list_ascii (handle_strike_wildcard f) = Some (tg_fn t)) <-> meant f (tg_fn t)).
  { unfold meant. destruct (handle_strike_wildcard f) as [f'|] eqn:E.
    - assert (NA : ~ anything f) by (intros X; apply wild in X; congruence). rewrite (tame f NA) in E. injection E as <-. cbn.
      split; [intros [X|X]; [discriminate|injection X as <-; now right]|intros [X|X]; [contradiction|right; congruence]].
    - apply wild in E. cbn. tauto. }
  rewrite <- M. destruct (option_map string_of_list_ascii (handle_strike_wildcard f)); tauto.
Qed.

(** ** C77: a strike on the command line means what it says *)

(** Every value written in one of the documented forms is that value; *)
Theorem C77_value e v l : ordinary_python e -> written v l -> interpret_python_value e (Some l) = Some v.
Proof. exact (interpreted e v l). Qed.
Print Assumptions C77_value.
(** so no text means two values. *)
Theorem C77_one_meaning v v' l : written v l -> written v' l -> v = v'.
Proof. exact (written_once v v' l). Qed.
Print Assumptions C77_one_meaning.

(** A strike with a number blocks exactly the calls of that function (any function, if
    none is named) with an argument that compares so, and the restore with the same words
    lifts it. *)
Theorem C77_number e f p o l n : ordinary_python e -> written (CInt n) l -> ~ anything p ->
  exists x i y j, command e true f p o (Some l) = Some x /\ instruction x = Some i /\
    command e false f p o (Some l) = Some y /\ instruction y = Some j /\
    forall t, (stricken (sl_run sl_empty [i]) t = true <->
                meant f (tg_fn t) /\ exists args v, tg_args t = Some args /\ In (string_of_list_ascii p, v) args /\ hits o v n) /\
              stricken (sl_run sl_empty [i; j]) t = false.
Proof.
  intros O W A. destruct (commanded e true f p o (CInt n) l (PInt n) O W eq_refl A) as (x & X & I).
  destruct (commanded e false f p o (CInt n) l (PInt n) O W eq_refl A) as (y & Y & J).
  eexists x, _, y, _. split; [exact X|]. split; [exact I|]. split; [exact Y|]. split; [exact J|].
  intros t. split; [|now apply undone]. rewrite alone by reflexivity. rewrite (described f p o (PInt n) t A).
  split; intros (M & args & v & E & H & T); (split; [exact M|]; exists args, v; split; [exact E|]; split; [exact H|]; now apply hits_match).
Qed.
Print Assumptions C77_number.

(** A strike with a text without a colon blocks exactly the calls with that very text. *)
Theorem C77_text_partial e f p s : ordinary_python e -> ~ In ":"%char s -> ~ anything p ->
  exists x i y j, command e true f p OpEq (Some s) = Some x /\ instruction x = Some i /\
    command e false f p OpEq (Some s) = Some y /\ instruction y = Some j /\
    forall t, (stricken (sl_run sl_empty [i]) t = true <->
                meant f (tg_fn t) /\ exists args, tg_args t = Some args /\ In (string_of_list_ascii p, PStr (string_of_list_ascii s)) args) /\
              stricken (sl_run sl_empty [i; j]) t = false.
Proof.
  intros O C A. pose proof (w_plain s C) as W. destruct (commanded e true f p OpEq (CStr s) s _ O W eq_refl A) as (x & X & I).
  destruct (commanded e false f p OpEq (CStr s) s _ O W eq_refl A) as (y & Y & J).
  eexists x, _, y, _. split; [exact X|]. split; [exact I|]. split; [exact Y|]. split; [exact J|].
  intros t. split; [|now apply undone]. rewrite alone by reflexivity. rewrite (described f p OpEq _ t A).
  split; intros (M & args & H).
  - destruct H as (v & E & H & T). split; [exact M|]. exists args. split; [exact E|].
    destruct v as [a|s'|q|q]; try discriminate. cbn in T. apply String.eqb_eq in T. now subst s'.
  - destruct H as (E & H). split; [exact M|]. exists args, (PStr (string_of_list_ascii s)). split; [exact E|]. split; [exact H|].
    cbn. apply String.eqb_refl.
Qed.
Print Assumptions C77_text_partial.

(** With any operator: exactly the calls with an argument that compares so with the text. *)
Lemma hits_text_match o v s : is_match v o (PStr s) = true <-> hits_text o v s.
Proof.
  destruct (C29_compare v (PStr s)) as (H1 & H2 & H3 & H4 & H5 & H6 & _). destruct o; cbn [hits_text]; try assumption.
  cbn [is_match unpack2]. destruct s as [|a [|b [|c s]]]; try (split; [discriminate|intros (x & y & E & _); discriminate]).
  rewrite andb_true_iff, !le_iff. split.
  - intros [A B]. exists a, b. split; [reflexivity|]. cbn zeta. split; [destruct A; auto|exact B].
  - intros (x & y & E & A & B). injection E as <- <-. split; [destruct A; auto|exact B].
Qed.
Theorem C77_text e f p o l s : ordinary_python e -> written (CStr s) l -> ~ anything p ->
  exists x i y j, command e true f p o (Some l) = Some x /\ instruction x = Some i /\
    command e false f p o (Some l) = Some y /\ instruction y = Some j /\
    forall t, (stricken (sl_run sl_empty [i]) t = true <->
                meant f (tg_fn t) /\ exists args v, tg_args t = Some args /\ In (string_of_list_ascii p, v) args /\ hits_text o v (string_of_list_ascii s)) /\
              stricken (sl_run sl_empty [i; j]) t = false.
Proof.
  intros O W A. destruct (commanded e true f p o (CStr s) l _ O W eq_refl A) as (x & X & I).
  destruct (commanded e false f p o (CStr s) l _ O W eq_refl A) as (y & Y & J).
  eexists x, _, y, _. split; [exact X|]. split; [exact I|]. split; [exact Y|]. split; [exact J|].
  intros t. split; [|now apply undone]. rewrite alone by reflexivity. rewrite (described f p o _ t A).
  split; intros (M & args & v & E & H & T); (split; [exact M|]; exists args, v; split; [exact E|]; split; [exact H|]; now apply hits_text_match).
Qed.
Print Assumptions C77_text.
Example C77_text_case : written (CStr (lit "m")) (lit "str:m") /\ hits_text OpLt (PStr "a") "m" /\ ~ hits_text OpLt (PStr "z") "m" /\ ~ hits_text OpLt (PInt 1) "m" /\ hits_text OpBetween (PStr "cat") "ad".
Proof.
  split; [apply (w_str (lit "str")); [now left|cbn; intuition discriminate]|]. split; [constructor; exact (tb_at "" (ascii_of_nat 97) (ascii_of_nat 109) "" "" eq_refl)|].
  split; [intros H; apply (hits_text_match OpLt) in H; discriminate|]. split; [intros H; apply (hits_text_match OpLt) in H; discriminate|]. now apply hits_text_match.
Qed.

(** Without a parameter the whole function is struck, whatever else is said; without
    either there is no strike. *)
Theorem C77_whole e f p o v l w : ordinary_python e -> written v l -> pv_of v = Some w -> anything p ->
  match command e true f p o (Some l) with
  | Some x => ~ anything f /\ exists i, instruction x = Some i /\
      forall t, stricken (sl_run sl_empty [i]) t = true <-> tg_fn t = string_of_list_ascii f
  | None => anything f
  end.
Proof.
  intros O W P A. unfold command. rewrite (proj2 (wild p) A), (interpreted e v l O W).
  destruct (handle_strike_wildcard f) as [f'|] eqn:E; [|now apply wild].
  assert (NA : ~ anything f) by (intros X; apply wild in X; congruence). rewrite (tame f NA) in E. injection E as <-.
  split; [exact NA|]. eexists. split; [unfold instruction; cbn [option_map or_val]; rewrite P; reflexivity|].
  intros t. cbn [or_strike or_fn or_param or_op option_map]. rewrite alone; [|reflexivity|cbn; destruct v; try discriminate; injection P as <-; reflexivity].
  unfold describes. cbn [in_fn in_param]. pose proof (given_wild f) as G. rewrite (tame f NA) in G. cbn [option_map] in G. rewrite G. cbn [given]. reflexivity.
Qed.
Print Assumptions C77_whole.

(** A Python with nothing but the four types. *)
Definition python : env := fun m n =>
  if teq m (lit "builtins") then
    if teq n (lit "str") then Some (MCall (fun t => Some (CStr t)))
    else if teq n (lit "int") then Some (MCall (fun t => option_map CInt (int t)))
    else if teq n (lit "bool") then Some MBool else None
  else if teq m (lit "datetime") then if teq n (lit "timedelta") then Some MTimedelta else None else None.

Example C77_case : ordinary_python python /\
  written (CInt 10) (lit "int:10") /\ written (CInt (-7)) (lit "builtins.int:-7") /\ written (CBool true) (lit "bool:True") /\
  written (CDelta 90) (lit "datetime.timedelta:90") /\ written (CStr (lit "10")) (lit "10") /\
  option_map or_val (command python true (lit "f") (lit "x") OpGt (Some (lit "int:10"))) = Some (CInt 10) /\
  ~ anything (lit "x") /\ meant (lit "*") "g" /\ hits OpGt (PInt 11) 10 /\ ~ hits OpGt (PInt 10) 10 /\ ~ hits OpEq (PStr "10") 10 /\
  command python true (lit "*") [] OpEq (Some (lit "10")) = None.
Proof.
  split; [repeat split|]. split; [apply (w_int (lit "int") (lit "10") 10); [now left|]|].
  { apply (num_more (lit "1") 1 "0"%char); [apply (num_one "1")|]; reflexivity. }
  split; [apply (w_neg (lit "builtins.int") (lit "7") 7); [now right|apply (num_one "7"); reflexivity]|].
  split; [apply (w_bool (lit "bool") (lit "True") true); [now left|]|].
  { repeat (apply Forall2_cons; [first [left; reflexivity|right; split; [vm_compute; split; discriminate|reflexivity]]|]). apply Forall2_nil. }
  split; [apply (w_delta (lit "90") 90); [apply (num_more (lit "9") 9 "0"%char); [apply (num_one "9")|]; reflexivity|reflexivity]|].
  split; [apply w_plain; cbn; intuition discriminate|]. split; [vm_compute; reflexivity|].
  split; [intros [H|H]; discriminate|]. split; [left; now right|]. cbn [hits]. split; [lia|]. split; [lia|]. split; [discriminate|]. vm_compute. reflexivity.
Qed.

(** Not so for texts with a colon: what precedes the last one is taken for a type.  Where
    there is no builtin "http", striking "http://x" raises; and with the four types no
    words at all give a text with a colon. *)
Theorem C77_colon_refuted :
  (forall e, e (lit "builtins") (lit "http") = None -> interpret_python_value e (Some (lit "http://x")) = None) /\
  (forall e f p o l x s, (forall m n, match e m n with
       | Some (MCall g) => (forall t, g t = Some (CStr t)) \/ (forall t u, g t <> Some (CStr u)) | _ => True end) ->
     command e true f p o (Some l) = Some x -> or_val x = CStr s -> ~ In ":"%char s).
Proof.
  split.
  - intros e H. cbn. change (lit "builtins") with (lit "builtins") in H. unfold lit in H. cbn in H. now rewrite H.
  - intros e f p o l x s T C V.
    assert (I : interpret_python_value e (Some l) = Some (CStr s)).
    { unfold command in C. destruct (handle_strike_wildcard f), (handle_strike_wildcard p); try discriminate;
        destruct (interpret_python_value e (Some l)) as [v|]; try discriminate; cbn in C; injection C as <-; cbn in V; now subst v. }
    cbn in I. pose proof (rpart_after ":"%char l) as R. destruct (rpartition ":" l) as [ty v]. cbn [snd] in R. destruct ty as [|c ty].
    + injection I as <-. exact R.
    + destruct (rpartition "." (c :: ty)) as [m n]. specialize (T (match m with [] => lit "builtins" | _ => m end) n).
      destruct (e _ n) as [[| |g]|]; try discriminate.
      * destruct (int v); [|discriminate]. destruct (timedelta 0 0 z); discriminate.
      * destruct T as [T|T]; [rewrite T in I; injection I as <-; exact R|exfalso; exact (T _ _ I)].
Qed.
Print Assumptions C77_colon_refuted.
Example C77_colon_case : (forall m n, match python m n with
    | Some (MCall g) => (forall t, g t = Some (CStr t)) \/ (forall t u, g t <> Some (CStr u)) | _ => True end) /\
  python (lit "builtins") (lit "http") = None /\
  command python true (lit "f") (lit "url") OpEq (Some (lit "str:http://x")) = None /\
  option_map or_val (command python true (lit "f") (lit "url") OpEq (Some (lit ":x"))) = Some (CStr (lit "x")).
Proof.
  split; [|repeat split; vm_compute; reflexivity]. intros m n. unfold python.
  destruct (teq m _); [|destruct (teq m _); [destruct (teq n _)|]; exact Logic.I].
  destruct (teq n _); [left; reflexivity|]. destruct (teq n _); [|destruct (teq n _); exact Logic.I].
  right. intros t u. destruct (int t); discriminate.
Qed.

(** Nor for the operator "between": with the texts and numbers a command can give, it never
    matches a number. *)
Theorem C77_between_refuted e f p l x i z : command e true f p OpBetween (Some l) = Some x -> instruction x = Some i ->
  is_match (PInt z) (in_op i) (in_val i) = false.
Proof.
  intros C I. assert (O : or_op x = OpBetween).
  { unfold command in C. destruct (handle_strike_wildcard f), (handle_strike_wildcard p); try discriminate;
      destruct (interpret_python_value e (Some l)); try discriminate; cbn in C; now injection C as <-. }
  unfold instruction in I. destruct (pv_of (or_val x)) as [w|] eqn:P; [|discriminate]. cbn in I. injection I as <-. cbn [in_op in_val]. rewrite O.
  destruct (or_val x); try discriminate; cbn in P; injection P as <-; cbn; [|reflexivity].
  destruct (string_of_list_ascii t) as [|a [|b [|c r]]]; reflexivity.
Qed.
Print Assumptions C77_between_refuted.
Example C77_between_case : exists x i, command python true (lit "f") (lit "x") OpBetween (Some (lit "int:5")) = Some x /\ instruction x = Some i.
Proof. eexists _, _. split; vm_compute; reflexivity. Qed.
