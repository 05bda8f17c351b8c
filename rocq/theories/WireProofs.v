(** Round trips: UTF-8, numerals, ISO times, messages. *)
From Verif Require Import Base Text Instant Wire SpecWire.

Local Arguments Z.add : simpl never.
Local Arguments Z.sub : simpl never.
Local Arguments Z.mul : simpl never.
Local Arguments Z.ltb : simpl never.
Local Arguments Z.leb : simpl never.
Local Arguments Z.div : simpl never.
Local Arguments Z.modulo : simpl never.

(** ** UTF-8 *)

Lemma divmod64 c : c = 64 * (c / 64) + c mod 64 /\ 0 <= c mod 64 < 64.
Proof. split; [apply Z.div_mod; lia|apply Z.mod_pos_bound; lia]. Qed.

Ltac ztest := repeat match goal with
  | |- context [?a <? ?b] => destruct (Z.ltb_spec a b); try lia
  | |- context [?a <=? ?b] => destruct (Z.leb_spec a b); try lia
  end.

Lemma encode1_some c : 0 <= c <= 1114111 -> ~ 55296 <= c <= 57343 -> exists b, encode1 c = Some b.
Proof.
  intros H S. unfold encode1, surrogate. ztest; cbn; eauto; lia.
Qed.

Lemma encode1_none c : 55296 <= c <= 57343 -> encode1 c = None.
Proof. intros H. unfold encode1, surrogate. ztest. reflexivity. Qed.

Lemma decode_encode1 c b r : 0 <= c <= 1114111 -> encode1 c = Some b ->
  decode (b ++ r) = option_map (cons c) (decode r).
Proof.
  intros H. unfold encode1. destruct (Z.ltb_spec c 128) as [H1|H1].
  { intros [= <-]. cbn [app decode]. destruct (Z.ltb_spec c 128); [reflexivity|lia]. }
  destruct (Z.ltb_spec c 2048) as [H2|H2].
  { intros [= <-]. destruct (divmod64 c) as [E B]. set (q := c / 64) in *. set (m := c mod 64) in *. clearbody q m.
    cbn [app decode]. unfold cont. replace ((192 + q - 192) * 64 + (128 + m - 128)) with c by lia. ztest; reflexivity. }
  destruct (surrogate c) eqn:Su; [discriminate|]. unfold surrogate in Su.
  destruct (Z.ltb_spec c 65536) as [H3|H3]; intros [= <-].
  - replace (c / 4096) with (c / 64 / 64) by (rewrite Z.div_div by lia; reflexivity).
    destruct (divmod64 c) as [E B]. set (q := c / 64) in *. set (m := c mod 64) in *. clearbody q m.
    destruct (divmod64 q) as [E' B']. set (q' := q / 64) in *. set (m' := q mod 64) in *. clearbody q' m'.
    cbn [app decode]. unfold cont, surrogate.
    replace ((224 + q' - 224) * 4096 + (128 + m' - 128) * 64 + (128 + m - 128)) with c by lia.
    ztest; cbn [negb andb orb]; reflexivity.
  - replace (c / 262144) with (c / 64 / 64 / 64) by (rewrite !Z.div_div by lia; reflexivity).
    replace (c / 4096) with (c / 64 / 64) by (rewrite Z.div_div by lia; reflexivity).
    destruct (divmod64 c) as [E B]. set (q := c / 64) in *. set (m := c mod 64) in *. clearbody q m.
    destruct (divmod64 q) as [E' B']. set (q' := q / 64) in *. set (m' := q mod 64) in *. clearbody q' m'.
    destruct (divmod64 q') as [E'' B'']. set (q'' := q' / 64) in *. set (m'' := q' mod 64) in *. clearbody q'' m''.
    cbn [app decode]. unfold cont, surrogate.
    replace ((240 + q'' - 240) * 262144 + (128 + m'' - 128) * 4096 + (128 + m' - 128) * 64 + (128 + m - 128)) with c by lia.
    ztest; cbn [negb andb orb]; reflexivity.
Qed.

Lemma decode_encode t b : is_text t -> encode t = Some b -> decode b = Some t.
Proof.
  revert b. induction t as [|c t IH]; cbn; intros b H E; [now injection E as <-|].
  inversion_clear H as [|? ? Hc Ht]. destruct (encode1 c) as [b1|] eqn:E1; [|discriminate].
  destruct (encode t) as [b2|]; [|discriminate]. injection E as <-.
  rewrite (decode_encode1 c) by assumption. now rewrite (IH b2).
Qed.

Lemma encode_iff t : is_text t -> (encode t <> None <-> ~ has_surrogate t).
Proof.
  induction t as [|c t IH]; intros H; cbn; [split; [intros _ (c & [] & _)|discriminate]|].
  inversion_clear H as [|? ? Hc Ht]. specialize (IH Ht).
  destruct (Z_le_dec 55296 c) as [A|A]; [destruct (Z_le_dec c 57343) as [B|B]|].
  - rewrite encode1_none by lia. split; [congruence|]. intros N. exfalso. apply N. exists c. split; [now left|lia].
  - destruct (encode1_some c) as [b ->]; [lia|lia|]. destruct (encode t) as [b'|].
    + split; [|congruence]. intros _ (d & [<-|Hd] & Hs); [lia|]. apply (proj1 IH); [congruence|]. now exists d.
    + split; [congruence|]. intros N. exfalso. apply (proj2 IH); [|reflexivity]. intros (d & Hd & Hs). apply N. exists d. split; [now right|exact Hs].
  - destruct (encode1_some c) as [b ->]; [lia|lia|]. destruct (encode t) as [b'|].
    + split; [|congruence]. intros _ (d & [<-|Hd] & Hs); [lia|]. apply (proj1 IH); [congruence|]. now exists d.
    + split; [congruence|]. intros N. exfalso. apply (proj2 IH); [|reflexivity]. intros (d & Hd & Hs). apply N. exists d. split; [now right|exact Hs].
Qed.

Lemma encode_ascii t : ascii_text t = true -> encode t = Some t.
Proof.
  induction t as [|c t IH]; cbn; [reflexivity|]. intros H. apply andb_prop in H. destruct H as [H1 H2].
  unfold encode1. rewrite IH by assumption. destruct (Z.ltb_spec c 128); [reflexivity|lia].
Qed.

Lemma decode_ascii t : ascii_text t = true -> decode t = Some t.
Proof.
  induction t as [|c t IH]; cbn; [reflexivity|]. intros H. apply andb_prop in H. destruct H as [H1 H2].
  destruct (Z.ltb_spec c 128); [now rewrite IH|lia].
Qed.

(** ** Numbers *)

Lemma uncodes_codes s : uncodes (codes s) = s.
Proof. induction s as [|a s IH]; cbn; [reflexivity|]. now rewrite Nat2Z.id, ascii_nat_embedding, IH. Qed.

Lemma ascii_app a b : ascii_text (a ++ b) = ascii_text a && ascii_text b.
Proof. unfold ascii_text. apply forallb_app. Qed.

Lemma str_ascii n : ascii_text (str n) = true.
Proof.
  unfold str. pose proof (dec_digits n) as D. induction (dec n) as [|a s IH]; cbn in *; [reflexivity|].
  apply andb_prop in D. destruct D as [Da Ds]. change (((0 <=? Z.of_nat (nat_of_ascii a)) && (Z.of_nat (nat_of_ascii a) <? 128)) && ascii_text (codes s) = true).
  rewrite IH by exact Ds. rewrite andb_true_r.
  destruct a as [[] [] [] [] [] [] [] []]; cbn in Da; try discriminate Da; reflexivity.
Qed.

Lemma int_str n : int (str n) = Some n.
Proof. unfold int. rewrite str_ascii. unfold str. rewrite uncodes_codes. apply undec_dec. Qed.

Lemma tostring_str n : counter n -> tostring n = str n.
Proof. unfold counter, tostring. intros H. destruct (Z.ltb_spec n (10 ^ 14)); [reflexivity|lia]. Qed.

(** ** Times *)

Lemma ascii_pad2 n : 0 <= n < 100 -> ascii_text (pad2 n) = true.
Proof. intros H. cbn. pose proof (Z.div_mod n 10). pose proof (Z.mod_pos_bound n 10). lia. Qed.

Lemma num2 n r : 0 <= n < 100 -> num 2 (pad2 n ++ r) = Some (n, r).
Proof.
  intros H. unfold num, pad2. cbn [app digits]. pose proof (Z.div_mod n 10 ltac:(lia)) as D. pose proof (Z.mod_pos_bound n 10 ltac:(lia)) as B.
  set (q := n / 10) in *. set (m := n mod 10) in *. clearbody q m. ztest. cbn [andb]. do 2 f_equal. lia.
Qed.

Lemma digits_app n m a t : digits (n + m) a t = match digits n a t with Some (b, r) => digits m b r | None => None end.
Proof.
  revert a t. induction n as [|n IH]; intros a t; [reflexivity|]. cbn. destruct t as [|c t]; [reflexivity|].
  destruct ((48 <=? c) && (c <=? 57)); [apply IH|reflexivity].
Qed.

Lemma digits2 a n r : 0 <= n < 100 -> digits 2 a (pad2 n ++ r) = Some (a * 100 + n, r).
Proof.
  intros H. unfold pad2. cbn [app digits]. pose proof (Z.div_mod n 10 ltac:(lia)) as D. pose proof (Z.mod_pos_bound n 10 ltac:(lia)) as B.
  set (q := n / 10) in *. set (m := n mod 10) in *. clearbody q m. ztest. cbn [andb]. do 2 f_equal. lia.
Qed.

Lemma digits4 a n r : 0 <= n < 10000 -> digits 4 a (pad4 n ++ r) = Some (a * 10000 + n, r).
Proof.
  intros H. unfold pad4. rewrite <- app_assoc. change 4%nat with (2 + 2)%nat. rewrite digits_app.
  pose proof (Z.div_mod n 100 ltac:(lia)) as D. pose proof (Z.mod_pos_bound n 100 ltac:(lia)) as B.
  rewrite digits2 by lia. rewrite digits2 by lia. do 2 f_equal. lia.
Qed.

Lemma num4 n r : 0 <= n < 10000 -> num 4 (pad4 n ++ r) = Some (n, r).
Proof. intros H. unfold num. now rewrite digits4. Qed.

Lemma num6 n r : 0 <= n < 1000000 -> num 6 (pad6 n ++ r) = Some (n, r).
Proof.
  intros H. unfold num, pad6. rewrite <- app_assoc. change 6%nat with (2 + 4)%nat. rewrite digits_app.
  pose proof (Z.div_mod n 10000 ltac:(lia)) as D. pose proof (Z.mod_pos_bound n 10000 ltac:(lia)) as B.
  rewrite digits2 by lia. rewrite digits4 by lia. do 2 f_equal. lia.
Qed.

Lemma lit_cons c r : lit c (c :: r) = Some r.
Proof. cbn. now rewrite Z.eqb_refl. Qed.

Lemma lit_ne c d r : d <> c -> lit c (d :: r) = None.
Proof. intros H. cbn. destruct (Z.eqb_spec d c); [contradiction|reflexivity]. Qed.

(** hh:mm:ss with or without microseconds, followed by a sign or by nothing. *)
Definition stops (r : text) : Prop := r = [] \/ exists c q, r = c :: q /\ (c = 43 \/ c = 45).

Lemma stops_lit c r : stops r -> c <> 43 -> c <> 45 -> lit c r = None.
Proof. intros [->|(d & q & -> & [->| ->])] H1 H2; [reflexivity|apply lit_ne; congruence|apply lit_ne; congruence]. Qed.

Lemma clock_full h m s us r : 0 <= h < 100 -> 0 <= m < 100 -> 0 <= s < 100 -> 0 <= us < 1000000 -> stops r ->
  clock (pad2 h ++ [58] ++ pad2 m ++ [58] ++ pad2 s ++ (if us =? 0 then [] else [46] ++ pad6 us) ++ r) =
  Some (h, m, s, us, r).
Proof.
  intros H1 H2 H3 H4 S. unfold clock. rewrite num2 by assumption. cbn [app]. rewrite lit_cons. rewrite num2 by assumption.
  cbn [app]. rewrite lit_cons. rewrite num2 by assumption. destruct (Z.eqb_spec us 0) as [->|N]; cbn [app].
  - rewrite stops_lit by (try assumption; lia). reflexivity.
  - rewrite lit_cons. rewrite num6 by assumption. reflexivity.
Qed.

Lemma clock_short h m r : 0 <= h < 100 -> 0 <= m < 100 -> stops r ->
  clock (pad2 h ++ [58] ++ pad2 m ++ r) = Some (h, m, 0, 0, r).
Proof.
  intros H1 H2 S. unfold clock. rewrite num2 by assumption. cbn [app]. rewrite lit_cons. rewrite num2 by assumption.
  rewrite stops_lit by (try assumption; lia). reflexivity.
Qed.

Lemma offset_clock off : - 86400000000 < off < 86400000000 ->
  exists sign t h m s us, iso_offset off = sign :: t /\ (sign = 43 \/ sign = 45) /\ clock t = Some (h, m, s, us, []) /\
    (if sign =? 45 then - (((h * 60 + m) * 60 + s) * 1000000 + us) else ((h * 60 + m) * 60 + s) * 1000000 + us) = off.
Proof.
  intros H. unfold iso_offset.
  assert (A : 0 <= Z.abs off < 86400000000) by lia. set (a := Z.abs off) in *.
  assert (Ea : a = Z.abs off) by reflexivity. clearbody a.
  pose proof (Z.div_mod a 1000000 ltac:(lia)) as D1. pose proof (Z.mod_pos_bound a 1000000 ltac:(lia)) as B1.
  set (us := a mod 1000000) in *. set (s := a / 1000000) in *. clearbody us s.
  replace (s / 3600) with (s / 60 / 60) by (rewrite Z.div_div by lia; reflexivity).
  pose proof (Z.div_mod s 60 ltac:(lia)) as D2. pose proof (Z.mod_pos_bound s 60 ltac:(lia)) as B2.
  set (ss := s mod 60) in *. set (mm := s / 60) in *. clearbody ss mm.
  pose proof (Z.div_mod mm 60 ltac:(lia)) as D3. pose proof (Z.mod_pos_bound mm 60 ltac:(lia)) as B3.
  set (mi := mm mod 60) in *. set (hh := mm / 60) in *. clearbody mi hh.
  exists (if off <? 0 then 45 else 43).
  eexists. exists hh, mi, ss, us. split; [|split; [|split]].
  - destruct (off <? 0); reflexivity.
  - destruct (off <? 0); auto.
  - destruct (Z.eqb_spec ss 0) as [E1|E1]; [destruct (Z.eqb_spec us 0) as [E2|E2]|]; cbn [andb].
    + rewrite E1, E2. apply clock_short; [lia|lia|now left].
    + pose proof (clock_full hh mi ss us [] ltac:(lia) ltac:(lia) ltac:(lia) ltac:(lia) (or_introl eq_refl)) as C.
      destruct (Z.eqb_spec us 0); [contradiction|]. rewrite app_nil_r in C. exact C.
    + pose proof (clock_full hh mi ss us [] ltac:(lia) ltac:(lia) ltac:(lia) ltac:(lia) (or_introl eq_refl)) as C.
      rewrite app_nil_r in C. exact C.
  - destruct (Z.ltb_spec off 0); cbn; lia.
Qed.

Lemma days_month y m : 1 <= m <= 12 -> days_in y m = month_length y m.
Proof.
  intros H. assert (m = 1 \/ m = 2 \/ m = 3 \/ m = 4 \/ m = 5 \/ m = 6 \/ m = 7 \/ m = 8 \/ m = 9 \/ m = 10 \/ m = 11 \/ m = 12) as C by lia.
  unfold month_length, days_in, leap. repeat destruct C as [->|C]; try subst m; reflexivity.
Qed.

Lemma days_31 y m : days_in y m <= 31.
Proof. unfold days_in. destruct (m =? 2); [destruct (leap y); lia|]. destruct (_ || _); lia. Qed.

Lemma real_ok d : real d -> dt_ok d = true.
Proof.
  intros (A & B & C & D & E & F & G & H). rewrite <- days_month in C by assumption. unfold dt_ok. lia.
Qed.

Lemma iso_round_trip d : real d -> fromisoformat (isoformat d) = Some d.
Proof.
  intros R. pose proof (real_ok d R) as Ok. destruct R as (A & B & C & D & E & F & G & H).
  rewrite <- days_month in C by assumption. pose proof (days_31 (d_year d) (d_month d)) as M.
  unfold isoformat, fromisoformat. rewrite num4 by lia. cbn [app]. rewrite lit_cons, num2 by lia. cbn [app].
  rewrite lit_cons, num2 by lia. cbn [app].
  destruct (offset_clock (d_off d) H) as (sign & t & h & m & s & us & E1 & E2 & E3 & E4).
  pose proof (clock_full (d_hour d) (d_min d) (d_sec d) (d_us d) (iso_offset (d_off d)) ltac:(lia) ltac:(lia) ltac:(lia) ltac:(lia)) as CF.
  cbn [app] in CF. rewrite CF by (right; rewrite E1; eauto). rewrite E1, E3, E4.
  destruct d as [y mo da hh mi ss u off]. cbn [d_year d_month d_day d_hour d_min d_sec d_us d_off] in *. rewrite Ok.
  destruct E2 as [->| ->]; reflexivity.
Qed.

Lemma ascii_pad4 n : 0 <= n < 10000 -> ascii_text (pad4 n) = true.
Proof.
  intros H. unfold pad4. rewrite ascii_app. pose proof (Z.div_mod n 100 ltac:(lia)) as D. pose proof (Z.mod_pos_bound n 100 ltac:(lia)) as B.
  rewrite !ascii_pad2 by lia. reflexivity.
Qed.

Lemma ascii_pad6 n : 0 <= n < 1000000 -> ascii_text (pad6 n) = true.
Proof.
  intros H. unfold pad6. rewrite ascii_app. pose proof (Z.div_mod n 10000 ltac:(lia)) as D. pose proof (Z.mod_pos_bound n 10000 ltac:(lia)) as B.
  rewrite ascii_pad2, ascii_pad4 by lia. reflexivity.
Qed.

Lemma ascii_offset off : - 86400000000 < off < 86400000000 -> ascii_text (iso_offset off) = true.
Proof.
  intros H. unfold iso_offset.
  assert (A : 0 <= Z.abs off < 86400000000) by lia. set (a := Z.abs off) in *. clearbody a.
  pose proof (Z.div_mod a 1000000 ltac:(lia)) as D1. pose proof (Z.mod_pos_bound a 1000000 ltac:(lia)) as B1.
  set (us := a mod 1000000) in *. set (s := a / 1000000) in *. clearbody us s.
  replace (s / 3600) with (s / 60 / 60) by (rewrite Z.div_div by lia; reflexivity).
  pose proof (Z.div_mod s 60 ltac:(lia)) as D2. pose proof (Z.mod_pos_bound s 60 ltac:(lia)) as B2.
  set (ss := s mod 60) in *. set (mm := s / 60) in *. clearbody ss mm.
  pose proof (Z.div_mod mm 60 ltac:(lia)) as D3. pose proof (Z.mod_pos_bound mm 60 ltac:(lia)) as B3.
  rewrite !ascii_app, !ascii_pad2 by lia.
  destruct (off <? 0), (ss =? 0), (us =? 0); cbn [andb app]; try reflexivity; try (change (58 :: pad2 ss ++ ?r) with ([58] ++ pad2 ss ++ r));
    rewrite ?ascii_app, ?ascii_pad2 by lia; try reflexivity.
  all: change (ascii_text (58 :: ?r)) with (ascii_text r); rewrite ?ascii_app, ?ascii_pad2 by lia;
    cbn [andb]; try reflexivity; change (ascii_text (46 :: ?r)) with (ascii_text r); now rewrite ascii_pad6.
Qed.

Lemma ascii_iso d : real d -> ascii_text (isoformat d) = true.
Proof.
  intros (A & B & C & D & E & F & G & H). rewrite <- days_month in C by assumption. pose proof (days_31 (d_year d) (d_month d)) as M.
  unfold isoformat. rewrite !ascii_app, ascii_pad4, !ascii_pad2, ascii_offset by lia.
  destruct (d_us d =? 0); [reflexivity|]. rewrite ascii_app, ascii_pad6 by lia. reflexivity.
Qed.

(** ** Messages *)

Definition seven (k w f a kw at_ g : bytes) : message :=
  [(codes "key", k); (codes "when", w); (codes "function", f); (codes "args", a);
   (codes "kwargs", kw); (codes "attempt", at_); (codes "generation", g)].

Record sendable (x : execution) : Prop := {
  sn_key : is_text (x_key x) /\ ~ has_surrogate (x_key x);
  sn_fn : is_text (x_fn x) /\ ~ has_surrogate (x_fn x);
  sn_when : real (x_when x) }.

Lemma as_message_some x : sendable x -> exists k f, encode (x_key x) = Some k /\ encode (x_fn x) = Some f /\
  as_message x = Some (seven k (isoformat (x_when x)) f (x_args x) (x_kwargs x) (str (x_attempt x)) (str (x_gen x))).
Proof.
  intros [[T1 S1] [T2 S2] R]. unfold as_message.
  apply (encode_iff _ T1) in S1. apply (encode_iff _ T2) in S2.
  destruct (encode (x_key x)) as [k|]; [|contradiction]. destruct (encode (x_fn x)) as [f|]; [|contradiction].
  rewrite (encode_ascii (isoformat (x_when x))) by (now apply ascii_iso).
  rewrite !encode_ascii by apply str_ascii. now exists k, f.
Qed.

Lemma from_seven k w f a kw at_ g tr x : encode (x_key x) = Some k -> encode (x_fn x) = Some f -> sendable x ->
  w = isoformat (x_when x) -> a = x_args x -> kw = x_kwargs x -> at_ = str (x_attempt x) -> g = str (x_gen x) ->
  from_message (inject tr (seven k w f a kw at_ g)) = Some (x, tr).
Proof.
  intros Ek Ef [[T1 S1] [T2 S2] R] -> -> -> -> ->.
  apply decode_encode in Ek; [|assumption]. apply decode_encode in Ef; [|assumption].
  pose proof (decode_ascii _ (ascii_iso _ R)) as Dw. pose proof (iso_round_trip _ R) as Iw.
  pose proof (decode_ascii _ (str_ascii (x_attempt x))) as Da. pose proof (int_str (x_attempt x)) as Ia.
  pose proof (int_str (x_gen x)) as Ig. destruct x as [xk xw xf xa xkw xat xg]. cbn [x_key x_when x_fn x_args x_kwargs x_attempt x_gen] in *.
  set (wb := isoformat xw) in *. set (ab := str xat) in *. set (gb := str xg) in *. clearbody wb ab gb.
  set (M := inject tr (seven k wb f xa xkw ab gb)).
  assert (F1 : field (codes "function") M = Some f) by (unfold M; destruct tr as [[] [] []]; reflexivity).
  assert (F2 : field (codes "args") M = Some xa) by (unfold M; destruct tr as [[] [] []]; reflexivity).
  assert (F3 : field (codes "kwargs") M = Some xkw) by (unfold M; destruct tr as [[] [] []]; reflexivity).
  assert (F4 : field (codes "key") M = Some k) by (unfold M; destruct tr as [[] [] []]; reflexivity).
  assert (F5 : field (codes "when") M = Some wb) by (unfold M; destruct tr as [[] [] []]; reflexivity).
  assert (F6 : field (codes "attempt") M = Some ab) by (unfold M; destruct tr as [[] [] []]; reflexivity).
  assert (F7 : field (codes "generation") M = Some gb) by (unfold M; destruct tr as [[] [] []]; reflexivity).
  assert (F8 : extract M = tr) by (unfold M; destruct tr as [[] [] []]; reflexivity).
  clearbody M. unfold from_message.
  rewrite F1, Ef, F2, F3, F4, Ek, F5, Dw, Iw, F6, Da, Ia, F7, Ig, F8. reflexivity.
Qed.

Lemma splice_seven n k w f a kw at_ g tr :
  splice n (inject tr (seven k w f a kw at_ g)) = inject tr (seven k w f a kw at_ (tostring n)).
Proof. destruct tr as [[] [] []]; reflexivity. Qed.

Lemma queue_seven n k w f a kw at_ g tr :
  through_queue n (inject tr (seven k w f a kw at_ g)) = Some (seven k w f a kw at_ (tostring n)).
Proof. destruct tr as [[] [] []]; reflexivity. Qed.

Lemma inject_none m : inject no_trace m = m.
Proof. reflexivity. Qed.

Definition kept_trace (h : hop) : trace :=
  match h with Send false _ tr _ _ => tr | _ => no_trace end.

Lemma take_arrived h x : sendable x -> real_hop h -> take h x = Some (arrived x h, kept_trace h) /\ sendable (arrived x h).
Proof.
  intros S R. assert (S' : sendable (arrived x h)).
  { destruct S as [A B C]. destruct h as [p gen tr w a|g1 g2]; split; cbn; try assumption. apply R. }
  split; [|exact S']. destruct h as [p gen tr w a|g1 g2]; cbn [take arrived kept_trace real_hop] in *.
  - destruct R as [Rg Rw].
    set (x1 := mkEx (x_key x) w (x_fn x) (x_args x) (x_kwargs x) a (x_gen x)).
    assert (S1 : sendable x1) by (destruct S as [A B C]; split; assumption).
    destruct (as_message_some x1 S1) as (k & f & Ek & Ef & ->).
    destruct p.
    + rewrite queue_seven. rewrite <- (inject_none (seven _ _ _ _ _ _ _)).
      apply from_seven; try assumption; try reflexivity. cbn. now apply tostring_str.
    + unfold to_stream. rewrite splice_seven. apply from_seven; try assumption; try reflexivity. cbn. now apply tostring_str.
  - destruct R as [R1 R2]. destruct (as_message_some x S) as (k & f & Ek & Ef & ->).
    rewrite <- (inject_none (seven _ _ _ _ _ _ _)). rewrite !splice_seven.
    apply from_seven; try assumption; try reflexivity. cbn. now apply tostring_str.
Qed.

Lemma travel_arrived hs x tr : sendable x -> Forall real_hop hs ->
  travel hs x tr = Some (fold_left arrived hs x, fold_left (fun _ h => kept_trace h) hs tr).
Proof.
  revert x tr. induction hs as [|h hs IH]; intros x tr S R; [reflexivity|]. inversion_clear R as [|? ? Rh Rs].
  cbn [travel fold_left]. destruct (take_arrived h x S Rh) as [-> S']. now apply IH.
Qed.
