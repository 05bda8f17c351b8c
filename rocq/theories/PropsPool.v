(** C125, C126: the connections of a Sentinel URL, and closing them. *)
From Coq Require Import Ascii String List.
From Verif Require Import Base Duration PropsDuration Cli PropsCli Url SpecUrl PropsUrl Pool.
Import ListNotations.

(** ** C125: connections through Sentinel are what the URL says *)

(** The configuration gives option [n] the value [v]: the first that is not blank. *)
Definition option_is (c : sentinel) (n v : text) : Prop :=
  v <> [] /\ exists a b, s_options c = a ++ (n, v) :: b /\ forall x, In x a -> fst x = n -> snd x = [].
Definition no_option (c : sentinel) (n : text) : Prop := forall v, In (n, v) (s_options c) -> v = [].

Lemma funneled_is c n v : option_is c n v -> funneled c n = Some (VOption (unquote v)).
Proof.
  intros (N & a & b & E & F). unfold funneled. rewrite E. clear E. induction a as [|[m w] a IH]; cbn [app].
  - cbn [filter snd]. rewrite (teq_false v [] N). cbn [negb find fst]. rewrite (proj2 (teq_spec n n) eq_refl). reflexivity.
  - cbn [filter snd]. destruct (teq w []) eqn:W; cbn [negb]; [apply IH; intros x I; apply F; now right|].
    cbn [find fst]. destruct (teq m n) eqn:Mn; [|apply IH; intros x I; apply F; now right].
    apply teq_spec in Mn. pose proof (F (m, w) (or_introl eq_refl) Mn) as X. cbn in X. subst w. discriminate W.
Qed.
Lemma funneled_no c n : no_option c n -> funneled c n = None.
Proof.
  intros H. unfold funneled, no_option in *. induction (s_options c) as [|[m w] l IH]; [reflexivity|]. cbn [filter snd].
  assert (IH' := IH (fun v I => H v (or_intror I))). destruct (teq w []) eqn:W; cbn [negb]; [exact IH'|]. cbn [find fst]. destruct (teq m n) eqn:Mn; [|exact IH'].
  apply teq_spec in Mn. subst m. rewrite (H w (or_introl eq_refl)) in W. discriminate W.
Qed.
Lemma login_other c n : ~ In n (map chars ["username"; "password"; "ssl"]%string) -> login_kwargs c n = None.
Proof.
  intros H. unfold login_kwargs, of_list. cbn [map In] in H.
  assert (A : forall s, In (chars s) (map chars ["username"; "password"; "ssl"]%string) -> teq (lit s) n = false)
    by (intros s I; apply teq_false; intros <-; apply H; exact I).
  cbn [map In] in A.
  destruct (s_user c), (s_password c), (s_tls c); cbn [app find fst]; rewrite ?(A "username"%string), ?(A "password"%string), ?(A "ssl"%string) by auto; reflexivity.
Qed.
Lemma no_reserved c n br url : parse_sentinel_url br url = Some c -> In n reserved -> funneled c n = None.
Proof.
  intros P I. apply funneled_no. intros v J. destruct (C84_wellformed_partial br url c P) as (_ & _ & _ & W). elim (W n v J I).
Qed.

(** The database is that of the path, the credentials are those before the @ - whatever
    options there are -, and a rediss+sentinel URL means TLS. *)
Theorem C125_login_partial br url cfg decode timeout : sentinel_url br url cfg ->
  exists p, sentinel_pool br url decode timeout = Some p /\
    p (chars "db") = Some (VInt (s_db cfg)) /\ p (chars "username") = option_map VText (s_user cfg) /\
    p (chars "password") = option_map VText (s_password cfg) /\ (s_tls cfg = true -> p (chars "ssl") = Some (VBool true)).
Proof.
  intros H. pose proof (C82_written br url cfg H) as P. unfold sentinel_pool. rewrite P. cbn [option_map]. eexists. split; [reflexivity|].
  assert (R : forall s, In (chars s) reserved -> merge (pool_defaults cfg decode timeout) (connection_kwargs cfg) (chars s) =
    match login_kwargs cfg (chars s) with Some v => Some v | None => pool_defaults cfg decode timeout (chars s) end).
  { intros s I. unfold merge, connection_kwargs, merge. rewrite (no_reserved cfg (chars s) br url P I). destruct (login_kwargs cfg (chars s)); reflexivity. }
  rewrite !R by (unfold reserved; cbn [map In]; auto 8).
  split; [|split; [|split]].
  - unfold login_kwargs. destruct (s_user cfg), (s_password cfg), (s_tls cfg); reflexivity.
  - unfold login_kwargs. destruct (s_user cfg), (s_password cfg), (s_tls cfg); reflexivity.
  - unfold login_kwargs. destruct (s_user cfg), (s_password cfg), (s_tls cfg); reflexivity.
  - intros T. unfold merge, connection_kwargs, merge, login_kwargs. rewrite T. destruct (s_user cfg), (s_password cfg); reflexivity.
Qed.
Print Assumptions C125_login_partial.

(** Every other option of the URL is used as it is written, if it has no % in it, and wins
    over docket's own; what the URL does not mention is docket's: the read timeout and the decoding
    that were asked for, and keepalive. *)
Theorem C125_options_partial br url cfg decode timeout : sentinel_url br url cfg ->
  exists p, sentinel_pool br url decode timeout = Some p /\
    (forall n v, option_is cfg n v -> n <> chars "ssl" -> ~ In "%"%char v -> p n = Some (VOption v)) /\
    (no_option cfg (chars "decode_responses") -> p (chars "decode_responses") = Some (VBool decode)) /\
    (no_option cfg (chars "socket_timeout") -> p (chars "socket_timeout") = Some timeout) /\
    (no_option cfg (chars "socket_keepalive") -> p (chars "socket_keepalive") = Some (VBool true)) /\
    (no_option cfg (chars "socket_keepalive_options") -> p (chars "socket_keepalive_options") = Some VKeepalive) /\
    (no_option cfg (chars "ssl") -> truthy (p (chars "ssl")) = s_tls cfg).
Proof.
  intros H. pose proof (C82_written br url cfg H) as P. unfold sentinel_pool. rewrite P. cbn [option_map]. eexists. split; [reflexivity|].
  assert (D : forall s, ~ In (chars s) (map chars ["username"; "password"; "ssl"]%string) -> no_option cfg (chars s) ->
    merge (pool_defaults cfg decode timeout) (connection_kwargs cfg) (chars s) = pool_defaults cfg decode timeout (chars s)).
  { intros s N O. unfold merge, connection_kwargs, merge. rewrite (login_other cfg _ N), (funneled_no cfg _ O). reflexivity. }
  split; [|repeat split].
  - intros n v O S N. unfold merge, connection_kwargs, merge. rewrite login_other.
    + rewrite (funneled_is cfg n v O), unquote_literal by exact N. reflexivity.
    + intros I. assert (R : In n reserved \/ n = chars "ssl") by (unfold reserved; cbn [map In] in *; intuition congruence). destruct R as [R|R]; [|contradiction].
      pose proof (no_reserved cfg n br url P R) as F. rewrite (funneled_is cfg n v O) in F. discriminate F.
  - intros O. apply (D "decode_responses"%string); [nomember|exact O].
  - intros O. apply (D "socket_timeout"%string); [nomember|exact O].
  - intros O. apply (D "socket_keepalive"%string); [nomember|exact O].
  - intros O. apply (D "socket_keepalive_options"%string); [nomember|exact O].
  - intros O. unfold merge, connection_kwargs, merge. rewrite (funneled_no cfg _ O). unfold login_kwargs. destruct (s_user cfg), (s_password cfg), (s_tls cfg); reflexivity.
Qed.
Print Assumptions C125_options_partial.

(** The Sentinels listed are the ones asked, with the credentials of the options
    sentinel_username and sentinel_password - never with those of the data nodes -, with TLS if
    the scheme says so, and with nothing else. *)
Theorem C125_sentinels_partial br url cfg : sentinel_url br url cfg ->
  exists k, sentinel_manager br url = Some (s_members cfg, k) /\
    k (chars "username") = option_map VText (s_suser cfg) /\ k (chars "password") = option_map VText (s_spassword cfg) /\
    truthy (k (chars "ssl")) = s_tls cfg /\ forall n, ~ In n (map chars ["username"; "password"; "ssl"]%string) -> k n = None.
Proof.
  intros H. pose proof (C82_written br url cfg H) as P. unfold sentinel_manager. rewrite P. cbn [option_map]. eexists. split; [reflexivity|].
  unfold sentinel_kwargs. split; [|split; [|split]].
  - destruct (s_suser cfg), (s_spassword cfg), (s_tls cfg); reflexivity.
  - destruct (s_suser cfg), (s_spassword cfg), (s_tls cfg); reflexivity.
  - destruct (s_suser cfg), (s_spassword cfg), (s_tls cfg); reflexivity.
  - intros n N. exact (login_other (mkSentinel (s_members cfg) (s_service cfg) (s_db cfg) (s_suser cfg) (s_spassword cfg) None None (s_tls cfg) []) n N).
Qed.
Print Assumptions C125_sentinels_partial.

(** So a connect timeout in the URL is not used for the Sentinels. *)
Theorem C125_no_timeout_refuted : exists url cfg p k, parse_sentinel_url any_host url = Some cfg /\ option_is cfg (lit "socket_connect_timeout") (lit "2") /\
  sentinel_pool any_host url false VNone = Some p /\ p (lit "socket_connect_timeout") = Some (VOption (lit "2")) /\
  sentinel_manager any_host url = Some (s_members cfg, k) /\ k (lit "socket_connect_timeout") = None.
Proof.
  exists (lit "redis+sentinel://a/mymaster?socket_connect_timeout=2"). eexists. eexists. eexists. split; [vm_compute; reflexivity|].
  split; [split; [discriminate|]; exists [], []; split; [reflexivity|intros x []]|]. split; [reflexivity|]. split; [vm_compute; reflexivity|]. split; [reflexivity|]. vm_compute. reflexivity.
Qed.
Print Assumptions C125_no_timeout_refuted.

(** The hypotheses are met (C82_case): *)
Example C125_case :
  let url := lit "rediss+sentinel://us%2Fer:p%40ss:w@sentinel-a,[::1]:26380/mymaster/3?sentinel_password=a+b%26&max_connections=50&db=9" in
  exists cfg, sentinel_url any_host url cfg /\ option_is cfg (lit "max_connections") (lit "50") /\ no_option cfg (chars "decode_responses") /\
  forall p, sentinel_pool any_host url false VNone = Some p ->
    map (fun n => p (lit n)) ["db"; "username"; "password"; "ssl"; "max_connections"; "decode_responses"; "socket_timeout"; "host"]%string =
    [Some (VInt 3); Some (VText (lit "us/er")); Some (VText (lit "p@ss:w")); Some (VBool true); Some (VOption (lit "50")); Some (VBool false); Some VNone; None].
Proof.
  cbv zeta. eexists. split; [exact (proj1 C82_case)|]. split.
  { split; [discriminate|]. exists [], []. split; [reflexivity|intros x []]. }
  split; [intros v I; cbn in I; destruct I as [I|[]]; discriminate I|].
  intros p E. unfold sentinel_pool in E. rewrite (proj2 C82_case) in E. cbn [option_map] in E. injection E as <-. vm_compute. reflexivity.
Qed.

(** ssl and decode_responses are no options that redis-py converts: the text "false" is
    true.  So this URL turns decoding on for the connections of which docket expects bytes, and TLS
    for the data nodes (not the Sentinels) of a URL without TLS. *)
Theorem C125_false_is_true_refuted : exists url cfg p, parse_sentinel_url any_host url = Some cfg /\ s_tls cfg = false /\
  In (lit "decode_responses", lit "false") (s_options cfg) /\ In (lit "ssl", lit "false") (s_options cfg) /\
  sentinel_pool any_host url false VNone = Some p /\ truthy (p (lit "decode_responses")) = true /\ truthy (p (lit "ssl")) = true.
Proof.
  exists (lit "redis+sentinel://a/mymaster?decode_responses=false&ssl=false"). eexists. eexists. split; [vm_compute; reflexivity|]. split; [reflexivity|].
  split; [now left|]. split; [right; now left|]. split; [reflexivity|]. split; vm_compute; reflexivity.
Qed.
Print Assumptions C125_false_is_true_refuted.

(** An option with a % is unescaped twice: "a%41" arrives as "aA". *)
Theorem C125_unescaped_twice_refuted : exists url cfg p, parse_sentinel_url any_host url = Some cfg /\
  s_options cfg = [(lit "client_name", lit "a%41")] /\ sentinel_pool any_host url false VNone = Some p /\ p (lit "client_name") = Some (VOption (lit "aA")).
Proof.
  exists (lit "redis+sentinel://a/mymaster?client_name=a%2541"). eexists. eexists. split; [vm_compute; reflexivity|]. split; [reflexivity|]. split; [reflexivity|]. vm_compute. reflexivity.
Qed.
Print Assumptions C125_unescaped_twice_refuted.

(** ** C126: leaving a docket closes its clients of the Sentinels *)

Lemma clients_closed l : Forall (fun c => snd c <> Cancel) l -> close_clients l = (map fst l, Fine).
Proof.
  induction 1 as [|[n e] l H _ IH]; [reflexivity|]. cbn [close_clients map fst]. rewrite IH. destruct e; [reflexivity|reflexivity|]. now elim H.
Qed.
Lemma clients_asked l : exists k, fst (close_clients l) = map fst (firstn k l) /\
  ((snd (close_clients l) = Fine /\ k = length l /\ Forall (fun c => snd c <> Cancel) l) \/
   (snd (close_clients l) = Cancel /\ exists n, k = S n /\ option_map snd (nth_error l n) = Some Cancel)).
Proof.
  induction l as [|[n e] l (k & A & B)]; [exists 0%nat; split; [reflexivity|left; auto]|]. cbn [close_clients]. destruct (close_resource e) eqn:E.
  - destruct (close_clients l) as [ns r]. cbn [fst snd] in *. exists (S k). split; [cbn [firstn map fst]; now rewrite A|].
    destruct B as [(R & K & F)|(R & m & K & F)].
    + left. split; [exact R|]. split; [cbn [length]; now rewrite K|]. constructor; [destruct e; discriminate|exact F].
    + right. split; [exact R|]. exists (S m). split; [now rewrite K|exact F].
  - destruct e; discriminate E.
  - exists 1%nat. split; [reflexivity|]. right. split; [reflexivity|]. exists 0%nat. split; [reflexivity|]. destruct e; try discriminate E. reflexivity.
Qed.

(** If the pool itself closes, every client of a Sentinel is asked to close, each once and in
    order, however many of them fail at it, unless the closing itself is cancelled; and no failure
    reaches the one who leaves. *)
Theorem C126_all_partial l : Forall (fun c => snd c <> Cancel) l -> leave_pool Fine l = (map fst l, Fine).
Proof. intros H. unfold leave_pool, owned_aclose. now rewrite (clients_closed l H). Qed.
Print Assumptions C126_all_partial.

(** Whatever happens, leaving ends normally or by a cancellation that arrived in one of the
    closings, and then that closing was the last that was begun. *)
Theorem C126_quiet_partial p l : snd (leave_pool p l) <> Error /\
  (snd (leave_pool p l) = Cancel -> p = Cancel \/
     p = Fine /\ exists a n b, l = a ++ (n, Cancel) :: b /\ fst (leave_pool p l) = map fst a ++ [n]).
Proof.
  unfold leave_pool, owned_aclose. destruct p; cbn [close_resource fst snd]; [|split; [discriminate|discriminate]|split; [discriminate|now left]].
  destruct (clients_asked l) as (k & A & B). destruct (close_clients l) as [ns r]. cbn [fst snd] in *. split; [destruct r; discriminate|].
  intros C. right. split; [reflexivity|]. destruct B as [(R & _)|(_ & n & K & N)]; [subst r; discriminate C|].
  destruct (nth_error l n) as [[m e]|] eqn:E; [|discriminate N]. cbn in N. injection N as ->.
  destruct (nth_error_split l n E) as (a & b & L & Ln). exists a, m, b. split; [exact L|]. rewrite A, K, L, <- Ln.
  replace (S (length a)) with (length a + 1)%nat by lia. rewrite firstn_app_2. cbn [firstn]. now rewrite map_app.
Qed.
Print Assumptions C126_quiet_partial.

(** Two of three Sentinels fail to close; and a cancellation at the second. *)
Example C126_case : leave_pool Fine [(1, Error); (2, Fine); (3, Error)]%nat = ([1; 2; 3]%nat, Fine) /\
  leave_pool Fine [(1, Error); (2, Cancel); (3, Fine)]%nat = ([1; 2]%nat, Cancel).
Proof. split; reflexivity. Qed.

(** If closing the data connections fails, no client of a Sentinel is closed at all, and the
    one who leaves does not hear of it. *)
Theorem C126_left_open_refuted l : leave_pool Error l = ([], Fine).
Proof. reflexivity. Qed.
Print Assumptions C126_left_open_refuted.
