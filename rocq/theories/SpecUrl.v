(** Vocabulary of C82 and C83: URLs written for a configuration. *)
From Coq Require Import Ascii String List.
From Verif Require Import Base Duration PropsDuration Cli Url.
Import ListNotations.

(** ** Percent-encoding *)
(** A hexadecimal digit and its value. *)
Definition hexit (c : ascii) (n : Z) : Prop :=
  (0 <= n <= 9 /\ code c = 48 + n) \/ (10 <= n <= 15 /\ (code c = 55 + n \/ code c = 87 + n)).
(** [escaped bad e s]: the text [e] stands for [s]; the characters in [bad] must be escaped,
    all others may be. *)
Inductive escaped (bad : list ascii) : text -> text -> Prop :=
| esc_nil : escaped bad [] []
| esc_raw c e s : ~ In c bad -> escaped bad e s -> escaped bad (c :: e) (c :: s)
| esc_pct c a b x y e s : hexit a x -> hexit b y -> code c = 16 * x + y -> escaped bad e s ->
    escaped bad ("%"%char :: a :: b :: e) (c :: s).
Definition chars (s : string) : list ascii := list_ascii_of_string s.
(** Free of the characters [bad]. *)
Definition clear (bad : list ascii) (l : text) : Prop := forall c, In c l -> ~ In c bad.

(** Data-node credentials before the hosts. *)
Definition in_user : list ascii := chars "%:/?#".
Definition in_password : list ascii := chars "%/?#".
Inductive credentials : text -> option text -> option text -> Prop :=
| cr_none : credentials [] None None
| cr_user e u : escaped in_user e u -> u <> [] -> credentials (e ++ ["@"%char]) (Some u) None
| cr_password e p : escaped in_password e p -> p <> [] -> credentials (":"%char :: e ++ ["@"%char]) None (Some p)
| cr_both e u e' p : escaped in_user e u -> u <> [] -> escaped in_password e' p -> p <> [] ->
    credentials (e ++ ":"%char :: e' ++ ["@"%char]) (Some u) (Some p).

(** ** Hosts *)
Definition lower_case (l : text) : Prop := forall c, In c l -> ~ (65 <= code c <= 90).
Definition spaceless (l : text) : Prop := forall c, In c l -> is_space c = false.
(** A host with its port; a name, or an IPv6 address in brackets. *)
Inductive host : (text -> bool) -> text -> text * Z -> Prop :=
| ho_name br h : h <> [] -> lower_case h -> spaceless h -> clear (chars "/?#@,:[]%") h -> host br h (h, 26379)
| ho_name_port br h p n : h <> [] -> lower_case h -> spaceless h -> clear (chars "/?#@,:[]%") h -> numeral p n -> n <= 65535 ->
    host br (h ++ ":"%char :: p) (h, n)
| ho_v6 (br : text -> bool) h : br h = true -> h <> [] -> lower_case h -> spaceless h -> clear (chars "/?#@,[]%") h ->
    host br ("["%char :: h ++ ["]"%char]) (h, 26379)
| ho_v6_port (br : text -> bool) h p n : br h = true -> h <> [] -> lower_case h -> spaceless h -> clear (chars "/?#@,[]%") h -> numeral p n -> n <= 65535 ->
    host br ("["%char :: h ++ "]"%char :: ":"%char :: p) (h, n).
Inductive hosts : (text -> bool) -> text -> list (text * Z) -> Prop :=
| hs_one br m h : host br m h -> hosts br m [h]
| hs_more br m h l hs : host br m h -> hosts br l hs -> hosts br (m ++ ","%char :: l) (h :: hs).

(** ** The rest *)
Inductive database : text -> Z -> Prop :=
| da_none : database [] 0
| da_some p n : numeral p n -> database ("/"%char :: p) n.
(** In queries a plus sign stands for a space. *)
Inductive form (bad : list ascii) : text -> text -> Prop :=
| fo_nil : form bad [] []
| fo_raw c e s : ~ In c bad -> form bad e s -> form bad (c :: e) (c :: s)
| fo_plus e s : form bad e s -> form bad ("+"%char :: e) (" "%char :: s)
| fo_pct c a b x y e s : hexit a x -> hexit b y -> code c = 16 * x + y -> form bad e s ->
    form bad ("%"%char :: a :: b :: e) (c :: s).
Definition in_name : list ascii := chars "%+&=#".
Definition in_value : list ascii := chars "%+&#".
Inductive pair : text -> text * text -> Prop :=
| pa_pair a n b v : form in_name a n -> form in_value b v -> pair (a ++ "="%char :: b) (n, v).
Inductive pairs : text -> list (text * text) -> Prop :=
| ps_one m p : pair m p -> pairs m [p]
| ps_more m p l ps : pair m p -> pairs l ps -> pairs (m ++ "&"%char :: l) (p :: ps).
Inductive query : text -> list (text * text) -> Prop :=
| qu_none : query [] []
| qu_some l ps : pairs l ps -> query ("?"%char :: l) ps.

(** What the pairs say about [n]: the first value, if there is one and it is not empty. *)
Definition says (ps : list (text * text)) (n : string) (o : option text) : Prop :=
  match o with
  | Some v => v <> [] /\ exists a b, ps = a ++ (chars n, v) :: b /\ forall x, In x a -> fst x <> chars n
  | None => forall a b v, ps = a ++ (chars n, v) :: b -> (forall x, In x a -> fst x <> chars n) -> v = []
  end.
(** The names that are no connection options. *)
Definition reserved : list text := map chars ["sentinel_username"; "sentinel_password"; "db"; "username"; "password"]%string.
Definition ordinary (e : text * text) : bool := if in_dec (list_eq_dec ascii_dec) (fst e) reserved then false else true.

(** [url] is a writing of the configuration (docs/production.md:138-178). *)
Inductive sentinel_url (br : text -> bool) : text -> sentinel -> Prop :=
| su tls cr hs service db q u p ms d ps su sp opts :
    credentials cr u p -> hosts br hs ms -> service <> [] -> clear (chars "/?#") service -> database db d -> query q ps ->
    says ps "sentinel_username" su -> says ps "sentinel_password" sp ->
    opts = filter ordinary ps ->
    sentinel_url br (chars (if tls : bool then "rediss+sentinel://" else "redis+sentinel://") ++ cr ++ hs ++ "/"%char :: service ++ db ++ q)
      (mkSentinel ms service d u p su sp tls opts).

(** A cluster's URL with these credentials. *)
Inductive cluster_url : text -> login -> Prop :=
| cu (tls : bool) cr hs rest u p :
    credentials cr u p -> hs <> [] -> clear (chars "/?#@") hs -> (rest = [] \/ exists r, rest = "/"%char :: r /\ clear (chars "?#") r) ->
    cluster_url (chars (if tls then "rediss+cluster://" else "redis+cluster://") ++ cr ++ hs ++ rest) (mkLogin u p tls).
(** No escape is used. *)
Definition literal (url : text) : Prop := ~ In "%"%char url.
