(** C128: the docket that the commands of the CLI work on. *)
From Coq Require Import Ascii String List.
From Verif Require Import Base Duration PropsDuration Cli PropsCli Url SpecUrl PropsUrl CliUrl.
Import ListNotations.

(** ** C128: with the same options and environment all commands work on the same docket *)

(** What an option means: the command line, else a variable that is not empty, else the default. *)
Inductive means (given : option text) (env : text -> option text) (variable default : text) : text -> Prop :=
| by_option v : given = Some v -> means given env variable default v
| by_variable v : given = None -> env variable = Some v -> v <> [] -> means given env variable default v
| by_default : given = None -> (forall v, env variable = Some v -> v = []) -> means given env variable default default.

Lemma means_value given env variable default : means given env variable default (option_value given env variable default).
Proof.
  unfold option_value. destruct given as [v|]; [now apply by_option|]. destruct (env variable) as [[|x v]|] eqn:E.
  - apply by_default; [reflexivity|]. intros v F. congruence.
  - apply by_variable; [reflexivity|exact E|discriminate].
  - apply by_default; [reflexivity|]. intros v F. congruence.
Qed.
Lemma means_one given env variable default u v : means given env variable default u -> means given env variable default v -> u = v.
Proof. intros [a A|a A B N|A B] [b C|b C D M|C D]; try congruence; [exfalso; apply N; now apply D|exfalso; apply M; now apply B]. Qed.

Lemma starts_spec p l : startswith l p = true <-> exists r, l = p ++ r.
Proof.
  revert l. induction p as [|x p IH]; intros l; [split; [exists l; reflexivity|destruct l; reflexivity]|]. destruct l as [|y l]; cbn [startswith].
  - split; [discriminate|intros (r & E); discriminate E].
  - rewrite andb_true_iff, Ascii.eqb_eq, IH. split; [intros [-> (r & ->)]; now exists r|intros (r & E); injection E as -> ->; split; [reflexivity|now exists r]].
Qed.

(** Every command but watch works on the docket named by --docket or DOCKET_NAME on the
    server of --url or DOCKET_URL, or does nothing. *)
Theorem C128_meant_partial c url name env u n : c <> Watch -> opens c url name env = Some (u, n) ->
  means url env (chars "DOCKET_URL") (chars "redis://localhost:6379/0") u /\ means name env (chars "DOCKET_NAME") (chars "docket") n.
Proof.
  intros W. unfold opens. destruct (checks_url c && _); [discriminate|]. intros E. injection E as <- <-. split; [|apply means_value].
  destruct c; try contradiction; apply means_value.
Qed.
Print Assumptions C128_meant_partial.

(** So two of them agree; watch agrees with them if --url is given. *)
Theorem C128_agree_partial c c' url name env a b : (c <> Watch /\ c' <> Watch \/ url <> None) ->
  opens c url name env = Some a -> opens c' url name env = Some b -> a = b.
Proof.
  intros H A B. destruct a as [u n], b as [u' n']. destruct H as [[W W']|G].
  - destruct (C128_meant_partial c url name env u n W A) as [X1 X2], (C128_meant_partial c' url name env u' n' W' B) as [Y1 Y2]. f_equal; eapply means_one; eassumption.
  - destruct url as [v|]; [|now elim G]. unfold opens, name_variable in A, B. cbn [option_value] in A, B.
    destruct (checks_url c && _); [discriminate|]. destruct (checks_url c' && _); [discriminate|]. congruence.
Qed.
Print Assumptions C128_agree_partial.

(** A command is refused exactly for a URL that begins with memory://, which is the URL of a
    memory backend, and worker and watch never are. *)
Theorem C128_refused_partial c url name env : opens c url name env = None <->
  c <> Worker /\ c <> Watch /\ exists r, means url env (chars "DOCKET_URL") (chars "redis://localhost:6379/0") (chars "memory://" ++ r).
Proof.
  assert (K : c <> Worker -> c <> Watch -> checks_url c = true /\ url_variable c = chars "DOCKET_URL") by (destruct c; intros A B; try contradiction; split; reflexivity).
  unfold opens. split.
  - intros H. assert (c <> Worker /\ c <> Watch) as [A B] by (split; intros ->; discriminate H). split; [exact A|]. split; [exact B|]. destruct (K A B) as [K1 K2]. rewrite K1, K2 in H.
    cbn [andb] in H. unfold validate_url in H. rewrite negb_involutive in H.
    destruct (startswith _ _) eqn:S in H; [|discriminate H]. apply starts_spec in S. destruct S as (r & S). exists r. change (chars "memory://") with (lit "memory://"). rewrite <- S. apply means_value.
  - intros (A & B & r & M). destruct (K A B) as [K1 K2]. rewrite K1, K2. cbn [andb].
    pose proof (means_one _ _ _ _ _ _ (means_value url env (chars "DOCKET_URL") (chars "redis://localhost:6379/0")) M) as E.
    change default_url with (chars "redis://localhost:6379/0"). rewrite E. unfold validate_url.
    assert (S : startswith (chars "memory://" ++ r) (lit "memory://") = true) by (apply starts_spec; now exists r). now rewrite S.
Qed.
Print Assumptions C128_refused_partial.

Theorem C128_memory_partial r : is_memory (chars "memory://" ++ r) = true.
Proof.
  unfold is_memory, parse_url. assert (E : cut_scheme (chars "memory://" ++ r) = (chars "memory", r)) by reflexivity. rewrite E.
  destruct (carve r) as [a b]. cbn [u_scheme]. reflexivity.
Qed.
Print Assumptions C128_memory_partial.

Definition ex_env (l : list (string * string)) (v : text) : option text :=
  option_map (fun e => lit (snd e)) (find (fun e => teq (lit (fst e)) v) l).
Example C128_case : let env := ex_env [("DOCKET_URL", "redis://prod/1"); ("DOCKET_NAME", "")]%string in
  opens Clear None None env = Some (lit "redis://prod/1", lit "docket") /\ opens Snapshot (Some (lit "redis://b")) (Some (lit "x")) env = Some (lit "redis://b", lit "x") /\
  opens Strike (Some (lit "memory://a")) None env = None.
Proof. vm_compute. repeat split. Qed.

(** watch reads another variable: with DOCKET_URL set, every other command works on that
    server, but watch looks for the task on localhost. *)
Theorem C128_watch_refuted : exists env, forall c, c <> Watch ->
  opens c None None env = Some (lit "redis://prod/1", lit "docket") /\ opens Watch None None env = Some (lit "redis://localhost:6379/0", lit "docket").
Proof. exists (ex_env [("DOCKET_URL", "redis://prod/1")]%string). intros c W. destruct c; try contradiction; vm_compute; split; reflexivity. Qed.
Print Assumptions C128_watch_refuted.

(** The memory backend is not refused by all commands, nor under every spelling: the scheme
    of a URL is read without regard to case. *)
Theorem C128_memory_refuted : exists u u' env, is_memory u = true /\ is_memory u' = true /\
  opens Watch (Some u) None env <> None /\ forall c, opens c (Some u') None env <> None.
Proof.
  exists (lit "memory://a"), (lit "Memory://a"), (fun _ => None). split; [vm_compute; reflexivity|]. split; [vm_compute; reflexivity|]. split; [vm_compute; discriminate|].
  intros c. destruct c; vm_compute; discriminate.
Qed.
Print Assumptions C128_memory_refuted.
