(** Redis sorted sets: a list of (score, member) kept in Redis order (by score,
    then by member bytes), each member at most once.  Models the Redis commands
    ZADD, ZREM, ZSCORE, ZCARD, ZRANGEBYSCORE, ZREMRANGEBYSCORE used by the Lua
    scripts (e.g. /repo/src/docket/worker.py:180-220).  Scores are exact
    integers here (doubles in Redis). *)
From Verif Require Import Base.

Definition zset := list (Z * string).

(** Redis order of sorted-set elements (score, then member). *)
Definition zlt (a b : Z * string) : bool :=
  (fst a <? fst b) || ((fst a =? fst b) && String.ltb (snd a) (snd b)).

(** ZREM *)
Definition zrem (k : string) (z : zset) : zset :=
  filter (fun p => negb (String.eqb (snd p) k)) z.

(** Position-respecting insertion, used by [zadd]. *)
Fixpoint zins (s : Z) (k : string) (z : zset) : zset :=
  match z with
  | [] => [(s, k)]
  | p :: t => if zlt (s, k) p then (s, k) :: p :: t else p :: zins s k t
  end.

(** ZADD (one member; updates the score if present) *)
Definition zadd (s : Z) (k : string) (z : zset) : zset := zins s k (zrem k z).

(** ZSCORE *)
Definition zscore (k : string) (z : zset) : option Z :=
  option_map fst (find (fun p => String.eqb (snd p) k) z).

(** ZCARD *)
Definition zcard (z : zset) : Z := Z.of_nat (length z).

(** membership of a score in the closed interval [lo,hi] *)
Definition zwithin (lo hi : Z) (p : Z * string) : bool := (lo <=? fst p) && (fst p <=? hi).

(** ZRANGEBYSCORE lo hi *)
Definition zrangebyscore (lo hi : Z) (z : zset) : zset := filter (zwithin lo hi) z.

(** ZREMRANGEBYSCORE lo hi *)
Definition zremrangebyscore (lo hi : Z) (z : zset) : zset := filter (fun p => negb (zwithin lo hi p)) z.

(** ** Lemmas *)

Lemma zins_In s k z p : In p (zins s k z) <-> p = (s, k) \/ In p z.
Proof.
  induction z as [|q t IH]; simpl.
  - intuition congruence.
  - destruct (zlt (s, k) q); simpl; rewrite ?IH; intuition congruence.
Qed.

Lemma zins_length s k z : length (zins s k z) = S (length z).
Proof. induction z as [|q t IH]; simpl; [reflexivity|]. destruct (zlt (s, k) q); simpl; auto. Qed.

Lemma zrem_In k z p : In p (zrem k z) <-> In p z /\ snd p <> k.
Proof.
  unfold zrem; rewrite filter_In, negb_true_iff.
  destruct (String.eqb_spec (snd p) k); intuition congruence.
Qed.

Lemma zadd_In s k z p : In p (zadd s k z) <-> p = (s, k) \/ (In p z /\ snd p <> k).
Proof. unfold zadd; rewrite zins_In, zrem_In; tauto. Qed.

Lemma zrangebyscore_In lo hi z p : In p (zrangebyscore lo hi z) <-> In p z /\ lo <= fst p <= hi.
Proof. unfold zrangebyscore, zwithin; rewrite filter_In; intuition lia. Qed.

Lemma zremrangebyscore_In lo hi z p :
  In p (zremrangebyscore lo hi z) <-> In p z /\ ~ (lo <= fst p <= hi).
Proof. unfold zremrangebyscore, zwithin; rewrite filter_In; intuition lia. Qed.

Definition znodup (z : zset) : Prop := NoDup (map snd z).

Lemma zrem_nodup k z : znodup z -> znodup (zrem k z).
Proof. apply NoDup_map_filter. Qed.

Lemma zrangebyscore_nodup lo hi z : znodup z -> znodup (zrangebyscore lo hi z).
Proof. apply NoDup_map_filter. Qed.

Lemma zremrangebyscore_nodup lo hi z : znodup z -> znodup (zremrangebyscore lo hi z).
Proof. apply NoDup_map_filter. Qed.

Lemma zins_nodup s k z : znodup z -> ~ In k (map snd z) -> znodup (zins s k z).
Proof.
  unfold znodup; induction z as [|q t IH]; simpl; intros Hd Hn.
  - constructor; [intros []|constructor].
  - inversion Hd as [|? ? Hq Ht]; subst.
    destruct (zlt (s, k) q); simpl.
    + constructor; [simpl; intros [H|H]; apply Hn; auto|assumption].
    + constructor; [|apply IH; auto].
      rewrite in_map_iff. intros (p & Ep & Hp). apply zins_In in Hp as [->|Hp]; simpl in *.
      * apply Hn; auto.
      * apply Hq. rewrite <- Ep. apply in_map; assumption.
Qed.

Lemma zrem_notin k z : ~ In k (map snd (zrem k z)).
Proof. rewrite in_map_iff; intros (p & E & H). apply zrem_In in H as [_ H]; contradiction. Qed.

Lemma zadd_nodup s k z : znodup z -> znodup (zadd s k z).
Proof. intros H; apply zins_nodup; [now apply zrem_nodup|apply zrem_notin]. Qed.

Lemma zscore_In k z s : znodup z -> zscore k z = Some s <-> In (s, k) z.
Proof.
  unfold znodup, zscore. induction z as [|[s' k'] t IH]; simpl; intros Hd.
  - split; [discriminate|tauto].
  - inversion Hd as [|? ? Hn Ht]; subst.
    destruct (String.eqb_spec k' k) as [E|E]; simpl.
    + subst; split; [intros [= ->]; auto|].
      intros [H|H]; [congruence|]. exfalso; apply Hn.
      apply in_map_iff; exists (s, k); auto.
    + rewrite IH by assumption. split; [auto|]. intros [H|H]; [congruence|assumption].
Qed.

Lemma zscore_Some_In k z s : zscore k z = Some s -> In (s, k) z.
Proof.
  unfold zscore. induction z as [|[s' k'] t IH]; simpl; [discriminate|].
  destruct (String.eqb_spec k' k) as [E|E]; simpl; [intros [= ->]; subst; auto|auto].
Qed.

Lemma zscore_None k z : zscore k z = None <-> ~ In k (map snd z).
Proof.
  unfold zscore. induction z as [|[s' k'] t IH]; simpl.
  - tauto.
  - destruct (String.eqb_spec k' k) as [E|E]; simpl.
    + split; [discriminate|intros H; exfalso; auto].
    + rewrite IH; tauto.
Qed.

Lemma zrem_absent k z : ~ In k (map snd z) -> zrem k z = z.
Proof.
  intros H; apply filter_all; intros p Hp.
  destruct (String.eqb_spec (snd p) k) as [E|E]; [|reflexivity].
  exfalso; apply H; rewrite <- E; now apply in_map.
Qed.

Lemma zrem_length_present k z :
  znodup z -> In k (map snd z) -> S (length (zrem k z)) = length z.
Proof.
  unfold znodup; induction z as [|[s' k'] t IH]; simpl; intros Hd Hin; [tauto|].
  inversion Hd as [|? ? Hn Ht]; subst.
  destruct (String.eqb_spec k' k) as [E|E]; simpl.
  - subst. fold (zrem k t). rewrite zrem_absent; auto.
  - f_equal. apply IH; auto. destruct Hin; congruence.
Qed.

Lemma zrem_length_le k z : (length (zrem k z) <= length z)%nat.
Proof. apply filter_length_le. Qed.

Lemma zadd_length_absent s k z :
  ~ In k (map snd z) -> length (zadd s k z) = S (length z).
Proof. intros H; unfold zadd; rewrite zins_length, zrem_absent; auto. Qed.

Lemma zadd_length_present s k z :
  znodup z -> In k (map snd z) -> length (zadd s k z) = length z.
Proof. intros Hd H; unfold zadd; rewrite zins_length. now apply zrem_length_present. Qed.

Lemma zadd_length_le s k z : (length (zadd s k z) <= S (length z))%nat.
Proof. unfold zadd; rewrite zins_length. pose proof (zrem_length_le k z); lia. Qed.

(** Sortedness by score. *)
Fixpoint zsorted (z : zset) : Prop :=
  match z with
  | [] => True
  | p :: t => (forall q, In q t -> fst p <= fst q) /\ zsorted t
  end.

Lemma zins_sorted s k z : zsorted z -> zsorted (zins s k z).
Proof.
  induction z as [|p t IH]; simpl; intros H.
  - split; [intros q []|exact I].
  - destruct H as [Hp Ht]. destruct (zlt (s, k) p) eqn:E; simpl.
    + split; [|split; assumption].
      unfold zlt in E; simpl in E.
      intros q [<-|Hq]; [lia|]. specialize (Hp q Hq); lia.
    + split; [|auto]. intros q Hq. apply zins_In in Hq as [->|Hq]; [|auto].
      unfold zlt in E; simpl in *. lia.
Qed.

Lemma zsorted_filter f z : zsorted z -> zsorted (filter f z).
Proof.
  induction z as [|p t IH]; simpl; intros H; [exact I|].
  destruct H as [Hp Ht]. destruct (f p); simpl; auto.
  split; [|auto]. intros q Hq; apply filter_In in Hq as [Hq _]; auto.
Qed.

Lemma zadd_sorted s k z : zsorted z -> zsorted (zadd s k z).
Proof. intros H; apply zins_sorted, zsorted_filter, H. Qed.

Lemma zrem_map_snd k z k' : In k' (map snd (zrem k z)) <-> In k' (map snd z) /\ k' <> k.
Proof.
  rewrite !in_map_iff; split.
  - intros (p & E & H); apply zrem_In in H as [H1 H2]; subst; eauto.
  - intros [(p & E & H) Hn]; exists p; split; [auto|]; apply zrem_In; subst; auto.
Qed.

Lemma zadd_map_snd s k z k' : In k' (map snd (zadd s k z)) <-> k' = k \/ In k' (map snd z).
Proof.
  rewrite !in_map_iff; split.
  - intros (p & E & H); apply zadd_In in H as [->|[H1 H2]]; simpl in E; subst; eauto.
  - intros [->|(p & E & H)].
    + exists (s, k); split; auto; apply zadd_In; auto.
    + destruct (string_dec k' k) as [->|Hn].
      * exists (s, k); split; auto; apply zadd_In; auto.
      * exists p; split; auto; apply zadd_In; right; subst; auto.
Qed.
