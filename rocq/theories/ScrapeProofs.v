(** Proofs about overlapping requests of the metrics page. *)
From Coq Require Import Permutation.
From Verif Require Import Base Prom SpecProm PromProofs Scrape SpecScrape.

Lemma prun_app n a : forall s b, prun n s (a ++ b) = prun n (prun n s a) b.
Proof. induction a as [|e a IH]; intros s b; cbn [app prun]; auto. Qed.
Lemma pouts_app n a : forall s b, pouts n s (a ++ b) = pouts n s a ++ pouts n (prun n s a) b.
Proof. induction a as [|e a IH]; intros s b; cbn [app prun pouts]; [reflexivity|]. now rewrite IH. Qed.
Lemma queued_app a b : queued (a ++ b) = queued a ++ queued b.
Proof. induction a as [|[] a IH]; cbn [app queued]; rewrite ?IH; reflexivity. Qed.
Lemma taken_app a b : taken (a ++ b) = taken a ++ taken b.
Proof. induction a as [|[] a IH]; cbn [app taken]; rewrite ?IH; reflexivity. Qed.
Lemma taken_by_app i a b : taken_by i (a ++ b) = taken_by i a ++ taken_by i b.
Proof. induction a as [|[] a IH]; cbn [app taken_by]; rewrite ?IH; try reflexivity. now destruct (_ =? _). Qed.

(** ** Where batches go *)
Lemma step_batches n s e : let (s', o) := pstep n s e in
  pg_queue s ++ queued [o] = taken [o] ++ pg_queue s'.
Proof.
  destruct e as [i [b|]|i]; cbn [pstep].
  - destruct (pg_calls s i); cbn; [apply app_nil_r|reflexivity].
  - destruct (pg_calls s i); cbn; apply app_nil_r.
  - destruct (pg_calls s i) as [c|]; [|cbn; apply app_nil_r]. destruct (c_pc c); [destruct (pg_queue s) eqn:Q|destruct (pg_info s)|destruct (pg_queue s) eqn:Q..| |];
      cbn; rewrite ?Q, ?app_nil_r; reflexivity.
Qed.

Lemma run_batches n l : forall s, pg_queue s ++ queued (pouts n s l) = taken (pouts n s l) ++ pg_queue (prun n s l).
Proof.
  induction l as [|e l IH]; intros s; cbn [pouts prun]; [cbn; now rewrite app_nil_r|].
  pose proof (step_batches n s e) as H. destruct (pstep n s e) as [s' o] eqn:E. cbn [fst snd].
  change (o :: pouts n s' l) with ([o] ++ pouts n s' l). rewrite queued_app, taken_app, app_assoc, H, <- !app_assoc. now rewrite IH.
Qed.

(** ** What a page shows *)
Definition all_handed (l : list batch) : list entry := flat_map (fun b => handed_over (snd b)) l.
Lemma again_snoc l b : Permutation (again (l ++ [b])) (again l ++ all_handed (l ++ [b])).
Proof.
  induction l as [|a l IH]; [cbn; now rewrite !app_nil_r|]. change ((a :: l) ++ [b]) with (a :: (l ++ [b])). cbn [again all_handed flat_map].
  rewrite app_length. cbn [length]. replace (length l + 1)%nat with (S (length l)) by lia. fold (all_handed (l ++ [b])).
  cbn [repeat concat]. set (h := handed_over (snd a)) in *. set (R := concat (repeat h (length l))) in *.
  rewrite IH. rewrite <- !app_assoc. apply Permutation_app_head. apply perm_trans with (h ++ (R ++ again l ++ all_handed (l ++ [b]))); [reflexivity|].
  rewrite (Permutation_app_comm h). rewrite <- !app_assoc. do 2 apply Permutation_app_head. apply Permutation_app_comm.
Qed.

Definition early (p : cpc) : bool := match p with CHead | CInfo | CFirst => true | _ => false end.
Definition call_ok (c : scrape) (bs : list batch) : Prop :=
  (early (c_pc c) = true -> bs = [] /\ c_info c = None) /\
  good (c_fams c) /\ Permutation (shown (map snd (c_fams c))) (all_handed bs) /\
  Permutation (shown (page_fams (c_page c))) (again bs) /\
  page_infos (c_page c) = match c_info c with Some x => repeat x (length bs) | None => [] end.
Definition Pages (s : pages) (o : list pout) : Prop :=
  (forall i, pg_calls s i = None -> taken_by i o = []) /\ (forall i c, pg_calls s i = Some c -> call_ok c (taken_by i o)).

Lemma pf_app a b : page_fams (a ++ b) = page_fams a ++ page_fams b.
Proof. apply flat_map_app. Qed.
Lemma pi_app a b : page_infos (a ++ b) = page_infos a ++ page_infos b.
Proof. apply flat_map_app. Qed.
Lemma pf_fams l : page_fams (map (fun p : string * family => YFam (snd p)) l) = map snd l.
Proof. induction l as [|a l IH]; cbn; [reflexivity|]. now rewrite <- IH. Qed.
Lemma pi_fams l : page_infos (map (fun p : string * family => YFam (snd p)) l) = [].
Proof. induction l as [|a l IH]; cbn; auto. Qed.
Lemma shown_app a b : shown (a ++ b) = shown a ++ shown b.
Proof. apply flat_map_app. Qed.
Lemma all_handed_snoc l b : all_handed (l ++ [b]) = all_handed l ++ handed_over (snd b).
Proof. unfold all_handed. rewrite flat_map_app. cbn. now rewrite app_nil_r. Qed.

Lemma call_ok_pc c bs pc info : call_ok c bs -> early (c_pc c) = true \/ info = c_info c -> (early pc = true -> bs = [] /\ info = None) -> call_ok (at_pc c pc info) bs.
Proof.
  intros (A & B & C & D & E) H K. repeat split; cbn [at_pc c_pc c_info c_fams c_page]; try tauto; try apply B.
  destruct H as [H| ->]; [|exact E]. destruct (A H) as [-> N]. rewrite N in E. rewrite E. now destruct info.
Qed.

Lemma set_ok s o e i c : Pages s o -> taken_by i (o ++ [e]) = taken_by i o -> (forall j, j <> i -> taken_by j (o ++ [e]) = taken_by j o) ->
  forall q inf, call_ok c (taken_by i o) -> Pages (set_call (mkPages q inf (pg_calls s)) i c) (o ++ [e]).
Proof.
  intros [A B] T U q inf C. split; cbn [set_call pg_calls].
  - intros j. destruct (Z.eqb_spec j i) as [->|N]; [discriminate|]. rewrite U by exact N. apply A.
  - intros j d. destruct (Z.eqb_spec j i) as [->|N]; [intros [= <-]; now rewrite T|]. rewrite U by exact N. apply B.
Qed.

Definition ev_named (e : pevent) : Prop := match e with PAskFor _ (Some b) => named (snd b) | _ => True end.
Lemma step_pages n s o e : Forall (fun b => named (snd b)) (pg_queue s) -> Pages s o -> Pages (fst (pstep n s e)) (o ++ [snd (pstep n s e)]).
Proof.
  intros Q P. assert (K : forall e, taken [e] = [] -> forall i, taken_by i (o ++ [e]) = taken_by i o)
    by (intros x X i; rewrite taken_by_app; destruct x; cbn in *; try discriminate; apply app_nil_r).
  assert (Same : forall x, taken [x] = [] -> Pages s (o ++ [x])) by (intros x X; destruct P as [A B]; split; intros i; rewrite (K x X); [apply A|apply B]).
  destruct e as [i b|i]; cbn [pstep].
  - destruct (pg_calls s i) as [c|] eqn:E; [now apply Same|].
    assert (C0 : call_ok (mkScrape CHead None [] []) (taken_by i o)).
    { rewrite (proj1 P i E). repeat split; try constructor. }
    destruct b as [b|]; cbn [fst snd].
    + cbn [set_call pg_queue pg_info pg_calls]. change (mkPages (pg_queue s ++ [b]) (pg_info s) (fun j => if j =? i then Some (mkScrape CHead None [] []) else pg_calls s j))
        with (set_call (mkPages (pg_queue s ++ [b]) (pg_info s) (pg_calls s)) i (mkScrape CHead None [] [])). apply set_ok; auto.
    + replace (set_call s i _) with (set_call (mkPages (pg_queue s) (pg_info s) (pg_calls s)) i (mkScrape CHead None [] [])) by reflexivity. apply set_ok; auto.
  - destruct (pg_calls s i) as [c|] eqn:E; [|now apply Same]. pose proof (proj2 P i c E) as C.
    assert (Go : forall q inf x pc info, taken [x] = [] -> early (c_pc c) = true \/ info = c_info c -> (early pc = true -> taken_by i o = [] /\ info = None) ->
      Pages (set_call (mkPages q inf (pg_calls s)) i (at_pc c pc info)) (o ++ [x])).
    { intros q inf x pc info X I J. apply set_ok; auto. now apply call_ok_pc. }
    assert (Go' : forall x pc info, taken [x] = [] -> early (c_pc c) = true \/ info = c_info c -> (early pc = true -> taken_by i o = [] /\ info = None) ->
      Pages (set_call s i (at_pc c pc info)) (o ++ [x])) by (intros; apply (Go (pg_queue s) (pg_info s)); auto).
    assert (El : early (c_pc c) = true -> taken_by i o = []) by (intros H; apply (proj1 C H)).
    destruct (c_pc c) eqn:PC; cbn [early] in *.
    + destruct (pg_queue s); cbn [fst snd]; [apply Go'; cbn; auto; discriminate|]. destruct n; apply Go'; cbn; auto; discriminate.
    + destruct (pg_info s); cbn [fst snd]; apply Go'; cbn; auto; discriminate.
    + destruct (pg_queue s); cbn [fst snd]; [apply Go'; cbn; auto; discriminate|]. apply Go; cbn; auto; discriminate.
    + destruct (pg_queue s); cbn [fst snd]; apply Go'; cbn; auto; discriminate.
    + destruct (pg_queue s) as [|b q]; cbn [fst snd]; [apply Go'; cbn; auto; discriminate|].
      destruct C as (C1 & C2 & C3 & C4 & C5). inversion Q as [|? ? Qb _]. subst. destruct (translate_spec (snd b) (c_fams c) Qb C2) as [T1 T2].
      split; cbn [set_call pg_calls].
      * intros j. destruct (Z.eqb_spec j i) as [->|N]; [discriminate|]. intros H. rewrite taken_by_app, (proj1 P j H). cbn. destruct (Z.eqb_spec i j); [congruence|reflexivity].
      * intros j d. destruct (Z.eqb_spec j i) as [->|N].
        -- intros [= <-]. rewrite taken_by_app. cbn [taken_by]. rewrite Z.eqb_refl. split; [cbn; discriminate|]. cbn [c_fams c_page c_info]. split; [exact T1|].
           assert (F : Permutation (shown (map snd (translate (c_fams c) (snd b)))) (all_handed (taken_by i o ++ [b]))).
           { rewrite T2, C3, all_handed_snoc. apply Permutation_app_comm. }
           split; [exact F|]. rewrite pf_app, pi_app, shown_app, pf_app, pi_app, pf_fams, pi_fams. split.
           ++ rewrite again_snoc, C4. apply Permutation_app_head. replace (page_fams match c_info c with Some x => [YInfo x] | None => [] end) with (@nil family) by now destruct (c_info c).
              exact F.
           ++ rewrite C5, app_length. cbn [length]. destruct (c_info c); [|reflexivity]. cbn. rewrite Nat.add_comm, (repeat_app _ 1 _) || rewrite repeat_app. now rewrite <- repeat_cons.
        -- intros H. rewrite taken_by_app. cbn. destruct (Z.eqb_spec i j); [congruence|]. rewrite app_nil_r. now apply (proj2 P).
    + now apply Same.
    + now apply Same.
Qed.

Lemma named_queue n s l e : Forall (fun b => named (snd b)) (pg_queue s) -> (forall i b, asks (e :: l) i (Some b) -> named (snd b)) ->
  Forall (fun b => named (snd b)) (pg_queue (fst (pstep n s e))).
Proof.
  intros Q N. pose proof (step_batches n s e) as H. destruct (pstep n s e) as [s' o] eqn:E. cbn [fst].
  assert (A : Forall (fun b => named (snd b)) (taken [o] ++ pg_queue s')).
  { rewrite <- H. apply Forall_app. split; [exact Q|]. destruct o; cbn; repeat constructor. apply (N i). left.
    destruct e as [j [c|]|j]; cbn [pstep] in E; repeat match type of E with context [match ?x with _ => _ end] => destruct x end; congruence. }
  now apply Forall_app in A.
Qed.

Theorem run_pages n l : forall s o, Forall (fun b => named (snd b)) (pg_queue s) -> all_named l -> Pages s o -> Pages (prun n s l) (o ++ pouts n s l).
Proof.
  induction l as [|e l IH]; intros s o Q N P; cbn [prun pouts]; [now rewrite app_nil_r|].
  replace (o ++ snd (pstep n s e) :: _) with ((o ++ [snd (pstep n s e)]) ++ pouts n (fst (pstep n s e)) l) by now rewrite <- app_assoc.
  apply IH; [exact (named_queue n s l e Q N)|intros i b H; apply (N i); now right|now apply step_pages].
Qed.
Lemma init_ok : Pages init_pages [].
Proof. split; [reflexivity|]. intros i c. discriminate. Qed.

(** ** Nothing stays behind *)
Definition done (c : scrape) : Prop := c_pc c = COver \/ c_pc c = CFailed.
Definition Live (s : pages) : Prop := pg_queue s <> [] -> exists i c, pg_calls s i = Some c /\ ~ done c.
Lemma step_live n s e : Live s -> Live (fst (pstep n s e)).
Proof.
  intros L. assert (K : forall q inf i c, (q <> [] -> ~ done c) -> Live (set_call (mkPages q inf (pg_calls s)) i c)).
  { intros q inf i c H Q. exists i, c. cbn. rewrite Z.eqb_refl. split; [reflexivity|now apply H]. }
  assert (K' : forall i c, (pg_queue s <> [] -> ~ done c) -> Live (set_call s i c)) by (intros i c; apply (K (pg_queue s) (pg_info s))).
  assert (D : forall pc inf f p, pc <> COver -> pc <> CFailed -> ~ done (mkScrape pc inf f p)) by (intros pc inf f p A B [H|H]; cbn in H; congruence).
  destruct e as [i b|i]; cbn [pstep].
  - destruct (pg_calls s i); [exact L|]. destruct b as [b|]; cbn [fst].
    + intros _. exists i, (mkScrape CHead None [] []). cbn. rewrite Z.eqb_refl. split; [reflexivity|]. apply D; discriminate.
    + apply K'. intros _. apply D; discriminate.
  - destruct (pg_calls s i) as [c|]; [|exact L]. unfold at_pc.
    destruct (c_pc c); [destruct (pg_queue s) eqn:Q|destruct (pg_info s)|destruct (pg_queue s) eqn:Q..| |]; cbn [fst]; try exact L.
    all: try (apply K' || apply K; intros; try congruence; apply D; try discriminate; now destruct n).
Qed.
Theorem run_live n l : forall s, Live s -> Live (prun n s l).
Proof. induction l as [|e l IH]; intros s L; cbn [prun]; [exact L|]. now apply IH, step_live. Qed.
Lemma init_live : Live init_pages.
Proof. intros H. now elim H. Qed.

(** ** Ends and failures are what the states say *)
Definition Ends (s : pages) (o : list pout) : Prop :=
  (forall i, ended i o -> exists c, pg_calls s i = Some c /\ c_pc c = COver) /\ (forall i c, pg_calls s i = Some c -> c_pc c = COver -> ended i o) /\
  (forall i, broken i o -> exists c, pg_calls s i = Some c /\ c_pc c = CFailed) /\ (forall i c, pg_calls s i = Some c -> c_pc c = CFailed -> broken i o).
Lemma step_ends n s o e : Ends s o -> Ends (fst (pstep n s e)) (o ++ [snd (pstep n s e)]).
Proof.
  intros (A & B & C & D).
  assert (Same : Ends s (o ++ [PNone])).
  { unfold Ends, ended, broken. split; [|split; [|split]]; intros i.
    - rewrite in_app_iff. intros [H|[H|[]]]; [now apply A|discriminate].
    - intros c H1 H2. apply in_or_app. left. now apply (B i c).
    - rewrite in_app_iff. intros [H|[H|[]]]; [now apply C|discriminate].
    - intros c H1 H2. apply in_or_app. left. now apply (D i c). }
  assert (G : forall q inf i c x, (forall d, pg_calls s i = Some d -> c_pc d <> COver /\ c_pc d <> CFailed) ->
    (c_pc c = COver <-> x = PEnds i) -> (c_pc c = CFailed <-> x = PFails i) -> (forall j, x = PEnds j \/ x = PFails j -> j = i) ->
    Ends (mkPages q inf (pg_calls (set_call s i c))) (o ++ [x])).
  { intros q inf i c x N E1 E2 E3. unfold Ends, ended, broken. cbn [pg_calls set_call]. split; [|split; [|split]]; intros j.
    - rewrite in_app_iff. intros [H|[H|[]]]; [destruct (A j H) as (d & H1 & H2)|].
      + exists d. destruct (Z.eqb_spec j i) as [->|Q]; [destruct (N d H1); congruence|auto].
      + rewrite (E3 j) by (left; exact H). exists c. rewrite Z.eqb_refl. split; [reflexivity|]. apply E1. rewrite <- (E3 j) by (left; exact H). exact H.
    - destruct (Z.eqb_spec j i) as [->|Q]; intros d.
      + intros [= <-] H. apply in_or_app. right. left. now apply E1.
      + intros H1 H2. apply in_or_app. left. now apply (B j d).
    - rewrite in_app_iff. intros [H|[H|[]]]; [destruct (C j H) as (d & H1 & H2)|].
      + exists d. destruct (Z.eqb_spec j i) as [->|Q]; [destruct (N d H1); congruence|auto].
      + rewrite (E3 j) by (right; exact H). exists c. rewrite Z.eqb_refl. split; [reflexivity|]. apply E2. rewrite <- (E3 j) by (right; exact H). exact H.
    - destruct (Z.eqb_spec j i) as [->|Q]; intros d.
      + intros [= <-] H. apply in_or_app. right. left. now apply E2.
      + intros H1 H2. apply in_or_app. left. now apply (D j d). }
  destruct e as [i b|i]; cbn [pstep].
  - destruct (pg_calls s i) as [c|] eqn:E; [exact Same|].
    destruct b as [b|]; apply (G _ _ i (mkScrape CHead None [] [])); cbn; try (split; discriminate); try (intros; congruence); intros j [H|H]; discriminate.
  - destruct (pg_calls s i) as [c|] eqn:E; [|exact Same]. unfold at_pc.
    destruct (c_pc c) eqn:PC; [destruct (pg_queue s) eqn:Q|destruct (pg_info s)|destruct (pg_queue s) eqn:Q..| |]; cbn [fst snd]; try exact Same.
    all: unshelve (eapply (G _ _ i)); cbn [c_pc]; try (intros d H; rewrite E in H; injection H as <-; rewrite PC; split; discriminate).
    all: try (split; [intros X; try discriminate X; now destruct n|intros X; try discriminate X; now injection X]); try (split; [intros _|]; reflexivity).
    all: intros j [H|H]; try discriminate H; now injection H.
Qed.
Theorem run_ends n l : forall s o, Ends s o -> Ends (prun n s l) (o ++ pouts n s l).
Proof.
  induction l as [|e l IH]; intros s o P; cbn [prun pouts]; [now rewrite app_nil_r|].
  replace (o ++ snd (pstep n s e) :: _) with ((o ++ [snd (pstep n s e)]) ++ pouts n (fst (pstep n s e)) l) by now rewrite <- app_assoc.
  now apply IH, step_ends.
Qed.
Lemma init_ends : Ends init_pages [].
Proof. repeat split; try discriminate; intros i []. Qed.

(** ** One at a time *)
Definition olist (b : option batch) : list batch := match b with Some b => [b] | None => [] end.
Definition seq_call (n : bool) (q : list batch) (inf : option (list (string * string))) (tk : list batch) (c : scrape) (b : option batch) : Prop :=
  (c_info c <> None -> c_info c = inf) /\ (n = false -> early (c_pc c) = false -> b <> None -> c_info c <> None) /\ (early (c_pc c) = true -> c_info c = None) /\
  (n = true -> c_info c = None) /\
  match c_pc c with
  | COver => tk = olist b
  | CFailed => False
  | CHead => q = olist b /\ tk = []
  | CInfo => q = olist b /\ tk = [] /\ b <> None /\ n = false
  | CFirst => q = olist b /\ tk = [] /\ b <> None /\ inf = None /\ n = false
  | CPop => q = olist b /\ tk = [] /\ b <> None
  | CLoop => (q = olist b /\ tk = []) \/ (q = [] /\ tk = olist b)
  end.
Definition Seq (n : bool) (s : pages) (l : list pevent) (o : list pout) : Prop :=
  (forall i c, pg_calls s i = Some c -> exists b, asks l i b /\ seq_call n (pg_queue s) (pg_info s) (taken_by i o) c b) /\
  (forall i c j d, pg_calls s i = Some c -> pg_calls s j = Some d -> c_pc c <> COver -> c_pc d <> COver -> i = j) /\
  (forall i b, asks l i b -> pg_calls s i <> None) /\
  (forall x, pg_info s = Some x -> exists b r, queued o = b :: r /\ x = info_of b) /\
  (n = false -> pg_info s = None -> taken o = []) /\
  (forall i, pg_calls s i = None -> taken_by i o = []) /\
  (forall i b b', asks l i b -> asks l i b' -> b = b').

Lemma seq_over n q inf tk c b q' inf' : c_pc c = COver -> (c_info c <> None -> inf' = inf) -> seq_call n q inf tk c b -> seq_call n q' inf' tk c b.
Proof. unfold seq_call. intros PC I. rewrite PC. intros (A & B & C & D & E). repeat split; auto. intros H. rewrite (A H). symmetry. now apply I. Qed.

(** A step of the request that is running. *)
Lemma seq_set n s l o i c c' b q inf : Seq n s l o -> pg_calls s i = Some c -> c_pc c <> COver -> asks l i b ->
  forall out, (forall j, j <> i -> taken_by j (o ++ [out]) = taken_by j o) -> queued (o ++ [out]) = queued o ->
  (inf = pg_info s \/ (pg_info s = None /\ exists y b0 r, inf = Some y /\ queued o = b0 :: r /\ y = info_of b0)) ->
  (n = false -> inf = None -> taken (o ++ [out]) = []) ->
  seq_call n q inf (taken_by i (o ++ [out])) c' b ->
  Seq n (set_call (mkPages q inf (pg_calls s)) i c') (l ++ [PGo i]) (o ++ [out]).
Proof.
  intros (S1 & S2 & S3 & S4 & S5 & S6 & S7) E PC Ab out T Qd I Tk C. unfold Seq. cbn [set_call pg_calls pg_queue pg_info].
  split; [|split; [|split; [|split; [|split; [|split]]]]].
  - intros j d. destruct (Z.eqb_spec j i) as [->|N].
    + intros [= <-]. exists b. split; [apply in_or_app; now left|exact C].
    + intros H. destruct (S1 j d H) as (bj & Aj & Cj). exists bj. split; [apply in_or_app; now left|]. rewrite T by exact N.
      assert (O : c_pc d = COver). { destruct (c_pc d) eqn:X; try reflexivity; elim N; apply (S2 j d i c); auto; rewrite X; discriminate. }
      apply (seq_over _ (pg_queue s) (pg_info s)); auto. intros X. destruct Cj as [Y _]. specialize (Y X). destruct I as [->|(Z1 & _)]; [reflexivity|congruence].
  - intros j d k e. destruct (Z.eqb_spec j i) as [->|N]; destruct (Z.eqb_spec k i) as [->|M]; auto.
    + intros _ H _ X. apply (S2 i c k e); auto.
    + intros H _ X _. apply (S2 j d i c); auto.
    + intros H1 H2 X Y. apply (S2 j d k e); auto.
  - intros j bj H. apply in_app_or in H as [H|[H|[]]]; [|discriminate]. destruct (j =? i); [discriminate|]. now apply (S3 j bj).
  - intros y H. rewrite Qd. destruct I as [->|(_ & z & b0 & r & -> & X & ->)]; [now apply S4|]. injection H as <-. eauto.
  - exact Tk.
  - intros j. destruct (Z.eqb_spec j i) as [->|N]; [discriminate|]. rewrite T by exact N. apply S6.
  - intros j b1 b2 H1 H2. apply in_app_or in H1 as [H1|[H1|[]]]; [|discriminate]. apply in_app_or in H2 as [H2|[H2|[]]]; [|discriminate]. now apply (S7 j).
Qed.

Theorem run_seq n : forall l, one_at_a_time n l -> Seq n (prun n init_pages l) l (pouts n init_pages l).
Proof.
  induction l as [|e l IH] using rev_ind; intros One.
  - unfold Seq. cbn. repeat split; try discriminate; try tauto.
  - assert (One' : one_at_a_time n l).
    { intros l1 j b l2 -> i b' H. apply (One l1 j b (l2 ++ [e])) with (b' := b'); [now rewrite <- app_assoc|exact H]. }
    specialize (IH One'). rewrite prun_app, pouts_app. cbn [prun pouts]. set (s := prun n init_pages l) in *. set (o := pouts n init_pages l) in *.
    pose proof (run_batches n l init_pages) as RB. cbn [init_pages pg_queue app] in RB. fold s o in RB.
    pose proof (run_live n l init_pages init_live) as RL. fold s in RL. pose proof (run_ends n l init_pages [] init_ends) as RE. fold s in RE. cbn [app] in RE. fold o in RE.
    assert (K : forall x, taken [x] = [] -> forall i, taken_by i (o ++ [x]) = taken_by i o)
      by (intros x X i; rewrite taken_by_app; destruct x; cbn in *; try discriminate; apply app_nil_r).
    assert (Kt : forall x, taken [x] = [] -> taken (o ++ [x]) = taken o) by (intros x X; rewrite taken_app, X; apply app_nil_r).
    assert (Kq : forall x, queued [x] = [] -> queued (o ++ [x]) = queued o) by (intros x X; rewrite queued_app, X; apply app_nil_r).
    destruct IH as (S1 & S2 & S3 & S4 & S5 & S6 & S7). destruct e as [j b|i].
    + assert (Old : forall i b', asks l i b' -> i <> j /\ exists c, pg_calls s i = Some c /\ c_pc c = COver).
      { intros i b' H. destruct (One l j b [] eq_refl i b' H) as [A B]. split; [exact A|]. now apply (proj1 RE). }
      assert (Ej : pg_calls s j = None). { destruct (pg_calls s j) as [c|] eqn:E; [|reflexivity]. destruct (S1 j c E) as (bj & Aj & _). now elim (proj1 (Old j bj Aj)). }
      assert (All : forall i c, pg_calls s i = Some c -> i <> j /\ c_pc c = COver).
      { intros i c H. destruct (S1 i c H) as (bi & Ai & _). destruct (Old i bi Ai) as [A (d & B & C)]. split; [exact A|]. congruence. }
      assert (Q0 : pg_queue s = []). { destruct (pg_queue s) eqn:Q; [reflexivity|]. destruct RL as (i & c & A & B); [rewrite Q; discriminate|]. elim B. left. now apply (All i). }
      assert (Gen : forall x q, q = olist b -> taken [x] = [] -> (forall y r, queued o = y :: r -> exists r', queued (o ++ [x]) = y :: r') ->
        Seq n (mkPages q (pg_info s) (pg_calls (set_call s j (mkScrape CHead None [] [])))) (l ++ [PAskFor j b]) (o ++ [x])).
      { intros x q Eq X Xq. unfold Seq. cbn [set_call pg_calls pg_queue pg_info]. split; [|split; [|split; [|split; [|split; [|split]]]]].
        - intros i c. rewrite K by exact X. destruct (Z.eqb_spec i j) as [->|N].
          + intros [= <-]. exists b. split; [apply in_or_app; right; now left|]. unfold seq_call. cbn. rewrite (S6 j Ej). repeat split; auto; try discriminate; congruence.
          + intros H. destruct (S1 i c H) as (bi & Ai & Ci). exists bi. split; [apply in_or_app; now left|]. apply (seq_over _ (pg_queue s) (pg_info s)); auto. now apply (All i).
        - intros i c k d. destruct (Z.eqb_spec i j) as [->|N]; destruct (Z.eqb_spec k j) as [->|M]; auto.
          + intros _ H _ Y. elim Y. now apply (All k).
          + intros H _ Y _. elim Y. now apply (All i).
          + intros H _ Y _. elim Y. now apply (All i).
        - intros i bi. destruct (Z.eqb_spec i j) as [->|N]; [discriminate|]. intros H. apply in_app_or in H as [H|[H|[]]]; [now apply (S3 i bi)|congruence].
        - intros y H. destruct (S4 y H) as (b0 & r & A & B). destruct (Xq b0 r A) as [r' R]. eauto.
        - intros N F. rewrite Kt by exact X. now apply S5.
        - intros i. rewrite K by exact X. destruct (Z.eqb_spec i j) as [->|N]; [discriminate|]. apply S6.
        - intros i b1 b2 H1 H2. apply in_app_or in H1 as [H1|[H1|[]]]; apply in_app_or in H2 as [H2|[H2|[]]].
          + now apply (S7 i).
          + injection H2 as E1 E2. now elim (proj1 (Old _ _ H1)).
          + injection H1 as E1 E2. now elim (proj1 (Old _ _ H2)).
          + congruence. }
      cbn [pstep]. rewrite Ej. destruct b as [b|]; cbn [fst snd].
      * cbn [set_call pg_queue pg_info]. apply Gen; [now rewrite Q0|reflexivity|]. intros y r H. rewrite queued_app, H. cbn. eauto.
      * apply (Gen PNone (pg_queue s)); auto. intros y r H. rewrite Kq by reflexivity. eauto.
    + assert (SS : Seq n s l o) by (repeat split; assumption).
      assert (Same : Seq n s (l ++ [PGo i]) (o ++ [PNone])).
      { unfold Seq. rewrite Kt, Kq by reflexivity. split; [|split; [|split; [|split; [|split; [|split]]]]]; auto.
        - intros j c H. rewrite K by reflexivity. destruct (S1 j c H) as (b & A & B). exists b. split; [apply in_or_app; now left|exact B].
        - intros j b H. apply in_app_or in H as [H|[H|[]]]; [now apply (S3 j b)|discriminate].
        - intros j H. rewrite K by reflexivity. now apply S6.
        - intros j b1 b2 H1 H2. apply in_app_or in H1 as [H1|[H1|[]]]; [|discriminate]. apply in_app_or in H2 as [H2|[H2|[]]]; [|discriminate]. now apply (S7 j). }
      cbn [pstep]. destruct (pg_calls s i) as [c|] eqn:E; [|exact Same]. destruct (S1 i c E) as (b & Ab & Cb).
      assert (Go : forall q inf c' out, c_pc c <> COver -> (forall j, j <> i -> taken_by j (o ++ [out]) = taken_by j o) -> queued [out] = [] ->
        (inf = pg_info s \/ (pg_info s = None /\ exists y b0 r, inf = Some y /\ queued o = b0 :: r /\ y = info_of b0)) ->
        (n = false -> inf = None -> taken (o ++ [out]) = []) -> seq_call n q inf (taken_by i (o ++ [out])) c' b ->
        Seq n (set_call (mkPages q inf (pg_calls s)) i c') (l ++ [PGo i]) (o ++ [out])).
      { intros q inf c' out PC T Qd I Tk C. apply (seq_set n s l o i c c' b q inf); auto; try (now rewrite PC). }
      assert (Go' : forall c' out, c_pc c <> COver -> taken [out] = [] -> queued [out] = [] -> seq_call n (pg_queue s) (pg_info s) (taken_by i o) c' b ->
        Seq n (set_call s i c') (l ++ [PGo i]) (o ++ [out])).
      { intros c' out PC T Qd C. apply (Go (pg_queue s) (pg_info s)); auto; [now rewrite Kt|now rewrite K]. }
      unfold seq_call in Cb. destruct Cb as (B1 & B2 & B3 & B4 & B5). unfold at_pc. destruct (c_pc c) eqn:PC; cbn [early] in *.
      * destruct B5 as [Q T]. destruct (pg_queue s) as [|b0 q] eqn:Qs; cbn [fst snd].
        -- destruct b; [discriminate|]. apply Go'; auto; try discriminate. unfold seq_call. cbn. rewrite T. repeat split; auto; congruence.
        -- destruct b as [b'|]; [|discriminate]. destruct n; apply Go'; auto; try discriminate; unfold seq_call; cbn; rewrite T; repeat split; auto; congruence.
      * destruct B5 as (Q & T & Nb & ->). destruct (pg_info s) as [x|] eqn:I; cbn [fst snd].
        -- apply Go'; auto; try discriminate. unfold seq_call. cbn. rewrite T. repeat split; auto; discriminate.
        -- apply Go'; auto; try discriminate. unfold seq_call. cbn. rewrite T. repeat split; auto; discriminate.
      * destruct B5 as (Q & T & Nb & I & ->). destruct b as [b'|]; [|now elim Nb]. cbn [olist] in Q. rewrite Q. cbn [fst snd].
        apply Go; auto; try discriminate.
        -- right. split; [exact I|]. exists (info_of b'), b', []. split; [reflexivity|]. split; [|reflexivity]. rewrite RB, (S5 eq_refl I), Q. reflexivity.
        -- rewrite K by reflexivity. unfold seq_call. cbn. rewrite T. repeat split; auto; discriminate.
      * destruct (pg_queue s) as [|b0 q] eqn:Qs; cbn [fst snd].
        -- apply Go'; auto; try discriminate. unfold seq_call. cbn. repeat split; auto; try discriminate. destruct B5 as [[A B]|[A B]]; [|exact B]. destruct b; [discriminate|exact B].
        -- apply Go'; auto; try discriminate. unfold seq_call. cbn. repeat split; auto; try discriminate; destruct B5 as [[A B]|[A B]]; auto; try discriminate. destruct b; discriminate.
      * destruct B5 as (Q & T & Nb). destruct b as [b'|]; [|now elim Nb]. cbn [olist] in Q. rewrite Q. cbn [fst snd].
        apply Go; auto; try discriminate.
        -- intros j N. rewrite taken_by_app. cbn. destruct (Z.eqb_spec i j); [congruence|]. apply app_nil_r.
        -- intros N I. elim (B2 N eq_refl); [discriminate|]. destruct (c_info c); [|reflexivity]. rewrite B1 in *; congruence.
        -- rewrite taken_by_app, T. cbn. rewrite Z.eqb_refl. unfold seq_call. cbn. repeat split; auto; discriminate.
      * exact Same.
      * destruct B5.
Qed.

(** ** Target info *)
Lemma dput_keys k v d x : In x (map fst (dput k v d)) <-> x = k \/ In x (map fst d).
Proof.
  induction d as [|[k' v'] d IH]; cbn [dput]; [cbn; intuition|]. destruct (String.eqb_spec k' k) as [->|N]; cbn [map fst In]; [cbn; intuition|]. rewrite IH. cbn. intuition.
Qed.
Lemma dput_nodup k v d : NoDup (map fst d) -> NoDup (map fst (dput k v d)).
Proof.
  induction d as [|[k' v'] d IH]; cbn [dput]; intros N; [repeat constructor; intros []|]. inversion N as [|? ? N1 N2]. subst.
  destruct (String.eqb_spec k' k) as [->|D]; cbn [map fst]; [exact N|]. constructor; [|now apply IH]. rewrite dput_keys. intuition congruence.
Qed.
Lemma dput_in k v d x y : NoDup (map fst d) -> (In (x, y) (dput k v d) <-> (x = k /\ y = v) \/ (x <> k /\ In (x, y) d)).
Proof.
  induction d as [|[k' v'] d IH]; cbn [dput]; intros N; [cbn; split; [intros [[= -> ->]|[]]; auto|intros [[-> ->]|[_ []]]; auto]|].
  inversion N as [|? ? N1 N2]. subst. destruct (String.eqb_spec k' k) as [->|D]; cbn [In].
  - split.
    + intros [[= -> ->]|H]; [auto|]. right. split; [intros ->; apply N1; change k with (fst (k, y)); now apply in_map|auto].
    + intros [[-> ->]|[Q [[= -> ->]|H]]]; auto. now elim Q.
  - rewrite (IH N2). split.
    + intros [[= -> ->]|[H|[Q H]]]; auto.
    + intros [H|[Q [[= -> ->]|H]]]; auto.
Qed.
Lemma dput_all_nodup l : forall d, NoDup (map fst d) -> NoDup (map fst (dput_all l d)).
Proof. induction l as [|a l IH]; intros d N; [exact N|]. cbn. apply IH. now apply dput_nodup. Qed.
Lemma dput_all_keys l : forall d x, In x (map fst (dput_all l d)) <-> In x (map fst l) \/ In x (map fst d).
Proof. induction l as [|a l IH]; intros d x; [cbn; intuition|]. cbn [dput_all fold_left]. fold (dput_all l (dput (fst a) (snd a) d)). rewrite IH, dput_keys. cbn. intuition. Qed.
Lemma dput_all_in l : forall d x y, NoDup (map fst d) ->
  (In (x, y) (dput_all l d) <-> last_word x y l \/ (~ In x (map fst l) /\ In (x, y) d)).
Proof.
  induction l as [|[k v] l IH]; intros d x y N.
  - cbn. split; [auto|]. intros [(l1 & l2 & E & _)|[_ H]]; [destruct l1; discriminate|exact H].
  - cbn [dput_all fold_left fst snd]. fold (dput_all l (dput k v d)). rewrite IH by now apply dput_nodup. rewrite dput_in by exact N. split.
    + intros [(l1 & l2 & -> & Z1)|[A [[-> ->]|[B H]]]].
      * left. exists ((k, v) :: l1), l2. now split.
      * left. exists [], l. split; [reflexivity|]. intros a I Q. apply A. rewrite <- Q. now apply in_map.
      * right. split; [intros [H1|H1]; cbn in H1; congruence||now apply A|exact H].
    + intros [(l1 & l2 & E & Z1)|[A H]].
      * destruct l1 as [|p l1]; cbn in E; injection E as ?; subst.
        -- right. split; [intros I; apply in_map_iff in I as (a & I1 & I2); now apply (Z1 a)|now left].
        -- left. exists l1, l2. now split.
      * right. cbn in A. split; [tauto|]. right. split; [intros ->; tauto|exact H].
Qed.
Lemma fold_dput : forall ls d, fold_left (fun d l => dput_all l d) ls d = dput_all (concat ls) d.
Proof. induction ls as [|l ls IH]; intros d; [reflexivity|]. cbn [fold_left concat]. rewrite IH. unfold dput_all. now rewrite fold_left_app. Qed.
Lemma info_of_eq b : info_of b = dput_all (map (fun a => (sanitize_attribute (fst a), snd a)) (dput_all (attrs b) [])) [].
Proof. unfold info_of. now rewrite fold_dput. Qed.
Lemma last_in k v l : last_word k v l -> In (k, v) l.
Proof. intros (l1 & l2 & -> & _). apply in_or_app. right. now left. Qed.
Lemma has_last k l : In k (map fst l) -> exists v, last_word k v l.
Proof.
  induction l as [|[k' v'] l IH]; intros H; [destruct H|]. destruct (in_dec string_dec k (map fst l)) as [I|I].
  - destruct (IH I) as (v & l1 & l2 & -> & Q). exists v, ((k', v') :: l1), l2. now split.
  - destruct H as [H|H]; [cbn in H; subst k'|contradiction]. exists v', [], l. split; [reflexivity|]. intros a A E. apply I. rewrite <- E. now apply in_map.
Qed.
Lemma once_last k v l : NoDup (map fst l) -> In (k, v) l -> last_word k v l.
Proof.
  intros N H. apply in_split in H as (l1 & l2 & ->). exists l1, l2. split; [reflexivity|]. intros a A E. rewrite map_app in N. cbn in N. apply NoDup_remove_2 in N. apply N.
  apply in_or_app. right. rewrite <- E. now apply in_map.
Qed.
Theorem info_spec b : NoDup (map fst (info_of b)) /\
  (forall k, In k (map fst (info_of b)) <-> exists a, In a (attrs b) /\ k = sanitize_attribute (fst a)) /\
  (forall k v, In (k, v) (info_of b) -> exists a, k = sanitize_attribute a /\ last_word a v (attrs b)) /\
  ((forall a a', In a (attrs b) -> In a' (attrs b) -> sanitize_attribute (fst a) = sanitize_attribute (fst a') -> fst a = fst a') ->
   forall a v, last_word a v (attrs b) -> In (sanitize_attribute a, v) (info_of b)).
Proof.
  rewrite info_of_eq. set (m := dput_all (attrs b) []). assert (Nm : NoDup (map fst m)) by (apply dput_all_nodup; constructor).
  assert (Im : forall x y, In (x, y) m <-> last_word x y (attrs b)).
  { intros x y. unfold m. rewrite dput_all_in by constructor. split; [intros [H|[_ []]]; exact H|auto]. }
  assert (Km : forall x, In x (map fst m) <-> In x (map fst (attrs b))) by (intros x; unfold m; rewrite dput_all_keys; cbn; tauto).
  split; [apply dput_all_nodup; constructor|]. split; [|split].
  - intros k. rewrite dput_all_keys. rewrite map_map. cbn [fst map In]. split.
    + intros [H|[]]. apply in_map_iff in H as ([a v] & <- & H). apply Im in H. exists (a, v). split; [now apply last_in|reflexivity].
    + intros ([a v] & H & ->). left. assert (I : In a (map fst m)) by (apply Km; change a with (fst (a, v)); now apply in_map).
      apply in_map_iff in I as (a' & E & I). apply in_map_iff. exists a'. now rewrite E.
  - intros k v H. apply dput_all_in in H as [H|[_ []]]; [|constructor]. apply last_in in H. apply in_map_iff in H as ([a w] & [= <- <-] & H). exists a. split; [reflexivity|]. now apply Im.
  - intros J a v H. apply dput_all_in; [constructor|]. left. apply once_last.
    + rewrite map_map. cbn [fst]. clear -Nm J Im. assert (S : forall e, In e m -> In e (attrs b)) by (intros [x y] I; now apply last_in, Im).
      revert Nm S. generalize m. intros l. induction l as [|e l IH]; intros N S; [constructor|]. cbn in *. inversion N as [|? ? N1 N2]. subst. constructor; [|apply IH; auto].
      intros H. apply in_map_iff in H as (e' & E & H). apply N1. rewrite <- (J e' e) by (auto). now apply in_map.
    + apply in_map_iff. exists (a, v). split; [reflexivity|]. now apply Im.
Qed.

(** ** A request left to itself comes to its end *)
Lemma loop_ends n i : forall q s c, pg_queue s = q -> pg_calls s i = Some c -> c_pc c = CLoop \/ c_pc c = CPop ->
  exists d, pg_calls (prun n s (repeat (PGo i) (2 * length q + 2))) i = Some d /\ done d.
Proof.
  assert (St : forall s d k, pg_calls s i = Some d -> done d -> prun n s (repeat (PGo i) k) = s).
  { intros s d k H D. induction k as [|k IH]; [reflexivity|]. cbn [repeat prun pstep]. rewrite H. destruct D as [-> | ->]; exact IH. }
  induction q as [|b q IH]; intros s c Q E PC.
  - cbn [length Nat.mul Nat.add repeat prun]. cbn [pstep]. rewrite E. destruct PC as [-> | ->]; rewrite Q; cbn [fst set_call pg_calls]; rewrite Z.eqb_refl; cbn [at_pc c_pc fst pg_calls].
    + eexists. split; [cbn; rewrite ?Z.eqb_refl; reflexivity|now left].
    + eexists. split; [cbn; rewrite ?Z.eqb_refl; reflexivity|now right].
  - assert (Pop : forall s c, pg_queue s = b :: q -> pg_calls s i = Some c -> c_pc c = CPop ->
      exists d, pg_calls (prun n s (repeat (PGo i) (2 * length q + 3))) i = Some d /\ done d).
    { clear s c Q E PC. intros s c Q E PC. replace (2 * length q + 3)%nat with (S (2 * length q + 2)) by lia. cbn [repeat prun pstep]. rewrite E, PC, Q. cbn [fst].
      eapply IH; [reflexivity|cbn; rewrite Z.eqb_refl; reflexivity|now left]. }
    cbn [length]. destruct PC as [PC|PC].
    + replace (2 * S (length q) + 2)%nat with (S (2 * length q + 3)) by lia. cbn [repeat prun pstep]. rewrite E, PC, Q. cbn [fst]. eapply Pop; [exact Q|cbn; rewrite Z.eqb_refl; reflexivity|reflexivity].
    + destruct (Pop s c Q E PC) as (d & A & B). replace (2 * S (length q) + 2)%nat with (2 * length q + 3 + 1)%nat by lia. rewrite repeat_app, prun_app.
      exists d. rewrite (St _ d 1%nat A B). auto.
Qed.
Theorem goes_to_end n i s c : pg_calls s i = Some c -> exists k d, pg_calls (prun n s (repeat (PGo i) k)) i = Some d /\ done d.
Proof.
  intros E. assert (L : forall s c, pg_calls s i = Some c -> c_pc c = CLoop -> exists k d, pg_calls (prun n s (repeat (PGo i) k)) i = Some d /\ done d).
  { intros s' c' H PC. eexists. apply (loop_ends n i (pg_queue s') s' c'); auto. }
  assert (One : forall s c, pg_calls s i = Some c -> (exists k d, pg_calls (prun n (fst (pstep n s (PGo i))) (repeat (PGo i) k)) i = Some d /\ done d) ->
    exists k d, pg_calls (prun n s (repeat (PGo i) k)) i = Some d /\ done d) by (intros s' c' _ (k & d & H); exists (S k), d; exact H).
  assert (F : forall s c, pg_calls s i = Some c -> c_pc c = CFirst -> exists k d, pg_calls (prun n s (repeat (PGo i) k)) i = Some d /\ done d).
  { intros s' c' H PC. apply (One s' c' H). cbn [pstep]. rewrite H, PC. destruct (pg_queue s'); cbn [fst].
    - exists 0%nat. eexists. cbn. rewrite Z.eqb_refl. split; [reflexivity|now right].
    - eapply L; [cbn; rewrite Z.eqb_refl; reflexivity|reflexivity]. }
  assert (I : forall s c, pg_calls s i = Some c -> c_pc c = CInfo -> exists k d, pg_calls (prun n s (repeat (PGo i) k)) i = Some d /\ done d).
  { intros s' c' H PC. apply (One s' c' H). cbn [pstep]. rewrite H, PC. destruct (pg_info s'); cbn [fst].
    - eapply L; [cbn; rewrite Z.eqb_refl; reflexivity|reflexivity].
    - eapply F; [cbn; rewrite Z.eqb_refl; reflexivity|reflexivity]. }
  destruct (c_pc c) eqn:PC.
  - apply (One s c E). cbn [pstep]. rewrite E, PC. destruct (pg_queue s); cbn [fst].
    + eapply L; [cbn; rewrite Z.eqb_refl; reflexivity|reflexivity].
    + destruct n; [eapply L|eapply I]; try (cbn; rewrite Z.eqb_refl; reflexivity); reflexivity.
  - now apply (I s c).
  - now apply (F s c).
  - now apply (L s c).
  - eexists. apply (loop_ends n i (pg_queue s) s c); auto.
  - exists 0%nat, c. split; [exact E|now left].
  - exists 0%nat, c. split; [exact E|now right].
Qed.
Lemma asks_known n l : forall s i b, asks l i b -> pg_calls (prun n s l) i <> None.
Proof.
  assert (Keep : forall l s i, pg_calls s i <> None -> pg_calls (prun n s l) i <> None).
  { clear l. induction l as [|e l IH]; intros s i H; [exact H|]. cbn [prun]. apply IH.
    assert (G : forall q inf j c, pg_calls (mkPages q inf (pg_calls (set_call s j c))) i <> None) by (intros; cbn; destruct (i =? j); [discriminate|exact H]).
    destruct e as [j b|j]; cbn [pstep].
    - destruct (pg_calls s j); [exact H|]. destruct b; apply G || apply (G (pg_queue s) (pg_info s)).
    - destruct (pg_calls s j) as [c|]; [|exact H]. destruct (c_pc c); [destruct (pg_queue s)|destruct (pg_info s)|destruct (pg_queue s)..| |]; cbn [fst]; try exact H; eapply G. }
  induction l as [|e l IH]; intros s i b H; [destruct H|]. cbn [prun]. destruct H as [->|H]; [|now apply (IH _ i b)]. apply Keep. cbn [pstep].
  destruct (pg_calls s i) eqn:E; [cbn; congruence|]. destruct b; cbn; rewrite Z.eqb_refl; discriminate.
Qed.
