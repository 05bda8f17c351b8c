(** C106: requests of the metrics page that overlap. *)
From Coq Require Import Permutation.
From Verif Require Import Base Prom SpecProm PromProofs Scrape SpecScrape ScrapeProofs.

(** However requests are interleaved, each batch is taken by one request at most, in the order
    they came, and the others are still waiting. *)
Theorem C106_batch_taken_once noinfo l :
  queued (pouts noinfo init_pages l) = taken (pouts noinfo init_pages l) ++ pg_queue (prun noinfo init_pages l).
Proof. pose proof (run_batches noinfo l init_pages) as H. exact H. Qed.
Print Assumptions C106_batch_taken_once.

(** What a request has given out is exactly the measurements of the batches it took, those of a
    batch again with each later one; the target info, if any, once with each batch. *)
Theorem C106_page_exact noinfo l i c : all_named l -> pg_calls (prun noinfo init_pages l) i = Some c ->
  let mine := taken_by i (pouts noinfo init_pages l) in
  Permutation (shown (page_fams (c_page c))) (again mine) /\ (page_infos (c_page c) = [] \/ exists x, page_infos (c_page c) = repeat x (length mine)).
Proof.
  intros N E mine. destruct (run_pages noinfo l init_pages [] (Forall_nil _) N init_ok) as [_ P]. destruct (P i c E) as (_ & _ & _ & A & B). split; [exact A|].
  rewrite B. destruct (c_info c); [right; eexists; reflexivity|now left].
Qed.
Print Assumptions C106_page_exact.

(** Every request comes to its end if it goes on, and when all have, no batch is waiting. *)
Theorem C106_ends noinfo l i b : asks l i b -> exists k, let o := pouts noinfo init_pages (l ++ repeat (PGo i) k) in ended i o \/ broken i o.
Proof.
  intros H. destruct (pg_calls (prun noinfo init_pages l) i) as [c|] eqn:E; [|now elim (asks_known noinfo l init_pages i b H)].
  destruct (goes_to_end noinfo i _ c E) as (k & d & A & B). exists k. rewrite <- prun_app in A. destruct (run_ends noinfo (l ++ repeat (PGo i) k) init_pages [] init_ends) as (_ & R1 & _ & R2).
  destruct B as [B|B]; [left; exact (R1 i d A B)|right; exact (R2 i d A B)].
Qed.
Print Assumptions C106_ends.
Theorem C106_nothing_left noinfo l : let o := pouts noinfo init_pages l in (forall i b, asks l i b -> ended i o \/ broken i o) -> queued o = taken o.
Proof.
  intros o H. unfold o in *. rewrite C106_batch_taken_once. destruct (pg_queue (prun noinfo init_pages l)) as [|b q] eqn:Q; [apply app_nil_r|exfalso].
  destruct (run_live noinfo l init_pages init_live) as (i & c & A & B); [rewrite Q; discriminate|].
  assert (As : exists b, asks l i b).
  { clear -A. assert (G : forall l s, pg_calls (prun noinfo s l) i <> None -> pg_calls s i = None -> exists b, asks l i b).
    { clear. induction l as [|e l IH]; intros s H N; [now elim H|]. cbn [prun] in H.
      destruct (pg_calls (fst (pstep noinfo s e)) i) as [d|] eqn:E.
      - assert (X : exists b, e = PAskFor i b).
        { destruct e as [j b|j]; cbn [pstep] in E.
          - destruct (Z.eqb_spec i j) as [->|D]; [eauto|]. apply Z.eqb_neq in D. destruct (pg_calls s j); [cbn in E; congruence|]. destruct b; cbn in E; rewrite D in E; congruence.
          - destruct (Z.eqb_spec i j) as [->|D]; [rewrite N in E; cbn in E; congruence|]. apply Z.eqb_neq in D. destruct (pg_calls s j) as [c|]; [|cbn in E; congruence].
            destruct (c_pc c); [destruct (pg_queue s)|destruct (pg_info s)|destruct (pg_queue s)..| |]; cbn in E; rewrite ?D in E; congruence. }
        destruct X as [b ->]. exists b. now left.
      - destruct (IH _ H E) as [b X]. exists b. now right. }
    apply (G l init_pages); [congruence|reflexivity]. }
  destruct As as [b' As]. destruct (run_ends noinfo l init_pages [] init_ends) as (R1 & _ & R2 & _). apply B.
  destruct (H i b' As) as [X|X]; [destruct (R1 i X) as (d & D1 & D2)|destruct (R2 i X) as (d & D1 & D2)]; rewrite A in D1; injection D1 as <-; [now left|now right].
Qed.
Print Assumptions C106_nothing_left.

(** Requests that come one at a time: none fails, and each page shows every point of its own
    batch exactly once, and the target info of the first batch of all exactly once. *)
Theorem C106_own_page_partial noinfo l i b c : one_at_a_time noinfo l -> all_named l -> asks l i (Some b) ->
  let o := pouts noinfo init_pages l in pg_calls (prun noinfo init_pages l) i = Some c -> ended i o ->
  Permutation (shown (page_fams (c_page c))) (handed_over (snd b)) /\
  (if noinfo then page_infos (c_page c) = [] else exists b0 r, queued o = b0 :: r /\ page_infos (c_page c) = [info_of b0]).
Proof.
  intros One N As o E En. destruct (run_seq noinfo l One) as (S1 & _ & _ & S4 & _ & _ & S7). destruct (S1 i c E) as (b' & Ab & C).
  rewrite (S7 i b' (Some b) Ab As) in C. destruct (run_pages noinfo l init_pages [] (Forall_nil _) N init_ok) as [_ P]. destruct (P i c E) as (_ & _ & _ & A & B). cbn [app] in A, B.
  destruct (run_ends noinfo l init_pages [] init_ends) as (R1 & _). destruct (R1 i En) as (d & D1 & D2). rewrite E in D1. injection D1 as <-.
  destruct C as (C1 & C2 & _ & C4 & C5). rewrite D2 in C5. unfold olist in C5. rewrite C5 in A, B. split.
  - rewrite A. cbn. now rewrite !app_nil_r.
  - destruct noinfo; [now rewrite B, C4|]. rewrite D2 in C2. destruct (c_info c) as [x|]; [|elim C2; reflexivity || discriminate].
    assert (X : pg_info (prun false init_pages l) = Some x) by (symmetry; apply C1; discriminate). destruct (S4 x X) as (b0 & r & Q1 & ->). exists b0, r. now split.
Qed.
Print Assumptions C106_own_page_partial.
Theorem C106_none_fails_partial noinfo l i : one_at_a_time noinfo l -> ~ broken i (pouts noinfo init_pages l).
Proof.
  intros One H. destruct (run_ends noinfo l init_pages [] init_ends) as (_ & _ & R & _). destruct (R i H) as (c & E & PC).
  destruct (run_seq noinfo l One) as (S1 & _). destruct (S1 i c E) as (b & _ & _ & _ & _ & _ & F). now rewrite PC in F.
Qed.
Print Assumptions C106_none_fails_partial.

(** The target info: one entry for each name the attributes have once cleaned up, holding the
    last value of an attribute of that name; where names stay apart, of every attribute. *)
Theorem C106_target_info b : NoDup (map fst (info_of b)) /\
  (forall k, In k (map fst (info_of b)) <-> exists a, In a (attrs b) /\ k = sanitize_attribute (fst a)) /\
  (forall k v, In (k, v) (info_of b) -> exists a, k = sanitize_attribute a /\ last_word a v (attrs b)) /\
  ((forall a a', In a (attrs b) -> In a' (attrs b) -> sanitize_attribute (fst a) = sanitize_attribute (fst a') -> fst a = fst a') ->
   forall a v, last_word a v (attrs b) -> In (sanitize_attribute a, v) (info_of b)).
Proof. exact (info_spec b). Qed.
Print Assumptions C106_target_info.

(** Non-vacuity: two requests, one after the other. *)
Definition sc_res : list (list (string * string)) := [[("service.name", "docket"); ("host", "a")]; [("host", "b")]]%string.
Definition sc_b (v : string) : batch := (sc_res, [mkMetric "m" "" "" MGauge [mkPoint [("a", "1")]%string v]; mkMetric "n" "" "" MGauge [mkPoint [("b", "1")]%string v]]).
Definition sc_go (i : Z) (k : nat) : list pevent := repeat (PGo i) k.
Definition sc_two : list pevent := PAskFor 1 (Some (sc_b "5")) :: sc_go 1 6 ++ PAskFor 2 (Some (sc_b "6")) :: sc_go 2 6.
Definition sc_page (noinfo : bool) (l : list pevent) (i : Z) : list yield := match pg_calls (prun noinfo init_pages l) i with Some c => c_page c | None => [] end.
Example C106_info_example : info_of (sc_b "5") = [("service_name", "docket"); ("host", "b")]%string.
Proof. reflexivity. Qed.
Example C106_one_at_a_time_example : one_at_a_time false sc_two /\ all_named sc_two /\ asks sc_two 2 (Some (sc_b "6")) /\ ended 2 (pouts false init_pages sc_two).
Proof.
  split; [|split; [|split]].
  - intros l1 j b l2 E i b' A. unfold sc_two, sc_go in E. cbn [repeat app] in E.
    do 7 (destruct l1 as [|e l1]; [injection E as E1 E2; try discriminate; destruct A|injection E as <- E]).
    destruct l1 as [|e l1]; cbn [app] in E.
    + injection E as <- _ _. unfold asks in A. cbn in A. destruct A as [A|A]; [injection A as <- _; split; [discriminate|vm_compute; intuition auto 10]|exfalso; intuition discriminate].
    + injection E as <- E. exfalso. apply (f_equal (@rev pevent)) in E. rewrite rev_app_distr in E. cbn in E.
      assert (X : In (PAskFor j b) [PGo 2; PGo 2; PGo 2; PGo 2; PGo 2; PGo 2]) by (rewrite E; apply in_or_app; left; apply in_or_app; right; now left). cbn in X. intuition discriminate.
  - intros i b H. assert (X : b = sc_b "5" \/ b = sc_b "6"). { unfold asks, sc_two, sc_go in H. cbn in H. repeat (destruct H as [H|H]; [try discriminate H; injection H as _ <-; auto|]). destruct H. }
    destruct X as [-> | ->]; intros m p a; cbn; intros [<-|[<-|[]]] [<-|[]] [<-|[]]; discriminate.
  - unfold asks, sc_two, sc_go. cbn. intuition.
  - vm_compute. intuition auto 20.
Qed.
Example C106_pages_example : map (fun i => map snd (shown (page_fams (sc_page false sc_two i)))) [1; 2] =
  [[(["1"], "5"); (["1"], "5")]; [(["1"], "6"); (["1"], "6")]]%string /\ page_infos (sc_page false sc_two 2) = [info_of (sc_b "5")].
Proof. vm_compute. auto. Qed.

(** Refutation: of two requests at once, one answers with an empty page and the other with
    every point more than once; both end without an error. *)
Theorem C106_empty_page_refuted : exists l, all_named l /\ let o := pouts false init_pages l in
  asks l 1 (Some (sc_b "5")) /\ asks l 2 (Some (sc_b "6")) /\ ended 1 o /\ ended 2 o /\
  sc_page false l 2 = [] /\ map snd (shown (page_fams (sc_page false l 1))) = [(["1"], "5"); (["1"], "5"); (["1"], "5"); (["1"], "6"); (["1"], "5"); (["1"], "6")]%string.
Proof.
  exists (PAskFor 1 (Some (sc_b "5")) :: PAskFor 2 (Some (sc_b "6")) :: sc_go 1 8 ++ sc_go 2 6). split.
  - intros i b H. assert (X : b = sc_b "5" \/ b = sc_b "6"). { unfold asks, sc_go in H. cbn in H. repeat (destruct H as [H|H]; [try discriminate H; injection H as _ <-; auto|]). destruct H. }
    destruct X as [-> | ->]; intros m p a; cbn; intros [<-|[<-|[]]] [<-|[]] [<-|[]]; discriminate.
  - split; [now left|]. split; [right; now left|]. vm_compute. intuition auto 20.
Qed.
Print Assumptions C106_empty_page_refuted.

(** Refutation: a request fails (IndexError from an empty deque, the client gets an error page)
    because another took the last batch between its test and its popleft; the measurements
    it had taken are on no page. *)
Theorem C106_fails_refuted : exists l, let o := pouts false init_pages l in
  asks l 1 (Some (sc_b "5")) /\ asks l 2 (Some (sc_b "6")) /\ broken 1 o /\ ended 2 o /\ taken_by 1 o = [sc_b "5"] /\ taken_by 2 o = [sc_b "6"].
Proof.
  exists (PAskFor 1 (Some (sc_b "5")) :: PAskFor 2 (Some (sc_b "6")) :: sc_go 1 6 ++ sc_go 2 5 ++ sc_go 1 1).
  cbn zeta. split; [now left|]. split; [right; now left|]. vm_compute. intuition auto 30.
Qed.
Print Assumptions C106_fails_refuted.
