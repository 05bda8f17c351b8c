(** Scrapes of the metrics page: instrumentation.py:195-243 serves it with one thread
    per request (ThreadingWSGIServer, line 235), and each request runs
    _CustomCollector.collect (_prometheus_exporter.py:209-234) to its end.  The threads
    share the queue and the target info; a thread can be interrupted between the steps
    below.  Not modelled: rendering by prometheus_client. *)
From Verif Require Import Base Prom.

(** What the SDK hands over at one request: the attributes of each resource (in order,
    values rendered as in lines 366-370) and the metrics. *)
Definition batch : Type := list (list (string * string)) * list metric.

(** Python dict update: an old key keeps its place, a new one goes to the end. *)
Fixpoint dput (k v : string) (d : list (string * string)) : list (string * string) :=
  match d with
  | [] => [(k, v)]
  | (k', v') :: d => if String.eqb k' k then (k', v) :: d else (k', v') :: dput k v d
  end.
Definition dput_all (l d : list (string * string)) : list (string * string) := fold_left (fun d a => dput (fst a) (snd a) d) l d.
(** _prometheus_exporter.py:216-226, 372-384: target info from the first batch queued. *)
Definition info_of (b : batch) : list (string * string) :=
  dput_all (map (fun a => (sanitize_attribute (fst a), snd a)) (fold_left (fun d l => dput_all l d) (fst b) [])) [].

(** What is given out: the target info family, or a family of measurements. *)
Inductive yield := YInfo (l : list (string * string)) | YFam (f : family).

(** A request: [CHead] before the test of line 216, [CInfo] before the test of 218, [CFirst]
    before 219-225, [CLoop] before the test of 228, [CPop] before 229-234, [COver] done,
    [CFailed] ended by IndexError (the deque was emptied by another thread after the
    test of 216 or 228).  [c_info], [c_fams]: metric_family_id_metric_family; [c_page]:
    what it has given out. *)
Inductive cpc := CHead | CInfo | CFirst | CLoop | CPop | COver | CFailed.
Record scrape := mkScrape { c_pc : cpc; c_info : option (list (string * string)); c_fams : list (string * family); c_page : list yield }.
(** _prometheus_exporter.py:200-203; the requests by number. *)
Record pages := mkPages { pg_queue : list batch; pg_info : option (list (string * string)); pg_calls : Z -> option scrape }.
Definition init_pages : pages := mkPages [] None (fun _ => None).

(** Events: request [i] comes and its callback (lines 211-212) queues [b] (182-190, 205-207;
    the SDK may hand over nothing); request [i] goes on by one step. *)
Inductive pevent := PAskFor (i : Z) (b : option batch) | PGo (i : Z).
Inductive pout := PNone | PQueued (i : Z) (b : batch) | PTook (i : Z) (b : batch) | PEnds (i : Z) | PFails (i : Z).

(** Book-keeping of the model: request [i] is now as [c], at [pc] with [info]. *)
Definition set_call (s : pages) (i : Z) (c : scrape) : pages := mkPages (pg_queue s) (pg_info s) (fun j => if j =? i then Some c else pg_calls s j).
Definition at_pc (c : scrape) (pc : cpc) (info : option (list (string * string))) : scrape := mkScrape pc info (c_fams c) (c_page c).

(** _prometheus_exporter.py:209-234.  [noinfo]: disable_target_info. *)
Definition pstep (noinfo : bool) (s : pages) (e : pevent) : pages * pout :=
  match e with
  | PAskFor i b =>
      match pg_calls s i with
      | Some _ => (s, PNone)
      | None =>
          let s' := set_call s i (mkScrape CHead None [] []) in
          match b with
          | Some b => (mkPages (pg_queue s' ++ [b]) (pg_info s') (pg_calls s'), PQueued i b)
          | None => (s', PNone)
          end
      end
  | PGo i =>
      match pg_calls s i with
      | None => (s, PNone)
      | Some c =>
          match c_pc c with
          | CHead => (* 216-217 *)
              match pg_queue s with
              | _ :: _ => (set_call s i (at_pc c (if noinfo then CLoop else CInfo) None), PNone)
              | [] => (set_call s i (at_pc c CLoop None), PNone)
              end
          | CInfo => (* 218, 226 *)
              match pg_info s with
              | Some x => (set_call s i (at_pc c CLoop (Some x)), PNone)
              | None => (set_call s i (at_pc c CFirst None), PNone)
              end
          | CFirst => (* 219-226 *)
              match pg_queue s with
              | b :: _ => (set_call (mkPages (pg_queue s) (Some (info_of b)) (pg_calls s)) i (at_pc c CLoop (Some (info_of b))), PNone)
              | [] => (set_call s i (at_pc c CFailed None), PFails i)
              end
          | CLoop => (* 228 *)
              match pg_queue s with
              | [] => (set_call s i (at_pc c COver (c_info c)), PEnds i)
              | _ :: _ => (set_call s i (at_pc c CPop (c_info c)), PNone)
              end
          | CPop => (* 229-234 *)
              match pg_queue s with
              | [] => (set_call s i (at_pc c CFailed (c_info c)), PFails i)
              | b :: q =>
                  let fams := translate (c_fams c) (snd b) in
                  let out := match c_info c with Some x => [YInfo x] | None => [] end ++ map (fun p => YFam (snd p)) fams in
                  (set_call (mkPages q (pg_info s) (pg_calls s)) i (mkScrape CLoop (c_info c) fams (c_page c ++ out)), PTook i b)
              end
          | COver | CFailed => (s, PNone)
          end
      end
  end.

(** A run of requests, and what is seen of it. *)
Fixpoint prun (noinfo : bool) (s : pages) (l : list pevent) : pages :=
  match l with [] => s | e :: l => prun noinfo (fst (pstep noinfo s e)) l end.
Fixpoint pouts (noinfo : bool) (s : pages) (l : list pevent) : list pout :=
  match l with [] => [] | e :: l => snd (pstep noinfo s e) :: pouts noinfo (fst (pstep noinfo s e)) l end.
