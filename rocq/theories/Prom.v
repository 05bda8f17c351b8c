(** The metrics page: /repo/src/docket/_prometheus_exporter.py.  Strings are byte
    strings; every function below treats bytes of non-ASCII characters like the characters
    themselves (they are never kept).  Not modelled: the target-info family, rendering by
    prometheus_client, and JSON encoding of label values that are not strings. *)
From Coq Require Import Ascii.
From Verif Require Import Base.

Definition between (a b c : ascii) : bool := (N_of_ascii a <=? N_of_ascii c)%N && (N_of_ascii c <=? N_of_ascii b)%N.
Definition digit (c : ascii) : bool := between "0" "9" c.
Definition alnum (c : ascii) : bool := between "a" "z" c || between "A" "Z" c || digit c.

(** re.sub("[^...]+", "_", s) (_prometheus_exporter.py:66-67): each maximal run of characters that are not
    kept becomes one underscore; [run]: the previous character was not kept. *)
Fixpoint sub_runs (keep : ascii -> bool) (run : bool) (s : string) : string :=
  match s with
  | EmptyString => EmptyString
  | String c s =>
      if keep c then String c (sub_runs keep false s)
      else if run then sub_runs keep true s
      else String "_" (sub_runs keep true s)
  end.

(** _prometheus_exporter.py:66, 111-113 _sanitize_name *)
Definition name_char (c : ascii) : bool := alnum c || Ascii.eqb c ":".
Definition sanitize_name (s : string) : string := sub_runs name_char false s.

(** _prometheus_exporter.py:118-119, 125-126: name[0].isdigit() (a non-ASCII digit is replaced anyway). *)
Definition no_leading_digit (s : string) : string :=
  match s with String c s' => if digit c then String "_" s' else s | EmptyString => s end.

(** _prometheus_exporter.py:116-120 sanitize_full_name, 123-127 sanitize_attribute *)
Definition sanitize_full_name (s : string) : string := sanitize_name (no_leading_digit s).
Definition sanitize_attribute (s : string) : string := sub_runs alnum false (no_leading_digit s).

(** Splitting at the first / last occurrence of a character. *)
Fixpoint split_first (c : ascii) (s : string) : option (string * string) :=
  match s with
  | EmptyString => None
  | String x s => if Ascii.eqb x c then Some (EmptyString, s)
                  else match split_first c s with Some (a, b) => Some (String x a, b) | None => None end
  end.
Fixpoint after_last (c : ascii) (s : string) : option string :=
  match s with
  | EmptyString => None
  | String x s => match after_last c s with Some b => Some b | None => if Ascii.eqb x c then Some s else None end
  end.

(** _prometheus_exporter.py:68, 132: re.sub("{.*}", "", unit), from the first brace to the last ("." does not
    match a newline; units have none). *)
Definition strip_annotation (s : string) : string :=
  match split_first "{" s with
  | Some (a, r) => match after_last "}" r with Some b => (a ++ b)%string | None => s end
  | None => s
  end.

(** str.strip("_") *)
Fixpoint lstrip (s : string) : string := match s with String "_" s => lstrip s | _ => s end.
Fixpoint rstrip (s : string) : string :=
  match s with
  | EmptyString => EmptyString
  | String c s => match rstrip s with EmptyString => if Ascii.eqb c "_" then EmptyString else String c EmptyString | s' => String c s' end
  end.

(** _prometheus_exporter.py:71-98 _UNIT_MAPPINGS, 100-108 _PER_UNIT_MAPPINGS *)
Definition unit_mappings : list (string * string) :=
  [("d", "days"); ("h", "hours"); ("min", "minutes"); ("s", "seconds"); ("ms", "milliseconds"); ("us", "microseconds"); ("ns", "nanoseconds");
   ("By", "bytes"); ("KiBy", "kibibytes"); ("MiBy", "mebibytes"); ("GiBy", "gibibytes"); ("TiBy", "tibibytes");
   ("KBy", "kilobytes"); ("MBy", "megabytes"); ("GBy", "gigabytes"); ("TBy", "terabytes"); ("m", "meters"); ("V", "volts");
   ("A", "amperes"); ("J", "joules"); ("W", "watts"); ("g", "grams"); ("Cel", "celsius"); ("Hz", "hertz"); ("1", ""); ("%", "percent")]%string.
Definition per_unit_mappings : list (string * string) :=
  [("s", "second"); ("m", "minute"); ("h", "hour"); ("d", "day"); ("w", "week"); ("mo", "month"); ("y", "year")]%string.
Definition table (l : list (string * string)) (s : string) : option string := option_map snd (find (fun e => String.eqb (fst e) s) l).

(** _prometheus_exporter.py:130-146 map_unit *)
Definition map_unit (unit : string) : string :=
  let unit := strip_annotation unit in
  match table unit_mappings unit with
  | Some u => u
  | None =>
      match split_first "/" unit with
      | Some (top, bottom) =>
          let bottom := sanitize_name bottom in
          if String.eqb bottom "" then rstrip (lstrip (sanitize_name unit))
          else
            let top := sanitize_name top in
            let top := default top (table unit_mappings top) in
            let bottom := default bottom (table per_unit_mappings bottom) in
            if String.eqb top "" then ("per_" ++ bottom)%string else (top ++ "_per_" ++ bottom)%string
      | None => rstrip (lstrip (sanitize_name unit))
      end
  end.

(** _prometheus_exporter.py:149-161 _convert_buckets: zip of the bounds and "+Inf" with the counts. *)
Fixpoint convert_buckets (total : Z) (bounds : list string) (counts : list Z) {struct counts} : list (string * Z) :=
  match counts with
  | [] => []
  | n :: counts =>
      match bounds with
      | b :: bounds => (b, total + n) :: convert_buckets (total + n) bounds counts
      | [] => [("+Inf"%string, total + n)]
      end
  end.

(** Metrics as the SDK hands them over: metric.data is a Sum, a Gauge, a Histogram or
    something else (_prometheus_exporter.py:291-364). *)
Inductive mkind := MSum (monotonic cumulative : bool) | MGauge | MHistogram | MUnsupported.
(** A data point: attributes sorted by key, with values already rendered (_prometheus_exporter.py:263-265), and
    its value. *)
Record point := mkPoint { pt_attrs : list (string * string); pt_value : string }.
Record metric := mkMetric { mt_name : string; mt_doc : string; mt_unit : string; mt_kind : mkind; mt_points : list point }.

(** prometheus_client metric families; [f_samples] in the order of add_metric. *)
Inductive ftype := FCounter | FGauge | FHistogram.
Record family := mkFamily { f_type : ftype; f_name : string; f_doc : string; f_labels : list string; f_unit : string;
  f_samples : list (list string * string) }.

(** _prometheus_exporter.py:297-307, 324, 341: the family type of a metric. *)
Definition family_type (k : mkind) : option ftype :=
  match k with
  | MSum monotonic cumulative => if negb monotonic && cumulative then Some FGauge else Some FCounter
  | MGauge => Some FGauge
  | MHistogram => Some FHistogram
  | MUnsupported => None
  end.
(** __name__ of the family classes. *)
Definition type_name (t : ftype) : string :=
  match t with FCounter => "CounterMetricFamily" | FGauge => "GaugeMetricFamily" | FHistogram => "HistogramMetricFamily" end.

(** _prometheus_exporter.py:260-276, 308-310: the id a point's family is stored under. *)
Definition label_keys (p : point) : list string := map (fun a => sanitize_attribute (fst a)) (pt_attrs p).
Definition family_id (name doc : string) (keys : list string) (unit : string) (t : ftype) : string :=
  (name ++ "|" ++ doc ++ "|" ++ String.concat "%" keys ++ "|" ++ unit ++ "|" ++ type_name t)%string.

(** _prometheus_exporter.py:308-323 (and 325-340, 342-362): look the family up, create it when missing, add the
    sample. *)
Fixpoint add_sample (id : string) (new : family) (v : list string * string) (l : list (string * family)) : list (string * family) :=
  match l with
  | [] => [(id, mkFamily (f_type new) (f_name new) (f_doc new) (f_labels new) (f_unit new) [v])]
  | (id', f) :: l =>
      if String.eqb id' id then
        (id', mkFamily (f_type f) (f_name f) (f_doc f) (f_labels f) (f_unit f) (f_samples f ++ [v])) :: l
      else (id', f) :: add_sample id new v l
  end.

(** _prometheus_exporter.py:249-257, 279-364: one point of a metric. *)
Definition add_point (m : metric) (l : list (string * family)) (p : point) : list (string * family) :=
  match family_type (mt_kind m) with
  | None => l
  | Some t =>
      let name := sanitize_full_name (mt_name m) in
      let unit := map_unit (mt_unit m) in
      add_sample (family_id name (mt_doc m) (label_keys p) unit t)
        (mkFamily t name (mt_doc m) (label_keys p) unit []) (map snd (pt_attrs p), pt_value p) l
  end.

(** _prometheus_exporter.py:236-364 _translate_to_prometheus *)
Definition translate (l : list (string * family)) (ms : list metric) : list (string * family) :=
  fold_left (fun l m => fold_left (add_point m) (mt_points m) l) ms l.

(** _prometheus_exporter.py:209-234 collect: the queued batches one after the other; after each, all families
    gathered so far are given out. *)
Fixpoint collect (l : list (string * family)) (batches : list (list metric)) : list family :=
  match batches with
  | [] => []
  | ms :: batches => let l := translate l ms in map snd l ++ collect l batches
  end.
