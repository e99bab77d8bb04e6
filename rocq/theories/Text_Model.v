(* Model of metrics/bleu.py, metrics/rouge.py and metrics/sample_metrics.py.

   Simplification: labels and predictions have already been looked up for the model and
   output (metric_util.to_label_prediction_example_weight, modelled in Inputs_Model);
   they are texts here. *)
From Coq Require Import String Ascii.
From Verif Require Import Base Beam Keys_Model Evaluator_Model.
Local Open Scope string_scope.
Local Open Scope list_scope.

(* ------------------------------------------------------------------ *)
(** * bleu.py *)

Local Notation gram := (list string).
Fixpoint gram_eqb (a b : gram) : bool :=
  match a, b with
  | [], [] => true
  | x :: a, y :: b => String.eqb x y && gram_eqb a b
  | _, _ => false
  end.

(** collections.Counter of a list *)
Definition counted (c : list (gram * nat)) (g : gram) : nat :=
  match dget gram_eqb c g with Some n => n | None => 0 end.
Definition counter (l : list gram) : list (gram * nat) :=
  fold_left (fun c g => dset gram_eqb c g (counted c g + 1)) l [].

(** sacrebleu.metrics.helpers.extract_all_word_ngrams(line, 1, max_order), with the line
    split into words: all runs of 1 .. max_order words, and the number of words. *)
Definition windows (n : nat) (l : list string) : list gram :=
  map (fun i => firstn n (skipn i l)) (seq 0 (length l + 1 - n)).
Definition extract_all_word_ngrams (max_order : nat) (words : list string) : list (gram * nat) * nat :=
  (counter (flat_map (fun n => windows n words) (seq 1 max_order)), length words).

(** bleu.py 35-76 [_Accumulator] *)
Record bleu_acc := BleuAcc { matching_ngrams : list nat; total_ngrams : list nat; hyp_len : nat; ref_len : nat }.

(** 80-83 [_RefInfo] *)
Record ref_info := RefInfo { ri_ngrams : list (gram * nat); ri_lens : list nat }.

Definition distance (a b : nat) : nat := (a - b) + (b - a).

(** 86-99 [_find_closest_ref_len]: np.argmin finds the first of the smallest, and refuses
    an empty array. *)
Definition find_closest_ref_len (hyp : nat) (ref_lens : list nat) : res nat :=
  match ref_lens with
  | [] => Err ValueError
  | r :: t => Ok (fold_left (fun best x => if Nat.ltb (distance x hyp) (distance best hyp) then x else best) t r)
  end.

Definition zeros (n : nat) : list nat := repeat 0 n.
(** arr[i] += x *)
Fixpoint add_at (i x : nat) (l : list nat) : list nat :=
  match l, i with
  | [], _ => []
  | y :: t, O => (y + x) :: t
  | y :: t, S i => y :: add_at i x t
  end.
(** np.sum([a, b], axis=0) *)
Definition vplus (a b : list nat) : list nat := map (fun xy => fst xy + snd xy) (combine a b).

(** One example: the table of references, a row for each set of references and a column
    for each hypothesis (None: no reference), and the hypotheses. *)
Record text_example := TextExample {
  te_references : option (list (list (option string)));
  te_hypotheses : option (list string)
}.

Section Bleu.
  Variable max_ngram_order : nat.
  (** 174-178 [_preprocess_segment] followed by splitting at white space *)
  Variable preprocessed_words : string -> list string.
  (** splitting at white space alone *)
  Variable words : string -> list string.

  (** 142-172 [_extract_statistics_for_empty_reference] *)
  Definition extract_statistics_for_empty_reference (hypotheses : list string) : list bleu_acc :=
    let sum_hyp_len :=
      fold_left (fun s h => s + snd (extract_all_word_ngrams max_ngram_order (words h))) hypotheses 0 in
    [BleuAcc (zeros max_ngram_order) (zeros max_ngram_order) sum_hyp_len 0].

  (** 180-213 [_extract_reference_info], of references already split into words *)
  Definition extract_reference_info (refs : list (list string)) : res ref_info :=
    match refs with
    | [] => Err StopIteration
    | r :: t =>
        let first := extract_all_word_ngrams max_ngram_order r in
        Ok (fold_left
              (fun info ref =>
                 let new := extract_all_word_ngrams max_ngram_order ref in
                 RefInfo (fold_left (fun final gc => dset gram_eqb final (fst gc) (Nat.max (counted final (fst gc)) (snd gc)))
                                    (fst new) (ri_ngrams info))
                         (ri_lens info ++ [snd new]))
              t (RefInfo (fst first) [snd first]))
    end.

  (** zip( *references ) *)
  Definition columns {A} (rows : list (list (option A))) : list (list (option A)) :=
    match rows with
    | [] => []
    | r :: t => map (fun j => map (fun row => nth j row None) rows)
                    (seq 0 (fold_left (fun n row => Nat.min n (length row)) t (length r)))
    end.

  (** 215-231 [_extract_reference_ngrams_and_lens] *)
  Definition extract_reference_ngrams_and_lens (references : list (list (option string))) : res (list ref_info) :=
    mapM (fun refs => extract_reference_info
                        (flat_map (fun line => match line with Some l => [preprocessed_words l] | None => [] end) refs))
         (columns references).

  (** 233-279 [_compute_segment_statistics] *)
  Definition compute_segment_statistics (hypothesis : list string) (info : ref_info) : res bleu_acc :=
    let (hyp_ngrams, hyp_length) := extract_all_word_ngrams max_ngram_order hypothesis in
    let! closest := find_closest_ref_len hyp_length (ri_lens info) in
    let '(matching, total) :=
      fold_left (fun mt gc =>
                   let n := length (fst gc) - 1 in
                   (match dget gram_eqb (ri_ngrams info) (fst gc) with
                    | Some c => add_at n (Nat.min (snd gc) c) (fst mt)
                    | None => fst mt
                    end,
                    add_at n (snd gc) (snd mt)))
                hyp_ngrams (zeros max_ngram_order, zeros max_ngram_order) in
    Ok (BleuAcc matching total hyp_length closest).

  (** 281-332 [_extract_corpus_statistics]; warnings are left out.  Simplification: the
      references form a table (numpy refuses or nests rows of different lengths). *)
  Definition extract_corpus_statistics (hypotheses : list string) (references : list (list (option string)))
    : res (list bleu_acc) :=
    if forallb (forallb (fun r => match r with Some s => String.eqb s "" | None => false end)) references
    then Ok (extract_statistics_for_empty_reference hypotheses)
    else
      let! infos := extract_reference_ngrams_and_lens references in
      mapM (fun hi => compute_segment_statistics (preprocessed_words (fst hi)) (snd hi)) (combine hypotheses infos).

  (** 367-371 [create_accumulator] *)
  Definition bleu_create : bleu_acc := BleuAcc (zeros max_ngram_order) (zeros max_ngram_order) 0 0.

  (** 396-408 [merge_accumulators], of two *)
  Definition bleu_plus (a b : bleu_acc) : bleu_acc :=
    BleuAcc (vplus (matching_ngrams a) (matching_ngrams b)) (vplus (total_ngrams a) (total_ngrams b))
            (hyp_len a + hyp_len b) (ref_len a + ref_len b).

  (** 373-394 [add_input]: the statistics of the example come first. *)
  Definition bleu_add (a : bleu_acc) (e : text_example) : res bleu_acc :=
    match te_references e, te_hypotheses e with
    | Some references, Some hypotheses =>
        let! stats := extract_corpus_statistics hypotheses references in
        merge_next bleu_plus (map (fun x => Ok x) (stats ++ [a]))
    | _, _ => Err ValueError
    end.

  (** 334-365, 410-413: the score is what sacrebleu.BLEU.compute_bleu makes of the four
      statistics; [compute_bleu] stands for it. *)
  Definition bleu_combiner {V} (compute_bleu : bleu_acc -> V) : combiner text_example (res bleu_acc) (res V) :=
    res_combiner bleu_create bleu_add bleu_plus (fun a => Ok (compute_bleu a)).
End Bleu.

(** 416-447 [_bleu] (rouge.py 153-180 [_rouge]) for one model and output, and
    metric_util.merge_per_key_computations (metric_util.py 1176-1232) for all of them; a
    computation is told by the model and output its combiner reads.  The key has only
    the name in it. *)
Definition text_key (name : string) : metric_key := MetricKey name "" "" None None None false.
Definition text_computations (class : string) (name : string) (model_names output_names : list string)
  : list (computation (string * string)) :=
  flat_map (fun m => map (fun o => Computation (Combine class []) [text_key name] (m, o)) output_names) model_names.

(* ------------------------------------------------------------------ *)
(** * rouge.py *)

(** scoring.Score *)
Record score := Score { precision : num; recall : num; fmeasure : num }.

(** rouge.py 31-36 [_Accumulator] *)
Record rouge_acc := RougeAcc { weighted_count : Qc; total_precision : Qc; total_recall : Qc; total_fmeasure : Qc }.

(** Labels, predictions and example weights of an example *)
Record summary_example := SummaryExample {
  se_labels : option (list string); se_predictions : option (list string); se_weights : list Qc
}.

(** metric_util.py 663-671: require_single_example_weight *)
Definition single_weight (weights : list Qc) : res (list Qc) :=
  match weights with
  | w :: _ :: _ => if forallb (fun x => Qc_eqb x w) weights then Ok [w] else Err ValueError
  | _ => Ok weights
  end.

Section Rouge.
  (** rouge_scorer.RougeScorer.score_multi(..)[rouge_type]: precision, recall, f-measure *)
  Variable score_multi : list string -> string -> Qc * Qc * Qc.

  (** 96-121 [add_input] *)
  Definition rouge_add (a : rouge_acc) (e : summary_example) : res rouge_acc :=
    match se_labels e, se_predictions e with
    | Some labels, Some predictions =>
        let! ws := single_weight (se_weights e) in
        let! w := match ws with [] => Err IndexError | w :: _ => Ok w end in
        let! prediction := match predictions with [] => Err IndexError | p :: _ => Ok p end in
        let '(p, r, f) := score_multi labels prediction in
        Ok (RougeAcc (weighted_count a + w)%Qc (total_precision a + p * w)%Qc
                     (total_recall a + r * w)%Qc (total_fmeasure a + f * w)%Qc)
    | _, _ => Err ValueError
    end.

  (** 123-132 [merge_accumulators], of two *)
  Definition rouge_plus (a b : rouge_acc) : rouge_acc :=
    RougeAcc (weighted_count a + weighted_count b)%Qc (total_precision a + total_precision b)%Qc
             (total_recall a + total_recall b)%Qc (total_fmeasure a + total_fmeasure b)%Qc.

  (** 134-150 [extract_output] *)
  Definition rouge_extract (a : rouge_acc) : res score :=
    Ok (if Qc_eqb (weighted_count a) 0%Qc then Score NaN NaN NaN
        else Score (Fin (total_precision a / weighted_count a)%Qc) (Fin (total_recall a / weighted_count a)%Qc)
                   (Fin (total_fmeasure a / weighted_count a)%Qc)).

  Definition rouge_combiner : combiner summary_example (res rouge_acc) (res score) :=
    res_combiner (RougeAcc 0 0 0 0)%Qc rouge_add rouge_plus rouge_extract.
End Rouge.

(* ------------------------------------------------------------------ *)
(** * sample_metrics.py *)

Section Sample.
  Context {V : Type}.

  (** An example: the number in [0, 1) drawn for it (137), the value of the sampled key
      and its weight, each of which may be missing. *)
  Record sampled := Sampled { sa_random : Qc; sa_value : option V; sa_weight : option Qc }.

  (** x ** y for x in [0, 1) *)
  Variable power : Qc -> Qc -> Qc.

  (** 138-142; 1 / 0 is inf in numpy and x ** inf is 0.  No weight: 1 / None. *)
  Definition random_tag (example_weighted : bool) (e : sampled) : res Qc :=
    if example_weighted then
      match sa_weight e with
      | None => Err TypeError
      | Some w => Ok (if Qc_eqb w 0%Qc then 0%Qc else power (sa_random e) (1 / w)%Qc)
      end
    else Ok (sa_random e).

  (** beam.combiners.TopCombineFn(n): the n largest pairs, largest first.  Simplification:
      equal tags keep their order (Python would compare the values). *)
  Fixpoint push (x : Qc * V) (heap : list (Qc * V)) : list (Qc * V) :=
    match heap with
    | [] => [x]
    | y :: t => if Qc_ltb (fst y) (fst x) then x :: heap else y :: push x t
    end.
  Definition top_add (n : nat) (heap : list (Qc * V)) (x : Qc * V) : list (Qc * V) := firstn n (push x heap).

  (** 132-143 [add_input] *)
  Definition sample_add (n : nat) (example_weighted : bool) (heap : list (Qc * V)) (e : sampled) : res (list (Qc * V)) :=
    match sa_value e with
    | None => Err ValueError
    | Some v => let! t := random_tag example_weighted e in Ok (top_add n heap (t, v))
    end.

  (** 145-148 [extract_output]: the same values for every key *)
  Definition sample_combiner (n : nat) (example_weighted : bool) (keys : list metric_key)
    : combiner sampled (res (list (Qc * V))) (res (list (metric_key * list V))) :=
    res_combiner [] (sample_add n example_weighted) (fun a b => fold_left (top_add n) b a)
      (fun heap => Ok (map (fun k => (k, map snd heap)) keys)).
End Sample.
Arguments sampled : clear implicits.
Arguments Sampled {V}.
