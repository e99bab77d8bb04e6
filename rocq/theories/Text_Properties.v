(* Text *)
From Coq Require Import String Ascii.
From Coq Require Import Sorted.
From Verif Require Import Base BaseFacts Beam BeamFacts Keys_Model Keys_Main Evaluator_Model Evaluator_Main Classes_Main Text_Model.
From Verif Require Import Text_Main.
Local Open Scope string_scope.
Local Open Scope list_scope.

(* ------------------------------------------------------------------ *)
(** ** C188 the statistics of BLEU *)
(** C188: BLEU is computed from these statistics of all hypotheses, however the examples
    are distributed over bundles: the number of runs of n words of the hypotheses, the
    number of those credited, each as often as the reference having most of them, the
    number of words of hypotheses and of the references nearest in length. *)
Theorem C188_statistics : forall V (compute_bleu : bleu_acc -> V) m pw words s xs,
  Forall2 (contributes pw words) (inputs s) xs ->
  exists a, outcome (bleu_combiner m pw words compute_bleu) s = Ok (compute_bleu a) /\ corpus m a xs.
Proof. exact C188_statistics_pf. Qed.

Example C188_statistics_example :
  outcome (bleu_combiner 2 ex_tokens ex_words (fun a => a))
    (Merge (Bundle [TextExample (Some [[Some "the cat sat."; Some "a dog"]; [Some "the the cat"; None]]) (Some ["the the the cat."; "a cat"])]) [Bundle []]) =
  Ok (BleuAcc [5; 2] [7; 5] 7 6).
Proof. vm_compute. reflexivity. Qed.

(** C188: so the score depends neither on the order of the examples nor on the bundles. *)
Theorem C188_any_bundles : forall V (compute_bleu : bleu_acc -> V) m pw words s1 s2,
  (forall e, In e (inputs s1) -> exists x, contributes pw words e x) -> Permutation (inputs s1) (inputs s2) ->
  outcome (bleu_combiner m pw words compute_bleu) s1 = outcome (bleu_combiner m pw words compute_bleu) s2.
Proof. exact C188_any_bundles_pf. Qed.

Example C188_any_bundles_example :
  let e1 := TextExample (Some [[Some "a b"]]) (Some ["a b c"]) in let e2 := TextExample (Some [[Some ""]]) (Some ["a b."]) in
  outcome (bleu_combiner 2 ex_tokens ex_words (fun a => a)) (Bundle [e1; e2]) = Ok (BleuAcc [2; 1] [3; 2] 5 2) /\
  outcome (bleu_combiner 2 ex_tokens ex_words (fun a => a)) (Merge (Bundle [e2]) [Bundle []; Bundle [e1]]) = Ok (BleuAcc [2; 1] [3; 2] 5 2).
Proof. split; vm_compute; reflexivity. Qed.

(** C188: an example without references or hypotheses, or with a hypothesis all of whose
    references are missing, is refused. *)
Theorem C188_refused : forall V (compute_bleu : bleu_acc -> V) m pw words s e,
  In e (inputs s) ->
  (te_references e = None \/ te_hypotheses e = None \/
   exists rows hyps row j, te_references e = Some rows /\ te_hypotheses e = Some hyps /\ In row rows /\
     (forall row', In row' rows -> length row' = length row) /\ j < length row /\ (forall row', In row' rows -> nth j row' None = None)) ->
  is_ok (outcome (bleu_combiner m pw words compute_bleu) s) = false.
Proof. exact C188_refused_pf. Qed.

Example C188_refused_example :
  outcome (bleu_combiner 2 ex_tokens ex_words (fun a => a)) (Bundle [TextExample (Some [[Some "a"; None]]) (Some ["a"; "b"])]) = Err StopIteration.
Proof. reflexivity. Qed.

(* ------------------------------------------------------------------ *)
(** ** C189 the order of the references *)
(** C189 is false: of references equally near in length the first counts, so the order
    of the references matters. *)
Theorem C189_order_refuted : exists rows rows' hyps,
  Permutation rows rows' /\
  is_ok (outcome (bleu_combiner 4 ex_tokens ex_words (fun a => a)) (Bundle [TextExample (Some rows) (Some hyps)])) = true /\
  outcome (bleu_combiner 4 ex_tokens ex_words (fun a => a)) (Bundle [TextExample (Some rows) (Some hyps)]) <>
  outcome (bleu_combiner 4 ex_tokens ex_words (fun a => a)) (Bundle [TextExample (Some rows') (Some hyps)]).
Proof. exact C189_order_refuted_pf. Qed.

Example C189_order_refuted_example :
  outcome (bleu_combiner 1 ex_tokens ex_words ref_len) (Bundle [TextExample (Some [[Some "a b"]; [Some "a b c d"]]) (Some ["a b c"])]) = Ok 2 /\
  outcome (bleu_combiner 1 ex_tokens ex_words ref_len) (Bundle [TextExample (Some [[Some "a b c d"]; [Some "a b"]]) (Some ["a b c"])]) = Ok 4.
Proof. split; reflexivity. Qed.

(** C189 if no two references of a hypothesis are equally near in length without being
    equally long: the order of the references does not matter. *)
Theorem C189_order_partial : forall V (compute_bleu : bleu_acc -> V) m pw words s1 s2,
  (forall e, In e (inputs s1) -> exists x, contributes pw words e x) ->
  Forall2 (fun e e' => exists rows rows' hyps, e = TextExample (Some rows) (Some hyps) /\ e' = TextExample (Some rows') (Some hyps) /\ Permutation rows rows' /\
     forall j a b, j < length hyps -> In a (references_of pw rows j) -> In b (references_of pw rows j) ->
       apart (length a) (length (pw (nth j hyps ""))) = apart (length b) (length (pw (nth j hyps ""))) -> length a = length b)
    (inputs s1) (inputs s2) ->
  outcome (bleu_combiner m pw words compute_bleu) s1 = outcome (bleu_combiner m pw words compute_bleu) s2.
Proof. exact C189_order_partial_pf. Qed.

Example C189_order_partial_example :
  outcome (bleu_combiner 2 ex_tokens ex_words (fun a => a)) (Bundle [TextExample (Some [[Some "a b"]; [Some "b c d"]]) (Some ["a b d"])]) =
  outcome (bleu_combiner 2 ex_tokens ex_words (fun a => a)) (Bundle [TextExample (Some [[Some "b c d"]; [Some "a b"]]) (Some ["a b d"])]).
Proof. reflexivity. Qed.

(* ------------------------------------------------------------------ *)
(** ** C190 blank references *)
(** C190 is false: when all references of an example are blank, its hypotheses are split
    at white space without the tokenizer, and their runs of words are not counted; a
    reference that merely differs from blank changes the length of the hypothesis. *)
Theorem C190_blank_refuted : exists hyps r a b,
  outcome (bleu_combiner 1 ex_tokens ex_words (fun a => a)) (Bundle [TextExample (Some [[Some ""]]) (Some hyps)]) = Ok a /\
  outcome (bleu_combiner 1 ex_tokens ex_words (fun a => a)) (Bundle [TextExample (Some [[Some r]]) (Some hyps)]) = Ok b /\
  ex_tokens r = [] /\ hyp_len a <> hyp_len b /\ total_ngrams a <> total_ngrams b.
Proof. exact C190_blank_refuted_pf. Qed.

Example C190_blank_refuted_example :
  outcome (bleu_combiner 1 ex_tokens ex_words (fun a => (total_ngrams a, hyp_len a))) (Bundle [TextExample (Some [[Some ""]]) (Some ["Google."])]) = Ok ([0], 1) /\
  outcome (bleu_combiner 1 ex_tokens ex_words (fun a => (total_ngrams a, hyp_len a))) (Bundle [TextExample (Some [[Some "Bing"]]) (Some ["Google."])]) = Ok ([2], 2).
Proof. split; reflexivity. Qed.

(** C190 when the tokenizer does no more than splitting at white space: the length is the
    number of words of all hypotheses, with or without references. *)
Theorem C190_length_partial : forall m words s xs,
  Forall2 (contributes words words) (inputs s) xs ->
  exists a, outcome (bleu_combiner m words words (fun a => a)) s = Ok a /\
    hyp_len a = list_sum (map (fun e => match te_hypotheses e with Some hs => list_sum (map (fun h => length (words h)) hs) | None => 0 end) (inputs s)).
Proof. exact C190_length_partial_pf. Qed.

Example C190_length_partial_example :
  outcome (bleu_combiner 1 ex_words ex_words hyp_len) (Bundle [TextExample (Some [[Some ""]]) (Some ["Google. is"]); TextExample (Some [[Some "x"]]) (Some ["a b."])]) = Ok 4.
Proof. reflexivity. Qed.

(* ------------------------------------------------------------------ *)
(** ** C191 every hypothesis counts *)
(** C191 is false: hypotheses beyond the columns of the table of references are ignored. *)
Theorem C191_extra_hypothesis_refuted : exists rows hyps extra,
  (forall row, In row rows -> length row = length hyps) /\
  is_ok (outcome (bleu_combiner 4 ex_tokens ex_words (fun a => a)) (Bundle [TextExample (Some rows) (Some hyps)])) = true /\
  ex_tokens extra <> [] /\
  outcome (bleu_combiner 4 ex_tokens ex_words (fun a => a)) (Bundle [TextExample (Some rows) (Some (hyps ++ [extra]))]) =
  outcome (bleu_combiner 4 ex_tokens ex_words (fun a => a)) (Bundle [TextExample (Some rows) (Some hyps)]).
Proof. exact C191_extra_hypothesis_refuted_pf. Qed.

Example C191_extra_hypothesis_refuted_example :
  outcome (bleu_combiner 1 ex_tokens ex_words (fun a => a)) (Bundle [TextExample (Some [[Some "a b"]]) (Some ["a b"; "c"; "d"])]) = Ok (BleuAcc [2] [2] 2 2).
Proof. reflexivity. Qed.

(** C191: hypotheses in excess of the references are ignored in general, and all others
    count (C188_statistics). *)
Theorem C191_columns_partial : forall V (compute_bleu : bleu_acc -> V) m pw words rows hyps extra x,
  contributes pw words (TextExample (Some rows) (Some hyps)) x -> ~ blank rows ->
  outcome (bleu_combiner m pw words compute_bleu) (Bundle [TextExample (Some rows) (Some (hyps ++ extra))]) =
  outcome (bleu_combiner m pw words compute_bleu) (Bundle [TextExample (Some rows) (Some hyps)]).
Proof. exact C191_columns_partial_pf. Qed.

Example C191_columns_partial_example :
  outcome (bleu_combiner 2 ex_tokens ex_words (fun a => a)) (Bundle [TextExample (Some [[Some "a b"; Some "c"]]) (Some ["a b"; "d"; "c c"])]) = Ok (BleuAcc [2; 1] [3; 1] 3 3).
Proof. reflexivity. Qed.

(* ------------------------------------------------------------------ *)
(** ** C192 several models or outputs *)
(** C192 is false: the key of the score names neither model nor output, so that of two
    models only the first is evaluated. *)
Theorem C192_models_refuted : exists class name m1 m2 s,
  m1 <> m2 /\ filter_and_separate_computations (text_computations class name [m1; m2] [""]) = Ok s /\
  forall ic, In ic (sp_base s) -> fst (cp_body (snd ic)) <> m2.
Proof. exact C192_models_refuted_pf. Qed.

Example C192_models_refuted_example :
  (let! s := filter_and_separate_computations (text_computations "RougeCombiner" "rouge1" ["base"; "candidate"] ["short"; "long"]) in
   Ok (map (fun ic => cp_body (snd ic)) (sp_base s))) = Ok [("base", "short")].
Proof. reflexivity. Qed.

(** C192: whatever the models and outputs, what is evaluated is the first output of the
    first model; with one model and one output nothing is lost. *)
Theorem C192_first_partial : forall class name m ms o os,
  exists s, filter_and_separate_computations (text_computations class name (m :: ms) (o :: os)) = Ok s /\
    map (fun ic => cp_body (snd ic)) (sp_base s) = [(m, o)] /\ map (fun ic => cp_keys (snd ic)) (sp_base s) = [[MetricKey name "" "" None None None false]] /\
    sp_derived s = [] /\ sp_cross s = [] /\ sp_ci s = [].
Proof. exact C192_first_partial_pf. Qed.

Example C192_first_partial_example :
  (let! s := filter_and_separate_computations (text_computations "_BleuCombiner" "bleu" ["m"] ["o"]) in
   Ok (map (fun ic => cp_body (snd ic)) (sp_base s))) = Ok [("m", "o")].
Proof. reflexivity. Qed.

(* ------------------------------------------------------------------ *)
(** ** C193 credited runs of words *)
(** C193: never more runs of words are credited than there are. *)
Theorem C193_at_most_all : forall m pw words s xs,
  Forall2 (contributes pw words) (inputs s) xs ->
  exists a, outcome (bleu_combiner m pw words (fun a => a)) s = Ok a /\
    forall i, nth i (matching_ngrams a) 0 <= nth i (total_ngrams a) 0.
Proof. exact C193_at_most_all_pf. Qed.

Example C193_at_most_all_example :
  outcome (bleu_combiner 2 ex_tokens ex_words (fun a => (matching_ngrams a, total_ngrams a))) (Bundle [TextExample (Some [[Some "the cat"]]) (Some ["the the the"])]) = Ok ([1; 0], [3; 2]).
Proof. reflexivity. Qed.

(** C193: if every hypothesis is one of its references, everything is credited, and the
    lengths agree. *)
Theorem C193_exact : forall m pw words s,
  (forall e, In e (inputs s) -> exists rows hyps, e = TextExample (Some rows) (Some hyps) /\ ~ blank rows /\
     (forall row, In row rows -> length row = length hyps) /\
     forall j, j < length hyps -> In (pw (nth j hyps "")) (references_of pw rows j)) ->
  exists a, outcome (bleu_combiner m pw words (fun a => a)) s = Ok a /\
    matching_ngrams a = total_ngrams a /\ ref_len a = hyp_len a.
Proof. exact C193_exact_pf. Qed.

Example C193_exact_example :
  outcome (bleu_combiner 2 ex_tokens ex_words (fun a => a)) (Bundle [TextExample (Some [[Some "a b c"; Some "d"]; [Some "x"; Some "y."]]) (Some ["a b c"; "y."])]) = Ok (BleuAcc [5; 3] [5; 3] 5 5).
Proof. reflexivity. Qed.

(** C193: further references never lower what is credited, and leave the totals alone. *)
Theorem C193_more_references : forall m pw words s1 s2,
  (forall e, In e (inputs s1 ++ inputs s2) -> exists x, contributes pw words e x) ->
  Forall2 (fun e e' => exists rows more hyps, ~ blank rows /\ e = TextExample (Some rows) (Some hyps) /\ e' = TextExample (Some (rows ++ more)) (Some hyps)) (inputs s1) (inputs s2) ->
  exists a b, outcome (bleu_combiner m pw words (fun a => a)) s1 = Ok a /\ outcome (bleu_combiner m pw words (fun a => a)) s2 = Ok b /\
    (forall i, nth i (matching_ngrams a) 0 <= nth i (matching_ngrams b) 0) /\ total_ngrams a = total_ngrams b /\ hyp_len a = hyp_len b.
Proof. exact C193_more_references_pf. Qed.

Example C193_more_references_example :
  outcome (bleu_combiner 2 ex_tokens ex_words matching_ngrams) (Bundle [TextExample (Some [[Some "a b"]]) (Some ["a b c"])]) = Ok [2; 1] /\
  outcome (bleu_combiner 2 ex_tokens ex_words matching_ngrams) (Bundle [TextExample (Some [[Some "a b"]; [Some "b c"]]) (Some ["a b c"])]) = Ok [3; 2].
Proof. split; reflexivity. Qed.

(* ------------------------------------------------------------------ *)
(** ** C194 ROUGE *)
(** C194: precision, recall and f-measure are the weighted means of those of the
    examples, and nan when the weights add up to zero. *)
Theorem C194_means : forall score_multi s ts,
  Forall2 (rated score_multi) (inputs s) ts ->
  (total_weight ts = 0%Qc -> outcome (rouge_combiner score_multi) s = Ok (Score NaN NaN NaN)) /\
  (total_weight ts <> 0%Qc -> outcome (rouge_combiner score_multi) s = Ok (Score (Fin (mean_score prec ts)) (Fin (mean_score rec ts)) (Fin (mean_score fmeas ts)))).
Proof. exact C194_means_pf. Qed.

Example C194_means_example :
  outcome (rouge_combiner ex_rouge) (Bundle [SummaryExample (Some ["l"]) (Some ["c"]) [1%Qc]; SummaryExample (Some ["l"]) (Some ["a"]) [qz 2; qz 2]])
  = Ok (Score (Fin 1%Qc) (Fin (Q2Qc (1 # 6))) (Fin (Q2Qc (2 # 9)))) /\
  outcome (rouge_combiner ex_rouge) (Bundle []) = Ok (Score NaN NaN NaN).
Proof. split; vm_compute; qc_ex. Qed.

(** C194: with weights that are not negative, the reported precision, recall and
    f-measure lie between the least and the greatest of the examples. *)
Theorem C194_between : forall score_multi s ts lo hi,
  Forall2 (rated score_multi) (inputs s) ts -> total_weight ts <> 0%Qc ->
  (forall t, In t ts -> (0 <= fst t)%Qc /\ (lo <= prec (snd t) <= hi)%Qc /\ (lo <= rec (snd t) <= hi)%Qc /\ (lo <= fmeas (snd t) <= hi)%Qc) ->
  exists p r f, outcome (rouge_combiner score_multi) s = Ok (Score (Fin p) (Fin r) (Fin f)) /\
    (lo <= p <= hi)%Qc /\ (lo <= r <= hi)%Qc /\ (lo <= f <= hi)%Qc.
Proof. exact C194_between_pf. Qed.

Example C194_between_example :
  let t := (1%Qc, ex_rouge ["l"] "c") in let u := (qz 3, ex_rouge ["l"] "a") in
  Forall2 (rated ex_rouge) [SummaryExample (Some ["l"]) (Some ["c"]) [1%Qc]; SummaryExample (Some ["l"]) (Some ["a"]) [qz 3]] [t; u] /\
  mean_score rec [t; u] = Q2Qc (1 # 8).
Proof.
  split; [|vm_compute; qc_ex]. constructor; [|constructor; [|constructor]].
  - exists ["l"], "c", []. split; [reflexivity|]. split; [reflexivity|]. split; [discriminate|]. split; [intros w [<-|[]]; reflexivity|reflexivity].
  - exists ["l"], "a", []. split; [reflexivity|]. split; [reflexivity|]. split; [discriminate|]. split; [intros w [<-|[]]; reflexivity|reflexivity].
Qed.

(* ------------------------------------------------------------------ *)
(** ** C195 the reported f-measure *)
(** C195 is false: the reported f-measure is not that of the reported precision and
    recall, though those of all examples are. *)
Theorem C195_harmonic_refuted : exists score_multi s p r f,
  (forall labels y, let '(a, b, c) := score_multi labels y in harmonic a b c) /\
  outcome (rouge_combiner score_multi) s = Ok (Score (Fin p) (Fin r) (Fin f)) /\ ~ harmonic p r f.
Proof. exact C195_harmonic_refuted_pf. Qed.

Example C195_harmonic_refuted_example :
  outcome (rouge_combiner ex_rouge) (Bundle [SummaryExample (Some ["l"]) (Some ["a"]) [1%Qc]; SummaryExample (Some ["l"]) (Some ["b"]) [1%Qc]])
  = Ok (Score (Fin (Q2Qc (1 # 2))) (Fin (Q2Qc (1 # 2))) (Fin 0%Qc)).
Proof. vm_compute; qc_ex. Qed.

(** C195: it is never greater than that. *)
Theorem C195_at_most_partial : forall score_multi s ts,
  Forall2 (rated score_multi) (inputs s) ts -> total_weight ts <> 0%Qc ->
  (forall t, In t ts -> (0 <= fst t)%Qc /\ (0 <= prec (snd t))%Qc /\ (0 <= rec (snd t))%Qc /\ harmonic (prec (snd t)) (rec (snd t)) (fmeas (snd t))) ->
  exists p r f, outcome (rouge_combiner score_multi) s = Ok (Score (Fin p) (Fin r) (Fin f)) /\ (f * (p + r) <= qz 2 * p * r)%Qc.
Proof. exact C195_at_most_partial_pf. Qed.

Example C195_at_most_partial_example :
  outcome (rouge_combiner ex_rouge) (Bundle [SummaryExample (Some ["l"]) (Some ["a"]) [1%Qc]; SummaryExample (Some ["l"]) (Some ["c"]) [1%Qc]])
  = Ok (Score (Fin 1%Qc) (Fin (Q2Qc (1 # 4))) (Fin (Q2Qc (1 # 3)))).
Proof. vm_compute; qc_ex. Qed.

(* ------------------------------------------------------------------ *)
(** ** C196 examples ROUGE refuses *)
(** C196: labels, a prediction and a single weight are required. *)
Theorem C196_refused : forall score_multi s e, In e (inputs s) ->
  (se_labels e = None \/ se_predictions e = None \/ se_predictions e = Some [] \/ se_weights e = [] \/
   exists v w, In v (se_weights e) /\ In w (se_weights e) /\ v <> w) ->
  is_ok (outcome (rouge_combiner score_multi) s) = false.
Proof. exact C196_refused_pf. Qed.

Example C196_refused_example :
  outcome (rouge_combiner ex_rouge) (Merge (Bundle []) [Bundle [SummaryExample (Some ["l"]) (Some ["a"]) [1%Qc; qz 2]]]) = Err ValueError.
Proof. reflexivity. Qed.

(* ------------------------------------------------------------------ *)
(** ** C197 samples *)
(** C197: every key gets the values of n examples with the greatest tags (all examples, if
    there are fewer), greatest tag first. *)
Theorem C197_greatest_tags : forall V power n weighted keys (s : sched (sampled V)),
  (forall e, In e (inputs s) -> samplable weighted e) ->
  exists chosen others values, chosen_of power weighted n (inputs s) chosen others /\
    map Some values = map sa_value chosen /\
    outcome (sample_combiner power n weighted keys) s = Ok (map (fun k => (k, values)) keys).
Proof. exact C197_greatest_tags_pf. Qed.

Example C197_greatest_tags_example :
  let k := MetricKey "fixed_size_sample" "" "" None None None false in
  outcome (sample_combiner (fun r x => r) 2 false [k]) (Merge (Bundle [Sampled (Q2Qc (1 # 4)) (Some "a") None; Sampled (Q2Qc (1 # 2)) (Some "b") None]) [Bundle [Sampled (Q2Qc (1 # 3)) (Some "c") None]])
  = Ok [(k, ["b"; "c"])].
Proof. vm_compute. reflexivity. Qed.

(** C197: given the numbers drawn (no two tags equal), the sample depends neither on the
    order of the examples nor on the bundles. *)
Theorem C197_any_bundles : forall V power n weighted keys (s1 s2 : sched (sampled V)),
  (forall e, In e (inputs s1) -> samplable weighted e) -> NoDup (map (tag_of power weighted) (inputs s1)) -> Permutation (inputs s1) (inputs s2) ->
  outcome (sample_combiner power n weighted keys) s1 = outcome (sample_combiner power n weighted keys) s2.
Proof. exact C197_any_bundles_pf. Qed.

Example C197_any_bundles_example :
  let e1 := Sampled (Q2Qc (1 # 4)) (Some 1) (Some 1%Qc) in let e2 := Sampled (Q2Qc (1 # 2)) (Some 2) (Some 1%Qc) in let e3 := Sampled (Q2Qc (1 # 3)) (Some 3) (Some (Q2Qc (1 # 2))) in
  let square r x := if Qc_eq_dec x 1%Qc then r else (r * r)%Qc in
  outcome (sample_combiner square 2 true [text_key "s"]) (Bundle [e1; e2; e3]) = Ok [(text_key "s", [2; 1])] /\
  outcome (sample_combiner square 2 true [text_key "s"]) (Merge (Bundle [e3]) [Then (Bundle []) [e2]; Bundle [e1]]) = Ok [(text_key "s", [2; 1])].
Proof. split; vm_compute; reflexivity. Qed.

(* ------------------------------------------------------------------ *)
(** ** C198 examples the sample refuses *)
(** C198: an example without the sampled feature is refused, and with weights one without
    a weight. *)
Theorem C198_refused : forall V power n weighted keys (s : sched (sampled V)) e, In e (inputs s) ->
  (sa_value e = None \/ weighted = true /\ sa_weight e = None) ->
  is_ok (outcome (sample_combiner power n weighted keys) s) = false.
Proof. exact C198_refused_pf. Qed.

Example C198_refused_example :
  outcome (sample_combiner (fun r x => r) 2 true [text_key "s"]) (Bundle [Sampled 0%Qc (Some 1) (Some 1%Qc); Sampled 0%Qc (Some 1) None]) = Err TypeError /\
  outcome (sample_combiner (fun r x => r) 2 false [text_key "s"]) (Bundle [Sampled 0%Qc (Some 1) None]) = Ok [(text_key "s", [1])].
Proof. split; reflexivity. Qed.

(* ------------------------------------------------------------------ *)
(** ** C199 examples of weight zero *)
(** C199 is false: an example of weight zero may be in a weighted sample. *)
Theorem C199_weight_zero_refuted : exists power (e e' : sampled string) k,
  (forall r x, 0 < r -> 0 < power r x)%Qc /\ (0 < sa_random e)%Qc /\ (0 < sa_random e')%Qc /\ sa_weight e = Some 0%Qc /\ sa_weight e' = Some 1%Qc /\
  sa_value e = Some "never" /\
  outcome (sample_combiner power 2 true [k]) (Bundle [e; e']) = Ok [(k, ["once"; "never"])].
Proof. exact C199_weight_zero_refuted_pf. Qed.

Example C199_weight_zero_refuted_example :
  outcome (sample_combiner (fun r x => r) 3 true [text_key "s"]) (Bundle [Sampled (Q2Qc (1 # 2)) (Some "never") (Some 0%Qc)]) = Ok [(text_key "s", ["never"])].
Proof. reflexivity. Qed.

(** C199 only if all examples of positive weight are in the sample as well. *)
Theorem C199_last_partial : forall V power n keys (s : sched (sampled V)),
  (forall e, In e (inputs s) -> sa_value e <> None /\ (0 < sa_random e)%Qc /\ exists w, sa_weight e = Some w /\ (0 <= w)%Qc) ->
  (forall r x, 0 < r -> 0 < power r x)%Qc ->
  exists chosen others values, chosen_of power true n (inputs s) chosen others /\ map Some values = map sa_value chosen /\
    outcome (sample_combiner power n true keys) s = Ok (map (fun k => (k, values)) keys) /\
    forall e e', In e chosen -> sa_weight e = Some 0%Qc -> In e' others -> sa_weight e' = Some 0%Qc.
Proof. exact C199_last_partial_pf. Qed.

Example C199_last_partial_example :
  outcome (sample_combiner (fun r x => r) 1 true [text_key "s"]) (Bundle [Sampled (Q2Qc (1 # 2)) (Some "never") (Some 0%Qc); Sampled (Q2Qc (1 # 4)) (Some "once") (Some 1%Qc)]) = Ok [(text_key "s", ["once"])].
Proof. vm_compute. reflexivity. Qed.

Print Assumptions C188_statistics.
Print Assumptions C188_any_bundles.
Print Assumptions C188_refused.
Print Assumptions C189_order_refuted.
Print Assumptions C189_order_partial.
Print Assumptions C190_blank_refuted.
Print Assumptions C190_length_partial.
Print Assumptions C191_extra_hypothesis_refuted.
Print Assumptions C191_columns_partial.
Print Assumptions C192_models_refuted.
Print Assumptions C192_first_partial.
Print Assumptions C193_at_most_all.
Print Assumptions C193_exact.
Print Assumptions C193_more_references.
Print Assumptions C194_means.
Print Assumptions C194_between.
Print Assumptions C195_harmonic_refuted.
Print Assumptions C195_at_most_partial.
Print Assumptions C196_refused.
Print Assumptions C197_greatest_tags.
Print Assumptions C197_any_bundles.
Print Assumptions C198_refused.
Print Assumptions C199_weight_zero_refuted.
Print Assumptions C199_last_partial.
