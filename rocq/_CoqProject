-Q theories Verif
theories/Aggregation_Main.v
theories/Aggregation_Model.v
theories/Aggregation_Properties.v
theories/Attributions_Main.v
theories/Attributions_Model.v
theories/Attributions_Properties.v
theories/Base.v
theories/BaseFacts.v
theories/Batches_Main.v
theories/Batches_Model.v
theories/Batches_Properties.v
theories/Beam.v
theories/BeamFacts.v
theories/CI_Main.v
theories/CI_Model.v
theories/CI_Properties.v
theories/Classes_Main.v
theories/Classes_Model.v
theories/Classes_Properties.v
theories/Config_Main.v
theories/Config_Model.v
theories/Config_Properties.v
theories/Confusion_Main.v
theories/Confusion_Model.v
theories/Confusion_Properties.v
theories/Ctors_Main.v
theories/Ctors_Model.v
theories/Ctors_Properties.v
theories/Detection_Main.v
theories/Detection_Model.v
theories/Detection_Properties.v
theories/Entropy_Main.v
theories/Entropy_Model.v
theories/Entropy_Properties.v
theories/Evaluator_Main.v
theories/Evaluator_Model.v
theories/Evaluator_Properties.v
theories/Extract_Main.v
theories/Extract_Model.v
theories/Extract_Properties.v
theories/Features_Main.v
theories/Features_Model.v
theories/Features_Properties.v
theories/Frames_Main.v
theories/Frames_Model.v
theories/Frames_Properties.v
theories/Graphs_Main.v
theories/Graphs_Model.v
theories/Graphs_Properties.v
theories/Histogram_Main.v
theories/Histogram_Model.v
theories/Histogram_Properties.v
theories/Inputs_Main.v
theories/Inputs_Model.v
theories/Inputs_Properties.v
theories/Keras_Main.v
theories/Keras_Model.v
theories/Keras_Properties.v
theories/Keys_Main.v
theories/Keys_Model.v
theories/Keys_Properties.v
theories/Legacy_Main.v
theories/Legacy_Model.v
theories/Legacy_Properties.v
theories/Means_Main.v
theories/Means_Model.v
theories/Means_Properties.v
theories/Native_Main.v
theories/Native_Model.v
theories/Native_Properties.v
theories/Pipeline_Model.v
theories/Pipeline_Proofs.v
theories/Plots_Main.v
theories/Plots_Model.v
theories/Plots_Properties.v
theories/Predict_Main.v
theories/Predict_Model.v
theories/Predict_Properties.v
theories/Ranking_Main.v
theories/Ranking_Model.v
theories/Ranking_Properties.v
theories/Rates_Main.v
theories/Rates_Model.v
theories/Rates_Properties.v
theories/RealFacts.v
theories/Replicas_Main.v
theories/Replicas_Model.v
theories/Replicas_Properties.v
theories/Results_Main.v
theories/Results_Model.v
theories/Results_Properties.v
theories/Routing_Main.v
theories/Routing_Model.v
theories/Routing_Properties.v
theories/Sets_Main.v
theories/Sets_Model.v
theories/Sets_Properties.v
theories/Setup_Main.v
theories/Setup_Model.v
theories/Setup_Properties.v
theories/Sharing_Main.v
theories/Sharing_Model.v
theories/Sharing_Properties.v
theories/Signatures_Main.v
theories/Signatures_Model.v
theories/Signatures_Properties.v
theories/Slicer_Main.v
theories/Slicer_Model.v
theories/Slicer_Proofs.v
theories/Slicer_Properties.v
theories/Slicer_Spec.v
theories/Specs_Main.v
theories/Specs_Model.v
theories/Specs_Properties.v
theories/Sums_Main.v
theories/Sums_Model.v
theories/Sums_Properties.v
theories/Tensors_Main.v
theories/Tensors_Model.v
theories/Tensors_Properties.v
theories/Text_Main.v
theories/Text_Model.v
theories/Text_Properties.v
theories/Thresholds_Main.v
theories/Thresholds_Model.v
theories/Thresholds_Properties.v
theories/Util_Main.v
theories/Util_Model.v
theories/Util_Properties.v
theories/Validation_Main.v
theories/Validation_Model.v
theories/Validation_Properties.v
theories/Views_Main.v
theories/Views_Model.v
theories/Views_Properties.v
theories/Whole_Main.v
theories/Whole_Model.v
theories/Whole_Properties.v
theories/Workers_Main.v
theories/Workers_Model.v
theories/Workers_Properties.v
