(** C78: requests that are refused before a model is read. *)
From Coq Require Import String Reals List Bool ZArith.
From Verif Require Import PyBase RBase StrBase InterpModel PredictModel InferModel ComputeModel ExtractModel SeriesModel AtlasNcModel Tmd3Model ElevationModel.
Import ListNotations.
Open Scope string_scope.

(** ** The directory is looked for first, then the standard of time and the method are checked *)
Theorem C78_directory : forall proj clock A B freq gam m METHOD TIME CORRECTIONS INFER MINOR T x y ts,
  elevations proj clock A B freq gam m false METHOD TIME CORRECTIONS INFER MINOR T x y ts = Err FileNotFoundError.
Proof. reflexivity. Qed.
Print Assumptions C78_directory.
Theorem C78_options : forall proj clock A B freq gam m METHOD TIME CORRECTIONS INFER MINOR T x y ts,
  ~ In (lower TIME) ["gps"; "loran"; "tai"; "utc"; "datetime"] \/ ~ In (lower METHOD) ["bilinear"; "spline"; "linear"; "nearest"] ->
  elevations proj clock A B freq gam m true METHOD TIME CORRECTIONS INFER MINOR T x y ts = Err AssertionError.
Proof.
  intros proj clock A B freq gam m METHOD TIME CORRECTIONS INFER MINOR T x y ts H. unfold elevations. cbn [negb].
  destruct (mem_str (lower TIME) time_names) eqn:E1; [|reflexivity]. destruct (mem_str (lower METHOD) method_names) eqn:E2; [|reflexivity].
  exfalso. apply mem_str_In in E1. apply mem_str_In in E2. destruct H as [H|H]; auto.
Qed.
Print Assumptions C78_options.
