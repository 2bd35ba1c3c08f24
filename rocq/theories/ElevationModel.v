(** Model of compute.tide_elevations (compute.py:214-439) and of one component of
    compute.tide_currents (compute.py:442-662) from the arrays of a tide model to the
    heights: the constants of all the points of a request are extracted together
    (io/model.py:970-1054, which passes the points on to one of OTIS, ATLAS, GOT and
    FES .extract_constants), and the tide is then predicted.  In ComputeModel the
    constants are a function of the location; here they are what the models of
    extraction return for the list of the points.

    Simplifications: append_node and apply_flexure are left out (append_node: ObjModel,
    flexure: Tmd3Model); crop, bounds and extrapolation are left at their defaults. *)
From Coq Require Import String Reals List Bool ZArith.
From Verif Require Import PyBase RBase StrBase InterpModel PredictModel InferModel ComputeModel ExtractModel SeriesModel AtlasNcModel Tmd3Model.
Import ListNotations.
Open Scope R_scope.
Open Scope list_scope.

(** a row of amplitudes and phases, None where masked *)
Notation constants := (list (option (R * R))) (only parsing).

(** what tide_elevations asks a model for: the constants of the points by method
    (compute.py:364-370), its constituents, corrections and minor constituents *)
Record batch_model := BM {
  bm_extract : string -> list (R * R) -> res (list constants);
  bm_names : list string; bm_corrections : string; bm_minor : option (list string) }.

(** the interpolation chosen by the method, compared as it is written: bilinear
    (OTIS.py:371, GOT.py:261, FES.py:289, ATLAS.py:279) or spline; the others go to
    scipy's RegularGridInterpolator and are not modelled: a parameter [other] *)
Definition method_of (METHOD : string) : option method :=
  if String.eqb METHOD "bilinear" then Some Bilinear else if String.eqb METHOD "spline" then Some Spline else None.
Definition by_method (one : method -> list (R * R) -> res (list constants)) (other : string -> list (R * R) -> res (list constants))
    (METHOD : string) (ll : list (R * R)) : res (list constants) :=
  match method_of METHOD with Some me => one me ll | None => other METHOD ll end.
(** the arrays of GOT, FES and ATLAS are filled one constituent after the other
    (amplitude[:,i], GOT.py:297, FES.py:329, ATLAS.py:376): column n is point n *)
Definition by_point (npts : nat) (cs : list constants) : list constants :=
  map (fun n => map (fun c => nth n c None) cs) (seq 0 npts).

(** io/model.py:1005-1015 (OTIS and ATLAS-compact) *)
Definition otis_model (fwd : R * R -> R * R) (geo : bool) (t : variable) (g : grid) (hcs : list field) other
    (names : list string) (corr : string) (minor : option (list string)) : batch_model :=
  BM (by_method (fun me ll => do out <- extract_constants fwd geo me t g hcs ll ;; Ok (map snd out)) other) names corr minor.
(** the same lines for TMD3 *)
Definition tmd3_model (fwd : R * R -> R * R) (geo : bool) (t : variable) (f : tmd3) other
    (names : list string) (corr : string) (minor : option (list string)) : batch_model :=
  BM (by_method (fun me ll => do out <- extract_tmd3 fwd geo me t false f ll ;; Ok (map snd (snd out))) other) names corr minor.
(** io/model.py:1016-1027 *)
Definition atlas_model (t : variable) (sc : R) (g : grid_file) (files : list tide_file) other
    (names : list string) (corr : string) (minor : option (list string)) : batch_model :=
  BM (by_method (fun me ll => do out <- extract_atlas me t sc g files ll ;; Ok (by_point (List.length ll) (aconst out))) other) names corr minor.
(** io/model.py:1028-1043 *)
Definition series_model (src : series) (sc : R) (files : list sheet) other
    (names : list string) (corr : string) (minor : option (list string)) : batch_model :=
  BM (by_method (fun me ll => do out <- extract_series src me sc files ll ;; Ok (by_point (List.length ll) out)) other) names corr minor.

Section Elevations.
  Variable proj : R * R -> R * R.
  Variable clock : string -> R -> stamp.
  Variable A : tide_args.
  Variable B : minor_args.
  Variable freq : string -> R.
  Variable gam : R -> R.

  (** amplitude, phase and mask; the data below the mask do not matter *)
  Definition masked (o : option (R * R)) : R * R * bool := match o with Some (a, p) => (a, p, false) | None => (0, 0, true) end.

  (** compute.py:318-439 *)
  Definition elevations (m : batch_model) (directory_exists : bool) (METHOD TIME : string)
      (CORRECTIONS : option string) (INFER_MINOR : bool) (MINOR_CONSTITUENTS : option (list string))
      (TYPE : option string) (x y : coords) (t : list R) : res (out (option R * bool)) :=
    if negb directory_exists then Err FileNotFoundError
    else
      do _ <- check (mem_str (lower TIME) time_names) ;;
      do _ <- check (mem_str (lower METHOD) method_names) ;;
      do q <- prepare proj clock TYPE TIME x y t ;;
      let '(T, x', ll, sts) := q in
      do rows <- bm_extract m METHOD ll ;;
      tide_values A B freq gam (or_string CORRECTIONS (bm_corrections m)) (bm_names m) (or_list MINOR_CONSTITUENTS (bm_minor m))
        INFER_MINOR T x' (map (map (fun o => oscillation (masked o))) rows) sts.
End Elevations.
