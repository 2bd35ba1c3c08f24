(** C94: tidal elevations and currents, the lines of a csv file, and where the programs fail. *)
From Coq Require Import Reals String List Bool ZArith Arith Lia Lra.
From Verif Require Import PyBase RBase StrBase MathModel AstroModel GeoModel DatumModel EarthModel
  PredictModel InferModel UtilModel ComputeModel ComputeSpec ComputeProofs ComputeProps ComputeProps3 ScriptModel ScriptSpec ScriptProofs ScriptProps.
From Verif Require CrsModel CrsSpec CrsProofs.
Import ListNotations.
Open Scope R_scope.

Lemma currents_map {A B} (annotate : A -> B) (F : string * tide_model -> res A) (l : list (string * tide_model)) :
  mapM (fun c => do v <- F c ;; Ok (fst c, annotate v)) l
  = match mapM (fun c => do v <- F c ;; Ok (fst c, v)) l with Ok r => Ok (map (fun c => (fst c, annotate (snd c))) r) | Err e => Err e end.
Proof.
  induction l as [|c l IH]; [reflexivity|]. cbn [mapM]. rewrite IH. destruct (F c); [|reflexivity]. cbn [bind].
  destruct (mapM (fun c0 => do v <- F c0 ;; Ok (fst c0, v)) l); reflexivity.
Qed.

Section C94.
  Context {D C P E : Type} (lib : CrsModel.pyproj D C P).
  Variable place : C -> R * R -> R * R.
  Variable parse_units : string -> res (E * R).
  Variable clock : E -> string -> R -> stamp.
  Variable dates : R -> stamp.
  Variable reader : format -> list string -> res (input (D := D)).
  Variable pole_at : string -> R -> R -> pole.
  Variable desai : string -> R * R -> cpx * cpx * cpx.
  Variable sun moon : string -> R -> vec.
  Variable A : tide_args.
  Variable B : minor_args.
  Variable freq : string -> R.
  Variable gam : R -> R.

  Section Given.
    Variables (q : arguments (D := D)) (c : C) (e : E) (s : R) (xs ys ts : list R).
    Hypothesis W : work lib parse_units reader q c e s xs ys ts.
    Hypothesis standard : In (lower (TIME_STANDARD q)) ["gps"; "loran"; "tai"; "utc"; "datetime"]%string.
    Let lclock := library_clock clock dates e.
    Let t := library_times s (TIME_STANDARD q) ts.
    Let sts := map (lclock (TIME_STANDARD q)) t.

    Lemma predicted_track m CORRECTIONS INFER MINOR l sts' x' :
      predicted A B freq gam m CORRECTIONS INFER MINOR (Track l) sts'
      = tide_values A B freq gam (or_string CORRECTIONS (tm_corrections m)) (tm_names m) (or_list MINOR (tm_minor m)) INFER
          "drift" x' (map (fun p => map oscillation (tm_constants m p)) l) sts'.
    Proof. reflexivity. Qed.
    Lemma predicted_stations m CORRECTIONS INFER MINOR n l sts' x' : len x' = n ->
      predicted A B freq gam m CORRECTIONS INFER MINOR (Stations n l) sts'
      = tide_values A B freq gam (or_string CORRECTIONS (tm_corrections m)) (tm_names m) (or_list MINOR (tm_minor m)) INFER
          "time series" x' (map (fun p => map oscillation (tm_constants m p)) l) sts'.
    Proof. intros <-. reflexivity. Qed.
    Lemma predicted_grid m CORRECTIONS INFER MINOR ny nx rows sts' x' : shape2 x' = Ok (ny, nx) ->
      predicted A B freq gam m CORRECTIONS INFER MINOR (Grid ny nx rows) sts'
      = tide_values A B freq gam (or_string CORRECTIONS (tm_corrections m)) (tm_names m) (or_list MINOR (tm_minor m)) INFER
          "grid" x' (map (fun p => map oscillation (tm_constants m p)) (concat rows)) sts'.
    Proof.
      intros H. unfold tide_values. change (String.eqb (lower "grid") "grid") with true. cbv iota zeta. rewrite H. reflexivity.
    Qed.

    (** tidal elevations *)
Theorem C94_elevations : forall m METHOD CORRECTIONS INFER_MINOR MINOR, In (lower METHOD) ["bilinear"; "spline"; "linear"; "nearest"]%string ->
      same (place c) with_values (TYPE q)
      (tidal_elevations lib place parse_units clock dates reader A B freq gam m CORRECTIONS INFER_MINOR MINOR q)
      (tide_elevations (place c) lclock A B freq gam m true METHOD (TIME_STANDARD q) CORRECTIONS INFER_MINOR MINOR) sts xs ys t.
    Proof.
      intros m METHOD CORRECTIONS INFER_MINOR MINOR HM. apply mem_str_In in HM. fold method_names in HM.
      unfold tidal_elevations, tide_elevations. rewrite (standard_known q standard), HM. cbn [negb check bind].
      split; [|split]; intros T.
      - intros L. rewrite (start_track lib place parse_units clock dates reader true q c e s xs ys ts W T L). cbn [bind fst snd shaped].
        unfold lclock, t. rewrite (prepare_one place clock dates q c e s xs ys ts "drift" (or_introl eq_refl) L). cbn [bind].
        rewrite (predicted_track m CORRECTIONS INFER_MINOR MINOR _ _ (C1 xs)).
        match goal with |- context [bind (tide_values ?a ?b ?d ?f ?g ?h ?i ?j ?k ?l ?n ?o) _] => destruct (tide_values a b d f g h i j k l n o) end; reflexivity.
      - intros L. rewrite (start_stations lib place parse_units clock dates reader true q c e s xs ys ts W T L). cbn [bind fst snd shaped].
        unfold lclock, t. rewrite (prepare_one place clock dates q c e s xs ys ts "time series" (or_intror eq_refl) L). cbn [bind].
        rewrite (predicted_stations m CORRECTIONS INFER_MINOR MINOR _ _ _ (C1 xs) L).
        match goal with |- context [bind (tide_values ?a ?b ?d ?f ?g ?h ?i ?j ?k ?l ?n ?o) _] => destruct (tide_values a b d f g h i j k l n o) end; reflexivity.
      - intros N. rewrite (start_grid lib place parse_units clock dates reader true q c e s xs ys ts W T). cbn [bind fst snd shaped].
        unfold lclock, t. rewrite (prepare_grid place clock dates q c e s xs ys ts N). cbn [bind].
        rewrite (predicted_grid m CORRECTIONS INFER_MINOR MINOR _ _ _ _ _ (shape_grid xs ys N)).
        match goal with |- context [bind (tide_values ?a ?b ?d ?f ?g ?h ?i ?j ?k ?l ?n ?o) _] => destruct (tide_values a b d f g h i j k l n o) end; reflexivity.
    Qed.

    (** tidal currents *)
Theorem C94_currents : forall components METHOD CORRECTIONS INFER_MINOR MINOR, In (lower METHOD) ["bilinear"; "spline"; "linear"; "nearest"]%string ->
      same (place c) with_components (TYPE q)
      (tidal_currents lib place parse_units clock dates reader A B freq gam components CORRECTIONS INFER_MINOR MINOR q)
      (tide_currents (place c) lclock A B freq gam components true METHOD (TIME_STANDARD q) CORRECTIONS INFER_MINOR MINOR) sts xs ys t.
    Proof.
      intros components METHOD CORRECTIONS INFER_MINOR MINOR HM. apply mem_str_In in HM. fold method_names in HM.
      unfold tidal_currents, tide_currents. rewrite (standard_known q standard), HM. cbn [negb check bind].
      split; [|split]; intros T.
      - intros L. rewrite (start_track lib place parse_units clock dates reader true q c e s xs ys ts W T L). cbn [bind fst snd shaped].
        unfold lclock, t. rewrite (prepare_one place clock dates q c e s xs ys ts "drift" (or_introl eq_refl) L). cbn [bind]. cbv zeta.
        rewrite (currents_map (Written _ _) _ components). unfold with_components.
        match goal with |- match ?a with _ => _ end = match ?b with _ => _ end => replace b with a; [reflexivity|] end.
        reflexivity.
      - intros L. rewrite (start_stations lib place parse_units clock dates reader true q c e s xs ys ts W T L). cbn [bind fst snd shaped].
        unfold lclock, t. rewrite (prepare_one place clock dates q c e s xs ys ts "time series" (or_intror eq_refl) L). cbn [bind]. cbv zeta.
        rewrite (currents_map (Written _ _) _ components). unfold with_components.
        match goal with |- match ?a with _ => _ end = match ?b with _ => _ end => replace b with a; [reflexivity|] end.
        clear - L. induction components as [|k l IH]; [reflexivity|]. cbn [mapM]. rewrite IH.
        rewrite (predicted_stations (snd k) CORRECTIONS INFER_MINOR MINOR _ _ _ (C1 xs) L). reflexivity.
      - intros N. rewrite (start_grid lib place parse_units clock dates reader true q c e s xs ys ts W T). cbn [bind fst snd shaped].
        unfold lclock, t. rewrite (prepare_grid place clock dates q c e s xs ys ts N). cbn [bind]. cbv zeta.
        rewrite (currents_map (Written _ _) _ components). unfold with_components.
        match goal with |- match ?a with _ => _ end = match ?b with _ => _ end => replace b with a; [reflexivity|] end.
        clear - N. induction components as [|k l IH]; [reflexivity|]. cbn [mapM]. rewrite IH.
        rewrite (predicted_grid (snd k) CORRECTIONS INFER_MINOR MINOR _ _ _ _ _ (shape_grid xs ys N)). reflexivity.
    Qed.

    (** arrays of different lengths are refused for tracks and stations *)
Theorem C94_lengths : forall m CORRECTIONS INFER_MINOR MINOR ELLIPSOID CONVENTION METHOD SYSTEM EPHEMERIDES components,
      In (TYPE q) ["drift"; "time series"]%string -> List.length xs <> List.length ys ->
      tidal_elevations lib place parse_units clock dates reader A B freq gam m CORRECTIONS INFER_MINOR MINOR q = Err OtherError
      /\ tidal_currents lib place parse_units clock dates reader A B freq gam components CORRECTIONS INFER_MINOR MINOR q = Err OtherError
      /\ equilibrium_script lib place parse_units clock dates reader q = Err OtherError
      /\ load_pole_script lib place parse_units clock dates reader pole_at ELLIPSOID CONVENTION q = Err OtherError
      /\ ocean_pole_script lib place parse_units clock dates reader pole_at desai ELLIPSOID CONVENTION METHOD q = Err OtherError
      /\ solid_earth_script lib place parse_units clock dates reader sun moon ELLIPSOID SYSTEM EPHEMERIDES q = Err OtherError.
    Proof.
      intros m CORRECTIONS INFER_MINOR MINOR ELLIPSOID CONVENTION METHOD SYSTEM EPHEMERIDES components T L.
      assert (G : forall a, start lib place parse_units clock dates reader a q = Err OtherError).
      { intros a. rewrite (start_spread lib place parse_units clock dates reader a q c e s xs ys ts W).
        unfold transform. apply Nat.eqb_neq in L. rewrite L. destruct T as [<-|[<-|[]]]; destruct a; reflexivity. }
      unfold tidal_elevations, tidal_currents, equilibrium_script, load_pole_script, ocean_pole_script, solid_earth_script.
      rewrite !G. repeat split.
    Qed.

    (** the type is compared as written: any other spelling passes the test of the type, which the
        ocean pole tides leave out, and then has no coordinates *)
Theorem C94_types_refuted : forall m CORRECTIONS INFER_MINOR MINOR ELLIPSOID CONVENTION METHOD SYSTEM EPHEMERIDES components,
      components <> [] -> In (upper ELLIPSOID) ellipsoid_names ->
      ~ In (TYPE q) ["grid"; "drift"; "time series"]%string ->
      let known := In (lower (TYPE q)) ["grid"; "drift"; "time series"]%string in
      let fails r := (known -> r = NameError) /\ (~ known -> r = AssertionError) in
      (exists r, tidal_elevations lib place parse_units clock dates reader A B freq gam m CORRECTIONS INFER_MINOR MINOR q = Err r /\ fails r)
      /\ (exists r, tidal_currents lib place parse_units clock dates reader A B freq gam components CORRECTIONS INFER_MINOR MINOR q = Err r /\ fails r)
      /\ (exists r, equilibrium_script lib place parse_units clock dates reader q = Err r /\ fails r)
      /\ (exists r, load_pole_script lib place parse_units clock dates reader pole_at ELLIPSOID CONVENTION q = Err r /\ fails r)
      /\ (exists r, solid_earth_script lib place parse_units clock dates reader sun moon ELLIPSOID SYSTEM EPHEMERIDES q = Err r /\ fails r)
      /\ ocean_pole_script lib place parse_units clock dates reader pole_at desai ELLIPSOID CONVENTION METHOD q = Err NameError.
    Proof.
      intros m CORRECTIONS INFER_MINOR MINOR ELLIPSOID CONVENTION METHOD SYSTEM EPHEMERIDES components NC HE N known fails.
      apply mem_str_In in HE. destruct (make_named ELLIPSOID HE) as [u HU].
      destruct (mem_str (lower (TYPE q)) ["grid"; "drift"; "time series"]%string) eqn:K.
      - apply mem_str_In in K.
        assert (G : forall a, start lib place parse_units clock dates reader a q = Ok (Unbound, sts)).
        { intros a. apply (start_unbound lib place parse_units clock dates reader a q c e s xs ys ts W N). intros _. exact K. }
        unfold tidal_elevations, tidal_currents, equilibrium_script, load_pole_script, ocean_pole_script, solid_earth_script.
        rewrite !G. cbn [bind fst snd points_of]. rewrite HU. cbn [bind].
        assert (FN : fails NameError) by (split; [reflexivity|contradiction]).
        repeat split; try (exists NameError; split; [reflexivity|exact FN]).
        exists NameError. split; [|exact FN]. destruct components; [contradiction|reflexivity].
      - apply mem_str_false in K.
        assert (G : start lib place parse_units clock dates reader true q = Err AssertionError).
        { rewrite (start_spread lib place parse_units clock dates reader true q c e s xs ys ts W).
          unfold type_names. rewrite (proj2 (mem_str_false _ _) K). reflexivity. }
        assert (G' : start lib place parse_units clock dates reader false q = Ok (Unbound, sts)).
        { apply (start_unbound lib place parse_units clock dates reader false q c e s xs ys ts W N). discriminate. }
        unfold tidal_elevations, tidal_currents, equilibrium_script, load_pole_script, ocean_pole_script, solid_earth_script.
        rewrite !G, G'. cbn [bind fst snd points_of]. rewrite HU. cbn [bind].
        assert (FN : fails AssertionError) by (split; [contradiction|reflexivity]).
        repeat split; exists AssertionError; (split; [reflexivity|exact FN]).
    Qed.

    (** grids of solid earth tides fail unless they have one point *)
Theorem C94_solid_earth_grid_refuted : forall ELLIPSOID TIDE_SYSTEM EPHEMERIDES,
      In (upper ELLIPSOID) ellipsoid_names -> TYPE q = "grid"%string ->
      ~ (List.length xs = 1%nat /\ List.length ys = 1%nat) ->
      solid_earth_script lib place parse_units clock dates reader sun moon ELLIPSOID TIDE_SYSTEM EPHEMERIDES q = Err ValueError.
    Proof.
      intros ELLIPSOID TIDE_SYSTEM EPHEMERIDES HE T N.
      apply mem_str_In in HE. destruct (make_named ELLIPSOID HE) as [u HU].
      unfold solid_earth_script. rewrite (start_grid lib place parse_units clock dates reader true q c e s xs ys ts W T).
      cbn [bind fst snd]. cbv zeta. rewrite HU. cbn [bind].
      destruct ys as [|y [|y' l]]; [reflexivity| |reflexivity].
      cbn [map List.length store_rows]. unfold bcast_to. rewrite !map_length.
      destruct xs as [|x [|x' l]]; [reflexivity|exfalso; apply N; split; reflexivity|reflexivity].
    Qed.
  End Given.
End C94.
Print Assumptions C94_elevations.
Print Assumptions C94_currents.
Print Assumptions C94_lengths.
Print Assumptions C94_types_refuted.
Print Assumptions C94_solid_earth_grid_refuted.
