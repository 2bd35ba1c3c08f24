(** C94: the programs computing corrections for a file give what the library gives for its points. *)
From Coq Require Import Reals String List Bool ZArith Arith Lia.
From Verif Require Import PyBase RBase StrBase MathModel AstroModel GeoModel DatumModel EarthModel
  PredictModel InferModel UtilModel ComputeModel ComputeProofs ScriptModel ScriptSpec ScriptProofs.
From Verif Require CrsModel CrsSpec CrsProofs.
Import ListNotations.
Open Scope R_scope.

Section C94.
  Context {D C P E : Type} (lib : CrsModel.pyproj D C P).
  Variable place : C -> R * R -> R * R.
  Variable parse_units : string -> res (E * R).
  Variable clock : E -> string -> R -> stamp.
  Variable dates : R -> stamp.
  Variable reader : format -> list string -> res (input (D := D)).
  Variable pole_at : string -> R -> R -> pole.
  Variable desai : string -> R * R -> cpx * cpx * cpx.
  Variable sun moon : string -> R -> vec.

  (** the coordinate system is that of the file, and the argument where the file has none that can
      be made; where neither can be made it is a CRSError, and other exceptions are passed on *)
Theorem C94_projection : forall attribute PROJECTION,
    (forall c, get_projection lib attribute PROJECTION = CrsModel.Good c <-> system lib attribute PROJECTION c)
    /\ ((forall a, attribute = Some a -> unreadable lib a) -> unreadable lib PROJECTION ->
        get_projection lib attribute PROJECTION = CrsModel.Bad CrsModel.CrsFault)
    /\ (forall a e, attribute = Some a -> CrsSpec.settles (CrsSpec.attempts lib a) (CrsModel.Bad e) -> ~ unreadable lib a ->
        get_projection lib attribute PROJECTION = CrsModel.Bad e).
  Proof.
    intros attribute PROJECTION.
    assert (RF : forall g e, CrsModel.from_input lib g = CrsModel.Bad e ->
      (CrsModel.caught e = true /\ unreadable lib g) \/ (CrsModel.caught e = false /\ ~ unreadable lib g)).
    { intros g e F. pose proof (CrsProofs.from_input_settles lib g) as Z. rewrite F in Z.
      destruct (CrsModel.caught e) eqn:K.
      - left. split; [reflexivity|]. destruct Z as [(b & l & _ & _ & N)|[Z _]]; [|exact Z].
        exfalso. apply N. apply CrsProofs.caught_refused. exact K.
      - right. split; [reflexivity|]. intros U. rewrite (unreadable_refuses lib g U) in F. injection F as <-. discriminate K. }
    split; [|split].
    - intros c. split; [|apply system_get]. unfold get_projection, system.
      assert (SEC : CrsModel.otherwise (CrsModel.from_input lib PROJECTION) (fun _ => CrsModel.Bad CrsModel.CrsFault) = CrsModel.Good c ->
        CrsSpec.resolves lib PROJECTION c).
      { intros H. apply CrsProofs.resolves_iff. destruct (CrsModel.from_input lib PROJECTION) as [c'|e]; cbn in H; [exact H|].
        destruct (CrsModel.caught e); discriminate H. }
      destruct attribute as [a|].
      + destruct (CrsModel.from_input lib a) as [c'|e] eqn:F; cbn [CrsModel.otherwise].
        * intros H. injection H as ->. left. exists a. split; [reflexivity|]. apply CrsProofs.resolves_iff. exact F.
        * destruct (RF a e F) as [[-> U]|[-> _]]; [|discriminate]. intros H. right. split; [|exact (SEC H)].
          intros g G. injection G as <-. exact U.
      + intros H. right. split; [discriminate|exact (SEC H)].
    - intros H K. unfold get_projection. rewrite (unreadable_refuses lib _ K). cbn.
      destruct attribute as [a|]; [|reflexivity]. rewrite (unreadable_refuses lib a (H a eq_refl)). reflexivity.
    - intros a e -> H N. unfold get_projection. apply CrsProofs.from_input_iff in H. rewrite H. cbn [CrsModel.otherwise].
      destruct (RF a e H) as [[_ U]|[-> _]]; [contradiction|reflexivity].
  Qed.

  Section Given.
    Variables (q : arguments (D := D)) (c : C) (e : E) (s : R) (xs ys ts : list R).
    Hypothesis W : work lib parse_units reader q c e s xs ys ts.
    Hypothesis standard : In (lower (TIME_STANDARD q)) ["gps"; "loran"; "tai"; "utc"; "datetime"]%string.
    Let lclock := library_clock clock dates e.
    Let t := library_times s (TIME_STANDARD q) ts.
    Let sts := map (lclock (TIME_STANDARD q)) t.

    Lemma standard_known : mem_str (lower (TIME_STANDARD q)) time_names = true.
    Proof. apply mem_str_In. exact standard. Qed.

    (** long-period equilibrium tides *)
Theorem C94_long_period : same (place c) with_values (TYPE q)
      (equilibrium_script lib place parse_units clock dates reader q)
      (LPET_elevations (place c) lclock (TIME_STANDARD q)) sts xs ys t.
    Proof.
      unfold equilibrium_script, LPET_elevations. rewrite standard_known. cbn [check bind].
      split; [|split]; intros T.
      - intros L. rewrite (start_track lib place parse_units clock dates reader true q c e s xs ys ts W T L). cbn [bind fst snd points_of shaped].
        unfold lclock, t. rewrite (prepare_one place clock dates q c e s xs ys ts "drift" (or_introl eq_refl) L). cbn [bind].
        change (String.eqb "drift" "grid") with false. change (String.eqb "drift" "drift") with true. cbn [with_values]. reflexivity.
      - intros L. rewrite (start_stations lib place parse_units clock dates reader true q c e s xs ys ts W T L). cbn [bind fst snd points_of shaped].
        unfold lclock, t. rewrite (prepare_one place clock dates q c e s xs ys ts "time series" (or_intror eq_refl) L). cbn [bind].
        change (String.eqb "time series" "grid") with false. change (String.eqb "time series" "drift") with false.
        change (String.eqb "time series" "time series") with true. cbn [len]. rewrite L.
        match goal with |- context [mapM ?f ?l] => destruct (mapM f l) end; reflexivity.
      - intros N. rewrite (start_grid lib place parse_units clock dates reader true q c e s xs ys ts W T). cbn [bind fst snd points_of shaped].
        unfold lclock, t. rewrite (prepare_grid place clock dates q c e s xs ys ts N). cbn [bind].
        change (String.eqb "grid" "grid") with true. rewrite (shape_grid xs ys N). cbn [bind fst snd].
        match goal with |- context [mapM ?f ?l] => destruct (mapM f l) end; reflexivity.
    Qed.

    (** load pole tides *)
Theorem C94_load_pole : forall ELLIPSOID CONVENTION, In (upper ELLIPSOID) ellipsoid_names ->
      In CONVENTION ["2003"; "2010"; "2015"; "2018"]%string ->
      same (place c) with_values (TYPE q)
      (load_pole_script lib place parse_units clock dates reader pole_at ELLIPSOID CONVENTION q)
      (LPT_displacements (place c) lclock pole_at ELLIPSOID CONVENTION (TIME_STANDARD q)) sts xs ys t.
    Proof.
      intros ELLIPSOID CONVENTION HE HC. apply mem_str_In in HE, HC. fold conventions in HC.
      unfold load_pole_script, LPT_displacements. rewrite standard_known, HE, HC. cbn [check bind].
      split; [|split]; intros T.
      - intros L. rewrite (start_track lib place parse_units clock dates reader true q c e s xs ys ts W T L). cbn [bind fst snd points_of shaped].
        unfold lclock, t. rewrite (prepare_one place clock dates q c e s xs ys ts "drift" (or_introl eq_refl) L). cbn [bind].
        destruct (make _) as [u|x]; [|reflexivity]. cbn [bind]. cbv zeta.
        change (String.eqb "drift" "grid") with false. change (String.eqb "drift" "drift") with true. cbv iota.
        match goal with |- context [bind (load_pole_tide_at ?a ?b ?d ?f ?g ?h) _] => destruct (load_pole_tide_at a b d f g h) end; [|reflexivity]. cbn [bind].
        match goal with |- context [bind (rotate_rows ?a ?b) _] => destruct (rotate_rows a b) end; [|reflexivity]. cbn [bind].
        match goal with |- context [bind (store ?a ?b) _] => destruct (store a b) end; reflexivity.
      - intros L. rewrite (start_stations lib place parse_units clock dates reader true q c e s xs ys ts W T L). cbn [bind fst snd points_of shaped].
        unfold lclock, t. rewrite (prepare_one place clock dates q c e s xs ys ts "time series" (or_intror eq_refl) L). cbn [bind].
        destruct (make _) as [u|x]; [|reflexivity]. cbn [bind]. cbv zeta.
        change (String.eqb "time series" "grid") with false. change (String.eqb "time series" "drift") with false.
        change (String.eqb "time series" "time series") with true. cbv iota. cbn [len]. rewrite L.
        match goal with |- context [bind (mapM ?f ?l) _] => destruct (mapM f l) end; reflexivity.
      - intros N. rewrite (start_grid lib place parse_units clock dates reader true q c e s xs ys ts W T). cbn [bind fst snd points_of shaped].
        unfold lclock, t. rewrite (prepare_grid place clock dates q c e s xs ys ts N). cbn [bind].
        destruct (make _) as [u|x]; [|reflexivity]. cbn [bind]. cbv zeta.
        change (String.eqb "grid" "grid") with true. cbv iota. rewrite (shape_grid xs ys N). cbn [bind fst snd].
        match goal with |- context [bind (mapM ?f ?l) _] => destruct (mapM f l) end; reflexivity.
    Qed.

    (** ocean pole tides *)
Theorem C94_ocean_pole : forall ELLIPSOID CONVENTION METHOD, In (upper ELLIPSOID) ellipsoid_names ->
      In CONVENTION ["2003"; "2010"; "2015"; "2018"]%string -> In (lower METHOD) ["bilinear"; "spline"; "linear"; "nearest"]%string ->
      same (place c) with_values (TYPE q)
      (ocean_pole_script lib place parse_units clock dates reader pole_at desai ELLIPSOID CONVENTION METHOD q)
      (OPT_displacements (place c) lclock pole_at desai ELLIPSOID CONVENTION METHOD (TIME_STANDARD q)) sts xs ys t.
    Proof.
      intros ELLIPSOID CONVENTION METHOD HE HC HM. apply mem_str_In in HE, HC, HM. fold conventions in HC. fold method_names in HM.
      unfold ocean_pole_script, OPT_displacements. rewrite standard_known, HE, HC, HM. cbn [check bind].
      split; [|split]; intros T.
      - intros L. rewrite (start_track lib place parse_units clock dates reader false q c e s xs ys ts W T L). cbn [bind fst snd points_of shaped].
        unfold lclock, t. rewrite (prepare_one place clock dates q c e s xs ys ts "drift" (or_introl eq_refl) L). cbn [bind].
        destruct (make _) as [u|x]; [|reflexivity]. cbn [bind]. cbv zeta.
        change (String.eqb "drift" "grid") with false. change (String.eqb "drift" "drift") with true. cbv iota.
        match goal with |- context [bind (ocean_pole_tide ?a ?b ?d ?f ?g ?h ?i ?j ?k) _] => destruct (ocean_pole_tide a b d f g h i j k) end; [|reflexivity]. cbn [bind].
        match goal with |- context [bind (rotate_rows ?a ?b) _] => destruct (rotate_rows a b) end; [|reflexivity]. cbn [bind].
        match goal with |- context [bind (store ?a ?b) _] => destruct (store a b) end; reflexivity.
      - intros L. rewrite (start_stations lib place parse_units clock dates reader false q c e s xs ys ts W T L). cbn [bind fst snd points_of shaped].
        unfold lclock, t. rewrite (prepare_one place clock dates q c e s xs ys ts "time series" (or_intror eq_refl) L). cbn [bind].
        destruct (make _) as [u|x]; [|reflexivity]. cbn [bind]. cbv zeta.
        change (String.eqb "time series" "grid") with false. change (String.eqb "time series" "drift") with false.
        change (String.eqb "time series" "time series") with true. cbv iota. cbn [len]. rewrite L.
        match goal with |- context [bind (mapM ?f ?l) _] => destruct (mapM f l) end; reflexivity.
      - intros N. rewrite (start_grid lib place parse_units clock dates reader false q c e s xs ys ts W T). cbn [bind fst snd points_of shaped].
        unfold lclock, t. rewrite (prepare_grid place clock dates q c e s xs ys ts N). cbn [bind].
        destruct (make _) as [u|x]; [|reflexivity]. cbn [bind]. cbv zeta.
        change (String.eqb "grid" "grid") with true. cbv iota. rewrite (shape_grid xs ys N). cbn [bind fst snd].
        match goal with |- context [bind (mapM ?f ?l) _] => destruct (mapM f l) end; reflexivity.
    Qed.

    (** solid earth tides, for grids of one point only *)
Theorem C94_solid_earth : forall ELLIPSOID TIDE_SYSTEM EPHEMERIDES,
      In (lower TIDE_SYSTEM) ["mean_tide"; "tide_free"]%string -> In (lower EPHEMERIDES) ["approximate"; "jpl"]%string ->
      (TYPE q = "grid"%string -> List.length xs = 1%nat /\ List.length ys = 1%nat) ->
      same (place c) with_values (TYPE q)
      (solid_earth_script lib place parse_units clock dates reader sun moon ELLIPSOID TIDE_SYSTEM EPHEMERIDES q)
      (SET_displacements (place c) lclock sun moon ELLIPSOID TIDE_SYSTEM EPHEMERIDES (TIME_STANDARD q)) sts xs ys t.
    Proof.
      intros ELLIPSOID TIDE_SYSTEM EPHEMERIDES HS HP NG. apply mem_str_In in HS, HP.
      unfold solid_earth_script, SET_displacements. rewrite standard_known, HS, HP. cbn [check bind].
      split; [|split]; intros T.
      - intros L. rewrite (start_track lib place parse_units clock dates reader true q c e s xs ys ts W T L). cbn [bind fst snd points_of shaped].
        unfold lclock, t. rewrite (prepare_one place clock dates q c e s xs ys ts "drift" (or_introl eq_refl) L). cbn [bind].
        destruct (make _) as [u|x]; [|reflexivity]. cbn [bind]. cbv zeta.
        change (String.eqb "drift" "grid") with false. change (String.eqb "drift" "drift") with true. cbv iota.
        match goal with |- context [bind (solid_earth_tide ?a ?b ?d ?f ?g ?h ?i) _] => destruct (solid_earth_tide a b d f g h i) end; [|reflexivity]. cbn [bind].
        match goal with |- context [bind (rotate_rows ?a ?b) _] => destruct (rotate_rows a b) end; reflexivity.
      - intros L. rewrite (start_stations lib place parse_units clock dates reader true q c e s xs ys ts W T L). cbn [bind fst snd points_of shaped].
        unfold lclock, t. rewrite (prepare_one place clock dates q c e s xs ys ts "time series" (or_intror eq_refl) L). cbn [bind].
        destruct (make _) as [u|x]; [|reflexivity]. cbn [bind]. cbv zeta.
        change (String.eqb "time series" "grid") with false. change (String.eqb "time series" "drift") with false.
        change (String.eqb "time series" "time series") with true. cbv iota. cbn [len]. rewrite L.
        match goal with |- context [bind (mapM ?f ?l) _] => destruct (mapM f l) end; reflexivity.
      - intros N. rewrite (start_grid lib place parse_units clock dates reader true q c e s xs ys ts W T). cbn [bind fst snd points_of shaped].
        unfold lclock, t. rewrite (prepare_grid place clock dates q c e s xs ys ts N). cbn [bind].
        destruct (make _) as [u|x]; [|reflexivity]. cbn [bind]. cbv zeta.
        change (String.eqb "grid" "grid") with true. cbv iota. rewrite (shape_grid xs ys N). cbn [bind fst snd].
        destruct (NG T) as [LX LY].
        assert (MM : store_rows (List.length ys) (map (map (fun p => to_local (PI / 2 - geocentric (position u p)) (atan2 (vy (position u p)) (vx (position u p)))))
                       (map (fun v => map (fun u0 => place c (u0, v)) xs) ys))
                     = Ok (map (fun v => to_local (PI / 2 - geocentric v) (atan2 (vy v) (vx v))) (map (position u) (concat (map (fun v => map (fun u0 => place c (u0, v)) xs) ys))))).
        { clear -LX LY. destruct xs as [|x [|? ?]]; try discriminate. destruct ys as [|y [|? ?]]; try discriminate. reflexivity. }
        rewrite MM. cbn [bind].
        match goal with |- context [bind (mapM ?f ?l) _] => destruct (mapM f l) end; reflexivity.
    Qed.
  End Given.
End C94.
Print Assumptions C94_projection.
Print Assumptions C94_long_period.
Print Assumptions C94_load_pole.
Print Assumptions C94_ocean_pole.
Print Assumptions C94_solid_earth.
