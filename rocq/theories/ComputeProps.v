(** C46 for the long-period, pole and solid earth tides: the value at a location
    and time does not depend on the packaging of the request.  See ComputeSpec.v. *)
From Coq Require Import Reals Lra Lia String List Bool ZArith Arith.
From Verif Require Import PyBase RBase StrBase MathModel AstroModel GeoModel DatumModel EarthModel EarthProps
  UtilModel ComputeModel ComputeSpec ComputeProofs.
Import ListNotations.
Open Scope nat_scope.
Open Scope string_scope.

Lemma combine_map {A B C} (f : A -> B) (g : A -> C) (l : list A) : combine (map f l) (map g l) = map (fun a => (f a, g a)) l.
Proof. induction l as [|a l IH]; [reflexivity|]. cbn. rewrite IH. reflexivity. Qed.
Lemma repeat_map {A B} (x : B) (l : list A) : repeat x (List.length l) = map (fun _ => x) l.
Proof. induction l as [|a l IH]; [reflexivity|]. cbn. rewrite IH. reflexivity. Qed.
Lemma bcast_map {A B} (f : A -> B) (l : list A) : bcast_to (List.length l) (map f l) = Ok (map f l).
Proof. unfold bcast_to. rewrite map_length, Nat.eqb_refl. reflexivity. Qed.
Lemma bcast_one {A B} (x : B) (l : list A) : bcast_to (List.length l) [x] = Ok (map (fun _ => x) l).
Proof.
  rewrite <- repeat_map. unfold bcast_to. destruct (Nat.eqb (List.length [x]) (List.length l)) eqn:E; [|reflexivity].
  apply Nat.eqb_eq in E. rewrite <- E. reflexivity.
Qed.
Lemma max_one {A} (l : list A) : l <> [] -> Nat.max 1 (List.length l) = List.length l.
Proof. destruct l; [congruence|]. intros _. cbn. lia. Qed.
Lemma map_nonempty {A B} (f : A -> B) l : l <> [] -> map f l <> [].
Proof. destruct l; [congruence|discriminate]. Qed.
Lemma rotate_map {A} (d : A -> vec) (M : A -> mat) (l : list A) :
  rotate_rows (map d l) (map M l) = Ok (map (fun p => mapply (M p) (d p)) l).
Proof.
  unfold rotate_rows. rewrite !map_length. replace (if Nat.eqb (List.length l) 1 then List.length l else List.length l) with (List.length l) by (destruct (Nat.eqb _ _); reflexivity).
  rewrite !bcast_map. cbn [bind]. rewrite combine_map, map_map. reflexivity.
Qed.

Lemma grid_layers {A T} (z : A) nx (P : list (list (R * R))) (L : T -> res (list (list A))) (sts : list T) (g : T -> R * R -> A) :
  Forall (fun r => List.length r = nx) P ->
  (forall st, In st sts -> L st = Ok (chunks (List.length P) nx (map (g st) (concat P)))) ->
  (do layers <- mapM L sts ;; Ok (A3 (cube z (List.length P) nx layers))) = Ok (A3 (map (map (fun p => map (fun st => g st p) sts)) P)).
Proof. intros F H. rewrite (mapM_ok L _ sts H). cbn [bind]. rewrite (cube_layers z nx P sts g F). reflexivity. Qed.

Lemma make_named ELL : mem_str (upper ELL) ellipsoid_names = true -> exists u, make (Kw ELL "MKS" None None None None) = Ok u.
Proof.
  intros H. unfold make. cbn [k_units k_a k_flat k_ellipsoid].
  assert (I : mem_str (upper ELL) (ellipsoid_names ++ ["user_defined"])%list = true) by (apply mem_str_In, in_or_app; left; apply mem_str_In, H).
  rewrite I. change (mem_str (upper "MKS") unit_names) with true. cbn [negb].
  apply mem_str_In in H. cbn in H. repeat (destruct H as [<-|H]; [eexists; reflexivity|]). contradiction.
Qed.

Section C46.
  Variable proj : R * R -> R * R.
  Variable clock : string -> R -> stamp.

  (** ** Long-period equilibrium tides *)
  Lemma lpe_one_time q lat c k : rows_of (equilibrium_tide [q] lat c k) = map (lpe_value c k (fst q) (snd q)) lat.
  Proof.
    unfold equilibrium_tide. destruct (Nat.eqb (List.length lat) (List.length [q])) eqn:E.
    - apply Nat.eqb_eq in E. destruct lat as [|y [|]]; try discriminate. reflexivity.
    - cbn [negb rows_of map]. clear E. induction lat as [|y lat IH]; [reflexivity|]. cbn in *. rewrite IH. reflexivity.
  Qed.
  Lemma lpe_one_place tt y c k : rows_of (equilibrium_tide tt [y] c k) = map (fun q => lpe_value c k (fst q) (snd q) y) tt.
  Proof.
    unfold equilibrium_tide. destruct (Nat.eqb (List.length [y]) (List.length tt)) eqn:E.
    - apply Nat.eqb_eq in E. destruct tt as [|q [|]]; try discriminate. reflexivity.
    - cbn [negb rows_of map concat]. apply app_nil_r.
  Qed.
  Lemma lpe_pairs {A} (t : A -> R * R) (lat : A -> R) l c k :
    equilibrium_tide (map t l) (map lat l) c k = Flat (map (fun p => lpe_value c k (fst (t p)) (snd (t p)) (lat p)) l).
  Proof. unfold equilibrium_tide. rewrite !map_length, Nat.eqb_refl. cbn [negb]. rewrite combine_map, map_map. reflexivity. Qed.

  Definition lpet_at (TIME : string) (x y t : R) : R :=
    let st := clock TIME t in lpe_value "OTIS" Default (st_tide st + st_tt_ut1 st) 0 (snd (proj (x, y))).

  Lemma LPET_one TIME : mem_str (lower TIME) time_names = true ->
    one_value_per_point as_written (fun T => LPET_elevations proj clock TIME (Some T)) (lpet_at TIME).
  Proof.
    intros HT. unfold LPET_elevations. rewrite HT. cbn [check bind]. split; [|split; [split|]].
    - intros T pts -> _. rewrite prepare_drift by reflexivity. cbn [bind].
      cbn [String.eqb Ascii.eqb Bool.eqb]. rewrite !map_map, lpe_pairs. do 2 f_equal.
      apply map_ext. intros [[x y] t]. reflexivity.
    - intros T pts ts -> _ _. rewrite prepare_series by reflexivity. cbn [bind].
      cbn [String.eqb Ascii.eqb Bool.eqb]. cbn [len]. rewrite (map_length fst pts).
      rewrite (mapM_item _ (fun p => map (lpet_at TIME (fst p) (snd p)) ts)); [reflexivity|].
      intros s p Hp. cbn [Nat.add]. rewrite (map_map proj snd), (item_nth _ _ (snd (proj p))) by (exact (map_nth_error (fun q => snd (proj q)) s pts Hp)).
      cbn [bind]. rewrite lpe_one_place, !map_map. destruct p; reflexivity.
    - intros T x y ts -> _. rewrite prepare_station by reflexivity. cbn [bind].
      cbn [String.eqb Ascii.eqb Bool.eqb len List.length seq mapM map item nth_error bind]. rewrite lpe_one_place, !map_map. reflexivity.
    - intros T x y P ts -> G _. destruct (prepare_grid proj clock "grid" TIME x y P ts eq_refl G) as (nx & X & -> & S & F & N).
      cbn [bind]. cbn [String.eqb Ascii.eqb Bool.eqb]. rewrite S. cbn [bind fst snd].
      rewrite (grid_layers 0%R nx P _ _ (fun q p => lpe_value "OTIS" Default (fst q) (snd q) (snd (proj p)))); [|exact F|].
      + do 2 f_equal. apply map_ext. intros row. apply map_ext. intros [u v]. rewrite !map_map. reflexivity.
      + intros q _. rewrite lpe_one_time, map_map, map_map. rewrite reshape_layer by exact F. reflexivity.
  Qed.

  (** ** Load pole tides *)
  Variable pole_at : string -> R -> R -> pole.

  Lemma lpt_places q {A} (l : list A) (pos : A -> vec) (g : A -> R) om h k : l <> [] ->
    load_pole_tide_at [q] (map pos l) (map g l) om h k = Ok (map (fun p => lpt_point (g p) om h k (pos p) q) l).
  Proof.
    intros N. unfold load_pole_tide_at. cbv zeta. rewrite map_length. cbn [List.length]. rewrite (max_one l N).
    rewrite bcast_map, bcast_one, bcast_map. cbn [bind]. rewrite !combine_map, map_map. reflexivity.
  Qed.
  Lemma lpt_times {A} (l : list A) (q : A -> pole) (pos : A -> vec) (g : A -> R) om h k :
    load_pole_tide_at (map q l) (map pos l) (map g l) om h k = Ok (map (fun a => lpt_point (g a) om h k (pos a) (q a)) l).
  Proof.
    unfold load_pole_tide_at. cbv zeta. rewrite !map_length, Nat.max_id.
    rewrite !bcast_map. cbn [bind]. rewrite !combine_map, map_map. reflexivity.
  Qed.
  Lemma lpt_station {A} (l : list A) (q : A -> pole) p g om h k :
    load_pole_tide_at (map q l) (repeat p (List.length l)) [g] om h k = Ok (map (fun a => lpt_point g om h k p (q a)) l).
  Proof.
    rewrite repeat_map. unfold load_pole_tide_at. cbv zeta. rewrite !map_length, Nat.max_id.
    rewrite !bcast_map, bcast_one. cbn [bind]. rewrite !combine_map, map_map. reflexivity.
  Qed.
  Lemma store_map {A} (f : A -> R) (l : list A) : store (List.length l) (map f l) = Ok (map f l).
  Proof. apply bcast_map. Qed.

  Definition lpt_at (u : datum) (CONVENTION TIME : string) (x y t : R) : R :=
    let st := clock TIME t in let p := proj (x, y) in
    vz (mapply (to_local (colatitude u p) (dtr * fst p))
         (lpt_point (gamma_0 u (colatitude u p)) (d_omega u) 0.6207 0.0836 (position u p) (pole_at CONVENTION (st_tide st) (st_tt_ut1 st)))).

  Lemma LPT_one TIME ELL u CONV : mem_str (lower TIME) time_names = true ->
    mem_str (upper ELL) ellipsoid_names = true -> make (Kw ELL "MKS" None None None None) = Ok u -> mem_str CONV conventions = true ->
    one_value_per_point as_written (fun T => LPT_displacements proj clock pole_at ELL CONV TIME (Some T)) (lpt_at u CONV TIME).
  Proof.
    intros HT HE HU HC. unfold LPT_displacements. rewrite HT, HE, HC. cbn [check bind]. split; [|split; [split|]].
    - intros T pts -> _. rewrite prepare_drift by reflexivity. cbn [bind]. rewrite HU. cbn [bind].
      cbn [String.eqb Ascii.eqb Bool.eqb]. rewrite !map_map. rewrite lpt_times. cbn [bind]. rewrite rotate_map. cbn [bind].
      rewrite !map_map, map_length, store_map. cbn [bind]. do 2 f_equal.
      apply map_ext. intros [[x y] t]. reflexivity.
    - intros T pts ts -> _ _. rewrite prepare_series by reflexivity. cbn [bind]. rewrite HU. cbn [bind].
      cbn [String.eqb Ascii.eqb Bool.eqb]. cbn [len]. rewrite (map_length fst pts).
      rewrite (mapM_item _ (fun p => map (lpt_at u CONV TIME (fst p) (snd p)) ts)); [reflexivity|].
      intros s p Hp. cbn [Nat.add]. rewrite !(map_map proj).
      rewrite (item_nth _ _ _ (map_nth_error _ _ _ Hp)). cbn [bind].
      rewrite (item_nth _ _ _ (map_nth_error _ _ _ Hp)). cbn [bind].
      rewrite (item_nth _ _ _ (map_nth_error _ _ _ Hp)). cbn [bind].
      rewrite map_map, map_length, lpt_station. cbn [bind]. rewrite map_map, store_map. destruct p; reflexivity.
    - intros T x y ts -> _. rewrite prepare_station by reflexivity. cbn [bind]. rewrite HU. cbn [bind].
      cbn [String.eqb Ascii.eqb Bool.eqb len List.length seq mapM map item nth_error bind].
      rewrite map_map, map_length, lpt_station. cbn [bind]. rewrite map_map, store_map. reflexivity.
    - intros T x y P ts -> G _. destruct (prepare_grid proj clock "grid" TIME x y P ts eq_refl G) as (nx & X & -> & S & F & N).
      cbn [bind]. rewrite HU. cbn [bind]. cbn [String.eqb Ascii.eqb Bool.eqb]. rewrite S. cbn [bind fst snd].
      rewrite !(map_map proj).
      rewrite (grid_layers 0%R nx P _ _ (fun st p => vz (mapply (to_local (colatitude u (proj p)) (dtr * fst (proj p)))
         (lpt_point (gamma_0 u (colatitude u (proj p))) (d_omega u) 0.6207 0.0836 (position u (proj p)) (pole_at CONV (st_tide st) (st_tt_ut1 st)))))); [|exact F|].
      + do 2 f_equal. apply map_ext. intros row. apply map_ext. intros [a b]. rewrite !map_map. reflexivity.
      + intros st _. rewrite lpt_places by exact N. cbn [bind]. rewrite rotate_map. cbn [bind].
        rewrite map_map. rewrite reshape_layer by exact F. reflexivity.
  Qed.

  (** ** Ocean pole tides *)
  Variable desai : string -> R * R -> cpx * cpx * cpx.

  Lemma opt_places q {A} (l : list A) (pos : A -> vec) (U : A -> vec * vec) g a GM om rho g2 : l <> [] ->
    ocean_pole_tide [q] (map pos l) (map U l) g a GM om rho g2 = Ok (map (fun p => opt_point g a GM om rho g2 q (U p)) l).
  Proof.
    intros N. unfold ocean_pole_tide. cbv zeta. rewrite map_length. cbn [List.length]. rewrite (max_one l N).
    rewrite bcast_map, bcast_one. cbn [bind]. rewrite !combine_map, map_map. reflexivity.
  Qed.
  Lemma opt_times {A} (l : list A) (q : A -> pole) (pos : A -> vec) (U : A -> vec * vec) g a GM om rho g2 :
    ocean_pole_tide (map q l) (map pos l) (map U l) g a GM om rho g2 = Ok (map (fun p => opt_point g a GM om rho g2 (q p) (U p)) l).
  Proof.
    unfold ocean_pole_tide. cbv zeta. rewrite !map_length, Nat.max_id.
    rewrite !bcast_map. cbn [bind]. rewrite !combine_map, map_map. reflexivity.
  Qed.
  Lemma opt_station {A} (l : list A) (q : A -> pole) p U g a GM om rho g2 :
    ocean_pole_tide (map q l) (repeat p (List.length l)) (repeat U (List.length l)) g a GM om rho g2
    = Ok (map (fun b => opt_point g a GM om rho g2 (q b) U) l).
  Proof. rewrite !repeat_map. apply opt_times. Qed.

  Definition opt_at (u : datum) (CONVENTION METHOD TIME : string) (x y t : R) : R :=
    let st := clock TIME t in let p := proj (x, y) in
    let M := from_local (colatitude u p) (dtr * fst p) in
    vz (mapply (inv3 M)
         (opt_point 9.7803278 (d_a u) (d_GM u) (d_omega u) 1025 (0.6870, 0.0036)%R (pole_at CONVENTION (st_tide st) (st_tt_ut1 st))
            (map_vector M (desai METHOD (fst p, (geocentric (position u p) / dtr)%R))))).

  Lemma OPT_one TIME ELL u CONV METH : mem_str (lower TIME) time_names = true ->
    mem_str (upper ELL) ellipsoid_names = true -> make (Kw ELL "MKS" None None None None) = Ok u -> mem_str CONV conventions = true ->
    mem_str (lower METH) method_names = true ->
    one_value_per_point as_written (fun T => OPT_displacements proj clock pole_at desai ELL CONV METH TIME (Some T)) (opt_at u CONV METH TIME).
  Proof.
    intros HT HE HU HC HM. unfold OPT_displacements. rewrite HT, HE, HC, HM. cbn [check bind]. split; [|split; [split|]].
    - intros T pts -> _. rewrite prepare_drift by reflexivity. cbn [bind]. rewrite HU. cbn [bind].
      cbn [String.eqb Ascii.eqb Bool.eqb]. rewrite !map_map. rewrite opt_times. cbn [bind]. rewrite rotate_map. cbn [bind].
      rewrite !map_map, map_length, store_map. cbn [bind]. do 2 f_equal.
      apply map_ext. intros [[x y] t]. reflexivity.
    - intros T pts ts -> _ _. rewrite prepare_series by reflexivity. cbn [bind]. rewrite HU. cbn [bind].
      cbn [String.eqb Ascii.eqb Bool.eqb]. cbn [len]. rewrite (map_length fst pts).
      rewrite (mapM_item _ (fun p => map (opt_at u CONV METH TIME (fst p) (snd p)) ts)); [reflexivity|].
      intros s p Hp. cbn [Nat.add]. rewrite !(map_map proj).
      rewrite (item_nth _ _ _ (map_nth_error _ _ _ Hp)). cbn [bind].
      rewrite (item_nth _ _ _ (map_nth_error _ _ _ Hp)). cbn [bind].
      rewrite (item_nth _ _ _ (map_nth_error _ _ _ Hp)). cbn [bind].
      rewrite map_map, map_length, opt_station. cbn [bind]. rewrite map_map, store_map. destruct p; reflexivity.
    - intros T x y ts -> _. rewrite prepare_station by reflexivity. cbn [bind]. rewrite HU. cbn [bind].
      cbn [String.eqb Ascii.eqb Bool.eqb len List.length seq mapM map item nth_error bind].
      rewrite map_map, map_length, opt_station. cbn [bind]. rewrite map_map, store_map. reflexivity.
    - intros T x y P ts -> G _. destruct (prepare_grid proj clock "grid" TIME x y P ts eq_refl G) as (nx & X & -> & S & F & N).
      cbn [bind]. rewrite HU. cbn [bind]. cbn [String.eqb Ascii.eqb Bool.eqb]. rewrite S. cbn [bind fst snd].
      rewrite !(map_map proj).
      rewrite (grid_layers 0%R nx P _ _ (fun st p =>
        let M := from_local (colatitude u (proj p)) (dtr * fst (proj p)) in
        vz (mapply (inv3 M)
         (opt_point 9.7803278 (d_a u) (d_GM u) (d_omega u) 1025 (0.6870, 0.0036)%R (pole_at CONV (st_tide st) (st_tt_ut1 st))
            (map_vector M (desai METH (fst (proj p), (geocentric (position u (proj p)) / dtr)%R))))))); [|exact F|].
      + do 2 f_equal. apply map_ext. intros row. apply map_ext. intros [a b]. rewrite !map_map. reflexivity.
      + intros st _. rewrite opt_places by exact N. cbn [bind]. rewrite rotate_map. cbn [bind].
        rewrite map_map. rewrite reshape_layer by exact F. reflexivity.
  Qed.

  (** ** Solid earth tides *)
  Variable sun moon : string -> R -> vec.

  Lemma set_rows {A} (l : list A) (t : A -> R) (p s m : A -> vec) a sys : mem_str (lower sys) ["tide_free"; "mean_tide"] = true ->
    solid_earth_tide (map t l) (map p l) (map s l) (map m l) a sys default_love
    = Ok (map (fun q => set_point default_love a (String.eqb (lower sys) "mean_tide") (t q) (p q) (s q) (m q)) l).
  Proof.
    intros H. unfold solid_earth_tide. rewrite H. cbn [negb]. rewrite map_length, !bcast_map. cbn [bind].
    rewrite !combine_map, map_map. reflexivity.
  Qed.

  Definition set_at (u : datum) (SYSTEM EPH TIME : string) (shift : R) (x y t : R) : R :=
    let st := clock TIME t in let v := position u (proj (x, y)) in
    vz (mapply (to_local (PI / 2 - geocentric v) (atan2 (vy v) (vx v)))
         (set_point default_love (d_a u) (String.eqb (lower SYSTEM) "mean_tide") (st_tide st + st_tt_ut1 st + shift)
            v (sun EPH (st_mjd st)) (moon EPH (st_mjd st)))).

  Section SET.
    Variable u : datum.
    Variable TIME ELL SYS EPH : string.
    Hypothesis HT : mem_str (lower TIME) time_names = true.
    Hypothesis HS : mem_str (lower SYS) ["mean_tide"; "tide_free"] = true.
    Hypothesis HE : mem_str (lower EPH) ["approximate"; "jpl"] = true.
    Hypothesis HU : make (Kw ELL "MKS" None None None None) = Ok u.
    Local Lemma HS' : mem_str (lower SYS) ["tide_free"; "mean_tide"] = true.
    Proof. revert HS. cbn [mem_str existsb]. rewrite !orb_false_r, orb_comm. auto. Qed.

    Lemma SET_drift : drift_returns as_written (fun T => SET_displacements proj clock sun moon ELL SYS EPH TIME (Some T)) (set_at u SYS EPH TIME 0).
    Proof.
      intros T pts -> _. unfold SET_displacements. rewrite HT, HS, HE. cbn [check bind]. rewrite prepare_drift by reflexivity. cbn [bind]. rewrite HU. cbn [bind].
      cbn [String.eqb Ascii.eqb Bool.eqb]. rewrite !map_map. rewrite set_rows by exact HS'. cbn [bind]. rewrite rotate_map. cbn [bind].
      rewrite !map_map. do 2 f_equal. apply map_ext. intros [[x y] t]. unfold set_at. cbn [fst snd]. rewrite Rplus_0_r. reflexivity.
    Qed.
    Lemma set_station p ts M :
      (do dxi <- solid_earth_tide (map (fun st => (st_tide st + st_tt_ut1 st)%R) ts) (repeat p (List.length ts))
         (map (fun st => sun EPH (st_mjd st)) ts) (map (fun st => moon EPH (st_mjd st)) ts) (d_a u) SYS default_love ;;
       store (List.length ts) (map (fun d => vz (mapply M d)) dxi))
      = Ok (map (fun st => vz (mapply M (set_point default_love (d_a u) (String.eqb (lower SYS) "mean_tide") (st_tide st + st_tt_ut1 st)
          p (sun EPH (st_mjd st)) (moon EPH (st_mjd st))))) ts).
    Proof. rewrite repeat_map, set_rows by exact HS'. cbn [bind]. rewrite map_map, store_map. reflexivity. Qed.
    Lemma SET_series : series_returns as_written (fun T => SET_displacements proj clock sun moon ELL SYS EPH TIME (Some T)) (set_at u SYS EPH TIME 0).
    Proof.
      unfold SET_displacements. rewrite HT, HS, HE. cbn [check bind]. split.
      - intros T pts ts -> _ _. rewrite prepare_series by reflexivity. cbn [bind]. rewrite HU. cbn [bind].
        cbn [String.eqb Ascii.eqb Bool.eqb]. cbn [len]. rewrite (map_length fst pts).
        rewrite (mapM_item _ (fun p => map (set_at u SYS EPH TIME 0 (fst p) (snd p)) ts)); [reflexivity|].
        intros s p Hp. cbn [Nat.add]. rewrite !(map_map proj), !(map_map (fun p => position u (proj p))).
        rewrite (item_nth _ _ _ (map_nth_error _ _ _ Hp)). cbn [bind].
        rewrite (item_nth _ _ _ (map_nth_error _ _ _ Hp)). cbn [bind].
        rewrite set_station, map_map. f_equal. apply map_ext. intros t. unfold set_at. rewrite Rplus_0_r. destruct p; reflexivity.
      - intros T x y ts -> _. rewrite prepare_station by reflexivity. cbn [bind]. rewrite HU. cbn [bind].
        cbn [String.eqb Ascii.eqb Bool.eqb len List.length seq mapM map item nth_error bind].
        rewrite set_station, map_map. cbn [bind]. do 3 f_equal. apply map_ext. intros t. unfold set_at. rewrite Rplus_0_r. reflexivity.
    Qed.
    Lemma SET_grid : grid_returns as_written (fun T => SET_displacements proj clock sun moon ELL SYS EPH TIME (Some T)) (set_at u SYS EPH TIME 1).
    Proof.
      intros T x y P ts -> G _. unfold SET_displacements. rewrite HT, HS, HE. cbn [check bind].
      destruct (prepare_grid proj clock "grid" TIME x y P ts eq_refl G) as (nx & X & -> & Q & F & N).
      cbn [bind]. rewrite HU. cbn [bind]. cbn [String.eqb Ascii.eqb Bool.eqb]. rewrite Q. cbn [bind fst snd].
      rewrite !(map_map proj), !(map_map (fun p => position u (proj p))).
      rewrite (grid_layers 0%R nx P _ _ (fun st p => let v := position u (proj p) in
        vz (mapply (to_local (PI / 2 - geocentric v) (atan2 (vy v) (vx v)))
         (set_point default_love (d_a u) (String.eqb (lower SYS) "mean_tide") (st_tide st + st_tt_ut1 st + 1)
            v (sun EPH (st_mjd st)) (moon EPH (st_mjd st)))))); [|exact F|].
      - do 2 f_equal. apply map_ext. intros row. apply map_ext. intros [a b]. rewrite !map_map. reflexivity.
      - intros st _. rewrite <- (concat_length nx P F). rewrite !repeat_map, map_map.
        rewrite set_rows by exact HS'. cbn [bind]. rewrite rotate_map. cbn [bind].
        rewrite map_map. rewrite reshape_layer by exact F. reflexivity.
    Qed.
  End SET.
End C46.

(** The request and its options are those the routines accept: lower-case type
    keyword, a time standard, an ellipsoid, a pole convention, a method. *)
Theorem C46_long_period proj clock TIME : In (lower TIME) ["gps"; "loran"; "tai"; "utc"; "datetime"] ->
  exists f, one_value_per_point as_written (fun T => LPET_elevations proj clock TIME (Some T)) f.
Proof. intros H. eexists. apply LPET_one. apply mem_str_In, H. Qed.
Print Assumptions C46_long_period.

Theorem C46_load_pole proj clock pole_at ELLIPSOID CONVENTION TIME : In (lower TIME) ["gps"; "loran"; "tai"; "utc"; "datetime"] ->
  In (upper ELLIPSOID) ellipsoid_names -> In CONVENTION ["2003"; "2010"; "2015"; "2018"] ->
  exists f, one_value_per_point as_written (fun T => LPT_displacements proj clock pole_at ELLIPSOID CONVENTION TIME (Some T)) f.
Proof.
  intros H E C. apply mem_str_In in H, E, C.
  destruct (make_named ELLIPSOID E) as [u HU]. eexists. apply (LPT_one proj clock pole_at TIME ELLIPSOID u CONVENTION H E HU C).
Qed.
Print Assumptions C46_load_pole.

Theorem C46_ocean_pole proj clock pole_at desai ELLIPSOID CONVENTION METHOD TIME : In (lower TIME) ["gps"; "loran"; "tai"; "utc"; "datetime"] ->
  In (upper ELLIPSOID) ellipsoid_names -> In CONVENTION ["2003"; "2010"; "2015"; "2018"] -> In (lower METHOD) ["bilinear"; "spline"; "linear"; "nearest"] ->
  exists f, one_value_per_point as_written (fun T => OPT_displacements proj clock pole_at desai ELLIPSOID CONVENTION METHOD TIME (Some T)) f.
Proof.
  intros H E C D. apply mem_str_In in H, E, C, D.
  destruct (make_named ELLIPSOID E) as [u HU]. eexists. apply (OPT_one proj clock pole_at desai TIME ELLIPSOID u CONVENTION METHOD H E HU C D).
Qed.
Print Assumptions C46_ocean_pole.

(** Solid earth tides: drift and time series agree.  Missing: the grid (see
    [C46_solid_earth_grid_partial] and [C46_solid_earth_refuted]). *)
Theorem C46_solid_earth_partial proj clock sun moon ELLIPSOID SYSTEM EPHEMERIDES TIME : In (lower TIME) ["gps"; "loran"; "tai"; "utc"; "datetime"] ->
  In (upper ELLIPSOID) ellipsoid_names -> In (lower SYSTEM) ["mean_tide"; "tide_free"] -> In (lower EPHEMERIDES) ["approximate"; "jpl"] ->
  exists f, drift_returns as_written (fun T => SET_displacements proj clock sun moon ELLIPSOID SYSTEM EPHEMERIDES TIME (Some T)) f /\
            series_returns as_written (fun T => SET_displacements proj clock sun moon ELLIPSOID SYSTEM EPHEMERIDES TIME (Some T)) f.
Proof.
  intros H E C D. apply mem_str_In in H, E, C, D.
  destruct (make_named ELLIPSOID E) as [u HU]. exists (set_at proj clock sun moon u SYSTEM EPHEMERIDES TIME 0).
  split; [apply SET_drift|apply SET_series]; assumption.
Qed.
Print Assumptions C46_solid_earth_partial.

(** A grid returns what a drift track returns when the clock of the frequency
    dependent corrections is one day fast (compute.py:1465 adds np.ones to the
    time) while the sun and the moon keep their places. *)
Theorem C46_solid_earth_grid_partial proj clock sun moon ELLIPSOID SYSTEM EPHEMERIDES TIME : In (lower TIME) ["gps"; "loran"; "tai"; "utc"; "datetime"] ->
  In (upper ELLIPSOID) ellipsoid_names -> In (lower SYSTEM) ["mean_tide"; "tide_free"] -> In (lower EPHEMERIDES) ["approximate"; "jpl"] ->
  let fast k t := Stamp (st_tide (clock k t) + 1) (st_tt_ut1 (clock k t)) (st_mjd (clock k t)) in
  exists f, grid_returns as_written (fun T => SET_displacements proj clock sun moon ELLIPSOID SYSTEM EPHEMERIDES TIME (Some T)) f /\
            drift_returns as_written (fun T => SET_displacements proj fast sun moon ELLIPSOID SYSTEM EPHEMERIDES TIME (Some T)) f.
Proof.
  intros H E C D fast. apply mem_str_In in H, E, C, D.
  destruct (make_named ELLIPSOID E) as [u HU]. exists (set_at proj clock sun moon u SYSTEM EPHEMERIDES TIME 1).
  split; [apply SET_grid; assumption|].
  intros T pts HT N. rewrite (SET_drift proj fast sun moon u TIME ELLIPSOID SYSTEM EPHEMERIDES H C D HU T pts HT N).
  do 2 f_equal. apply map_ext. intros p. unfold set_at, fast. cbn [st_tide st_tt_ut1 st_mjd].
  replace (st_tide (clock TIME (snd p)) + 1 + st_tt_ut1 (clock TIME (snd p)) + 0)%R with (st_tide (clock TIME (snd p)) + st_tt_ut1 (clock TIME (snd p)) + 1)%R by ring.
  reflexivity.
Qed.
Print Assumptions C46_solid_earth_grid_partial.

(** The type keyword is checked without regard to case (e.g. lines 848-849) but
    compared as written (876-890): these four routines accept 'Grid' and then
    return a variable they never assigned.  The ocean tide routines compare in
    lower case ([C46_tides]). *)
Theorem C46_case_refuted proj clock pole_at desai sun moon T TIME ELLIPSOID x y t :
  In (lower T) ["grid"; "drift"; "time series"] -> T <> lower T -> size (fst (reform T x y)) = size (snd (reform T x y)) ->
  In (lower TIME) ["gps"; "loran"; "tai"; "utc"; "datetime"] -> In (upper ELLIPSOID) ellipsoid_names ->
  LPET_elevations proj clock TIME (Some T) x y t = Err NameError /\
  LPT_displacements proj clock pole_at ELLIPSOID "2018" TIME (Some T) x y t = Err NameError /\
  OPT_displacements proj clock pole_at desai ELLIPSOID "2018" "spline" TIME (Some T) x y t = Err NameError /\
  SET_displacements proj clock sun moon ELLIPSOID "tide_free" "approximate" TIME (Some T) x y t = Err NameError.
Proof.
  intros L N Q H E. apply mem_str_In in H, E. change (mem_str (lower TIME) time_names = true) in H. destruct (make_named ELLIPSOID E) as [u HU].
  assert (NE : T <> "") by (intros ->; apply N; reflexivity).
  assert (P : prepare proj clock (Some T) TIME x y t
    = Ok (T, fst (reform T x y), map proj (combine (flatten (fst (reform T x y))) (flatten (snd (reform T x y)))), map (clock TIME) t)).
  { unfold prepare. rewrite kind_given by exact NE. cbn [bind]. apply mem_str_In in L.
    change (mem_str (lower T) type_names = true) in L. rewrite L. cbn [check bind]. unfold locations. rewrite Q, Nat.eqb_refl. reflexivity. }
  assert (B : String.eqb T "grid" = false /\ String.eqb T "drift" = false /\ String.eqb T "time series" = false).
  { repeat split; apply String.eqb_neq; intros ->; apply N; reflexivity. }
  destruct B as (B1 & B2 & B3).
  repeat split; [unfold LPET_elevations|unfold LPT_displacements|unfold OPT_displacements|unfold SET_displacements];
    rewrite H; cbn [check bind]; try (rewrite E; cbn [check bind]);
    try (change (check (mem_str "2018" conventions)) with (Ok tt)); cbn [bind];
    try (change (check (mem_str (lower "spline") method_names)) with (Ok tt)); cbn [bind];
    try (change (check (mem_str (lower "tide_free") ["mean_tide"; "tide_free"])) with (Ok tt)); cbn [bind];
    try (change (check (mem_str (lower "approximate") ["approximate"; "jpl"])) with (Ok tt)); cbn [bind];
    rewrite P; cbn [bind]; try (rewrite HU; cbn [bind]); rewrite B1, B2, B3; reflexivity.
Qed.
Print Assumptions C46_case_refuted.
Example C46_case_example : In (lower "Grid") ["grid"; "drift"; "time series"] /\ "Grid" <> lower "Grid" /\
  size (fst (reform "Grid" (C1 [0; 1]%R) (C1 [0; 1; 2]%R))) = size (snd (reform "Grid" (C1 [0; 1]%R) (C1 [0; 1; 2]%R))).
Proof. split; [left; reflexivity|]. split; [discriminate|reflexivity]. Qed.
