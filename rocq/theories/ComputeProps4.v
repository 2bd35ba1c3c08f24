(** C64: the heights returned by the pole tide and solid earth tide routines are
    the radial displacements of C50 and C51 at the point of the ellipsoid; C46: type
    of the data left out, and square axes. *)
From Coq Require Import Reals Lra Lia String List Bool ZArith.
From Verif Require Import PyBase RBase StrBase MathModel AstroModel GeoModel GeoSpec GeoProofs DatumModel EarthModel EarthSpec EarthProofs EarthProofs2
  EarthProofs3 EarthProps DatumSpec DatumProps UtilModel ComputeModel ComputeSpec ComputeProofs ComputeProps.
Import ListNotations.
Open Scope R_scope.

Lemma table_axes n : In n ellipsoid_names -> exists a f gm om, DatumModel.table n = Some (a, f, gm, om) /\ 0 < a /\ 0 < f < 1.
Proof.
  intros H. cbn in H. repeat (destruct H as [<-|H]; [do 4 eexists; split; [reflexivity|split; lra]|]). contradiction.
Qed.
Lemma named_axes ELL u : mem_str (upper ELL) ellipsoid_names = true -> make (Kw ELL "MKS" None None None None) = Ok u ->
  0 < d_a u /\ 0 < d_flat u < 1.
Proof.
  intros H. unfold make. cbn [k_units k_a k_flat k_ellipsoid k_GM k_omega].
  assert (I : mem_str (upper ELL) (ellipsoid_names ++ ["user_defined"%string])%list = true) by (apply mem_str_In, in_or_app; left; apply mem_str_In, H).
  rewrite I. change (mem_str (upper "MKS") unit_names) with true. cbn [negb].
  change (String.eqb (upper "MKS") "CGS") with false. cbv iota.
  apply mem_str_In in H. destruct (table_axes _ H) as (a & f & gm & om & -> & Ha & Hf).
  intros E. apply Ok_inj in E. subst u. split; assumption.
Qed.

(** ** The vertical *)
Lemma radial p u : off_axis p ->
  vz (mapply (to_local (pt_theta p) (atan2 (vy p) (vx p))) u) = dotv u p / norm p.
Proof.
  intros O. destruct (colatitude_trig p O) as [Ct St]. destruct (longitude_trig p O) as [Cl Sl]. local p O.
  unfold to_local, mapply, row. cbn [vz m20 m21 m22]. rewrite Ct, St, Cl, Sl. unfold dotv. field. lra.
Qed.
Lemma same_local th a b : cos a = cos b -> sin a = sin b -> to_local th a = to_local th b.
Proof. unfold to_local. intros -> ->. reflexivity. Qed.

Section Position.
  Variable u : datum.
  Hypothesis Ha : 0 < d_a u.
  Hypothesis Hf : 0 < d_flat u < 1.
  Variable lon lat : R.
  Hypothesis Hlat : -90 < lat < 90.
  Lemma position_polar : exists w, 0 < w /\ vx (position u (lon, lat)) = w * cos (dtr * lon) /\ vy (position u (lon, lat)) = w * sin (dtr * lon).
  Proof.
    assert (V : valid (Ell (d_a u) (d_flat u))) by (split; cbn; lra).
    unfold position. cbn [fst snd]. rewrite (cart_x _ _ _ _ V), (cart_y _ _ _ _ V).
    exists (prime_vertical (Ell (d_a u) (d_flat u)) (rad lat) * cos (rad lat)). split.
    - apply Rmult_lt_0_compat; [apply pv_pos, V|].
      pose proof PI_RGT_0. assert (B : - (PI / 2) < lat * (PI / 180) < PI / 2) by (split; nra). apply cos_gt_0; unfold rad; lra.
    - replace (rad lon) with (dtr * lon) by (unfold rad, dtr; ring). split; ring.
  Qed.
  Lemma position_off_axis : off_axis (position u (lon, lat)).
  Proof.
    unfold off_axis. destruct position_polar as (w & Hw & E1 & E2). rewrite E1, E2.
    pose proof (sin2_cos2 (dtr * lon)) as T. unfold Rsqr in T.
    destruct (Req_dec (cos (dtr * lon)) 0) as [C|C]; [right|left]; intros Z; apply Rmult_integral in Z as [Z|Z]; try lra; rewrite C, Z in T; lra.
  Qed.
  Lemma position_local th : to_local th (dtr * lon) = to_local th (atan2 (vy (position u (lon, lat))) (vx (position u (lon, lat)))).
  Proof.
    destruct (longitude_trig _ position_off_axis) as [C D]. destruct position_polar as (w & Hw & E1 & E2).
    assert (Rw : rho (position u (lon, lat)) = w).
    { unfold rho. rewrite E1, E2. pose proof (sin2_cos2 (dtr * lon)) as T. unfold Rsqr in T.
      replace ((w * cos (dtr * lon)) ^ 2 + (w * sin (dtr * lon)) ^ 2) with (w * w * (sin (dtr * lon) * sin (dtr * lon) + cos (dtr * lon) * cos (dtr * lon))) by ring.
      rewrite T, Rmult_1_r. apply sqrt_square. lra. }
    apply same_local; [rewrite C, Rw, E1|rewrite D, Rw, E2]; field; lra.
  Qed.
  Lemma position_colatitude : colatitude u (lon, lat) = pt_theta (position u (lon, lat)).
  Proof. unfold colatitude, pt_theta, geocentric. unfold dtr. field. apply PI_neq0. Qed.
End Position.

(** Normal gravity of a named ellipsoid is positive *)
Lemma table_values n : In n ellipsoid_names -> exists a f gm om, DatumModel.table n = Some (a, f, gm, om) /\
  6377000 < a < 6379000 /\ 1 / 300 < f < 1 / 294 /\ 3.986e14 <= DatumModel.pick None gm 3.986004418e14 <= 3.98604e14 /\
  7.29e-5 < DatumModel.pick None om 7292115e-11 < 7.293e-5.
Proof.
  intros H. cbn in H.
  repeat (destruct H as [<-|H]; [do 4 eexists; split; [reflexivity|unfold DatumModel.pick; repeat split; lra]|]). contradiction.
Qed.
Lemma named_values ELL u : mem_str (upper ELL) ellipsoid_names = true -> make (Kw ELL "MKS" None None None None) = Ok u ->
  6377000 < d_a u < 6379000 /\ 1 / 300 < d_flat u < 1 / 294 /\ 3.986e14 <= d_GM u <= 3.98604e14 /\ 7.29e-5 < d_omega u < 7.293e-5.
Proof.
  intros H. unfold make. cbn [k_units k_a k_flat k_ellipsoid k_GM k_omega].
  assert (I : mem_str (upper ELL) (ellipsoid_names ++ ["user_defined"%string])%list = true) by (apply mem_str_In, in_or_app; left; apply mem_str_In, H).
  rewrite I. change (mem_str (upper "MKS") unit_names) with true. cbn [negb].
  change (String.eqb (upper "MKS") "CGS") with false. cbv iota.
  apply mem_str_In in H. destruct (table_values _ H) as (a & f & gm & om & -> & Q).
  intros E. apply Ok_inj in E. subst u. exact Q.
Qed.
Lemma m_par_range u : 6377000 < d_a u < 6379000 -> 1 / 300 < d_flat u < 1 / 294 -> 3.986e14 <= d_GM u <= 3.98604e14 -> 7.29e-5 < d_omega u < 7.293e-5 ->
  0 < m_par u < 0.0035.
Proof.
  intros A F G W. unfold m_par.
  assert (A3 : 0 < d_a u ^ 3 <= 6379000 ^ 3) by (split; [apply pow_lt; lra|apply pow_incr; lra]).
  assert (W2 : 0 < d_omega u ^ 2 <= 7.293e-5 ^ 2) by (split; [apply pow_lt; lra|apply pow_incr; lra]).
  assert (B : 0 < (1 - d_flat u) * d_a u ^ 3 <= 6379000 ^ 3).
  { split; [apply Rmult_lt_0_compat; lra|]. rewrite <- (Rmult_1_l (6379000 ^ 3)). apply Rmult_le_compat; lra. }
  assert (C : 0 < d_omega u ^ 2 * ((1 - d_flat u) * d_a u ^ 3) <= 7.293e-5 ^ 2 * 6379000 ^ 3).
  { split; [apply Rmult_lt_0_compat; lra|]. apply Rmult_le_compat; lra. }
  split; [apply Rdiv_lt_0_compat; lra|].
  apply Rmult_lt_reg_r with (d_GM u); [lra|]. unfold Rdiv. rewrite Rmult_assoc, Rinv_l, Rmult_1_r by lra. lra.
Qed.
Lemma gravity_positive u th : 6377000 < d_a u < 6379000 -> 1 / 300 < d_flat u < 1 / 294 -> 3.986e14 <= d_GM u <= 3.98604e14 -> 7.29e-5 < d_omega u < 7.293e-5 ->
  0 < gamma_0 u th.
Proof.
  intros A F G W. pose proof (m_par_range u A F G W) as M. unfold gamma_0.
  assert (D : sound u) by (split; lra).
  assert (E2 : 0 <= ecc2 u ^ 2 < 1).
  { split; [apply pow2_ge_0|]. rewrite (DatumProps.ecc2_sq' u D). apply Rmult_lt_reg_r with ((1 - d_flat u) ^ 2); [apply pow_lt; lra|].
    unfold Rdiv. rewrite Rmult_assoc, Rinv_l, Rmult_1_r by (apply pow_nonzero; lra). nra. }
  apply Rmult_lt_0_compat.
  - unfold gamma_a. apply Rmult_lt_0_compat; [|nra].
    apply Rdiv_lt_0_compat; [lra|]. apply Rmult_lt_0_compat; [lra|]. apply DatumProps.b_ax_pos, D.
  - assert (H2 : 0 <= cos th ^ 2 <= 1) by (split; [apply pow2_ge_0|]; pose proof (COS_bound th); nra).
    assert (H4 : 0 <= cos th ^ 4 <= 1) by (replace (cos th ^ 4) with (cos th ^ 2 * cos th ^ 2) by ring; nra).
    assert (F2 : - 0.1 < DatumModel.f2 u < 0.1) by (unfold DatumModel.f2; nra).
    assert (F4 : - 0.1 < DatumModel.f4 u < 0.1) by (unfold DatumModel.f4; nra). nra.
Qed.

(** ** C64 *)
Definition arcsec : R := PI / 648000.
Theorem C64_load_pole proj clock pole_at ELLIPSOID CONVENTION TIME u x y t lon lat :
  In (lower TIME) ["gps"; "loran"; "tai"; "utc"; "datetime"]%string -> In (upper ELLIPSOID) ellipsoid_names -> In CONVENTION ["2003"; "2010"; "2015"; "2018"]%string ->
  make (Kw ELLIPSOID "MKS" None None None None) = Ok u -> proj (x, y) = (lon, lat) -> -90 < lat < 90 ->
  let X := to_cartesian (Ell (d_a u) (d_flat u)) lon lat 0 in
  let q := pole_at CONVENTION (st_tide (clock TIME t)) (st_tt_ut1 (clock TIME t)) in
  let g := gamma_0 u (PI / 2 - atan (vz X / sqrt (vx X ^ 2 + vy X ^ 2))) in
  LPT_displacements proj clock pole_at ELLIPSOID CONVENTION TIME (Some "drift"%string) (C1 [x]) (C1 [y]) [t]
  = Ok (A1 [0.6207 * pole_potential g (d_omega u) (arcsec * (px q - mpx q)) (arcsec * - (py q - mpy q)) X]).
Proof.
  intros HT HE HC HU HP HL X q g. apply mem_str_In in HT, HE, HC.
  destruct (LPT_one proj clock pole_at TIME ELLIPSOID u CONVENTION HT HE HU HC) as [D _].
  specialize (D "drift"%string [((x, y), t)] eq_refl ltac:(discriminate)). cbv beta in D. cbn [map fst snd] in D. rewrite D. clear D.
  do 3 f_equal. destruct (named_axes ELLIPSOID u HE HU) as [Ha Hf].
  pose proof (named_values ELLIPSOID u HE HU) as (V1 & V2 & V3 & V4).
  pose proof (position_off_axis u Ha Hf lon lat HL) as O.
  unfold lpt_at. cbv zeta. rewrite HP. cbn [fst]. rewrite (position_local u Ha Hf lon lat HL), position_colatitude, (radial _ _ O).
  change (position u (lon, lat)) with X in *. change (pt_theta X) with (PI / 2 - atan (vz X / sqrt (vx X ^ 2 + vy X ^ 2))). fold g. fold q.
  pose proof (gravity_positive u (PI / 2 - atan (vz X / sqrt (vx X ^ 2 + vy X ^ 2))) V1 V2 V3 V4) as G. fold g in G.
  destruct (lpt_field g (d_omega u) 0.6207 0.0836 X q O ltac:(lra)) as [Q _].
  rewrite Q. unfold arcsec. pose proof (r_pos X O). field. lra.
Qed.
Print Assumptions C64_load_pole.

Lemma inv3_left m v : det3 m <> 0 -> mapply (inv3 m) (mapply m v) = v.
Proof.
  intros D. destruct m as [a b c d e f g h i], v as [x y z]. unfold inv3, mapply, row.
  unfold det3 in *. cbn [m00 m01 m02 m10 m11 m12 m20 m21 m22 vx vy vz] in *. f_equal; field; exact D.
Qed.
Lemma local_det theta phi : det3 (from_local theta phi) = 1.
Proof.
  pose proof (sin2_cos2 theta) as T. pose proof (sin2_cos2 phi) as P. unfold Rsqr in T, P.
  unfold det3, from_local. cbn [m00 m01 m02 m10 m11 m12 m20 m21 m22].
  transitivity ((sin theta * sin theta + cos theta * cos theta) * (sin phi * sin phi + cos phi * cos phi)); [ring|]. rewrite T, P. ring.
Qed.
Lemma mapply_comb m k c d u v :
  mapply m (Vec (k * (c * vx u + d * vx v)) (k * (c * vy u + d * vy v)) (k * (c * vz u + d * vz v)))
  = let x := mapply m u in let y := mapply m v in Vec (k * (c * vx x + d * vx y)) (k * (c * vy x + d * vy y)) (k * (c * vz x + d * vz y)).
Proof. unfold mapply, row. cbn [vx vy vz]. cbv zeta. f_equal; ring. Qed.

(** The height of the ocean pole tide is the radial coefficient of the map at the
    longitude and geocentric latitude of the point, whatever the two horizontal
    coefficients are. *)
Theorem C64_ocean_pole proj clock pole_at desai ELLIPSOID CONVENTION METHOD TIME u x y t lon lat :
  In (lower TIME) ["gps"; "loran"; "tai"; "utc"; "datetime"]%string -> In (upper ELLIPSOID) ellipsoid_names -> In CONVENTION ["2003"; "2010"; "2015"; "2018"]%string ->
  In (lower METHOD) ["bilinear"; "spline"; "linear"; "nearest"]%string ->
  make (Kw ELLIPSOID "MKS" None None None None) = Ok u -> proj (x, y) = (lon, lat) ->
  let X := to_cartesian (Ell (d_a u) (d_flat u)) lon lat 0 in
  let q := pole_at CONVENTION (st_tide (clock TIME t)) (st_tt_ut1 (clock TIME t)) in
  let m := (arcsec * (px q - mpx q), arcsec * - (py q - mpy q)) in
  let Hp := sqrt (8 * PI / 15) * (d_omega u ^ 2 * d_a u ^ 4) / d_GM u in
  let K := 4 * PI * 6.67430e-11 * 1025 * Hp * d_a u / (3 * 9.7803278) in
  forall ur un ue, desai METHOD (lon, 180 / PI * atan (vz X / sqrt (vx X ^ 2 + vy X ^ 2))) = (ur, un, ue) ->
  OPT_displacements proj clock pole_at desai ELLIPSOID CONVENTION METHOD TIME (Some "drift"%string) (C1 [x]) (C1 [y]) [t]
  = Ok (A1 [K * real_part3 m (0.6870, 0.0036) ur]).
Proof.
  intros HT HE HC HM HU HP X q m Hp K ur un ue HD. apply mem_str_In in HT, HE, HC, HM.
  destruct (OPT_one proj clock pole_at desai TIME ELLIPSOID u CONVENTION METHOD HT HE HU HC HM) as [D _].
  specialize (D "drift"%string [((x, y), t)] eq_refl ltac:(discriminate)). cbv beta in D. cbn [map fst snd] in D. rewrite D. clear D.
  do 3 f_equal. unfold opt_at. cbv zeta. rewrite HP. cbn [fst].
  replace (geocentric (position u (lon, lat)) / dtr) with (180 / PI * atan (vz X / sqrt (vx X ^ 2 + vy X ^ 2)))
    by (unfold geocentric, dtr; change (position u (lon, lat)) with X; field; apply PI_neq0).
  rewrite HD. unfold opt_point, map_vector. cbn [fst snd]. rewrite mapply_comb. cbv zeta.
  rewrite !inv3_left by (rewrite local_det; lra). cbn [vz]. fold q.
  unfold opt_K, pole_mx, pole_my, atr, m, K, Hp, arcsec, real_part3, cre, cim. destruct ur as [ur ui]. cbn [fst snd]. cbv zeta. ring.
Qed.
Print Assumptions C64_ocean_pole.

Theorem C64_solid_earth proj clock sun moon ELLIPSOID TIDE_SYSTEM EPHEMERIDES TIME u x y t lon lat :
  In (lower TIME) ["gps"; "loran"; "tai"; "utc"; "datetime"]%string -> In (upper ELLIPSOID) ellipsoid_names ->
  In (lower TIDE_SYSTEM) ["mean_tide"; "tide_free"]%string -> In (lower EPHEMERIDES) ["approximate"; "jpl"]%string ->
  make (Kw ELLIPSOID "MKS" None None None None) = Ok u -> proj (x, y) = (lon, lat) -> -90 < lat < 90 ->
  let X := to_cartesian (Ell (d_a u) (d_flat u)) lon lat 0 in
  let s := sun EPHEMERIDES (st_mjd (clock TIME t)) in let l := moon EPHEMERIDES (st_mjd (clock TIME t)) in
  let n := LoveNumbers 0.6078 0.0847 0.292 0.015 332946.0482 0.0123000371 in
  let mean := if string_dec (lower TIDE_SYSTEM) "mean_tide" then 1 else 0 in
  0 < dotv s s -> 0 < dotv l l ->
  SET_displacements proj clock sun moon ELLIPSOID TIDE_SYSTEM EPHEMERIDES TIME (Some "drift"%string) (C1 [x]) (C1 [y]) [t]
  = Ok (A1 [body_radial n (d_a u) (st_tide (clock TIME t) + st_tt_ut1 (clock TIME t) + 48622) s l X
            + mean * (love_h 0.6078 (sinlat X) * permanent X)]).
Proof.
  intros HT HE HS HJ HU HP HL X s l n mean Bs Bl. apply mem_str_In in HT, HE, HS, HJ.
  pose proof (SET_drift proj clock sun moon u TIME ELLIPSOID TIDE_SYSTEM EPHEMERIDES HT HS HJ HU "drift"%string [((x, y), t)] eq_refl ltac:(discriminate)) as D.
  cbv beta in D. cbn [map fst snd] in D. rewrite D. clear D.
  do 3 f_equal. destruct (named_axes ELLIPSOID u HE HU) as [Ha Hf].
  pose proof (position_off_axis u Ha Hf lon lat HL) as O.
  unfold set_at. cbv zeta. rewrite HP. change (position u (lon, lat)) with X in *. fold s. fold l. rewrite Rplus_0_r.
  set (tt := st_tide (clock TIME t) + st_tt_ut1 (clock TIME t)).
  change (PI / 2 - geocentric X) with (pt_theta X). rewrite (radial _ _ O).
  pose proof (set_rows [tt] (fun a => a) (fun _ => X) (fun _ => s) (fun _ => l) (d_a u) TIDE_SYSTEM) as Q.
  assert (HS2 : mem_str (lower TIDE_SYSTEM) ["tide_free"; "mean_tide"]%string = true)
    by (apply mem_str_In; apply mem_str_In in HS; destruct HS as [<-|[<-|[]]]; cbn [In]; auto).
  specialize (Q HS2). cbn [map] in Q.
  destruct (C51_solid_earth_tide _ _ _ _ _ _ _ _ Q) as [_ C]. destruct (C 0%nat tt eq_refl) as (x' & s' & l' & v & Ex & Es & El & Ev & R).
  cbn in Ex, Es, El. injection Ex as <-. injection Es as <-. injection El as <-. cbn [nth_error] in Ev.
  assert (Ev' : set_point default_love (d_a u) (lower TIDE_SYSTEM =? "mean_tide")%string tt X s l = v) by congruence. rewrite Ev'. clear Ev Ev'.
  destruct (R O Bs Bl) as (w & wd & ws & -> & [F _] & [S1 _] & [S2 _]). fold mean in F. change (LoveNumbers _ _ _ _ _ _) with n in F.
  pose proof (r_pos X O).
  replace (dotv (Vec (vx w + vx wd + vx ws) (vy w + vy wd + vy ws) (vz w + vz wd + vz ws)) X) with (dotv w X + dotv wd X + dotv ws X) by (unfold dotv; cbn [vx vy vz]; ring).
  rewrite F, S1, S2. change (lv_h2 default_love) with 0.6078. field. lra.
Qed.
Print Assumptions C64_solid_earth.

(** ** C46: type left out *)
Lemma size_count c : size c = count c.
Proof. destruct c; reflexivity. Qed.
Ltac by_nat := rewrite ?size_count in *;
  repeat match goal with |- context [Nat.eqb ?a ?b] => destruct (Nat.eqb_spec a b) | |- context [Nat.leb ?a ?b] => destruct (Nat.leb_spec a b) | |- context [Nat.ltb ?a ?b] => destruct (Nat.ltb_spec a b) end;
  cbn [andb negb]; try reflexivity; try lia.
Section Kinds.
  Variable x y : coords.
  Variable t : list R.
  Lemma kind_series : count x = 1%nat -> count y = 1%nat -> t <> [] -> data_kind None x y t = Ok "time series"%string.
  Proof. intros A B C. unfold data_kind, data_type. destruct t; [congruence|]. by_nat; cbn [List.length] in *; lia. Qed.
  Lemma kind_drift : count x <> 1%nat -> count x = count y -> count x = List.length t -> data_kind None x y t = Ok "drift"%string.
  Proof. intros A B C. unfold data_kind, data_type. by_nat. Qed.
  Lemma kind_grid2 rows : x = C2 rows -> count x <> 1%nat -> count x = count y -> count x <> List.length t -> data_kind None x y t = Ok "grid"%string.
  Proof. intros E A B C. unfold data_kind, data_type. rewrite E in *. cbn [ndim]. by_nat. Qed.
  Lemma kind_grid : count x <> count y -> data_kind None x y t = Ok "grid"%string.
  Proof. intros A. unfold data_kind, data_type. by_nat. Qed.
  Lemma kind_none xs : x = C1 xs -> count x <> 1%nat -> count x = count y -> count x <> List.length t -> data_kind None x y t = Err ValueError.
  Proof. intros E A B C. unfold data_kind, data_type. rewrite E in *. cbn [ndim]. by_nat. Qed.
End Kinds.
Lemma guesses {A} proj clock (K : string * coords * list (R * R) * list stamp -> res A) TIME (C : res unit) :
  guesses_type (fun TYPE x y t => do _ <- C ;; do q <- prepare proj clock TYPE TIME x y t ;; K q).
Proof.
  assert (E : forall T x y t, data_kind None x y t = Ok T -> T <> EmptyString -> prepare proj clock None TIME x y t = prepare proj clock (Some T) TIME x y t).
  { intros T x y t H N. unfold prepare. rewrite H. destruct T; [congruence|reflexivity]. }
  destruct C as [c|e]; cbn [bind].
  2:{ repeat split; intros; try reflexivity. eexists; reflexivity. }
  repeat split; intros.
  - rewrite (E "time series"%string); [reflexivity|now apply kind_series|discriminate].
  - rewrite (E "drift"%string); [reflexivity|now apply kind_drift|discriminate].
  - rewrite (E "grid"%string); [reflexivity|now apply (kind_grid2 _ _ _ rows eq_refl)|discriminate].
  - rewrite (E "grid"%string); [reflexivity|now apply kind_grid|discriminate].
  - unfold prepare. rewrite (kind_none _ _ _ xs eq_refl) by assumption. cbn [bind]. eexists; reflexivity.
Qed.
Lemma guesses_same {A} (F G : option string -> coords -> coords -> list R -> res A) :
  (forall T x y t, F T x y t = G T x y t) -> guesses_type G -> guesses_type F.
Proof.
  intros E (A1 & A2 & A3 & A4 & A5 & A6). split; [|split; [|split; [|split; [|split]]]].
  - intros. rewrite !E. auto.
  - intros. rewrite !E. auto.
  - intros rows y t x a b c. rewrite !E. apply A3; assumption.
  - intros. rewrite !E. auto.
  - intros xs y t x a b c. destruct (A5 xs y t a b c) as [e He]. exists e. rewrite E. exact He.
  - intros. rewrite !E. auto.
Qed.
Ltac checks := repeat match goal with |- context [check ?b] => destruct (check b); cbn [bind] end; try reflexivity.
Theorem C46_type_left_out proj clock : forall A B freq gam m components dir METHOD TIME CORRECTIONS INFER MINOR pole_at desai sun moon ELLIPSOID CONVENTION SYSTEM EPHEMERIDES,
  guesses_type (tide_elevations proj clock A B freq gam m dir METHOD TIME CORRECTIONS INFER MINOR) /\
  guesses_type (tide_currents proj clock A B freq gam components dir METHOD TIME CORRECTIONS INFER MINOR) /\
  guesses_type (LPET_elevations proj clock TIME) /\
  guesses_type (LPT_displacements proj clock pole_at ELLIPSOID CONVENTION TIME) /\
  guesses_type (OPT_displacements proj clock pole_at desai ELLIPSOID CONVENTION METHOD TIME) /\
  guesses_type (SET_displacements proj clock sun moon ELLIPSOID SYSTEM EPHEMERIDES TIME).
Proof.
  intros. repeat match goal with |- _ /\ _ => split end.
  - destruct dir; [|refine (guesses_same _ _ _ (guesses proj clock (fun _ => Err FileNotFoundError) TIME (Err FileNotFoundError))); intros; reflexivity].
    refine (guesses_same _ _ _ (guesses proj clock _ TIME (do _ <- check (mem_str (lower TIME) time_names) ;; check (mem_str (lower METHOD) method_names)))).
    intros. unfold tide_elevations. cbn [negb]. checks.
  - destruct dir; [|refine (guesses_same _ _ _ (guesses proj clock (fun _ => Err FileNotFoundError) TIME (Err FileNotFoundError))); intros; reflexivity].
    refine (guesses_same _ _ _ (guesses proj clock _ TIME (do _ <- check (mem_str (lower TIME) time_names) ;; check (mem_str (lower METHOD) method_names)))).
    intros. unfold tide_currents. cbn [negb]. checks.
  - refine (guesses_same _ _ _ (guesses proj clock _ TIME (check (mem_str (lower TIME) time_names)))). intros. reflexivity.
  - refine (guesses_same _ _ _ (guesses proj clock _ TIME (do _ <- check (mem_str (lower TIME) time_names) ;; do _ <- check (mem_str (upper ELLIPSOID) ellipsoid_names) ;; check (mem_str CONVENTION conventions)))).
    intros. unfold LPT_displacements. checks.
  - refine (guesses_same _ _ _ (guesses proj clock _ TIME (do _ <- check (mem_str (lower TIME) time_names) ;; do _ <- check (mem_str (upper ELLIPSOID) ellipsoid_names) ;; do _ <- check (mem_str CONVENTION conventions) ;; check (mem_str (lower METHOD) method_names)))).
    intros. unfold OPT_displacements. checks.
  - refine (guesses_same _ _ _ (guesses proj clock _ TIME (do _ <- check (mem_str (lower TIME) time_names) ;; do _ <- check (mem_str (lower SYSTEM) ["mean_tide"; "tide_free"]%string) ;; check (mem_str (lower EPHEMERIDES) ["approximate"; "jpl"]%string)))).
    intros. unfold SET_displacements. checks.
Qed.
Print Assumptions C46_type_left_out.

(** ** C46: axes of the same length *)
Lemma square_prepare proj clock TIME xs ys ts : List.length xs = List.length ys ->
  prepare proj clock (Some "grid"%string) TIME (C1 xs) (C1 ys) ts = prepare proj clock (Some "grid"%string) TIME (C2 [xs]) (C2 [ys]) ts.
Proof.
  intros L. unfold prepare, data_kind, reform. cbn [bind]. unfold size. cbn [flatten concat]. rewrite !app_nil_r, L, Nat.eqb_refl. reflexivity.
Qed.
Lemma square_grid xs ys : List.length xs = List.length ys -> xs <> [] -> grid_of (C2 [xs]) (C2 [ys]) [combine xs ys].
Proof.
  intros L N. right. exists [xs], [ys], (List.length xs). repeat split; try discriminate; auto.
  destruct xs; [congruence|]. cbn [List.length]. lia.
Qed.

(** A grid given by two axes of the same length [n > 1] is not the [n] by [n] grid
    of the axes, but one row of [n] points along the diagonal. *)
Theorem C46_square_axes_refuted proj clock pole_at desai TIME ELLIPSOID CONVENTION METHOD xs ys ts :
  List.length xs = List.length ys -> xs <> [] -> ts <> [] ->
  In (lower TIME) ["gps"; "loran"; "tai"; "utc"; "datetime"]%string -> In (upper ELLIPSOID) ellipsoid_names ->
  In CONVENTION ["2003"; "2010"; "2015"; "2018"]%string -> In (lower METHOD) ["bilinear"; "spline"; "linear"; "nearest"]%string ->
  let diagonal (F : string -> coords -> coords -> list R -> res (out R)) :=
    exists f, one_value_per_point as_written F f /\
      F "grid"%string (C1 xs) (C1 ys) ts = Ok (A3 [map (fun p => map (f (fst p) (snd p)) ts) (combine xs ys)]) in
  diagonal (fun T => LPET_elevations proj clock TIME (Some T)) /\
  diagonal (fun T => LPT_displacements proj clock pole_at ELLIPSOID CONVENTION TIME (Some T)) /\
  diagonal (fun T => OPT_displacements proj clock pole_at desai ELLIPSOID CONVENTION METHOD TIME (Some T)).
Proof.
  intros L N NT HT HE HC HM diagonal. pose proof (square_grid xs ys L N) as G. pose proof (square_prepare proj clock TIME xs ys ts L) as P.
  repeat split.
  - destruct (C46_long_period proj clock TIME HT) as [f Hf]. exists f. split; [exact Hf|].
    destruct Hf as (_ & _ & Hg). refine (eq_trans _ (Hg "grid"%string _ _ [combine xs ys] ts eq_refl G NT)).
    unfold LPET_elevations. rewrite P. reflexivity.
  - destruct (C46_load_pole proj clock pole_at ELLIPSOID CONVENTION TIME HT HE HC) as [f Hf]. exists f. split; [exact Hf|].
    destruct Hf as (_ & _ & Hg). refine (eq_trans _ (Hg "grid"%string _ _ [combine xs ys] ts eq_refl G NT)).
    unfold LPT_displacements. rewrite P. reflexivity.
  - destruct (C46_ocean_pole proj clock pole_at desai ELLIPSOID CONVENTION METHOD TIME HT HE HC HM) as [f Hf]. exists f. split; [exact Hf|].
    destruct Hf as (_ & _ & Hg). refine (eq_trans _ (Hg "grid"%string _ _ [combine xs ys] ts eq_refl G NT)).
    unfold OPT_displacements. rewrite P. reflexivity.
Qed.
Print Assumptions C46_square_axes_refuted.

(** Cases meeting the hypotheses *)
Example C64_case :
  exists u, make (Kw "wgs84" "MKS" None None None None) = Ok u /\ In (upper "wgs84") ellipsoid_names /\ In (lower "UTC") ["gps"; "loran"; "tai"; "utc"; "datetime"]%string.
Proof. destruct (make_named "wgs84" eq_refl) as [u H]. exists u. split; [exact H|]. split; [cbn; tauto|cbn; tauto]. Qed.
Example C64_pole_case : LPT_displacements (fun p => p) (fun _ t => Stamp t 0 t) (fun _ _ _ => Pole 0 0 0 0) "WGS84" "2018" "UTC" (Some "drift"%string) (C1 [10]) (C1 [45]) [0] = Ok (A1 [0]).
Proof.
  destruct (make_named "WGS84" eq_refl) as [u H].
  rewrite (C64_load_pole (fun p => p) (fun _ t => Stamp t 0 t) (fun _ _ _ => Pole 0 0 0 0) "WGS84" "2018" "UTC" u 10 45 0 10 45); [| | | |exact H| |]; [|cbn; tauto|cbn; tauto|cbn; tauto|reflexivity|lra].
  cbn [px py mpx mpy]. do 3 f_equal. unfold pole_potential. ring.
Qed.
Example C46_square_case proj clock : exists a b, LPET_elevations proj clock "UTC" (Some "grid"%string) (C1 [0; 1]) (C1 [50; 60]) [0] = Ok (A3 [[[a]; [b]]]).
Proof.
  destruct (C46_square_axes_refuted proj clock (fun _ _ _ => Pole 0 0 0 0) (fun _ _ => ((0, 0), (0, 0), (0, 0))) "UTC" "WGS84" "2018" "spline" [0; 1] [50; 60] [0] eq_refl
    ltac:(discriminate) ltac:(discriminate) ltac:(cbn; tauto) ltac:(cbn; tauto) ltac:(cbn; tauto) ltac:(cbn; tauto)) as [(f & _ & E) _].
  exists (f 0 50 0), (f 1 60 0). exact E.
Qed.

(** ** C46: the routine is chosen by the name, in any case *)
Lemma lower_of_upper : forall s, lower (upper s) = lower s.
Proof.
  induction s as [|c s IH]; [reflexivity|].
  unfold upper, lower in *; cbn [smap]; rewrite IH; f_equal.
  destruct c as [[] [] [] [] [] [] [] []]; reflexivity.
Qed.
Lemma upper_of_lower' : forall s, upper (lower s) = upper s.
Proof.
  induction s as [|c s IH]; [reflexivity|].
  unfold upper, lower in *; cbn [smap]; rewrite IH; f_equal.
  destruct c as [[] [] [] [] [] [] [] []]; reflexivity.
Qed.
Theorem C46_corrections : forall s,
  (corrections s = Ok Tide <-> lower s = "ocean" \/ lower s = "load")%string /\
  (corrections s = Ok LPET <-> lower s = "lpet")%string /\ (corrections s = Ok LPT <-> lower s = "lpt")%string /\
  (corrections s = Ok OPT <-> lower s = "opt")%string /\ (corrections s = Ok SET <-> lower s = "set")%string /\
  (corrections s = Err ValueError <-> ~ In (lower s) ["ocean"; "load"; "lpet"; "lpt"; "opt"; "set"]%string).
Proof.
  intros s.
  assert (U : forall A a, upper a = A -> lower A = a -> String.eqb (upper s) A = String.eqb (lower s) a).
  { intros A a H1 H2. destruct (String.eqb_spec (upper s) A) as [E|N]; destruct (String.eqb_spec (lower s) a) as [E'|N']; auto; exfalso.
    - apply N'. rewrite <- lower_of_upper, E. exact H2.
    - apply N. rewrite <- upper_of_lower', E'. exact H1. }
  unfold corrections. rewrite (U "LPET" "lpet"), (U "LPT" "lpt"), (U "OPT" "opt"), (U "SET" "set") by reflexivity. clear U.
  generalize (lower s). intros n. unfold mem_str. cbn [existsb].
  destruct (String.eqb_spec n "ocean") as [->|N1]; [cbn; intuition congruence|]. destruct (String.eqb_spec n "load") as [->|N2]; [cbn; intuition congruence|]. cbn [orb].
  destruct (String.eqb_spec n "lpet") as [->|N3]; [cbn; intuition congruence|]. destruct (String.eqb_spec n "lpt") as [->|N4]; [cbn; intuition congruence|].
  destruct (String.eqb_spec n "opt") as [->|N5]; [cbn; intuition congruence|]. destruct (String.eqb_spec n "set") as [->|N6]; [cbn; intuition congruence|].
  cbn [In]. intuition congruence.
Qed.
Print Assumptions C46_corrections.
Example C46_corrections_case : corrections "Lpt" = Ok LPT /\ corrections "OCEAN" = Ok Tide /\ corrections "tide" = Err ValueError.
Proof. repeat split. Qed.
