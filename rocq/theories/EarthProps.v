(** C50 and C51: pole tides and solid earth tides are elastic responses of the Earth
    to their potentials.  See EarthSpec.v for the meaning of [field] and [swirl]. *)
From Coq Require Import Reals Lra Lia String List Bool ZArith.
From Verif Require Import PyBase RBase StrBase MathModel AstroModel EarthModel EarthSpec EarthProofs EarthProofs2 EarthProofs3.
Import ListNotations.
Open Scope R_scope.

(** ** Broadcasting *)
Lemma bcast_ok {A} n (l l' : list A) : bcast_to n l = Ok l' ->
  (List.length l = n \/ List.length l = 1%nat) /\ List.length l' = n /\ forall k, (k < n)%nat -> nth_error l' k = pick l k.
Proof.
  unfold bcast_to. destruct (Nat.eqb (List.length l) n) eqn:E.
  - apply Nat.eqb_eq in E. intros <-%Ok_inj. split; [left; exact E|]. split; [exact E|].
    intros k Hk. unfold pick. destruct l as [|x [|y l]]; try reflexivity.
    cbn in E. replace k with 0%nat by lia. reflexivity.
  - destruct l as [|x [|y l]]; try discriminate. intros <-%Ok_inj. split; [right; reflexivity|]. split; [apply repeat_length|].
    intros k Hk. cbn [pick]. clear E. revert k Hk. induction n as [|n IH]; intros [|k] Hk; cbn; try lia; auto. apply IH. lia.
Qed.
Lemma bcast_defined {A} n (l : list A) :
  (List.length l = n \/ List.length l = 1%nat -> exists l', bcast_to n l = Ok l') /\
  (~ (List.length l = n \/ List.length l = 1%nat) -> bcast_to n l = Err ValueError).
Proof.
  unfold bcast_to. destruct (Nat.eqb (List.length l) n) eqn:E.
  - apply Nat.eqb_eq in E. split; [eexists; reflexivity|tauto].
  - apply Nat.eqb_neq in E. destruct l as [|x [|y l]]; cbn in *; (split; [intros [H|H]; try lia; try contradiction; try (eexists; reflexivity)|intros H; try reflexivity; exfalso; apply H; right; reflexivity]).
Qed.
Lemma nth_combine {A B} (a : list A) (b : list B) k x y : nth_error a k = Some x -> nth_error b k = Some y ->
  nth_error (combine a b) k = Some (x, y).
Proof. revert b k. induction a as [|a0 a IH]; intros [|b0 b] [|k]; cbn; try discriminate; [intros [= ->] [= ->]; reflexivity|apply IH]. Qed.
Lemma nth_some {A} (l : list A) k : (k < List.length l)%nat -> exists x, nth_error l k = Some x.
Proof. intros H. destruct (nth_error l k) eqn:E; [eexists; reflexivity|]. apply nth_error_None in E. lia. Qed.

Lemma load_pole_tide_scalar qs XYZ gamma_0 omega h2 l2 : load_pole_tide qs XYZ gamma_0 omega h2 l2 =
  let n := Nat.max (List.length qs) (List.length XYZ) in
  do p <- bcast_to n XYZ ;; do q <- bcast_to n qs ;;
  Ok (map (fun pq => lpt_point gamma_0 omega h2 l2 (fst pq) (snd pq)) (combine p q)).
Proof.
  unfold load_pole_tide, load_pole_tide_at. cbv zeta. set (n := Nat.max _ _).
  destruct (bcast_to n XYZ) as [p|] eqn:E1; [|reflexivity]. destruct (bcast_to n qs) as [q|] eqn:E2; [|reflexivity]. cbn [bind].
  assert (E : bcast_to n [gamma_0] = Ok (repeat gamma_0 n)).
  { unfold bcast_to. destruct (Nat.eqb (List.length [gamma_0]) n) eqn:E; [|reflexivity]. apply Nat.eqb_eq in E. rewrite <- E. reflexivity. }
  rewrite E. cbn [bind]. f_equal.
  assert (L : List.length (combine p q) = n).
  { apply bcast_ok in E1 as (_ & L1 & _). apply bcast_ok in E2 as (_ & L2 & _). rewrite combine_length, L1, L2. apply Nat.min_id. }
  rewrite <- L. clear. induction (combine p q) as [|a l IH]; cbn; [reflexivity|]. f_equal. exact IH.
Qed.

(** ** C50: load pole tide *)

(** Every row is the displacement (radial [h2 V], tangential [l2 grad V]) produced by
    the change [V] of the centrifugal potential of the pole offset. *)
Theorem C50_load_pole_tide : forall qs XYZ gamma_0 omega h2 l2 out,
  load_pole_tide qs XYZ gamma_0 omega h2 l2 = Ok out ->
  List.length out = Nat.max (List.length qs) (List.length XYZ) /\
  forall k, (k < List.length out)%nat ->
  exists q x u, pick qs k = Some q /\ pick XYZ k = Some x /\ nth_error out k = Some u /\
    (off_axis x -> gamma_0 <> 0 ->
     let V := pole_potential gamma_0 omega (PI / 648000 * (px q - mpx q)) (PI / 648000 * - (py q - mpy q)) in
     field (h2 * V x) (fun y => l2 * V y) x u).
Proof.
  intros qs XYZ g om h2 l2 out. rewrite load_pole_tide_scalar. cbv zeta. set (n := Nat.max _ _).
  destruct (bcast_to n XYZ) as [p|] eqn:E1; [|discriminate]. destruct (bcast_to n qs) as [q|] eqn:E2; [|discriminate].
  cbn [bind]. intros <-%Ok_inj. apply bcast_ok in E1 as (_ & L1 & P1). apply bcast_ok in E2 as (_ & L2 & P2).
  rewrite map_length, combine_length, L1, L2, Nat.min_id. split; [reflexivity|]. intros k Hk.
  destruct (nth_some p k ltac:(lia)) as [x Hx]. destruct (nth_some q k ltac:(lia)) as [r Hr].
  exists r, x, (lpt_point g om h2 l2 x r). rewrite <- (P2 k Hk), <- (P1 k Hk).
  split; [exact Hr|]. split; [exact Hx|].
  rewrite (map_nth_error _ _ _ (nth_combine _ _ _ _ _ Hx Hr)). split; [reflexivity|].
  intros O G. apply lpt_field; assumption.
Qed.
Print Assumptions C50_load_pole_tide.

(** The displacement is determined by the potential: the theorem says everything. *)
Theorem C50_determined : forall U W x u u', off_axis x -> field U W x u -> field U W x u' -> u = u'.
Proof. intros U W x u u' O. apply field_unique, off_axis_dot, O. Qed.
Print Assumptions C50_determined.

(** Defined exactly when times and points agree in number or one of them is single. *)
Theorem C50_shapes : forall qs XYZ gamma_0 omega h2 l2,
  let nt := List.length qs in let n := List.length XYZ in
  ((nt = n \/ nt = 1 \/ n = 1)%nat /\ (1 <= nt /\ 1 <= n \/ nt = n)%nat -> exists out, load_pole_tide qs XYZ gamma_0 omega h2 l2 = Ok out) /\
  (~ ((nt = n \/ nt = 1 \/ n = 1)%nat /\ (1 <= nt /\ 1 <= n \/ nt = n)%nat) -> load_pole_tide qs XYZ gamma_0 omega h2 l2 = Err ValueError).
Proof.
  intros qs XYZ g om h2 l2 nt n. rewrite load_pole_tide_scalar. cbv zeta. fold nt n. set (m := Nat.max nt n).
  destruct (bcast_defined m XYZ) as [A1 B1]. destruct (bcast_defined m qs) as [A2 B2]. fold n in A1, B1. fold nt in A2, B2.
  split; intros H.
  - destruct A1 as [p ->]; [lia|]. destruct A2 as [q ->]; [lia|]. cbn [bind]. eexists. reflexivity.
  - assert (D : (n = m \/ n = 1)%nat \/ ~ (n = m \/ n = 1)%nat) by lia. destruct D as [D|D].
    + destruct (A1 D) as [p ->]. cbn [bind]. rewrite B2 by lia. reflexivity.
    + rewrite (B1 D). reflexivity.
Qed.
Print Assumptions C50_shapes.

(** No displacement when the pole is at its mean position. *)
Theorem C50_zero_at_mean_pole : forall gamma_0 omega h2 l2 x q, px q = mpx q -> py q = mpy q ->
  load_pole_tide [q] [x] gamma_0 omega h2 l2 = Ok [Vec 0 0 0].
Proof.
  intros g om h2 l2 x q Hx Hy. rewrite !load_pole_tide_scalar. cbv zeta. cbn [List.length Nat.max bcast_to Nat.eqb bind combine map fst snd].
  do 2 f_equal. unfold lpt_point, mapply, lpt_local, lpt_rotation, row, pole_mx, pole_my. cbv zeta. cbn [vx vy vz m00 m01 m02 m10 m11 m12 m20 m21 m22].
  rewrite Hx, Hy, !Rminus_diag_eq by reflexivity. f_equal; ring.
Qed.
Print Assumptions C50_zero_at_mean_pole.

(** Linear in the offset of the pole from its mean position. *)
Theorem C50_linear : forall gamma_0 omega h2 l2 x q1 q2 q a b u1 u2,
  px q - mpx q = a * (px q1 - mpx q1) + b * (px q2 - mpx q2) ->
  py q - mpy q = a * (py q1 - mpy q1) + b * (py q2 - mpy q2) ->
  load_pole_tide [q1] [x] gamma_0 omega h2 l2 = Ok [u1] -> load_pole_tide [q2] [x] gamma_0 omega h2 l2 = Ok [u2] ->
  load_pole_tide [q] [x] gamma_0 omega h2 l2 =
    Ok [Vec (a * vx u1 + b * vx u2) (a * vy u1 + b * vy u2) (a * vz u1 + b * vz u2)].
Proof.
  intros g om h2 l2 x q1 q2 q a b u1 u2 Ex Ey. rewrite !load_pole_tide_scalar. cbv zeta. cbn [List.length Nat.max bcast_to Nat.eqb bind combine map fst snd].
  intros H1 H2. apply Ok_inj in H1. apply Ok_inj in H2. injection H1 as <-. injection H2 as <-.
  do 2 f_equal. unfold lpt_point, mapply, lpt_local, lpt_rotation, row, pole_mx, pole_my. cbv zeta. cbn [vx vy vz m00 m01 m02 m10 m11 m12 m20 m21 m22].
  rewrite Ex, Ey. f_equal; unfold Rdiv; ring.
Qed.
Print Assumptions C50_linear.

(** The change from local components to Cartesian coordinates is an isometry. *)
Theorem C50_isometry : forall x a b, dotv (mapply (lpt_rotation x) a) (mapply (lpt_rotation x) b) = dotv a b.
Proof.
  intros x a b. unfold mapply, lpt_rotation, row, dotv. cbv zeta. cbn [vx vy vz m00 m01 m02 m10 m11 m12 m20 m21 m22].
  pose proof (sin2_cos2 (pt_theta x)) as T. pose proof (sin2_cos2 (pt_phi x)) as P. unfold Rsqr in T, P.
  set (ct := cos (pt_theta x)) in *. set (st := sin (pt_theta x)) in *. set (cp := cos (pt_phi x)) in *. set (sp := sin (pt_phi x)) in *.
  assert (T' : st * st = 1 - ct * ct) by lra. assert (P' : sp * sp = 1 - cp * cp) by lra.
  match goal with |- ?L = _ => replace L with
   ((cp * cp + sp * sp) * (ct * ct * vx a * vx b + ct * st * vx a * vz b + ct * st * vz a * vx b + st * st * vz a * vz b + vy a * vy b)
    + st * st * vx a * vx b - st * ct * vx a * vz b - st * ct * vz a * vx b + ct * ct * vz a * vz b) by ring end.
  rewrite P', T'. ring.
Qed.
Print Assumptions C50_isometry.

(** ** C50: ocean pole tide *)
(** Every row is [K] times the real part of [m conj(g2) conj(u)]. *)
Theorem C50_ocean_pole_tide : forall qs XYZ us gamma_0 a GM omega rho_w g2 out,
  ocean_pole_tide qs XYZ us gamma_0 a GM omega rho_w g2 = Ok out ->
  List.length out = Nat.max (List.length qs) (List.length XYZ) /\
  forall k, (k < List.length out)%nat ->
  exists q u, pick qs k = Some q /\ pick us k = Some u /\
    let m := (PI / 648000 * (px q - mpx q), PI / 648000 * - (py q - mpy q)) in
    let Hp := sqrt (8 * PI / 15) * (omega ^ 2 * a ^ 4) / GM in
    let K := 4 * PI * 6.67430e-11 * rho_w * Hp * a / (3 * gamma_0) in
    nth_error out k = Some (Vec (K * real_part3 m g2 (vx (fst u), vx (snd u))) (K * real_part3 m g2 (vy (fst u), vy (snd u)))
                                (K * real_part3 m g2 (vz (fst u), vz (snd u)))).
Proof.
  intros qs XYZ us g a GM om rw [g2r g2i] out. unfold ocean_pole_tide. set (n := Nat.max _ _).
  destruct (bcast_to n us) as [p|] eqn:E1; [|discriminate]. destruct (bcast_to n qs) as [q|] eqn:E2; [|discriminate].
  cbn [bind]. intros <-%Ok_inj. apply bcast_ok in E1 as (_ & L1 & P1). apply bcast_ok in E2 as (_ & L2 & P2).
  rewrite map_length, combine_length, L1, L2, Nat.min_id. split; [reflexivity|]. intros k Hk.
  destruct (nth_some p k ltac:(lia)) as [x Hx]. destruct (nth_some q k ltac:(lia)) as [r Hr].
  exists r, x. rewrite <- (P2 k Hk), <- (P1 k Hk). split; [exact Hr|]. split; [exact Hx|]. cbv zeta.
  rewrite (map_nth_error _ _ _ (nth_combine _ _ _ _ _ Hr Hx)). unfold opt_point, opt_K, real_part3, pole_mx, pole_my, atr. cbn [fst snd]. cbv zeta.
  f_equal. f_equal; ring.
Qed.
Print Assumptions C50_ocean_pole_tide.

Theorem C50_ocean_zero_at_mean_pole : forall gamma_0 a GM omega rho_w g2 x u q, px q = mpx q -> py q = mpy q ->
  ocean_pole_tide [q] [x] [u] gamma_0 a GM omega rho_w g2 = Ok [Vec 0 0 0].
Proof.
  intros g a GM om rw g2 x u q Hx Hy. unfold ocean_pole_tide. cbn [List.length Nat.max bcast_to Nat.eqb bind combine map fst snd].
  do 2 f_equal. unfold opt_point, pole_mx, pole_my. cbv zeta.
  rewrite Hx, Hy, !Rminus_diag_eq by reflexivity. f_equal; ring.
Qed.
Print Assumptions C50_ocean_zero_at_mean_pole.

(** ** C51: solid earth tide *)
Definition numbers (lv : love) : love_numbers :=
  LoveNumbers (lv_h2 lv) (lv_l2 lv) (lv_h3 lv) (lv_l3 lv) (lv_solar lv) (lv_lunar lv).

Lemma vadd_assoc a b c : vadd (vadd a b) c = vadd a (vadd b c).
Proof. unfold vadd; cbn [vx vy vz]; f_equal; ring. Qed.
Lemma vadd_comm a b : vadd a b = vadd b a.
Proof. unfold vadd; cbn [vx vy vz]; f_equal; ring. Qed.
Lemma vadd_mid a b c : vadd (vadd a b) c = vadd (vadd a c) b.
Proof. unfold vadd; cbn [vx vy vz]; f_equal; ring. Qed.

Lemma add_bodies_split p s l : add_bodies p s l = vadd (body_xyz p s) (body_xyz p l).
Proof. unfold add_bodies, body_xyz, to_xyz, vadd; cbn [vx vy vz]; f_equal; ring. Qed.
Lemma latdep_split p sun moon Fs Fl : latitude_dependence p sun moon Fs Fl =
  vadd (vadd (to_xyz p 0 (3 * fst (lat_d p sun Fs)) (3 * snd (lat_d p sun Fs))) (to_xyz p 0 (3 * fst (lat_d p moon Fl)) (3 * snd (lat_d p moon Fl))))
       (vadd (to_xyz p 0 (3 * fst (lat_s p sun Fs)) (3 * snd (lat_s p sun Fs))) (to_xyz p 0 (3 * fst (lat_s p moon Fl)) (3 * snd (lat_s p moon Fl)))).
Proof.
  unfold latitude_dependence, latdep_body, lat_d, lat_s, to_xyz, vadd. cbv zeta. cbn [fst snd vx vy vz].
  f_equal; unfold Rdiv; ring.
Qed.
Lemma main_split lv a p sun moon : set_main lv a p sun moon =
  vadd (vadd (deg2_vec (set_h2 lv p) (set_l2 lv p) (set_F2 (lv_solar lv) a sun) p sun)
             (deg2_vec (set_h2 lv p) (set_l2 lv p) (set_F2 (lv_lunar lv) a moon) p moon))
       (vadd (deg3_vec (lv_h3 lv) (lv_l3 lv) (set_F3 (lv_solar lv) a sun) p sun)
             (deg3_vec (lv_h3 lv) (lv_l3 lv) (set_F3 (lv_lunar lv) a moon) p moon)).
Proof. unfold set_main, vadd, deg2_vec, deg3_vec. cbv zeta. cbn [vx vy vz]. f_equal; ring. Qed.

Lemma set_point_field lv a t p sun moon : off_axis p -> 0 < dotv sun sun -> 0 < dotv moon moon ->
  exists u wd ws, set_point lv a false t p sun moon = vadd u (vadd wd ws) /\
    field (body_radial (numbers lv) a (t + 48622) sun moon p) (body_tangent (numbers lv) a (t + 48622) sun moon p) p u /\
    swirl 0.0012 (fun y => V21 (lv_solar lv) a (turned (- (PI / 2)) sun) y + V21 (lv_lunar lv) a (turned (- (PI / 2)) moon) y) p wd /\
    swirl 0.0024 (fun y => V22 (lv_solar lv) a (turned (- (PI / 4)) sun) y + V22 (lv_lunar lv) a (turned (- (PI / 4)) moon) y) p ws.
Proof.
  intros O Bs Bm. pose proof (off_axis_dot p O) as P.
  set (Fs := set_F2 (lv_solar lv) a sun). set (Fl := set_F2 (lv_lunar lv) a moon).
  set (g := phase_args (t + mjd_tide)).
  exists (vadd (vadd (vadd (vadd (set_main lv a p sun moon) (out_of_phase_diurnal p sun moon Fs Fl)) (out_of_phase_semidiurnal p sun moon Fs Fl))
     (frequency_dependence_diurnal p g)) (frequency_dependence_long_period p g)).
  do 2 eexists. split; [|split; [|split]].
  - unfold set_point. cbv zeta. fold Fs Fl g. rewrite (latdep_split p sun moon Fs Fl).
    set (A := vadd (vadd (set_main _ _ _ _ _) _) _). set (X := vadd (to_xyz _ _ _ _) _). set (Y := vadd (to_xyz _ _ _ _) _).
    rewrite (vadd_mid A (vadd X Y)), (vadd_mid _ (vadd X Y)). reflexivity.
  - unfold out_of_phase_diurnal, out_of_phase_semidiurnal. rewrite main_split, !add_bodies_split.
    destruct (h2_eq lv p O) as [-> ->].
    pose proof (field_plus _ _ _ _ _ _ p P
      (field_plus _ _ _ _ _ _ p P
        (deg2_field (love_h (lv_h2 lv) (sinlat p)) (love_l (lv_l2 lv) (sinlat p)) Fs p sun P Bs)
        (deg2_field (love_h (lv_h2 lv) (sinlat p)) (love_l (lv_l2 lv) (sinlat p)) Fl p moon P Bm))
      (field_plus _ _ _ _ _ _ p P
        (deg3_field (lv_h3 lv) (lv_l3 lv) (set_F3 (lv_solar lv) a sun) p sun P Bs)
        (deg3_field (lv_h3 lv) (lv_l3 lv) (set_F3 (lv_lunar lv) a moon) p moon P Bm))) as F1.
    pose proof (field_plus _ _ _ _ _ _ p P F1
      (field_plus _ _ _ _ _ _ p P (oopd_field (lv_solar lv) a p sun O Bs) (oopd_field (lv_lunar lv) a p moon O Bm))) as F2.
    pose proof (field_plus _ _ _ _ _ _ p P F2
      (field_plus _ _ _ _ _ _ p P (oops_field (lv_solar lv) a p sun O Bs) (oops_field (lv_lunar lv) a p moon O Bm))) as F3.
    pose proof (field_plus _ _ _ _ _ _ p P F3 (freq_diurnal_field (t + mjd_tide) p O)) as F4.
    pose proof (field_plus _ _ _ _ _ _ p P F4 (freq_long_field (t + mjd_tide) p O)) as F5.
    clear F1 F2 F3 F4. fold g Fs Fl in F5.
    assert (D1 : -0.0025 = - (0.0025)) by lra. assert (D2 : -0.0007 = - (0.0007)) by lra. assert (D3 : -0.0022 = - (0.0022)) by lra.
    refine (field_ext _ _ _ _ _ _ F5 _ _); [|intros y].
    + unfold body_radial, numbers, mjd_tide; cbn [n_h2 n_l2 n_h3 n_l3 n_sun n_moon]. unfold V2, V3.
      unfold Fs, Fl. rewrite !F2_eq, !F3_eq by assumption. rewrite D1, D3. ring.
    + unfold body_tangent, numbers, mjd_tide; cbn [n_h2 n_l2 n_h3 n_l3 n_sun n_moon]. unfold V2, V3.
      unfold Fs, Fl. rewrite !F2_eq, !F3_eq by assumption. rewrite D2. ring.
  - apply swirl_plus; apply latd_swirl; assumption.
  - apply swirl_plus; apply lats_swirl; assumption.
Qed.

(** Each row of the output, in either tide system, is the elastic response to the
    potentials of sun and moon, with latitude dependent Love and Shida numbers, the
    out-of-phase parts, the frequency dependent corrections of the IERS tables, the
    horizontal l(1) part, and in the mean-tide system the permanent tide. *)
Theorem C51_solid_earth_tide : forall t XYZ SXYZ LXYZ a system lv out,
  solid_earth_tide t XYZ SXYZ LXYZ a system lv = Ok out ->
  List.length out = List.length t /\
  forall k tk, nth_error t k = Some tk ->
  exists x sun moon v, pick XYZ k = Some x /\ pick SXYZ k = Some sun /\ pick LXYZ k = Some moon /\ nth_error out k = Some v /\
    (off_axis x -> 0 < dotv sun sun -> 0 < dotv moon moon ->
     let n := LoveNumbers (lv_h2 lv) (lv_l2 lv) (lv_h3 lv) (lv_l3 lv) (lv_solar lv) (lv_lunar lv) in
     let mean := if string_dec (lower system) "mean_tide" then 1 else 0 in
     exists u wd ws, v = Vec (vx u + vx wd + vx ws) (vy u + vy wd + vy ws) (vz u + vz wd + vz ws) /\
       field (body_radial n a (tk + 48622) sun moon x + mean * (love_h (lv_h2 lv) (sinlat x) * permanent x))
         (fun y => body_tangent n a (tk + 48622) sun moon x y + mean * (love_l (lv_l2 lv) (sinlat x) * permanent y)) x u /\
       swirl 0.0012 (fun y => V21 (lv_solar lv) a (turned (- (PI / 2)) sun) y + V21 (lv_lunar lv) a (turned (- (PI / 2)) moon) y) x wd /\
       swirl 0.0024 (fun y => V22 (lv_solar lv) a (turned (- (PI / 4)) sun) y + V22 (lv_lunar lv) a (turned (- (PI / 4)) moon) y) x ws).
Proof.
  intros t XYZ SX LX a sys lv out. unfold solid_earth_tide.
  destruct (negb _); [discriminate|]. set (n := List.length t).
  destruct (bcast_to n XYZ) as [p|] eqn:E1; [|discriminate]. destruct (bcast_to n SX) as [s|] eqn:E2; [|discriminate].
  destruct (bcast_to n LX) as [l|] eqn:E3; [|discriminate]. cbn [bind]. intros <-%Ok_inj.
  apply bcast_ok in E1 as (_ & L1 & P1). apply bcast_ok in E2 as (_ & L2 & P2). apply bcast_ok in E3 as (_ & L3 & P3).
  rewrite map_length, !combine_length, L1, L2, L3. fold n. split; [lia|]. intros k tk Hk.
  assert (K : (k < n)%nat) by (apply nth_error_Some; rewrite Hk; discriminate).
  destruct (nth_some p k ltac:(lia)) as [x Hx]. destruct (nth_some s k ltac:(lia)) as [sun Hs]. destruct (nth_some l k ltac:(lia)) as [moon Hm].
  exists x, sun, moon, (set_point lv a (String.eqb (lower sys) "mean_tide") tk x sun moon).
  rewrite <- (P1 k K), <- (P2 k K), <- (P3 k K). split; [exact Hx|]. split; [exact Hs|]. split; [exact Hm|].
  rewrite (map_nth_error _ _ _ (nth_combine _ _ _ _ _ Hk (nth_combine _ _ _ _ _ (nth_combine _ _ _ _ _ Hx Hs) Hm))). cbn [fst snd].
  split; [reflexivity|]. intros O Bs Bm. cbv zeta.
  destruct (set_point_field lv a tk x sun moon O Bs Bm) as (u & wd & ws & E & F & S1 & S2).
  destruct (string_dec (lower sys) "mean_tide") as [D|D].
  - rewrite (proj2 (String.eqb_eq _ _) D).
    exists (vadd u (free_to_mean x (love_h (lv_h2 lv) (sinlat x)) (love_l (lv_l2 lv) (sinlat x)))), wd, ws.
    split; [|split; [|split; assumption]].
    + replace (set_point lv a true tk x sun moon) with (vadd (set_point lv a false tk x sun moon) (free_to_mean x (set_h2 lv x) (set_l2 lv x))) by reflexivity.
      rewrite E. destruct (h2_eq lv x O) as [-> ->]. unfold vadd; cbn [vx vy vz]. f_equal; ring.
    + apply (field_ext _ _ _ _ _ _ (field_plus _ _ _ _ _ _ x (off_axis_dot x O) F
        (permanent_field (love_h (lv_h2 lv) (sinlat x)) (love_l (lv_l2 lv) (sinlat x)) x O))); [|intros y]; unfold numbers; ring.
  - rewrite (proj2 (String.eqb_neq _ _) D). exists u, wd, ws. split; [|split; [|split; assumption]].
    + rewrite E. unfold vadd; cbn [vx vy vz]. f_equal; ring.
    + apply (field_ext _ _ _ _ _ _ F); [|intros y]; unfold numbers; ring.
Qed.
Print Assumptions C51_solid_earth_tide.

(** The two systems differ by the permanent tide, the same for all times and all
    positions of sun and moon: radial and along the meridian. *)
Theorem C51_systems : forall lv a x, off_axis x ->
  exists D, field (love_h (lv_h2 lv) (sinlat x) * permanent x) (fun y => love_l (lv_l2 lv) (sinlat x) * permanent y) x D /\
    dotv D (Vec (- vy x) (vx x) 0) = 0 /\
    forall t sun moon u, solid_earth_tide [t] [x] [sun] [moon] a "tide_free" lv = Ok [u] ->
      solid_earth_tide [t] [x] [sun] [moon] a "mean_tide" lv = Ok [Vec (vx u + vx D) (vy u + vy D) (vz u + vz D)].
Proof.
  intros lv a x O. exists (free_to_mean x (set_h2 lv x) (set_l2 lv x)). split; [|split].
  - destruct (h2_eq lv x O) as [-> ->]. apply permanent_field, O.
  - unfold free_to_mean, dotv. cbv zeta. cbn [vx vy vz]. rewrite l_sinla, l_cosla by exact O. local x O. field. lra.
  - intros t sun moon u. unfold solid_earth_tide. cbn. intros E. apply Ok_inj in E. injection E as <-. reflexivity.
Qed.
Print Assumptions C51_systems.

(** Defined exactly for the two systems, whatever the case of the letters, and arrays
    that broadcast to the number of times. *)
Theorem C51_errors : forall t XYZ SXYZ LXYZ a system lv,
  let fits (l : list vec) := List.length l = List.length t \/ List.length l = 1%nat in
  let known := lower system = "tide_free"%string \/ lower system = "mean_tide"%string in
  (known -> fits XYZ -> fits SXYZ -> fits LXYZ -> exists out, solid_earth_tide t XYZ SXYZ LXYZ a system lv = Ok out) /\
  (~ known -> solid_earth_tide t XYZ SXYZ LXYZ a system lv = Err AssertionError) /\
  (known -> ~ (fits XYZ /\ fits SXYZ /\ fits LXYZ) -> solid_earth_tide t XYZ SXYZ LXYZ a system lv = Err ValueError).
Proof.
  intros t XYZ SX LX a sys lv fits known. unfold solid_earth_tide. set (n := List.length t) in *.
  destruct (bcast_defined n XYZ) as [A1 B1]. destruct (bcast_defined n SX) as [A2 B2]. destruct (bcast_defined n LX) as [A3 B3].
  assert (K : mem_str (lower sys) ["tide_free"; "mean_tide"]%string = true <-> known).
  { rewrite mem_str_In. cbn [In]. unfold known. intuition congruence. }
  assert (Dec : forall l : list vec, fits l \/ ~ fits l) by (intros l; unfold fits; lia).
  split; [|split].
  - intros Hk F1 F2 F3. rewrite (proj2 K Hk). cbn [negb]. destruct (A1 F1) as [p ->], (A2 F2) as [s ->], (A3 F3) as [l ->]. cbn [bind]. eexists. reflexivity.
  - intros Hk. destruct (mem_str _ _) eqn:E; [exfalso; apply Hk, K; reflexivity|reflexivity].
  - intros Hk F. rewrite (proj2 K Hk). cbn [negb].
    destruct (Dec XYZ) as [D1|D1]; [|rewrite (B1 D1); reflexivity]. destruct (A1 D1) as [p ->]. cbn [bind].
    destruct (Dec SX) as [D2|D2]; [|rewrite (B2 D2); reflexivity]. destruct (A2 D2) as [s ->]. cbn [bind].
    destruct (Dec LX) as [D3|D3]; [|rewrite (B3 D3); reflexivity]. exfalso. apply F. split; [|split]; assumption.
Qed.
Print Assumptions C51_errors.

(** The degree-2 potential is the sum of its zonal, diurnal and semidiurnal parts
    (the decomposition used by the out-of-phase and latitude terms). *)
Theorem C51_addition_theorem : forall mass a b x, 0 < dotv x x -> 0 < dotv b b ->
  V2 mass a b x = V20 mass a b x + V21 mass a b x + V22 mass a b x.
Proof.
  intros m a b x X B. pose proof (norm_pos x X) as Nx. pose proof (norm_pos b B) as Nb.
  unfold V2, V20, V21, V22, P2, cosang, sinlat.
  pose proof (norm_sq x) as Qx. pose proof (norm_sq b) as Qb.
  assert (Ex : vx x ^ 2 = norm x ^ 2 - vy x ^ 2 - vz x ^ 2) by (unfold dotv in Qx; lra).
  assert (Eb : vx b ^ 2 = norm b ^ 2 - vy b ^ 2 - vz b ^ 2) by (unfold dotv in Qb; lra).
  rewrite <- Qx. set (N := norm x) in *. set (Mb := norm b) in *.
  match goal with |- ?L = ?R => replace L with (m * a ^ 4 / (2 * Mb ^ 5 * N ^ 2) * (3 * (dotv x b) ^ 2 - N ^ 2 * Mb ^ 2)) by (field; lra);
   replace R with (m * a ^ 4 / (2 * Mb ^ 5 * N ^ 2) * ((3 * vz x ^ 2 - N ^ 2) * (3 * vz b ^ 2 - Mb ^ 2) / 2
     + 6 * (vz x * vz b * (vx x * vx b + vy x * vy b))
     + 3 / 2 * ((vx x ^ 2 - vy x ^ 2) * (vx b ^ 2 - vy b ^ 2) + 4 * (vx x * vy x) * (vx b * vy b)))) by (field; lra) end.
  f_equal.
  replace (3 * dotv x b ^ 2) with (3 * (vx x ^ 2 * vx b ^ 2 + vy x ^ 2 * vy b ^ 2 + vz x ^ 2 * vz b ^ 2
     + 2 * (vx x * vy x * vx b * vy b) + 2 * vz x * vz b * (vx x * vx b + vy x * vy b))) by (unfold dotv; ring).
  rewrite Ex, Eb. field.
Qed.
Print Assumptions C51_addition_theorem.

(** ** Cases that meet the hypotheses *)
Example C51_example : exists u v,
  solid_earth_tide [0; 1] [Vec 6378137 0 0] [Vec 1.5e11 0 0] [Vec 0 3.8e8 1e7] 6378136.6 "Mean_Tide" default_love = Ok [u; v].
Proof. do 2 eexists. reflexivity. Qed.
Example C51_example_hypotheses : off_axis (Vec 6378137 0 0) /\ 0 < dotv (Vec 1.5e11 0 0) (Vec 1.5e11 0 0) /\ 0 < dotv (Vec 0 3.8e8 1e7) (Vec 0 3.8e8 1e7).
Proof. unfold off_axis, dotv; cbn [vx vy vz]. split; [left; lra|split; lra]. Qed.
Example C51_bad_system : solid_earth_tide [0] [Vec 1 0 0] [Vec 1 0 0] [Vec 1 0 0] 1 "zero_tide" default_love = Err AssertionError.
Proof. reflexivity. Qed.
Example C51_bad_shape : solid_earth_tide [0; 1; 2] [Vec 1 0 0; Vec 2 0 0] [Vec 1 0 0] [Vec 1 0 0] 1 "tide_free" default_love = Err ValueError.
Proof. reflexivity. Qed.
(** The body overhead raises the surface, at right angles it lowers it by half. *)
Example C51_overhead : V2 1 1 (Vec 2 0 0) (Vec 1 0 0) = 1 / 8 /\ V2 1 1 (Vec 2 0 0) (Vec 0 0 1) = - (1 / 16).
Proof.
  unfold V2, P2, cosang, norm, dotv; cbn [vx vy vz].
  replace (2 * 2 + 0 * 0 + 0 * 0) with (2 * 2) by ring. rewrite sqrt_square by lra.
  replace (1 * 1 + 0 * 0 + 0 * 0) with 1 by ring. replace (0 * 0 + 0 * 0 + 1 * 1) with 1 by ring. rewrite sqrt_1. split; field.
Qed.
(** The pole moved towards Greenwich (mx > 0) lowers the surface at Greenwich
    longitude in the northern hemisphere. *)
Example C50_example : pole_potential 9.8 7.292115e-5 1e-6 0 (Vec 1 0 1) < 0.
Proof. unfold pole_potential; cbn [vx vy vz]. lra. Qed.
Example C50_example_rows : exists u v,
  load_pole_tide [Pole 0.1 0.3 0.05 0.2; Pole 0.2 0.3 0.05 0.2] [Vec 1 0 1] 9.8 7.292115e-5 0.6207 0.0836 = Ok [u; v].
Proof. do 2 eexists. reflexivity. Qed.
Example C50_bad_shape : load_pole_tide [Pole 0.1 0.3 0.05 0.2; Pole 0.2 0.3 0.05 0.2] [Vec 1 0 1; Vec 1 0 0; Vec 1 1 1] 9.8 7.292115e-5 0.6207 0.0836 = Err ValueError.
Proof. reflexivity. Qed.
