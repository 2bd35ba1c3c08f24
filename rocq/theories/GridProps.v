(** Property theorems C30-C34: grid extension, shift, crop, longitude
    conventions and the ocean pole tide map.  See GridSpec.v for vocabulary. *)
From Coq Require Import List ZArith Lia Bool.
From Verif Require Import PyBase GridModel GridSpec IERSModel GridProofs GridProofs2 GridProofs3.
Import ListNotations.
Open Scope Z_scope.

(** * C30 *)

(** OTIS / ATLAS / FES / IERS extension (one column on each side). *)
Theorem C30_extension_periodic :
  forall (A : Type) u x0 step n (row : list A) xs' row' (d : A),
  global_axis u x0 step n -> length row = n ->
  extend_array (even_axis x0 step n) step = Ok xs' -> extend_row row = Ok row' ->
  length xs' = length row' /\
  (forall i, (i < n)%nat -> nth (S i) xs' 0 = nth i (even_axis x0 step n) 0 /\
                            nth (S i) row' d = nth i row d) /\
  xs' = even_axis (x0 - step) step (n + 2) /\
  (forall i j, (i < length xs')%nat -> (j < length xs')%nat ->
     same_meridian u (nth i xs' 0) (nth j xs' 0) -> nth i row' d = nth j row' d).
Proof. intros A u x0 step n row xs' row' d. apply extend_periodic. Qed.
Print Assumptions C30_extension_periodic.

(** GOT extension (one column before, two after). *)
Theorem C30_extension_periodic_got :
  forall (A : Type) u x0 step n (row : list A) xs' row' (d : A),
  global_axis u x0 step n -> length row = n ->
  extend_array_got (even_axis x0 step n) step = Ok xs' -> extend_row_got row = Ok row' ->
  length xs' = length row' /\
  (forall i, (i < n)%nat -> nth (S i) xs' 0 = nth i (even_axis x0 step n) 0 /\
                            nth (S i) row' d = nth i row d) /\
  xs' = even_axis (x0 - step) step (n + 3) /\
  (forall i j, (i < length xs')%nat -> (j < length xs')%nat ->
     same_meridian u (nth i xs' 0) (nth j xs' 0) -> nth i row' d = nth j row' d).
Proof. intros A u x0 step n row xs' row' d. apply extend_periodic_got. Qed.
Print Assumptions C30_extension_periodic_got.

(** Extension never fails on a non-empty grid. *)
Theorem C30_extension_total :
  forall (A : Type) xs step (row : list A), xs <> [] -> row <> [] ->
  is_ok (extend_array xs step) = true /\ is_ok (extend_row row) = true.
Proof. intros. now apply extend_total. Qed.
Print Assumptions C30_extension_total.

Example C30_case :
  global_axis 1 45 90 4 /\
  extend_array (even_axis 45 90 4) 90 = Ok [-45; 45; 135; 225; 315; 405] /\
  extend_row [10; 20; 30; 40] = Ok [40; 10; 20; 30; 40; 10] /\
  extend_array_got (even_axis 45 90 4) 90 = Ok [-45; 45; 135; 225; 315; 405; 495] /\
  extend_row_got [10; 20; 30; 40] = Ok [40; 10; 20; 30; 40; 10; 20].
Proof. repeat split; reflexivity. Qed.

(** * C31 *)

Theorem C31_shift_keeps_meridian :
  forall (A : Type) u lon0 d xs (row : list A) xs' row' (dd : A),
  length row = length xs ->
  shift_axis u lon0 (360 * u) d xs = Ok xs' ->
  shift_row u lon0 (360 * u) xs row = Ok row' ->
  length xs' = length xs /\ length row' = length xs /\
  forall k, (k < length xs)%nat -> exists j, (j < length xs)%nat /\
    nth k row' dd = nth j row dd /\ same_meridian u (nth k xs' 0) (nth j xs 0).
Proof. intros A u lon0 d xs row xs' row' dd. apply shift_assoc. Qed.
Print Assumptions C31_shift_keeps_meridian.

(** No meridian is lost.  When the axis repeats its first meridian at the end
    (to within 1e-4 degree, the test made by the code) the repeated column must
    hold the same data. *)
Theorem C31_shift_loses_nothing :
  forall (A : Type) u lon0 d xs (row : list A) xs' row' (dd : A),
  length row = length xs ->
  shift_axis u lon0 (360 * u) d xs = Ok xs' ->
  shift_row u lon0 (360 * u) xs row = Ok row' ->
  (10000 * Z.abs (nth (length xs - 1) xs 0 - nth 0 xs 0 - 360 * u) <= u ->
     nth (length xs - 1) xs 0 - nth 0 xs 0 = 360 * u /\
     nth (length xs - 1) row dd = nth 0 row dd) ->
  forall j, (j < length xs)%nat -> exists k, (k < length xs)%nat /\
    nth k row' dd = nth j row dd /\ same_meridian u (nth k xs' 0) (nth j xs 0).
Proof.
  intros A u lon0 d xs row xs' row' dd HL Hx Hr Hdup.
  apply shift_complete with lon0 d; auto. intros Ho. apply Hdup.
  destruct xs as [|x xs]; [cbn in Ho; discriminate|].
  unfold shift_offset in Ho. rewrite last_nth in Ho.
  change (nth 0 (x :: xs) 0) with x.
  rewrite (nth_indep (x :: xs) 0 x) by (cbn; lia).
  destruct (_ >? u) eqn:E in Ho; [discriminate|]. apply Z.gtb_ltb in E || idtac.
  rewrite Z.gtb_ltb in E. apply Z.ltb_ge in E. exact E.
Qed.
Print Assumptions C31_shift_loses_nothing.

(** The axis stays increasing. *)
Theorem C31_shift_increasing :
  forall u lon0 d xs xs',
  d = East \/ d = West -> increasing xs ->
  (forall i j, (i < length xs)%nat -> (j < length xs)%nat ->
      nth j xs 0 - nth i xs 0 < 360 * u) ->
  shift_axis u lon0 (360 * u) d xs = Ok xs' -> increasing xs'.
Proof.
  intros u lon0 d xs xs' Hd Hi Hs Hx. eapply shift_increasing; eauto.
  - intros i j Hi' Hj. specialize (Hs i j Hi' Hj). lia.
  - intros _. destruct xs as [|x xs]; [cbn in Hx; discriminate|]. apply Hs; cbn; lia.
Qed.
Print Assumptions C31_shift_increasing.

(** Exactly which column becomes the first one, and its longitude: the column
    nearest to the requested base (the first one on ties). *)
Theorem C31_shift_base :
  forall u lon0 d xs xs',
  d = East \/ d = West ->
  shift_axis u lon0 (360 * u) d xs = Ok xs' ->
  exists i0, (0 < i0 < length xs)%nat /\
    (forall k, (k < length xs)%nat -> Z.abs (nth i0 xs 0 - lon0) <= Z.abs (nth k xs 0 - lon0)) /\
    (forall k, (k < i0)%nat -> Z.abs (nth i0 xs 0 - lon0) < Z.abs (nth k xs 0 - lon0)) /\
    nth 0 xs' 0 = nth i0 xs 0 - (match d with West => 360 * u | _ => 0 end).
Proof.
  intros u lon0 d xs xs' Hd Hx.
  destruct (shift_axis_ok_inv _ _ _ _ _ _ Hx) as (i0 & o & Hi & Ho).
  pose proof (shift_axis_nth _ _ _ _ _ _ _ _ Hx Hi Ho) as (L1 & Hpos & Nx).
  destruct (shift_index_spec _ _ _ Hi) as (_ & S1 & S2).
  exists i0. repeat split; auto; try lia.
  rewrite Nx by lia. unfold shifted_x.
  destruct (0 <? length xs - i0)%nat eqn:E; [|apply Nat.ltb_ge in E; lia].
  now rewrite Nat.add_0_r.
Qed.
Print Assumptions C31_shift_base.

(** "A shift never fails" is false: it fails exactly when the column nearest to
    the requested base longitude is the first one (nothing to shift). *)
Theorem C31_shift_success_iff :
  forall u lon0 c d xs,
  is_ok (shift_axis u lon0 c d xs) = true <->
  exists i0, shift_index lon0 xs = Ok i0 /\ (0 < i0)%nat.
Proof. apply shift_ok_iff. Qed.
Print Assumptions C31_shift_success_iff.

Theorem C31_shift_never_fails_refuted :
  exists u x0 step n lon0 d, global_axis u x0 step n /\
    -180 * u <= lon0 <= 360 * u /\
    shift_axis u lon0 (360 * u) d (even_axis x0 step n) = Err ValueError.
Proof. exists 1, 0, 90, 4%nat, 0, East. repeat split; try reflexivity; lia. Qed.
Print Assumptions C31_shift_never_fails_refuted.

Example C31_case :
  shift_axis 1 180 360 West (even_axis 0 90 4) = Ok [-180; -90; 0; 90] /\
  shift_row 1 180 360 (even_axis 0 90 4) [1; 2; 3; 4] = Ok [3; 4; 1; 2] /\
  shift_axis 1 180 360 West (even_axis 0 90 5) = Ok [-180; -90; 0; 90; 180] /\
  shift_row 1 180 360 (even_axis 0 90 5) [1; 2; 3; 4; 1] = Ok [3; 4; 1; 2; 3].
Proof. repeat split; reflexivity. Qed.

(** * C32 *)

(** Without change of longitude convention: exactly the nodes in the buffered
    bounds, with their data, on a grid whose axes are the filtered axes. *)
Theorem C32_crop_exact :
  forall (A : Type) u geo b buf (m : list (list A)) xs ys m' xs' ys',
  grid m xs ys -> increasing xs -> increasing ys ->
  crop_convention u geo b xs = Ok None ->
  crop u geo b buf m xs ys = Ok (m', xs', ys') ->
  xs' = filter (in_range (bx0 b - buf) (bx1 b + buf)) xs /\
  ys' = filter (in_range (by0 b - buf) (by1 b + buf)) ys /\
  grid m' xs' ys' /\
  forall x y v, node m' xs' ys' x y v <->
    node m xs ys x y v /\ within (bx0 b - buf) (bx1 b + buf) x /\
    within (by0 b - buf) (by1 b + buf) y.
Proof.
  intros A u geo b buf m xs ys m' xs' ys' G Hx Hy Hc. rewrite crop_none by auto.
  now apply crop_core_spec.
Qed.
Print Assumptions C32_crop_exact.

(** Cropping fails (IndexError) exactly when no node is in the bounds. *)
Theorem C32_crop_success_iff :
  forall (A : Type) u geo b buf (m : list (list A)) xs ys,
  crop_convention u geo b xs = Ok None ->
  (is_ok (crop u geo b buf m xs ys) = true <->
   (exists x, In x xs /\ within (bx0 b - buf) (bx1 b + buf) x) /\
   (exists y, In y ys /\ within (by0 b - buf) (by1 b + buf) y)) /\
  (forall e, crop u geo b buf m xs ys = Err e -> e = IndexError).
Proof.
  intros A u geo b buf m xs ys Hc. rewrite crop_none by auto.
  split; [apply crop_core_ok_iff|]. apply crop_core_err.
Qed.
Print Assumptions C32_crop_success_iff.

(** With a change of convention (West/East shift): the axes are a well-formed
    grid and every returned value belongs to its meridian and parallel. *)
Theorem C32_crop_shifted_sound :
  forall (A : Type) u geo b buf (m : list (list A)) xs ys m' xs' ys' x0 d,
  grid m xs ys -> increasing xs -> increasing ys ->
  (forall i j, (i < length xs)%nat -> (j < length xs)%nat ->
      nth j xs 0 - nth i xs 0 < 360 * u) ->
  crop_convention u geo b xs = Ok (Some (x0, d)) ->
  crop u geo b buf m xs ys = Ok (m', xs', ys') ->
  grid m' xs' ys' /\
  (forall x y v, node m' xs' ys' x y v ->
     within (bx0 b - buf) (bx1 b + buf) x /\ within (by0 b - buf) (by1 b + buf) y /\
     exists x1, same_meridian u x x1 /\ node m xs ys x1 y v).
Proof. intros A u geo b buf m xs ys m' xs' ys' x0 d. apply crop_shift_sound. Qed.
Print Assumptions C32_crop_shifted_sound.

(** Nodes around a point of the bounds survive when the buffer covers the grid
    spacing, so local interpolation is not affected by cropping. *)
Theorem C32_crop_keeps_neighbours :
  forall (A : Type) u geo b buf (m : list (list A)) xs ys m' xs' ys' px py x y v,
  grid m xs ys -> increasing xs -> increasing ys ->
  crop_convention u geo b xs = Ok None ->
  crop u geo b buf m xs ys = Ok (m', xs', ys') ->
  within (bx0 b) (bx1 b) px -> within (by0 b) (by1 b) py ->
  Z.abs (x - px) <= buf -> Z.abs (y - py) <= buf ->
  node m xs ys x y v -> node m' xs' ys' x y v.
Proof.
  intros A u geo b buf m xs ys m' xs' ys' px py x y v G Hx Hy Hc H W1 W2 D1 D2 N.
  eapply C32_crop_exact in H; eauto. destruct H as (_ & _ & _ & H). apply H.
  unfold within in *. repeat split; auto; lia.
Qed.
Print Assumptions C32_crop_keeps_neighbours.

Example C32_case :
  let m := [[1;2;3;4];[5;6;7;8];[9;10;11;12]] in
  let xs := [0;90;180;270] in let ys := [-45;0;45] in
  let b := {| bx0 := 80; bx1 := 170; by0 := -10; by1 := 10 |} in
  grid m xs ys /\ crop_convention 1 true b xs = Ok None /\
  crop 1 true b 10 m xs ys = Ok ([[6;7]], [90;180], [0]) /\
  (let b2 := {| bx0 := -100; bx1 := 10; by0 := -10; by1 := 10 |} in
   crop_convention 1 true b2 xs = Ok (Some (180, West)) /\
   crop 1 true b2 10 m xs ys = Ok ([[8;5]], [-90;0], [0])).
Proof. repeat split; try reflexivity. repeat constructor. Qed.

(** * C33 *)

(** OTIS-format models read once and interpolated later. *)
Theorem C33_otis_interpolate_all_longitudes :
  forall u x0 step n xs out,
  global_axis u x0 step n -> conv_0_360 u x0 step \/ conv_180 u x0 step ->
  (forall x, In x xs -> -180 * u <= x <= 360 * u) ->
  locate_otis_interpolate u step (even_axis x0 step n) xs = Ok out ->
  per_point_ok u xs out.
Proof. apply locate_otis_interpolate_ok. Qed.
Print Assumptions C33_otis_interpolate_all_longitudes.

(** FES/ATLAS-format models read and interpolated in one call. *)
Theorem C33_fes_extract_all_longitudes :
  forall u x0 step n xs out,
  global_axis u x0 step n -> step < 180 * u ->
  conv_0_360 u x0 step \/ conv_180 u x0 step ->
  (forall x, In x xs -> -180 * u <= x <= 360 * u) ->
  locate_fes_extract u step (even_axis x0 step n) xs = Ok out ->
  per_point_ok u xs out.
Proof. apply locate_fes_extract_ok. Qed.
Print Assumptions C33_fes_extract_all_longitudes.

(** OTIS-format models read and interpolated in one call: false.  Grid at
    45,135,225,315: the point at 200 degrees is inside when asked alone and
    outside when the point at 350 degrees is in the same batch. *)
Theorem C33_otis_extract_refuted :
  exists u x0 step n x y,
  global_axis u x0 step n /\ conv_0_360 u x0 step /\
  -180 * u <= x <= 360 * u /\ -180 * u <= y <= 360 * u /\
  locate_otis_extract u step (even_axis x0 step n) [x] = Ok [(x, false)] /\
  exists x' r, locate_otis_extract u step (even_axis x0 step n) [x; y] = Ok ((x', true) :: r).
Proof.
  exists 1, 45, 90, 4%nat, 200, 350.
  repeat split; try reflexivity; try (unfold conv_0_360; lia).
  exists (-160), [(-10, false)]. reflexivity.
Qed.
Print Assumptions C33_otis_extract_refuted.

(** What does hold for that path. *)
Theorem C33_otis_extract_partial :
  forall u x0 step n xs out,
  global_axis u x0 step n ->
  conv_0_360 u x0 step /\ (forall x, In x xs -> x <= x0 + 360 * u - step /\
       (x < 0 -> x <= x0 - step)) \/ conv_180 u x0 step /\ step < 180 * u /\
       (forall x, In x xs -> x <= 180 * u -> x <= x0 + 360 * u - step /\ x0 <= x) ->
  (forall x, In x xs -> -180 * u <= x <= 360 * u) ->
  locate_otis_extract u step (even_axis x0 step n) xs = Ok out ->
  per_point_ok u xs out.
Proof. apply locate_otis_extract_partial. Qed.
Print Assumptions C33_otis_extract_partial.

(** FES/ATLAS models read once and interpolated later: false.  Grid at
    0,90,180,270 (stored extended from -90 to 360): a single point at 200
    degrees is reported outside of the global model; so is a point at -100 of a
    cell-centred model stored from -180 to 180. *)
Theorem C33_fes_interpolate_refuted :
  (exists u x0 step n x x',
   global_axis u x0 step n /\ conv_0_360 u x0 step /\ -180 * u <= x <= 360 * u /\
   locate_fes_interpolate u step (even_axis x0 step n) [x] = Ok [(x', true)]) /\
  (exists u x0 step n x x',
   global_axis u x0 step n /\ conv_180 u x0 step /\ -180 * u <= x <= 360 * u /\
   locate_fes_interpolate u step (even_axis x0 step n) [x] = Ok [(x', true)]).
Proof.
  split.
  - exists 1, 0, 90, 4%nat, 200, (-160).
    repeat split; try reflexivity; try (unfold conv_0_360; lia).
  - exists 1, (-135), 90, 4%nat, (-100), 260.
    repeat split; try reflexivity; try (unfold conv_180; lia).
Qed.
Print Assumptions C33_fes_interpolate_refuted.

Theorem C33_fes_interpolate_partial :
  forall u x0 step n xs out,
  global_axis u x0 step n -> step < 180 * u -> x0 = step \/ x0 = -180 * u ->
  (forall x, In x xs -> -180 * u <= x <= 360 * u) ->
  locate_fes_interpolate u step (even_axis x0 step n) xs = Ok out ->
  per_point_ok u xs out.
Proof. apply locate_fes_interpolate_partial_ok. Qed.
Print Assumptions C33_fes_interpolate_partial.

Example C33_case :
  global_axis 4 0 360 4 /\ conv_0_360 4 0 360 /\
  locate_otis_interpolate 4 360 (even_axis 0 360 4) [-720; 1440; 799] =
    Ok [(720, false); (1440, false); (799, false)] /\
  locate_fes_extract 4 360 (even_axis 0 360 4) [-720; 1440; 799] =
    Ok [(720, false); (1440, false); (799, false)] /\
  locate_fes_interpolate 4 360 (even_axis 360 360 4) [799] = Ok [(799, false)].
Proof. repeat split; try reflexivity; unfold conv_0_360; lia. Qed.

(** * C34 *)

(** A record at a cell centre lands at every column of its meridian and at the
    row of its parallel, and there is such a column. *)
Theorem C34_records_land_in_their_cell :
  forall (V : Type) (rs1 rs2 : list (record V)) r i j,
  at_cell r i j ->
  (forall r', In r' rs2 -> (r_lon r', r_lat r') <> (r_lon r, r_lat r) /\
                           exists i' j', at_cell r' i' j') ->
  nth (Z.to_nat j) glat 0 = r_lat r /\
  exists lons row, final_glon = Ok lons /\ final_parallel (rs1 ++ r :: rs2) j = Ok row /\
    length row = length lons /\
    (forall k, (k < length lons)%nat -> same_meridian iu (nth k lons 0) (r_lon r) ->
       nth k row None = Some (r_val r)) /\
    (exists k, (k < length lons)%nat /\ same_meridian iu (nth k lons 0) (r_lon r)).
Proof.
  intros V rs1 rs2 r i j Hr Hrs. split.
  - destruct Hr as (Hi & Hj & Hlo & Hla). unfold glat. rewrite even_axis_nth by lia. lia.
  - eapply iers_record_lands; eauto.
Qed.
Print Assumptions C34_records_land_in_their_cell.

(** "The axis covers [-180,180]" is false: it spans [-180.75,179.75]. *)
Theorem C34_coverage_refuted :
  exists lons x, final_glon = Ok lons /\ -180 * iu <= x <= 180 * iu /\
  forall y, In y lons -> y < x.
Proof.
  exists (even_axis (-723) 2 722), 720. split; [apply final_glon_eq|].
  split; [unfold iu; lia|]. intros y H. apply even_axis_In in H. destruct H as (i & Hi & ->). lia.
Qed.
Print Assumptions C34_coverage_refuted.

(** What does hold: every longitude in [-180, 179.75] lies between two
    consecutive columns. *)
Theorem C34_coverage_partial :
  forall x, -180 * iu <= x <= 180 * iu - 1 ->
  exists lons k, final_glon = Ok lons /\ (S k < length lons)%nat /\
    nth k lons 0 <= x <= nth (S k) lons 0.
Proof.
  intros x Hx. unfold iu in Hx. exists (even_axis (-723) 2 722).
  assert (H : 0 <= (x + 722) / 2 < 721).
  { split; [apply Z.div_pos; lia|apply Z.div_lt_upper_bound; lia]. }
  exists (Z.to_nat ((x + 722) / 2)). split; [apply final_glon_eq|].
  rewrite even_axis_length. split; [lia|]. rewrite !even_axis_nth by lia.
  rewrite Nat2Z.inj_succ, Z2Nat.id by lia.
  pose proof (Z.div_mod (x + 722) 2). pose proof (Z.mod_pos_bound (x + 722) 2). lia.
Qed.
Print Assumptions C34_coverage_partial.

Example C34_case :
  at_cell {| r_lon := 361; r_lat := 359; r_val := 7 |} 180 0.
Proof. unfold at_cell. cbn. lia. Qed.
