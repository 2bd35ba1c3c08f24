(** C72: which points are said to be within the domain of a tide model. *)
From Coq Require Import Reals List Bool Arith ZArith Lra Lia.
From Verif Require Import PyBase RBase MathModel GeoModel ConvertProps GridModel InterpModel InterpProps ExtractModel ExtractSpec NodeProps ExtractProofs ExtractProps SplineProps ReturnProps SeriesModel SeriesSpec AtlasNcModel AtlasNcSpec AtlasNcProps AtlasNcProps2 AtlasNcProps3 MaskModel MaskSpec MaskProps.
Import ListNotations.
Open Scope R_scope.

Lemma negb_land (m b : bool) (A B : Prop) : (negb m = true <-> A) -> (b = true <-> B) -> (negb m && b = true <-> B /\ A).
Proof. intros H1 H2. rewrite andb_true_iff. tauto. Qed.

(** ** With splines (the default): a point is within the domain if it is within the axes
    and one of the nodes beside it is water. *)
Theorem C72_spline : forall tr fwd s xi yi pts, ascending xi -> ascending yi -> gridded xi yi s ->
  exists out, tide_masks tr fwd Mspline s (P1 pts) = Ok out /\ length out = length pts /\
    forall n p x y, nth_error pts n = Some p -> position fwd s (tr p) = (x, y) ->
      exists b, nth_error out n = Some (Some b) /\
        (b = true <-> boxed xi yi x y /\ exists j i, beside yi j y /\ beside xi i x /\ open_at j i s).
Proof.
  intros tr fwd s xi yi pts A1 A2 G. destruct (gridded_known xi yi s G) as (mz & K). pose proof K as (_ & Rm & _).
  destruct (masks_list tr fwd Mspline s xi yi mz pts K A1 A2) as (out & Eo & Lo & Ho).
  { intros p _. destruct (position fwd s (tr p)) as [x y]. unfold land_at. destruct (spline_some xi yi mz A1 A2 Rm x y) as (v & m & ->). cbn [bind]. eauto. }
  exists out. split; [exact Eo|]. split; [exact Lo|]. intros n p x y Hn Hq. destruct (Ho n p Hn) as (m & b & E1 & E2 & E3). rewrite Hq in E1, E3. cbn [fst snd] in E3.
  unfold land_at in E1. destruct (spline_some xi yi mz A1 A2 Rm x y) as (v & m' & Es). rewrite Es in E1. cbn [bind] in E1. apply Ok_inj in E1 as <-. cbn [option_map] in E2.
  exists (negb (flagged v) && b). split; [exact E2|]. destruct b; [|rewrite andb_false_r; split; [discriminate|]; intros [Q _]; apply E3 in Q; discriminate].
  apply negb_land; [|exact E3]. destruct (spline_land xi yi mz A1 A2 Rm x y) as (v' & m'' & Es' & Hv); [now apply E3|]. rewrite Es in Es'. assert (v' = v) by congruence. subst v'.
  apply (some_open xi yi s mz (fun j => beside yi j y) (fun i => beside xi i x)); auto; try (intros; apply beside_dec); intros k Hk; apply Hk.
Qed.

(** ** With the methods of the regular grid the nodes are those beside, or the nearest
    to, the coordinates that were given. *)
Theorem C72_linear : forall tr fwd s xi yi pts, ascending xi -> ascending yi -> gridded xi yi s ->
  exists out, tide_masks tr fwd Mlinear s (P1 pts) = Ok out /\ length out = length pts /\
    forall n p x y, nth_error pts n = Some p -> position fwd s (tr p) = (x, y) ->
      exists b, nth_error out n = Some (Some b) /\
        (b = true <-> boxed xi yi x y /\ boxed xi yi (fst p) (snd p) /\ exists j i, beside yi j (snd p) /\ beside xi i (fst p) /\ open_at j i s).
Proof.
  intros tr fwd s xi yi pts A1 A2 G. destruct (gridded_known xi yi s G) as (mz & K). pose proof K as (_ & Rm & _).
  assert (T : forall x y, exists v, regular false xi yi (map (map land_cell) mz) (x, y) = Ok v /\ (flagged v = false <-> boxed xi yi x y /\ exists j i, beside yi j y /\ beside xi i x /\ open_at j i s)).
  { intros x y. destruct (box_eq xi yi A1 A2 x y) as (b & _ & Hb). destruct b.
    - assert (B : boxed xi yi x y) by now apply Hb. destruct (regular_linear xi yi mz A1 A2 Rm x y B) as (v & E & Hv). exists v. split; [exact E|]. rewrite <- negb_true_iff.
      rewrite (some_open xi yi s mz (fun j => beside yi j y) (fun i => beside xi i x) K); auto; try (intros; apply beside_dec); [tauto| |]; intros k Hk; apply Hk.
    - assert (B : ~ boxed xi yi x y) by (intros Q; apply Hb in Q; discriminate). exists 1. split; [now apply regular_out|]. split; [|tauto]. intros Q. rewrite (proj2 (flagged_one 1 ltac:(lra)) eq_refl) in Q. discriminate. }
  destruct (masks_list tr fwd Mlinear s xi yi mz pts K A1 A2) as (out & Eo & Lo & Ho).
  { intros [a c] _. unfold land_at. destruct (T a c) as (v & -> & _). cbn [bind]. eauto. }
  exists out. split; [exact Eo|]. split; [exact Lo|]. intros n [a c] x y Hn Hq. destruct (Ho n (a, c) Hn) as (m & b & E1 & E2 & E3). rewrite Hq in E1, E3. cbn [fst snd] in *.
  unfold land_at in E1. destruct (T a c) as (v & Ev & Hv). rewrite Ev in E1. cbn [bind] in E1. apply Ok_inj in E1 as <-. cbn [option_map] in E2. exists (negb (flagged v) && b). split; [exact E2|].
  rewrite andb_true_iff, negb_true_iff. tauto.
Qed.
Theorem C72_nearest : forall tr fwd s xi yi pts, ascending xi -> ascending yi -> gridded xi yi s ->
  exists out, tide_masks tr fwd Mnearest s (P1 pts) = Ok out /\ length out = length pts /\
    forall n p x y, nth_error pts n = Some p -> position fwd s (tr p) = (x, y) ->
      exists b, nth_error out n = Some (Some b) /\
        (b = true <-> boxed xi yi x y /\ boxed xi yi (fst p) (snd p) /\ exists j i, nearest yi j (snd p) /\ nearest xi i (fst p) /\ open_at j i s).
Proof.
  intros tr fwd s xi yi pts A1 A2 G. destruct (gridded_known xi yi s G) as (mz & K). pose proof K as (_ & Rm & _).
  assert (T : forall x y, exists v, regular true xi yi (map (map land_cell) mz) (x, y) = Ok v /\ (flagged v = false <-> boxed xi yi x y /\ exists j i, nearest yi j y /\ nearest xi i x /\ open_at j i s)).
  { intros x y. destruct (box_eq xi yi A1 A2 x y) as (b & _ & Hb). destruct b.
    - assert (B : boxed xi yi x y) by now apply Hb. destruct (regular_nearest xi yi mz A1 A2 Rm x y B) as (v & E & Hv). exists v. split; [exact E|]. rewrite <- negb_true_iff.
      rewrite (some_open xi yi s mz (fun j => nearest yi j y) (fun i => nearest xi i x) K); auto; try (intros; apply nearest_dec); [tauto| |]; intros k Hk; apply Hk.
    - assert (B : ~ boxed xi yi x y) by (intros Q; apply Hb in Q; discriminate). exists 1. split; [now apply regular_out|]. split; [|tauto]. intros Q. rewrite (proj2 (flagged_one 1 ltac:(lra)) eq_refl) in Q. discriminate. }
  destruct (masks_list tr fwd Mnearest s xi yi mz pts K A1 A2) as (out & Eo & Lo & Ho).
  { intros [a c] _. unfold land_at. destruct (T a c) as (v & -> & _). cbn [bind]. eauto. }
  exists out. split; [exact Eo|]. split; [exact Lo|]. intros n [a c] x y Hn Hq. destruct (Ho n (a, c) Hn) as (m & b & E1 & E2 & E3). rewrite Hq in E1, E3. cbn [fst snd] in *.
  unfold land_at in E1. destruct (T a c) as (v & Ev & Hv). rewrite Ev in E1. cbn [bind] in E1. apply Ok_inj in E1 as <-. cbn [option_map] in E2. exists (negb (flagged v) && b). split; [exact E2|].
  rewrite andb_true_iff, negb_true_iff. tauto.
Qed.

(** ** Bilinearly: the same, where no node is within tolerance; then the answer is that
    of the node. *)
Theorem C72_bilinear : forall tr fwd s xi yi pts, ascending xi -> ascending yi -> gridded xi yi s ->
  (forall p, In p pts -> fst (position fwd s (tr p)) <> nth (length xi - 1) xi 0) ->
  exists out, tide_masks tr fwd Mbilinear s (P1 pts) = Ok out /\ length out = length pts /\
    forall n p x y, nth_error pts n = Some p -> position fwd s (tr p) = (x, y) ->
      (spanned xi x /\ nth 0 yi 0 < y < nth (length yi - 1) yi 0 ->
        exists b, nth_error out n = Some (Some b) /\
          ((forall j i, (j < length yi)%nat -> (i < length xi)%nat -> ~ (ExtractSpec.close x (nth i xi 0) /\ ExtractSpec.close y (nth j yi 0))) ->
             (b = true <-> exists j i, beside yi j y /\ beside xi i x /\ open_at j i s)) /\
          ((b = true <-> exists j i, beside yi j y /\ beside xi i x /\ open_at j i s) \/
           exists j i, (j < length yi)%nat /\ (i < length xi)%nat /\ ExtractSpec.close x (nth i xi 0) /\ ExtractSpec.close y (nth j yi 0) /\ (b = true <-> open_at j i s)) /\
          (forall j i, (j < length yi)%nat -> (i < length xi)%nat -> x = nth i xi 0 -> y = nth j yi 0 -> (b = true <-> open_at j i s))) /\
      (~ spanned xi x \/ y <= nth 0 yi 0 \/ nth (length yi - 1) yi 0 <= y -> nth_error out n = Some None).
Proof.
  intros tr fwd s xi yi pts A1 A2 G Hl. destruct (gridded_known xi yi s G) as (mz & K). pose proof K as (_ & Rm & Hm).
  destruct (masks_list tr fwd Mbilinear s xi yi mz pts K A1 A2) as (out & Eo & Lo & Ho).
  { intros p Hp. specialize (Hl p Hp). destruct (position fwd s (tr p)) as [x y]. unfold land_at, rbilinear. destruct (bilinear_total 0 Rplus Rmult xi yi (map (map land_cell) mz) x y A1 A2) as (c & ->); [now apply map_rect|exact Hl|]. cbn [bind]. eauto. }
  exists out. split; [exact Eo|]. split; [exact Lo|]. intros n p x y Hn Hq. destruct (Ho n p Hn) as (m & b & E1 & E2 & E3). rewrite Hq in E1, E3. cbn [fst snd] in E3. unfold land_at in E1.
  assert (Hx : x <> nth (length xi - 1) xi 0) by (apply nth_error_In in Hn; specialize (Hl p Hn); now rewrite Hq in Hl). split.
  - intros [[S1 S2] Sy]. assert (b = true) as -> by (apply E3; split; split; lra).
    destruct (find_cell xi x A1) as (i & Hi & Bx); [lra|]. destruct (find_cell yi y A2) as (j & Hj & By); [lra|].
    assert (C : in_cell xi yi i j x y) by (repeat split; tauto || lra).
    assert (Nd : near_corner xi yi i j x y \/ ~ near_corner xi yi i j x y).
    { unfold near_corner, InterpProps.close. assert (D : forall u w, u <= w \/ ~ u <= w) by (intros u w; destruct (Rle_lt_dec u w); [left; auto|right; lra]).
      destruct (D (Rabs (x - nth i xi 0)) (1e-8 + 1e-5 * Rabs (nth i xi 0))), (D (Rabs (x - nth (S i) xi 0)) (1e-8 + 1e-5 * Rabs (nth (S i) xi 0))),
        (D (Rabs (y - nth j yi 0)) (1e-8 + 1e-5 * Rabs (nth j yi 0))), (D (Rabs (y - nth (S j) yi 0)) (1e-8 + 1e-5 * Rabs (nth (S j) yi 0))); tauto. }
    assert (At : forall k q, (k < length xi)%nat -> (q < length yi)%nat -> x = nth k xi 0 -> y = nth q yi 0 -> k = i /\ q = j).
    { intros k q Hk Hq' Ex Ey. split.
      - destruct A1 as [_ A]. destruct (Nat.lt_trichotomy k i) as [L|[L|L]]; auto; exfalso; [specialize (A k i ltac:(lia)); lra|]. destruct (Nat.eq_dec k (S i)) as [->|]; [lra|]. specialize (A (S i) k ltac:(lia)). lra.
      - destruct A2 as [_ A]. destruct (Nat.lt_trichotomy q j) as [L|[L|L]]; auto; exfalso; [specialize (A q j ltac:(lia)); lra|]. destruct (Nat.eq_dec q (S j)) as [->|]; [lra|]. specialize (A (S j) q ltac:(lia)). lra. }
    destruct Nd as [N|N].
    + destruct (bilinear_near xi yi mz A1 A2 Rm x y i j C N) as (k & q & Hk & Hq' & C1 & C2 & Er & Ex). rewrite Er in E1. cbn [bind land_cell] in E1. apply Ok_inj in E1 as <-. cbn [option_map] in E2. rewrite andb_true_r in E2.
      assert (Hb : negb (flagged (if entry true mz q k then 1 else 0)) = true <-> open_at q k s).
      { rewrite negb_true_iff. rewrite <- (Hm q k Hq' Hk). pose proof (flagged_one (if entry true mz q k then 1 else 0) ltac:(destruct (entry true mz q k); lra)) as F. destruct (entry true mz q k), (flagged _); intuition (try discriminate; try lra); exfalso; assert (0 = 1) by auto; lra. }
      eexists. split; [exact E2|]. split; [|split].
      * intros Q. exfalso. apply (Q q k Hq' Hk). split; [exact C1|exact C2].
      * right. exists q, k. repeat split; auto; apply Hb.
      * intros j' i' Hj' Hi' Ex' Ey'. destruct (At i' j' Hi' Hj' Ex' Ey') as [-> ->]. destruct (Ex Ex' Ey') as [-> ->]. exact Hb.
    + destruct (bilinear_cell xi yi mz A1 A2 Rm x y i j C N) as (v & Er & Hv). rewrite Er in E1. cbn [bind] in E1. apply Ok_inj in E1 as <-. cbn [option_map] in E2. rewrite andb_true_r in E2.
      assert (Hb : negb (flagged v) = true <-> exists j i, beside yi j y /\ beside xi i x /\ open_at j i s).
      { apply (some_open xi yi s mz (fun j => beside yi j y) (fun i => beside xi i x)); auto; try (intros; apply beside_dec); intros q Hk; apply Hk. }
      eexists. split; [exact E2|]. split; [auto|]. split; [left; exact Hb|]. intros j' i' Hj' Hi' Ex' Ey'. exfalso. destruct (At i' j' Hi' Hj' Ex' Ey') as [-> ->]. apply N. split; left; unfold InterpProps.close; rewrite <- ?Ex', <- ?Ey'; [replace (x - x) with 0 by ring|replace (y - y) with 0 by ring]; rewrite Rabs_R0; [pose proof (Rabs_pos x)|pose proof (Rabs_pos y)]; lra.
  - intros Out. rewrite (bilinear_out xi yi mz A1 A2 x y Out) in E1. cbn [bind] in E1. apply Ok_inj in E1 as <-. exact E2.
Qed.

(** ** A single point on the last column makes the bilinear method raise. *)
Theorem C72_last_column_refuted : forall tr fwd s xi yi pts p, ascending xi -> ascending yi -> gridded xi yi s -> In p pts ->
  fst (position fwd s (tr p)) = nth (length xi - 1) xi 0 -> nth 0 yi 0 < snd (position fwd s (tr p)) < nth (length yi - 1) yi 0 ->
  exists e, tide_masks tr fwd Mbilinear s (P1 pts) = Err e.
Proof.
  intros tr fwd s xi yi pts p A1 A2 G Hin Hx Hy. destruct (gridded_known xi yi s G) as (mz & Ed & Rm & Hm). unfold tide_masks. rewrite Ed. cbn [bind pairs_of negb flat].
  destruct (mapM _ pts) as [ms|e] eqn:Em; [|cbn [bind]; eauto]. exfalso. apply In_nth_error in Hin as (n & Hn). destruct (mapM_nth _ _ _ _ _ Em Hn) as (qm & E1 & _). rewrite placed_position in E1.
  destruct (position fwd s (tr p)) as [x y]. cbn [fst snd] in Hx, Hy. subst x. unfold land_at, rbilinear, gbilinear_point in E1.
  rewrite (axis_min _ A1), (axis_max _ A1), (axis_min _ A2), (axis_max _ A2) in E1. cbn [bind] in E1. rewrite (rle_t (nth 0 xi 0)) in E1 by (apply axis_mono; auto; destruct A1; lia).
  rewrite (rle_t (nth (length xi - 1) xi 0)) in E1 by lra. rewrite !rlt_t in E1 by lra. cbn [andb] in E1. unfold gbilinear_inside in E1. rewrite (brackets_last xi A1) in E1. discriminate.
Qed.

(** ** Numbers, and tables of more than one row, are refused. *)
Theorem C72_shapes_refuted : forall tr fwd me s ps out, tide_masks tr fwd me s ps = Ok out -> exists row, ps = P1 row \/ exists rows, ps = P2 rows /\ (concat rows = [] \/ concat rows = hd [] rows).
Proof.
  intros tr fwd me s ps out H. unfold tide_masks in H. destruct (domain s) as [[[xi yi] mz]|]; [|discriminate]. cbn [bind] in H. destruct (negb (pairs_of me ps)); [discriminate|].
  destruct (mapM _ (flat ps)); [|discriminate]. cbn [bind] in H. destruct ps as [p|l|rows]; [discriminate|eauto|]. cbn [in_place] in H. destruct (Nat.eqb_spec (length (concat rows)) (length (hd [] rows))) as [E|]; [|discriminate].
  exists []. right. exists rows. split; auto. destruct rows as [|r rows]; [now left|]. right. cbn [concat hd] in *. rewrite app_length in E. destruct (concat rows) as [|q0 t0]; [apply app_nil_r|cbn in E; lia].
Qed.
(** ** Models in the ascii files of FES are not provided for, GOT's netCDF files are read
    as text. *)
Theorem C72_formats_refuted : forall tr fwd me ps, tide_masks tr fwd me Sfes_ascii ps = Err NameError /\ exists e, tide_masks tr fwd me Sgot_netcdf ps = Err e.
Proof. intros. split; [reflexivity|eexists; reflexivity]. Qed.
(** ** The depths of OTIS grids do not count. *)
Theorem C72_depths : forall tr fwd me g hz ps, tide_masks tr fwd me (Sotis g) ps = tide_masks tr fwd me (Sotis (Grid (gx g) (gy g) hz (gmz g))) ps.
Proof. reflexivity. Qed.
Print Assumptions C72_spline.
Print Assumptions C72_linear.
Print Assumptions C72_nearest.
Print Assumptions C72_bilinear.
Print Assumptions C72_last_column_refuted.
Print Assumptions C72_shapes_refuted.
Print Assumptions C72_formats_refuted.
Print Assumptions C72_depths.
