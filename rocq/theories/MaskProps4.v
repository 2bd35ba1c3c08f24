(** C72: where the domain of a tide model and the constants that can be extracted from it
    differ. *)
From Coq Require Import Reals List Bool Arith ZArith Lra Lia.
From Verif Require Import PyBase RBase MathModel GeoModel ConvertProps GridModel InterpModel InterpProps ExtractModel ExtractSpec NodeProps ExtractProofs ExtractProps SplineProps ReturnProps SeriesModel SeriesSpec AtlasNcModel AtlasNcSpec AtlasNcProps AtlasNcProps2 AtlasNcProps3 MaskModel MaskSpec MaskProps MaskProps2 MaskProps3.
Import ListNotations.
Open Scope R_scope.

(** ** With splines: beside land and water a point is within the domain, and there is no
    constant for it. *)
Theorem C72_spline_refuted : forall fwd t sc g nd files pts out masks c f pa n p around x0 dx nx y0 dy ny x y i j,
  nodes_for g t nd -> fny g = ny -> nodes_grid around x0 dx nx y0 dy ny nd -> framed Eastern (nlon nd) ->
  extract_atlas Spline t sc g files pts = Ok out -> tide_masks (fun q => q) fwd Mspline (Satlas t g) (P1 pts) = Ok masks ->
  nth_error files c = Some f -> parts_for f t (Some pa) -> file_grid nx ny f pa ->
  (forall j i, (j < ny)%nat -> (i < nx)%nat -> number_of pa j i <> None) ->
  nth_error pts n = Some p -> eastward (fst p) = x -> snd p = y -> (S i < nx)%nat -> (S j < ny)%nat ->
  between_nodes Heights x0 dx y0 dy x y (Z.of_nat i) j ->
  (exists b a, beside (nlat nd) b y /\ beside (nlon nd) a x /\ depth_of nd b a = None) ->
  (exists b a, beside (nlat nd) b y /\ beside (nlon nd) a x /\ depth_of nd b a <> None) ->
  exists cs, nth_error (aconst out) c = Some cs /\ nth_error cs n = Some None /\ nth_error masks n = Some (Some true).
Proof.
  intros fwd t sc g nd files pts out masks c f pa n p around x0 dx nx y0 dy ny x y i j Hn Hny G Fr He Ht Hf Hpa Hfg Hz Hp Hx Hy Hi Hj (Bx & By & Lo) Hland Hwater.
  destruct (grid_axes nd around x0 dx y0 dy nx ny G) as (A1 & A2 & L1 & L2). pose proof G as (Gx & Gy & Nx & Ny & Rd & Ga).
  assert (Bx' : node_x Heights x0 dx (Z.of_nat i) <= x <= node_x Heights x0 dx (Z.of_nat i + 1)) by lra. assert (By' : node_y Heights y0 dy j <= y <= node_y Heights y0 dy (S j)) by lra.
  destruct (C71_spline t sc Eastern g nd files pts out c f pa n p around x0 dx nx y0 dy ny x y (Z.of_nat i) j) as (D & cs & r & _ & _ & _ & E1 & _ & E2 & _ & E3); auto.
  { unfold reached. destruct around; lia. } { unfold reached. destruct around; lia. } { left. exact Bx. } { left. exact By. }
  exists cs. split; [exact E1|]. split.
  { destruct E3 as [_ ->]; [|exact E2]. apply (corners_complete nd around x0 dx y0 dy nx ny x y i j G Hi Hj Bx' By'). exact Hland. }
  destruct (C72_spline (fun q => q) fwd (Satlas t g) (nlon nd) (nlat nd) pts A1 A2 (gridded_nodes g t nd around x0 dx nx y0 dy ny Hn Hny G)) as (m & Em & _ & Hm). assert (m = masks) by congruence. subst m.
  destruct (Hm n p x y Hp) as (b & Eb & Hb). { cbn [position]. now rewrite Hx, Hy. }
  rewrite Eb. do 2 f_equal. apply Hb. split.
  - unfold boxed, spanned. rewrite L1, L2, !(lon_at nd around x0 dx y0 dy nx ny G), !(lat_at nd around x0 dx y0 dy nx ny G) by lia.
    assert (M1 : node_x Heights x0 dx (Z.of_nat 0) <= node_x Heights x0 dx (Z.of_nat i)) by (rewrite <- !(lon_at nd around x0 dx y0 dy nx ny G) by lia; apply axis_mono; auto; lia).
    assert (M2 : node_x Heights x0 dx (Z.of_nat i + 1) <= node_x Heights x0 dx (Z.of_nat (nx - 1))) by (replace (Z.of_nat i + 1)%Z with (Z.of_nat (S i)) by lia; rewrite <- !(lon_at nd around x0 dx y0 dy nx ny G) by lia; apply axis_mono; auto; lia).
    assert (M4 : node_y Heights y0 dy (S j) <= node_y Heights y0 dy (ny - 1)) by (rewrite <- !(lat_at nd around x0 dx y0 dy nx ny G) by lia; apply axis_mono; auto; lia). lra.
  - destruct Hwater as (b' & a & H1 & H2 & H3). exists b', a. split; auto. split; auto. now apply (open_depth_at g t nd).
Qed.

(** there is a constant beside water *)
Lemma extract_some t sc fr g nd files pts out c f pa n p around x0 dx nx y0 dy ny x y i j :
  nodes_for g t nd -> fny g = ny -> nodes_grid around x0 dx nx y0 dy ny nd -> framed fr (nlon nd) ->
  extract_atlas Bilinear t sc g files pts = Ok out -> nth_error files c = Some f -> parts_for f t (Some pa) -> file_grid nx ny f pa ->
  (forall j i, (j < ny)%nat -> (i < nx)%nat -> number_of pa j i <> None) ->
  nth_error pts n = Some p -> placed fr (fst p) = x -> snd p = y -> reached 1 around nx i -> reached 1 around nx (i + 1) -> (S j < ny)%nat ->
  between_nodes Heights x0 dx y0 dy x y i j -> ~ at_node Heights x0 dx y0 dy x y i j -> depth_of nd j (column nx i) <> None ->
  exists cs r, nth_error (aconst out) c = Some cs /\ nth_error cs n = Some (Some r).
Proof.
  intros Hn Hny G Fr He Hf Hpa Hfg Hz Hp Hx Hy Hi Hi1 Hj Bt Na Hd. pose proof Bt as (Bx & By & Lo). pose proof G as (Gx & Gy & Nx & Ny & Rd & Ga).
  destruct (C71_cell t sc fr g nd files pts out c f pa n p around x0 dx nx y0 dy ny x y i j) as (D & cs & r & _ & _ & _ & _ & E1 & _ & E2 & E3); auto.
  assert (Hc : (column nx i < nx)%nat) by (unfold column; apply Nat2Z.inj_lt; rewrite Z2Nat.id; pose proof (Z.mod_pos_bound i (Z.of_nat nx)); lia).
  assert (W : forall V (h : nat -> nat -> option V), h j (column nx i) <> None -> weight (corners Heights x0 dx y0 dy nx x y i j h) <> 0).
  { intros V h Hh. apply weight_some.
    - unfold corners. cbv zeta. intros q [<-|[<-|[<-|[<-|[]]]]]; cbn [fst]; apply Rmult_le_pos; lra.
    - unfold corners. cbv zeta. eexists. split; [left; reflexivity|]. cbn [fst snd]. split; [|exact Hh]. apply Rmult_integral_contrapositive. split; lra. }
  destruct r as [r|]; [exists cs, r; auto|]. exfalso. apply reported_some in E3. apply (proj2 E3); [|reflexivity]. rewrite both_some, !mean_some, !weight_of_part. split; [now apply W|].
  assert (constant_of nd pa j (column nx i) <> None) by (unfold constant_of; destruct (depth_of nd j (column nx i)); [apply Hz; [lia|exact Hc]|congruence]). split; now apply W.
Qed.

(** ** Between the last column of a global model and the first there are constants, but no
    point is within the domain. *)
Theorem C72_seam_refuted : forall fwd me t sc g nd files pts out masks c f pa n p x0 dx nx y0 dy ny x y j,
  nodes_for g t nd -> fny g = ny -> nodes_grid true x0 dx nx y0 dy ny nd -> framed Eastern (nlon nd) ->
  extract_atlas Bilinear t sc g files pts = Ok out -> tide_masks (fun q => q) fwd me (Satlas t g) (P1 pts) = Ok masks ->
  nth_error files c = Some f -> parts_for f t (Some pa) -> file_grid nx ny f pa ->
  (forall j i, (j < ny)%nat -> (i < nx)%nat -> number_of pa j i <> None) ->
  nth_error pts n = Some p -> eastward (fst p) = x -> snd p = y -> (S j < ny)%nat ->
  x0 + INR (nx - 1) * dx < x -> between_nodes Heights x0 dx y0 dy x y (Z.of_nat nx - 1) j -> ~ at_node Heights x0 dx y0 dy x y (Z.of_nat nx - 1) j ->
  depth_of nd j (nx - 1) <> None ->
  (exists cs r, nth_error (aconst out) c = Some cs /\ nth_error cs n = Some (Some r)) /\
  (nth_error masks n = Some (Some false) \/ nth_error masks n = Some None).
Proof.
  intros fwd me t sc g nd files pts out masks c f pa n p x0 dx nx y0 dy ny x y j Hn Hny G Fr He Ht Hf Hpa Hfg Hz Hp Hx Hy Hj Hl Bt Na Hd.
  destruct (grid_axes nd true x0 dx y0 dy nx ny G) as (A1 & A2 & L1 & L2). pose proof G as (Gx & Gy & Nx & Ny & Rd & Ga). split.
  - apply (extract_some t sc Eastern g nd files pts out c f pa n p true x0 dx nx y0 dy ny x y (Z.of_nat nx - 1) j); auto; try (unfold reached; lia).
    replace (column nx (Z.of_nat nx - 1)) with (nx - 1)%nat; [exact Hd|]. unfold column. rewrite Z.mod_small by lia. lia.
  - apply (C72_outside (fun q => q) fwd me (Satlas t g) (nlon nd) (nlat nd) pts masks n p x y); auto.
    + apply (gridded_nodes g t nd true x0 dx nx y0 dy ny); auto.
    + cbn [position]. now rewrite Hx, Hy.
    + intros [[_ K] _]. rewrite L1 in K. destruct Gx as (_ & _ & E). rewrite E in K by lia. lra.
Qed.

(** ** Points west of Greenwich are not within the domain of a model from -180 to 180
    degrees, though there are constants for them. *)
Theorem C72_west_refuted : forall fwd me t sc g nd files pts out masks c f pa n p around x0 dx nx y0 dy ny i j,
  nodes_for g t nd -> fny g = ny -> nodes_grid around x0 dx nx y0 dy ny nd -> framed Western (nlon nd) ->
  extract_atlas Bilinear t sc g files pts = Ok out -> tide_masks (fun q => q) fwd me (Satlas t g) (P1 pts) = Ok masks ->
  nth_error files c = Some f -> parts_for f t (Some pa) -> file_grid nx ny f pa ->
  (forall j i, (j < ny)%nat -> (i < nx)%nat -> number_of pa j i <> None) ->
  nth_error pts n = Some p -> -180 < fst p < 0 -> (S i < nx)%nat -> (S j < ny)%nat ->
  between_nodes Heights x0 dx y0 dy (fst p) (snd p) (Z.of_nat i) j -> ~ at_node Heights x0 dx y0 dy (fst p) (snd p) (Z.of_nat i) j ->
  depth_of nd j i <> None ->
  (exists cs r, nth_error (aconst out) c = Some cs /\ nth_error cs n = Some (Some r)) /\
  (nth_error masks n = Some (Some false) \/ nth_error masks n = Some None).
Proof.
  intros fwd me t sc g nd files pts out masks c f pa n p around x0 dx nx y0 dy ny i j Hn Hny G Fr He Ht Hf Hpa Hfg Hz Hp Hx Hi Hj Bt Na Hd.
  destruct (grid_axes nd around x0 dx y0 dy nx ny G) as (A1 & A2 & L1 & L2). pose proof G as (Gx & Gy & Nx & Ny & Rd & Ga). split.
  - apply (extract_some t sc Western g nd files pts out c f pa n p around x0 dx nx y0 dy ny (fst p) (snd p) (Z.of_nat i) j); auto; try (unfold reached; destruct around; lia).
    + cbn [placed]. unfold westward. destruct (Rlt_dec 180 (fst p)); lra.
    + replace (column nx (Z.of_nat i)) with i; [exact Hd|]. unfold column. rewrite Z.mod_small by lia. now rewrite Nat2Z.id.
  - apply (C72_outside (fun q => q) fwd me (Satlas t g) (nlon nd) (nlat nd) pts masks n p (fst p + 360) (snd p)); auto.
    + apply (gridded_nodes g t nd around x0 dx nx y0 dy ny); auto.
    + cbn [position]. unfold eastward. destruct (Rlt_dec (fst p) 0); [reflexivity|lra].
    + intros [[_ K] _]. destruct Fr as [_ Fr]. assert (In (nth (length (nlon nd) - 1) (nlon nd) 0) (nlon nd)) as Q by (apply nth_In; rewrite L1; lia). specialize (Fr _ Q). lra.
Qed.
Print Assumptions C72_spline_refuted.
Print Assumptions C72_seam_refuted.
Print Assumptions C72_west_refuted.
