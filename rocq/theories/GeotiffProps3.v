(** C73: pixels within the bounds that are not read, and cases meeting the hypotheses of
    the theorems. *)
From Coq Require Import Reals String List Bool Arith ZArith Lra Lia.
From Verif Require Import PyBase RBase MathModel GeoModel ConvertProps ExtractSpec ExtractProofs GeotiffModel GeotiffSpec GeotiffProps GeotiffProps2.
Import ListNotations.
Open Scope R_scope.

(** four columns and two rows, one pixel without data *)
Definition band : list (list R) := [[1; 2; 3; 4]; [5; -9; 7; 8]].
Definition tile : raster := Raster 4 2 (Transform 0 1 0 (-1)) [band] (Some (-9)) "WGS84".
Lemma band_rect : rect 2 4 band.
Proof. split; [reflexivity|]. intros r [<-|[<-|[]]]; reflexivity. Qed.
Lemma tile_proper : proper tile.
Proof. split; [cbn; lia|]. split; [cbn; lia|]. split; [discriminate|]. intros p [<-|[]]. apply band_rect. Qed.
Lemma tile_up : north_up tile.
Proof. split; cbn; lra. Qed.

Lemma divr1 u : u / 1 = u.
Proof. lra. Qed.
(** ** Pixels with their centres within the bounds are not all read *)
Theorem C73_cover_refuted : exists r b im, proper r /\ north_up r /\ left_x (rgt r) <= bxmin b <= bxmax b /\ bymin b <= bymax b <= top_y (rgt r) /\
  from_geotiff r (Some b) = Ok im /\ idata im <> None /\ bxmax b <= west_edge r (rcols r) /\
  exists i, (i < rcols r)%nat /\ bxmin b < centre_x r i < bxmax b /\ ~ In (centre_x r i) (ix im).
Proof.
  destruct (C73_bounds tile (Bounds (9 / 10) (28 / 10) (- (1 / 2)) 0) 0 0 2 1) as (im & E & L & _ & Ex & _ & (a & Ea & _) & _); [apply tile_proper|apply tile_up| | |cbn; lia|cbn; lia|].
  - unfold counts. cbn [bxmin bxmax rgt tile left_x pixel_x INR]. rewrite !divr1. repeat split; try lra. lia.
  - unfold counts. cbn [bymin bymax rgt tile top_y pixel_y INR]. replace (- -1) with 1 by lra. rewrite !divr1. repeat split; try lra. lia.
  - exists tile, (Bounds (9 / 10) (28 / 10) (- (1 / 2)) 0), im. split; [apply tile_proper|]. split; [apply tile_up|]. cbn [bxmin bxmax bymin bymax rgt tile left_x top_y]. split; [lra|]. split; [lra|]. split; [exact E|]. split; [congruence|].
    split; [unfold west_edge; cbn; lra|]. exists 2%nat. split; [cbn; lia|]. split; [unfold centre_x; cbn; lra|]. intros K. apply (In_nth _ _ 0) in K as (k & Hk & Ek). rewrite L in Hk. rewrite Ex in Ek by auto. unfold centre_x in Ek. cbn [rgt tile left_x pixel_x] in Ek. destruct k as [|[|k]]; [cbn in Ek; lra|cbn in Ek; lra|lia].
Qed.
Print Assumptions C73_cover_refuted.

(** ** Cases *)
Example C73_read_case : exists im a, from_geotiff tile None = Ok im /\ idata im = Some a /\ nth 1 (ix im) 0 = 3 / 2 /\ nth 1 (iy im) 0 = - (3 / 2) /\
  pixel a 0 1 1 (-9, true) /\ pixel a 0 1 2 (7, false).
Proof.
  destruct (C73_read tile tile_proper) as (im & E & _ & _ & Ex & Ey & (a & Ea & _ & Ha) & _). exists im, a. split; [exact E|]. split; [exact Ea|].
  split; [rewrite Ex by (cbn; lia); unfold centre_x; cbn; lra|]. split; [rewrite Ey by (cbn; lia); unfold centre_y; cbn; lra|]. split.
  - destruct (Ha 0%nat 1%nat 1%nat) as ([v m] & P & Q1 & Q2); [cbn; lia|cbn; lia|cbn; lia|]. cbn in Q1. subst v. cbn [fst snd] in Q2. rewrite (proj2 Q2) in P; [exact P|]. split; [reflexivity|lra].
  - destruct (Ha 0%nat 1%nat 2%nat) as ([v m] & P & Q1 & Q2); [cbn; lia|cbn; lia|cbn; lia|]. cbn in Q1. subst v. cbn [fst snd] in Q2. destruct m; [|exact P]. destruct (proj1 Q2 eq_refl) as [K _]. cbn in K. injection K as K. lra.
Qed.
Definition part : bounds := Bounds 1 (5 / 2) (- (3 / 2)) (-1).
Lemma part_counts : counts ((bxmin part - left_x (rgt tile)) / pixel_x (rgt tile)) ((bxmax part - bxmin part) / pixel_x (rgt tile)) 1 2 /\
  counts ((top_y (rgt tile) - bymax part) / - pixel_y (rgt tile)) ((bymax part - bymin part) / - pixel_y (rgt tile)) 1 1.
Proof.
  split; unfold counts; cbn [bxmin bxmax bymin bymax rgt tile left_x pixel_x top_y pixel_y part INR].
  - rewrite !divr1. repeat split; try lra. lia.
  - replace (- -1) with 1 by lra. rewrite !divr1. repeat split; try lra. lia.
Qed.
Lemma part_within : left_x (rgt tile) <= bxmin part <= bxmax part /\ bymin part <= bymax part <= top_y (rgt tile).
Proof. cbn. lra. Qed.
Example C73_bounds_case : exists im a, from_geotiff tile (Some part) = Ok im /\ idata im = Some a /\ length (ix im) = 2%nat /\ nth 0 (ix im) 0 = 3 / 2 /\ nth 0 (iy im) 0 = - (3 / 2) /\
  pixel a 0 0 0 (-9, true) /\ iextent im = Bounds 1 2 (-1) (-1) /\ from_geotiff tile (Some (Bounds 1 2 (-1) (-1))) = Ok im.
Proof.
  destruct part_counts as [C1 C2]. destruct (C73_bounds tile part 1 1 2 1 tile_proper tile_up C1 C2) as (im & E & Sh); [cbn; lia|cbn; lia|]. pose proof Sh as (L & _ & Ex & Ey & (a & Ea & _ & Ha) & Ee & _).
  assert (Ee' : iextent im = Bounds 1 2 (-1) (-1)) by (rewrite Ee; unfold west_edge, north_edge; cbn; f_equal; lra).
  exists im, a. split; [exact E|]. split; [exact Ea|]. split; [exact L|]. split; [rewrite Ex by lia; unfold centre_x; cbn; lra|]. split; [rewrite Ey by lia; unfold centre_y; cbn; lra|]. split; [|split; [exact Ee'|]].
  - destruct (Ha 0%nat 0%nat 0%nat) as ([v m] & P & Q1 & Q2); [cbn; lia|lia|lia|]. cbn in Q1. subst v. cbn [fst snd] in Q2. rewrite (proj2 Q2) in P; [exact P|]. split; [reflexivity|lra].
  - rewrite <- Ee'. apply (C73_extent tile (Some part)); [apply tile_proper|apply tile_up| |exact E|congruence]. intros b' Hb. injection Hb as <-. apply part_within.
Qed.
Example C73_cover_case : exists im ox oy nx ny, from_geotiff tile (Some part) = Ok im /\ shows tile ox oy nx ny im /\ (ox <= 1 < ox + nx)%nat.
Proof.
  destruct C73_bounds_case as (im & a & E & Ea & _). destruct part_within as [Wx Wy].
  destruct (C73_cover tile part im tile_proper tile_up Wx Wy E ltac:(congruence)) as (ox & oy & nx & ny & Sh & _ & _ & Hi & _). exists im, ox, oy, nx, ny. split; [exact E|]. split; [exact Sh|]. apply Hi; unfold west_edge; cbn; lra.
Qed.
(** asking for the four columns by their edges *)
Example C73_edges_case : forall im, from_geotiff tile (Some (Bounds 0 4 (-2) 0)) <> Ok im.
Proof.
  intros im H. assert (Eb : Bounds 0 4 (-2) 0 = Bounds (west_edge tile 0) (west_edge tile (rcols tile)) (north_edge tile (rrows tile)) (north_edge tile 0)) by (unfold west_edge, north_edge; cbn; f_equal; lra).
  rewrite Eb in H. pose proof (C73_edges_refuted tile im tile_proper tile_up H) as Hn. unfold from_geotiff in H. cbv zeta in H.
  match type of H with bind ?m _ = _ => destruct m as [[[[x y] d] e]|]; [|discriminate] end. cbn [bind rbands tile rnodata] in H. rewrite req_f in H by lra. destruct d; [|discriminate]. apply Ok_inj in H as <-. discriminate.
Qed.
Example C73_again_case : exists im a, from_geotiff tile None = Ok im /\ idata im = Some a /\ to_geotiff GTiff a (iextent im) (ispacing im) (iwkt im) (ifill im) = Ok tile.
Proof.
  destruct C73_read_case as (im & a & E & Ea & _). exists im, a. split; [exact E|]. split; [exact Ea|].
  destruct (C73_again tile None im a tile_proper tile_up eq_refl) as (r' & E1 & _ & E2); [discriminate|exact E|exact Ea|]. assert (r' = tile) as <-; [apply E2; [reflexivity|]|exact E1]. cbn. intros K. injection K as K. lra.
Qed.
(** written with a mask that the fill value does not stand for, read back without *)
Example C73_write_case : exists r im d, to_geotiff GTiff (A2 [[(1, true); (2, false)]]) part (1, -1) "WGS84" (Some (-9)) = Ok r /\ from_geotiff r None = Ok im /\ idata im = Some d /\ pixel d 0 0 0 (1, false).
Proof.
  destruct (C73_write_read (A2 [[(1, true); (2, false)]]) 1 2 1 part (1, -1) "WGS84" (Some (-9))) as (r & im & d & E1 & E2 & E3 & _ & H & _).
  { constructor; [|lia|lia]. split; [reflexivity|]. intros row [<-|[]]. reflexivity. }
  exists r, im, d. split; [exact E1|]. split; [exact E2|]. split; [exact E3|]. destruct (H 0%nat 0%nat 0%nat (1, true)) as ([v m] & P & Q1 & Q2). { apply (Place2 _ 0 0 [(1, true); (2, false)]); reflexivity. }
  cbn in Q1. subst v. cbn [fst snd] in Q2. destruct m; [|exact P]. destruct (proj1 Q2 eq_refl) as [K _]. injection K as K. lra.
Qed.
(** two bands of two rows and four columns become four bands of two rows and two columns *)
Example C73_bands_case : exists im a r', from_geotiff (Raster 4 2 (Transform 0 1 0 (-1)) [band; band] None "WGS84") None = Ok im /\ idata im = Some a /\
  to_geotiff GTiff a (iextent im) (ispacing im) (iwkt im) (ifill im) = Ok r' /\ rcols r' = 2%nat /\ rrows r' = 2%nat /\ length (rbands r') = 4%nat.
Proof.
  set (r := Raster 4 2 (Transform 0 1 0 (-1)) [band; band] None "WGS84").
  assert (P : proper r). { split; [cbn; lia|]. split; [cbn; lia|]. split; [discriminate|]. intros p [<-|[<-|[]]]; apply band_rect. }
  destruct (C73_read r P) as (im & E & _ & _ & _ & _ & (a & Ea & _) & _). destruct (C73_bands_refuted r im a P ltac:(discriminate) E Ea) as (r' & H & H1 & H2 & H3). exists im, a, r'. split; [exact E|]. split; [exact Ea|]. split; [exact H|]. auto.
Qed.

(** ** Bounds that begin west of the image: no data, and the coordinates of its last
    columns *)
Lemma some_lowest l : l <> [] -> exists v, lowest l = Ok v.
Proof. destruct l; [congruence|]. eexists; reflexivity. Qed.
Lemma some_highest l : l <> [] -> exists v, highest l = Ok v.
Proof. destruct l; [congruence|]. eexists; reflexivity. Qed.
Lemma len_some {A} (l : list A) n : length l = n -> (1 <= n)%nat -> l <> [].
Proof. intros E H ->. cbn in E; lia. Qed.
Theorem C73_west_refuted : forall r b k oy ny, proper r -> north_up r -> rnodata r = None -> (1 <= k <= rcols r)%nat ->
  INR k <= (left_x (rgt r) - bxmin b) / pixel_x (rgt r) < INR k + 1 ->
  INR (rcols r) + INR k <= (bxmax b - bxmin b) / pixel_x (rgt r) ->
  counts ((top_y (rgt r) - bymax b) / - pixel_y (rgt r)) ((bymax b - bymin b) / - pixel_y (rgt r)) oy ny -> (oy + ny <= rrows r)%nat ->
  exists im, from_geotiff r (Some b) = Ok im /\ idata im = None /\ length (ix im) = k /\
    forall i, (i < k)%nat -> nth i (ix im) 0 = centre_x r (rcols r - k + i).
Proof.
  intros r b k oy ny P U Hn Hk Hx Hw C2 Hy. pose proof U as (Ux & Uy). pose proof P as (Pc & Pr & Pb & _).
  unfold from_geotiff. cbv zeta.
  assert (Z1 : req (pixel_x (rgt r)) 0 = false) by (apply req_f; lra). assert (Z2 : req (pixel_y (rgt r)) 0 = false) by (apply req_f; lra).
  rewrite Z1, Z2. cbn [orb]. destruct C2 as (O1 & N1 & N2).
  replace (Rabs (pixel_y (rgt r))) with (- pixel_y (rgt r)) by (rewrite Rabs_left; lra).
  rewrite (trunc_of _ oy O1).
  assert (Ty : rtrunc ((bymax b - bymin b) / - pixel_y (rgt r)) = Z.of_nat (ny - 1)) by (apply trunc_of; rewrite minus_INR by lia; cbn [INR]; lra).
  rewrite Ty.
  assert (Tx : rtrunc ((bxmin b - left_x (rgt r)) / pixel_x (rgt r)) = (- Z.of_nat k)%Z).
  { replace ((bxmin b - left_x (rgt r)) / pixel_x (rgt r)) with (- ((left_x (rgt r) - bxmin b) / pixel_x (rgt r))) by (field; lra).
    set (u := (left_x (rgt r) - bxmin b) / pixel_x (rgt r)) in *. clearbody u.
    assert (1 <= INR k) by (apply (le_INR 1 k); lia).
    unfold rtrunc. replace (rlt (- u) 0) with true by (symmetry; apply rlt_t; lra). rewrite Ropp_involutive.
    f_equal. apply rfloor_unique. rewrite <- INR_IZR_INZ. lra. }
  rewrite Tx.
  assert (Tw : (Z.of_nat (rcols r) + Z.of_nat k <= rtrunc ((bxmax b - bxmin b) / pixel_x (rgt r)))%Z).
  { set (w := (bxmax b - bxmin b) / pixel_x (rgt r)) in *. clearbody w.
    assert (0 <= INR (rcols r) + INR k) by (rewrite <- plus_INR; apply pos_INR).
    unfold rtrunc. replace (rlt w 0) with false by (symmetry; apply rlt_f; lra).
    pose proof (rfloor_bounds w) as B. rewrite <- Nat2Z.inj_add. rewrite <- plus_INR, INR_IZR_INZ in Hw.
    assert (K : IZR (Z.of_nat (rcols r + k)) < IZR (rfloor w + 1)) by (rewrite plus_IZR; lra). apply lt_IZR in K. lia. }
  set (xs := rtrunc ((bxmax b - bxmin b) / pixel_x (rgt r))) in *. clearbody xs.
  set (x := centres (left_x (rgt r)) (pixel_x (rgt r)) (rcols r)). set (y := centres (top_y (rgt r)) (pixel_y (rgt r)) (rrows r)).
  assert (Lx : length x = rcols r) by apply centres_len. assert (Ly : length y = rrows r) by apply centres_len.
  assert (Ex : sliced x (- Z.of_nat k) (- Z.of_nat k + (xs + 1)) = firstn k (skipn (rcols r - k) x)).
  { unfold sliced, position. rewrite Lx. replace (- Z.of_nat k <? 0)%Z with true by (symmetry; apply Z.ltb_lt; lia).
    replace (- Z.of_nat k + (xs + 1) <? 0)%Z with false by (symmetry; apply Z.ltb_ge; lia).
    replace (Z.to_nat (Z.of_nat (rcols r) + - Z.of_nat k)) with (rcols r - k)%nat by lia.
    replace (Nat.min (Z.to_nat (- Z.of_nat k + (xs + 1))) (rcols r) - (rcols r - k))%nat with k by lia. reflexivity. }
  rewrite Ex. replace (Z.of_nat (ny - 1) + 1)%Z with (Z.of_nat ny) by lia.
  rewrite (sliced_pick y oy ny) by lia.
  assert (Lx' : length (firstn k (skipn (rcols r - k) x)) = k) by (apply pick_len; lia).
  assert (Ly' : length (firstn ny (skipn oy y)) = ny) by (apply pick_len; lia).
  destruct (some_lowest _ (len_some _ _ Lx' ltac:(lia))) as [v1 ->]. destruct (some_highest _ (len_some _ _ Lx' ltac:(lia))) as [v2 ->].
  destruct (some_lowest _ (len_some _ _ Ly' ltac:(lia))) as [v3 ->]. destruct (some_highest _ (len_some _ _ Ly' ltac:(lia))) as [v4 ->].
  cbn [bind].
  assert (W : window r (- Z.of_nat k) (Z.of_nat oy) (xs + 1) (Z.of_nat ny) = None).
  { unfold window, inside_image. replace (0 <=? - Z.of_nat k)%Z with false by (symmetry; apply Z.leb_gt; lia). reflexivity. }
  rewrite W, Hn. destruct (rbands r) as [|band bands]; [congruence|].
  eexists; split; [reflexivity|]. cbn [idata ix option_map]. split; [reflexivity|]. split; [exact Lx'|].
  intros i Hi. rewrite pick_nth by exact Hi. unfold x. rewrite centres_nth by lia. reflexivity.
Qed.
Print Assumptions C73_west_refuted.
(** an image of four columns asked for from two columns west of it *)
Example C73_west_case : exists im, from_geotiff (Raster 4 2 (Transform 0 1 0 (-1)) [band] None "WGS84") (Some (Bounds (-2) 6 (-1) 0)) = Ok im /\
  idata im = None /\ ix im <> [] /\ nth 0 (ix im) 0 = 5 / 2.
Proof.
  set (r := Raster 4 2 (Transform 0 1 0 (-1)) [band] None "WGS84").
  assert (P : proper r). { split; [cbn; lia|]. split; [cbn; lia|]. split; [discriminate|]. intros p [<-|[]]; apply band_rect. }
  destruct (C73_west_refuted r (Bounds (-2) 6 (-1) 0) 2 0 2 P) as (im & E & Ed & El & Ex); unfold r; cbn [rcols rrows rnodata rgt left_x pixel_x top_y pixel_y bxmin bxmax bymin bymax].
  - split; cbn; lra.
  - reflexivity.
  - lia.
  - cbn [INR]; split; lra.
  - cbn [INR]; lra.
  - unfold counts; cbn [INR]. replace (- -1) with 1 by ring. repeat split; try lra; lia.
  - lia.
  - exists im. split; [exact E|]. split; [exact Ed|]. split; [intros K; rewrite K in El; discriminate|]. rewrite Ex by lia. unfold centre_x, r; cbn. lra.
Qed.
