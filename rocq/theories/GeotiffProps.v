(** C73: what is read from a geotiff image, whole and within bounds. *)
From Coq Require Import Reals String List Bool Arith ZArith Lra Lia.
From Verif Require Import PyBase RBase MathModel GeoModel ConvertProps ExtractSpec ExtractProofs GeotiffModel GeotiffSpec.
Import ListNotations.
Open Scope R_scope.

(** ** Lists *)
Lemma pick_nth {A} (d : A) : forall o n i l, (i < n)%nat -> nth i (firstn n (skipn o l)) d = nth (o + i) l d.
Proof.
  induction o as [|o IH]; intros n i l Hi.
  - cbn [skipn Nat.add]. revert n l Hi. induction i as [|i IH]; intros n l Hi; (destruct n as [|n]; [lia|]); destruct l as [|a l]; try reflexivity. cbn. apply IH. lia.
  - destruct l as [|a l]; [rewrite skipn_nil, firstn_nil; destruct i, o; reflexivity|]. cbn [skipn Nat.add nth]. now apply IH.
Qed.
Lemma pick_len {A} (l : list A) o n : (o + n <= length l)%nat -> length (firstn n (skipn o l)) = n.
Proof. intros H. rewrite firstn_length, skipn_length. lia. Qed.
Lemma in_firstn {A} (a : A) : forall n l, In a (firstn n l) -> In a l.
Proof. induction n as [|n IH]; intros [|b l] H; try destruct H as [<-|H]; cbn in *; auto; contradiction. Qed.
Lemma in_skipn {A} (a : A) : forall n l, In a (skipn n l) -> In a l.
Proof. induction n as [|n IH]; intros [|b l] H; cbn in *; auto. Qed.
Lemma pick_rect {A} ny nx (m : list (list A)) o n p k : rect ny nx m -> (o + n <= ny)%nat -> (p + k <= nx)%nat ->
  rect n k (map (fun row => firstn k (skipn p row)) (firstn n (skipn o m))).
Proof.
  intros (Lm & Lr) Ho Hp. split; [rewrite map_length; apply pick_len; lia|]. intros r Hr. apply in_map_iff in Hr as (row & <- & Hr). apply pick_len. rewrite (Lr row); [lia|]. now apply in_skipn in Hr || (apply in_firstn in Hr; now apply in_skipn in Hr).
Qed.
Lemma nth_map' {A B} (f : A -> B) l i d e : (i < length l)%nat -> nth i (map f l) e = f (nth i l d).
Proof. revert i. induction l as [|a l IH]; intros i Hi; [cbn in Hi; lia|]. destruct i; [reflexivity|]. cbn in *. apply IH. lia. Qed.
Lemma pick_entry {A} (d : A) ny nx m o n p k j i : rect ny nx m -> (o + n <= ny)%nat -> (p + k <= nx)%nat -> (j < n)%nat -> (i < k)%nat ->
  entry d (map (fun row => firstn k (skipn p row)) (firstn n (skipn o m))) j i = entry d m (o + j) (p + i).
Proof.
  intros (Lm & Lr) Ho Hp Hj Hi. unfold entry. rewrite (nth_map' _ _ j [] []) by (rewrite pick_len; lia). rewrite pick_nth by auto. now rewrite pick_nth.
Qed.
Lemma nth_some {A} (l : list A) i d : (i < length l)%nat -> nth_error l i = Some (nth i l d).
Proof. intros H. apply nth_error_nth'. exact H. Qed.

(** ** Coordinates *)
Lemma centres_len x0 dx n : length (centres x0 dx n) = n.
Proof. unfold centres. now rewrite map_length, seq_length. Qed.
Lemma centres_nth x0 dx n i : (i < n)%nat -> nth i (centres x0 dx n) 0 = x0 + (INR i + 1 / 2) * dx.
Proof. intros H. unfold centres. rewrite (nth_map' _ _ i O 0) by now rewrite seq_length. rewrite seq_nth by auto. cbn [Nat.add]. lra. Qed.
Lemma sliced_pick {A} (l : list A) o n : (o + n <= length l)%nat -> sliced l (Z.of_nat o) (Z.of_nat o + Z.of_nat n) = firstn n (skipn o l).
Proof.
  intros H. unfold sliced, position. rewrite (proj2 (Z.ltb_ge (Z.of_nat o) 0)), (proj2 (Z.ltb_ge (Z.of_nat o + Z.of_nat n)%Z 0)) by lia.
  rewrite !Nat.min_l by lia. rewrite Nat2Z.id. f_equal. lia.
Qed.
Lemma fold_min : forall l a m, (m = a \/ In m l) -> m <= a -> (forall b, In b l -> m <= b) -> fold_left Rmin l a = m.
Proof.
  induction l as [|b l IH]; intros a m H Ha Hl; cbn [fold_left]. { destruct H as [->|[]]. reflexivity. }
  apply IH; [|apply Rmin_glb; [exact Ha|apply Hl; now left]|intros; apply Hl; now right].
  destruct H as [->|[->|H]]; [left|left|now right]; unfold Rmin; destruct (Rle_dec _ _); try reflexivity; [pose proof (Hl b (or_introl eq_refl)); lra|lra].
Qed.
Lemma fold_max : forall l a m, (m = a \/ In m l) -> a <= m -> (forall b, In b l -> b <= m) -> fold_left Rmax l a = m.
Proof.
  induction l as [|b l IH]; intros a m H Ha Hl; cbn [fold_left]. { destruct H as [->|[]]. reflexivity. }
  apply IH; [|apply Rmax_lub; [exact Ha|apply Hl; now left]|intros; apply Hl; now right].
  destruct H as [->|[->|H]]; [left|left|now right]; unfold Rmax; destruct (Rle_dec _ _); try reflexivity; [pose proof (Hl b (or_introl eq_refl)); lra|lra].
Qed.
Lemma lowest_is l i : (i < length l)%nat -> (forall k, (k < length l)%nat -> nth i l 0 <= nth k l 0) -> lowest l = Ok (nth i l 0).
Proof.
  intros Hi H. destruct l as [|a l]; [cbn in Hi; lia|]. cbn [lowest]. f_equal. apply fold_min.
  - destruct i as [|i]; [now left|]. right. cbn. apply nth_In. cbn in Hi. lia.
  - apply (H O). cbn. lia.
  - intros b Hb. apply (In_nth _ _ 0) in Hb as (k & Hk & <-). apply (H (S k)). cbn. lia.
Qed.
Lemma highest_is l i : (i < length l)%nat -> (forall k, (k < length l)%nat -> nth k l 0 <= nth i l 0) -> highest l = Ok (nth i l 0).
Proof.
  intros Hi H. destruct l as [|a l]; [cbn in Hi; lia|]. cbn [highest]. f_equal. apply fold_max.
  - destruct i as [|i]; [now left|]. right. cbn. apply nth_In. cbn in Hi. lia.
  - apply (H O). cbn. lia.
  - intros b Hb. apply (In_nth _ _ 0) in Hb as (k & Hk & <-). apply (H (S k)). cbn. lia.
Qed.
Lemma trunc_of v n : INR n <= v < INR n + 1 -> rtrunc v = Z.of_nat n.
Proof. intros H. pose proof (pos_INR n). unfold rtrunc. rewrite rlt_f by lra. apply rfloor_unique. rewrite <- INR_IZR_INZ. exact H. Qed.

(** ** Arrays *)
Definition shown (f : R -> cell) (bands : list (list (list R))) : arr :=
  match bands with [b] => A2 (map (map f) b) | _ => A3 (map (map (map f)) bands) end.
Lemma shown_open bands : as_array bands = shown (fun v => (v, false)) bands.
Proof. unfold as_array, shown. reflexivity. Qed.
Lemma map3 {A B C} (f : A -> B) (g : B -> C) (l : list (list (list A))) : map (map (map g)) (map (map (map f)) l) = map (map (map (fun a => g (f a)))) l.
Proof. rewrite map_map. apply map_ext. intros a. rewrite map_map. apply map_ext. intros b. now rewrite map_map. Qed.
Lemma shown_masked v bands : masked_by v (as_array bands) = shown (fun u => (u, req u v)) bands.
Proof.
  unfold as_array, shown. destruct bands as [|b [|c l]]; cbn [masked_by]; [reflexivity| |].
  - f_equal. rewrite map_map. apply map_ext. intros a. now rewrite map_map.
  - f_equal. apply map3.
Qed.
Lemma shown_pixel f bands ny nx b j i : (forall p, In p bands -> rect ny nx p) -> bands <> [] ->
  sized (shown f bands) (length bands) ny nx /\
  ((b < length bands)%nat -> (j < ny)%nat -> (i < nx)%nat -> pixel (shown f bands) b j i (f (entry 0 (nth b bands []) j i))).
Proof.
  intros Hr Hne.
  assert (Rm : forall p, rect ny nx p -> rect ny nx (map (map f) p)).
  { intros p (L & H). split; [now rewrite map_length|]. intros r Hi. apply in_map_iff in Hi as (r' & <- & Hi). rewrite map_length. auto. }
  assert (Px : forall p, rect ny nx p -> (j < ny)%nat -> (i < nx)%nat -> exists row, nth_error (map (map f) p) j = Some row /\ nth_error row i = Some (f (entry 0 p j i))).
  { intros p (L & H) Hj Hi. exists (map f (nth j p [])). assert (Lr : length (nth j p []) = nx) by (apply H, nth_In; lia). split.
    - rewrite (nth_some _ _ (map f [])) by (rewrite map_length; lia). now rewrite (map_nth (map f)).
    - unfold entry. rewrite (nth_some _ _ (f 0)) by (rewrite map_length; lia). now rewrite map_nth. }
  destruct bands as [|p [|q l]]; [congruence| |].
  - cbn [shown length]. split; [constructor; apply Rm, Hr; now left|]. intros Hb Hj Hi. destruct b as [|b]; [|lia]. cbn [nth]. destruct (Px p (Hr p (or_introl eq_refl)) Hj Hi) as (row & E1 & E2). now apply (Pixel2 _ _ _ row).
  - change (shown f (p :: q :: l)) with (A3 (map (map (map f)) (p :: q :: l))). set (bs := p :: q :: l) in *. split.
    + constructor; [cbn; lia|apply map_length|]. intros s Hs. apply in_map_iff in Hs as (s' & <- & Hs). apply Rm, Hr, Hs.
    + intros Hb Hj Hi. destruct (Px (nth b bs []) (Hr _ (nth_In _ _ Hb)) Hj Hi) as (row & E1 & E2). apply (Pixel3 _ _ _ _ (map (map f) (nth b bs [])) row); auto.
      rewrite (nth_some _ _ (map (map f) [])) by now rewrite map_length. now rewrite (map_nth (map (map f))).
Qed.

(** ** What is shown of some of the pixels *)
Lemma image_of r bands :
  match rnodata r with
  | Some v => if req v 0 then Some (as_array bands) else Some (masked_by v (as_array bands))
  | None => Some (as_array bands)
  end = Some (shown (fun u => (u, match rnodata r with Some v => if req v 0 then false else req u v | None => false end)) bands).
Proof. destruct (rnodata r) as [v|]; [|now rewrite shown_open]. destruct (req v 0); [now rewrite shown_open|now rewrite shown_masked]. Qed.
Lemma flag_of (nd : option R) (u : R) : match nd with Some v => if req v 0 then false else req u v | None => false end = true <-> missing nd u.
Proof.
  unfold missing. destruct nd as [v|]; [|split; [discriminate|intros [K _]; discriminate]]. destruct (Req_dec v 0) as [->|K].
  - rewrite req_t by reflexivity. split; [discriminate|]. intros [Q1 Q2]. congruence.
  - rewrite req_f by auto. destruct (Req_dec u v) as [->|Q]; [rewrite req_t by reflexivity; tauto|]. rewrite req_f by auto. split; [discriminate|]. intros [Q1 _]. congruence.
Qed.

Definition the_image (r : raster) (ox oy nx ny : nat) : image :=
  Image (firstn nx (skipn ox (centres (left_x (rgt r)) (pixel_x (rgt r)) (rcols r)))) (firstn ny (skipn oy (centres (top_y (rgt r)) (pixel_y (rgt r)) (rrows r))))
    (Some (shown (fun u => (u, match rnodata r with Some v => if req v 0 then false else req u v | None => false end))
      (map (fun band => map (fun row => firstn nx (skipn ox row)) (firstn ny (skipn oy band))) (rbands r))))
    (Bounds (west_edge r ox) (west_edge r (ox + nx - 1)) (north_edge r (oy + ny - 1)) (north_edge r oy))
    (pixel_x (rgt r), pixel_y (rgt r)) (map (fun _ => 0) (rbands r)) (match rnodata r with Some v => if req v 0 then None else Some v | None => None end) (rwkt r).
Lemma image_shows r ox oy nx ny : proper r -> (1 <= nx)%nat -> (1 <= ny)%nat -> (ox + nx <= rcols r)%nat -> (oy + ny <= rrows r)%nat ->
  shows r ox oy nx ny (the_image r ox oy nx ny).
Proof.
  intros (Pc & Pr & Pn & Pb) Hnx Hny Hox Hoy. unfold shows, the_image. cbn [ix iy idata iextent ispacing itime iwkt ifill].
  set (f := fun u : R => (u, match rnodata r with Some v => if req v 0 then false else req u v | None => false end)). remember (map (fun band => map _ _) (rbands r)) as bands eqn:Eb.
  split; [apply pick_len; rewrite centres_len; lia|]. split; [apply pick_len; rewrite centres_len; lia|].
  split; [intros i Hi; rewrite pick_nth by auto; rewrite centres_nth by lia; reflexivity|]. split; [intros j Hj; rewrite pick_nth by auto; rewrite centres_nth by lia; reflexivity|].
  assert (Lb : length bands = length (rbands r)) by (rewrite Eb; apply map_length).
  assert (Rb : forall p, In p bands -> rect ny nx p). { intros p Hp. rewrite Eb in Hp. apply in_map_iff in Hp as (q & <- & Hq). apply (pick_rect (rrows r) (rcols r)); auto. }
  assert (Nb : bands <> []) by (intros K; rewrite K in Lb; destruct (rbands r); [congruence|discriminate]).
  split.
  { exists (shown f bands). split; [reflexivity|]. rewrite <- Lb. split; [apply (shown_pixel f bands ny nx 0 0 0 Rb Nb)|].
    intros b j i Hb Hj Hi. exists (f (entry 0 (nth b bands []) j i)). split; [now apply (shown_pixel f bands ny nx b j i Rb Nb)|]. split; [|apply flag_of]. cbn [fst f].
    unfold value. rewrite Eb. rewrite (nth_map' _ _ b [] []) by lia. apply (pick_entry 0 (rrows r) (rcols r)); auto. apply Pb, nth_In. lia. }
  split; [reflexivity|]. split; [reflexivity|]. split; [clear; induction (rbands r) as [|a l IH]; [reflexivity|]; cbn; now rewrite IH|]. split; [reflexivity|].
  intros v. unfold missing. destruct (rnodata r) as [w|]; [|split; [discriminate|intros [K _]; discriminate]]. destruct (Req_dec w 0) as [->|K].
  - rewrite req_t by reflexivity. split; [discriminate|]. intros [Q1 Q2]. congruence.
  - rewrite req_f by auto. split; [intros Q; injection Q as ->; auto|tauto].
Qed.
Lemma whole_eq r : proper r -> from_geotiff r None = Ok (the_image r 0 0 (rcols r) (rrows r)).
Proof.
  intros (Pc & Pr & Pn & Pb). unfold from_geotiff, the_image. cbv zeta. cbn [bind skipn].
  rewrite !(firstn_all2 (centres _ _ _)) by (rewrite centres_len; lia).
  replace (map (fun band => map _ _) (rbands r)) with (rbands r).
  2:{ rewrite <- (map_id (rbands r)) at 1. apply map_ext_in. intros b Hb. destruct (Pb b Hb) as [L1 L2]. rewrite firstn_all2 by lia. rewrite <- (map_id b) at 1. apply map_ext_in. intros row Hr. rewrite firstn_all2 by (rewrite (L2 row Hr); lia). reflexivity. }
  replace (Bounds (west_edge r 0) _ _ _) with (Bounds (left_x (rgt r)) (left_x (rgt r) + (INR (rcols r) - 1) * pixel_x (rgt r)) (top_y (rgt r) + (INR (rrows r) - 1) * pixel_y (rgt r)) (top_y (rgt r))).
  2:{ unfold west_edge, north_edge. cbn [Nat.add]. rewrite !minus_INR by lia. cbn [INR]. f_equal; lra. }
  pose proof (image_of r (rbands r)) as K. destruct (rbands r) as [|b0 bs] eqn:Eb; [congruence|]. cbn [option_map]. destruct (rnodata r) as [v|]; [destruct (req v 0)|]; congruence.
Qed.
Lemma bounds_eq r b ox oy nx ny : proper r -> north_up r ->
  counts ((bxmin b - left_x (rgt r)) / pixel_x (rgt r)) ((bxmax b - bxmin b) / pixel_x (rgt r)) ox nx ->
  counts ((top_y (rgt r) - bymax b) / - pixel_y (rgt r)) ((bymax b - bymin b) / - pixel_y (rgt r)) oy ny ->
  ((ox + nx <= rcols r)%nat /\ (oy + ny <= rrows r)%nat -> from_geotiff r (Some b) = Ok (the_image r ox oy nx ny)) /\
  (~ ((ox + nx <= rcols r)%nat /\ (oy + ny <= rrows r)%nat) -> forall im, from_geotiff r (Some b) = Ok im -> idata im = None).
Proof.
  intros P (Ux & Uy) (C1 & Hnx & C2) (C3 & Hny & C4). pose proof P as (Pc & Pr & Pn & Pb).
  unfold from_geotiff. cbv zeta. rewrite !req_f by lra. cbn [orb]. rewrite (Rabs_left _ Uy).
  rewrite (trunc_of _ ox C1), (trunc_of _ oy C3). rewrite (trunc_of ((bxmax b - bxmin b) / _) (nx - 1)), (trunc_of ((bymax b - bymin b) / _) (ny - 1)) by (rewrite minus_INR by lia; cbn [INR]; lra).
  replace (Z.of_nat (nx - 1) + 1)%Z with (Z.of_nat nx) by lia. replace (Z.of_nat (ny - 1) + 1)%Z with (Z.of_nat ny) by lia. split.
  - intros (Hox & Hoy). unfold the_image.
    set (xs := firstn nx (skipn ox (centres (left_x (rgt r)) (pixel_x (rgt r)) (rcols r)))). set (ys := firstn ny (skipn oy (centres (top_y (rgt r)) (pixel_y (rgt r)) (rrows r)))).
    set (bands := map (fun band => map (fun row => firstn nx (skipn ox row)) (firstn ny (skipn oy band))) (rbands r)).
    rewrite !sliced_pick by (rewrite centres_len; lia). fold xs ys.
    assert (Lx : length xs = nx) by (apply pick_len; rewrite centres_len; lia). assert (Ly : length ys = ny) by (apply pick_len; rewrite centres_len; lia).
    assert (Ex : forall i, (i < nx)%nat -> nth i xs 0 = left_x (rgt r) + (INR (ox + i) + 1 / 2) * pixel_x (rgt r)) by (intros; unfold xs; rewrite pick_nth by auto; apply centres_nth; lia).
    assert (Ey : forall i, (i < ny)%nat -> nth i ys 0 = top_y (rgt r) + (INR (oy + i) + 1 / 2) * pixel_y (rgt r)) by (intros; unfold ys; rewrite pick_nth by auto; apply centres_nth; lia).
    assert (Mx : forall i k, (i <= k < nx)%nat -> nth i xs 0 <= nth k xs 0). { intros i k Hk. rewrite !Ex by lia. assert (INR (ox + i) <= INR (ox + k)) by (apply le_INR; lia). nra. }
    assert (My : forall i k, (i <= k < ny)%nat -> nth k ys 0 <= nth i ys 0). { intros i k Hk. rewrite !Ey by lia. assert (INR (oy + i) <= INR (oy + k)) by (apply le_INR; lia). nra. }
    rewrite (lowest_is xs 0) by (rewrite Lx; intros; try apply Mx; lia). rewrite (highest_is xs (nx - 1)) by (rewrite Lx; intros; try apply Mx; lia).
    rewrite (lowest_is ys (ny - 1)) by (rewrite Ly; intros; try apply My; lia). rewrite (highest_is ys 0) by (rewrite Ly; intros; try apply My; lia). cbn [bind].
    assert (Ew : window r (Z.of_nat ox) (Z.of_nat oy) (Z.of_nat nx) (Z.of_nat ny) = Some bands).
    { unfold window, inside_image. rewrite !(proj2 (Z.leb_le _ _)) by lia. cbn [andb]. rewrite !Nat2Z.id. reflexivity. }
    rewrite Ew. cbn [option_map].
    replace (Bounds (nth 0 xs 0 - _) _ _ _) with (Bounds (west_edge r ox) (west_edge r (ox + nx - 1)) (north_edge r (oy + ny - 1)) (north_edge r oy)).
    2:{ unfold west_edge, north_edge. rewrite !Ex, !Ey by lia. replace (ox + 0)%nat with ox by lia. replace (oy + 0)%nat with oy by lia. replace (ox + (nx - 1))%nat with (ox + nx - 1)%nat by lia. replace (oy + (ny - 1))%nat with (oy + ny - 1)%nat by lia. f_equal; lra. }
    pose proof (image_of r bands) as K. destruct (rbands r) as [|b0 bs] eqn:Eb; [congruence|]. destruct (rnodata r) as [v|]; [destruct (req v 0)|]; congruence.
  - intros Ho im H.
    destruct (lowest (sliced (centres (left_x (rgt r)) _ _) _ _)); [|discriminate]. destruct (highest (sliced (centres (left_x (rgt r)) _ _) _ _)); [|discriminate].
    destruct (lowest (sliced (centres (top_y (rgt r)) _ _) _ _)); [|discriminate]. destruct (highest (sliced (centres (top_y (rgt r)) _ _) _ _)); [|discriminate]. cbn [bind] in H.
    assert (Ew : window r (Z.of_nat ox) (Z.of_nat oy) (Z.of_nat nx) (Z.of_nat ny) = None).
    { unfold window, inside_image. destruct (Z.of_nat ox + Z.of_nat nx <=? Z.of_nat (rcols r))%Z eqn:E1; [|now rewrite !andb_false_r]. destruct (Z.of_nat oy + Z.of_nat ny <=? Z.of_nat (rrows r))%Z eqn:E2; [|now rewrite !andb_false_r].
      exfalso. apply Ho. apply Z.leb_le in E1, E2. lia. }
    rewrite Ew in H. destruct (rbands r); [discriminate|]. destruct (rnodata r) as [v|]; [destruct (req v 0); [|discriminate]|]; apply Ok_inj in H as <-; reflexivity.
Qed.

(** ** The whole image *)
Theorem C73_read : forall r, proper r -> exists im, from_geotiff r None = Ok im /\ shows r 0 0 (rcols r) (rrows r) im.
Proof. intros r P. exists (the_image r 0 0 (rcols r) (rrows r)). split; [now apply whole_eq|]. pose proof P as (Pc & Pr & _). now apply image_shows. Qed.
Print Assumptions C73_read.

(** ** Within bounds: data and coordinates of the same pixels *)
Theorem C73_bounds : forall r b ox oy nx ny, proper r -> north_up r ->
  counts ((bxmin b - left_x (rgt r)) / pixel_x (rgt r)) ((bxmax b - bxmin b) / pixel_x (rgt r)) ox nx ->
  counts ((top_y (rgt r) - bymax b) / - pixel_y (rgt r)) ((bymax b - bymin b) / - pixel_y (rgt r)) oy ny ->
  (ox + nx <= rcols r)%nat -> (oy + ny <= rrows r)%nat ->
  exists im, from_geotiff r (Some b) = Ok im /\ shows r ox oy nx ny im.
Proof.
  intros r b ox oy nx ny P U C1 C2 Hox Hoy. exists (the_image r ox oy nx ny). split; [now apply (bounds_eq r b ox oy nx ny P U C1 C2)|]. apply image_shows; auto; [apply C1|apply C2].
Qed.
Print Assumptions C73_bounds.

(** bounds within the image ask for some number of pixels *)
Lemma counted u w : 0 <= u -> 0 <= w -> exists o n, counts u w o n.
Proof.
  intros Hu Hw. pose proof (rfloor_bounds u) as B1. pose proof (rfloor_bounds w) as B2. exists (Z.to_nat (rfloor u)), (S (Z.to_nat (rfloor w))).
  assert (0 <= rfloor u)%Z by (assert (-1 < rfloor u)%Z by (apply lt_IZR; lra); lia). assert (0 <= rfloor w)%Z by (assert (-1 < rfloor w)%Z by (apply lt_IZR; lra); lia).
  unfold counts. rewrite S_INR, !INR_IZR_INZ, !Z2Nat.id by auto. repeat split; try lra. lia.
Qed.
Lemma quotient a b : 0 < b -> 0 <= a -> 0 <= a / b.
Proof. intros. unfold Rdiv. apply Rmult_le_pos; [auto|]. left. now apply Rinv_0_lt_compat. Qed.
Lemma quotient_le a b c : 0 < b -> c <= a / b <-> c * b <= a.
Proof. intros H. assert (a = a / b * b) by (field; lra). split; intros; nra. Qed.
Lemma quotient_lt a b c : 0 < b -> a / b < c <-> a < c * b.
Proof. intros H. assert (a = a / b * b) by (field; lra). split; intros; nra. Qed.

(** ** What is read are pixels that the bounds touch, among them all that lie west of the
    eastern and north of the southern bound *)
Theorem C73_cover : forall r b im, proper r -> north_up r -> left_x (rgt r) <= bxmin b <= bxmax b -> bymin b <= bymax b <= top_y (rgt r) ->
  from_geotiff r (Some b) = Ok im -> idata im <> None ->
  exists ox oy nx ny, shows r ox oy nx ny im /\ (ox + nx <= rcols r)%nat /\ (oy + ny <= rrows r)%nat /\
    (forall i, (bxmin b < west_edge r (S i) -> west_edge r (S i) <= bxmax b -> (ox <= i < ox + nx)%nat) /\
               ((ox <= i < ox + nx)%nat -> bxmin b < west_edge r (S i) /\ west_edge r i <= bxmax b)) /\
    (forall j, (north_edge r (S j) < bymax b -> bymin b <= north_edge r (S j) -> (oy <= j < oy + ny)%nat) /\
               ((oy <= j < oy + ny)%nat -> north_edge r (S j) < bymax b /\ bymin b <= north_edge r j)).
Proof.
  intros r b im P U Bx By H Hd. pose proof U as (Ux & Uy).
  destruct (counted ((bxmin b - left_x (rgt r)) / pixel_x (rgt r)) ((bxmax b - bxmin b) / pixel_x (rgt r))) as (ox & nx & C1); [apply quotient; lra|apply quotient; lra|].
  destruct (counted ((top_y (rgt r) - bymax b) / - pixel_y (rgt r)) ((bymax b - bymin b) / - pixel_y (rgt r))) as (oy & ny & C2); [apply quotient; lra|apply quotient; lra|].
  destruct (bounds_eq r b ox oy nx ny P U C1 C2) as [E1 E2].
  assert (Hin : (ox + nx <= rcols r)%nat /\ (oy + ny <= rrows r)%nat). { destruct (le_dec (ox + nx) (rcols r)) as [L1|L1]; [destruct (le_dec (oy + ny) (rrows r)) as [L2|L2]; [auto|]|]; exfalso; apply Hd, E2; auto; lia. }
  rewrite (E1 Hin) in H. apply Ok_inj in H as <-. exists ox, oy, nx, ny. destruct C1 as ([A1 A2] & Hnx & A3 & A4). destruct C2 as ([B1 B2] & Hny & B3 & B4). destruct Hin as [Hox Hoy].
  split; [now apply image_shows|]. split; [exact Hox|]. split; [exact Hoy|].
  apply quotient_le in A1, A3; [|lra|lra]. apply quotient_lt in A2, A4; [|lra|lra]. apply quotient_le in B1, B3; [|lra|lra]. apply quotient_lt in B2, B4; [|lra|lra].
  unfold west_edge, north_edge. split; intros i; rewrite S_INR; (split; [intros K1 K2|intros [K1 K2]]).
  - split.
    + assert (INR ox < INR (S i)) as Q by (rewrite S_INR; apply (Rmult_lt_reg_r (pixel_x (rgt r))); lra). apply INR_lt in Q. lia.
    + apply INR_lt. rewrite plus_INR. apply (Rmult_lt_reg_r (pixel_x (rgt r))); lra.
  - apply le_INR in K1. apply Nat.le_succ_l, le_INR in K2. rewrite S_INR, plus_INR in K2. apply (Rmult_le_compat_r (pixel_x (rgt r))) in K1, K2; [|lra|lra]. split; lra.
  - split.
    + assert (INR oy < INR (S i)) as Q by (rewrite S_INR; apply (Rmult_lt_reg_r (- pixel_y (rgt r))); lra). apply INR_lt in Q. lia.
    + apply INR_lt. rewrite plus_INR. apply (Rmult_lt_reg_r (- pixel_y (rgt r))); lra.
  - apply le_INR in K1. apply Nat.le_succ_l, le_INR in K2. rewrite S_INR, plus_INR in K2. apply (Rmult_le_compat_r (- pixel_y (rgt r))) in K1, K2; [|lra|lra]. split; lra.
Qed.
Print Assumptions C73_cover.

(** ** Bounds that reach beyond the pixels: no data.  So with the edges of the image. *)
Theorem C73_beyond_refuted : forall r b ox oy nx ny, proper r -> north_up r ->
  counts ((bxmin b - left_x (rgt r)) / pixel_x (rgt r)) ((bxmax b - bxmin b) / pixel_x (rgt r)) ox nx ->
  counts ((top_y (rgt r) - bymax b) / - pixel_y (rgt r)) ((bymax b - bymin b) / - pixel_y (rgt r)) oy ny ->
  (rcols r < ox + nx)%nat \/ (rrows r < oy + ny)%nat -> forall im, from_geotiff r (Some b) = Ok im -> idata im = None.
Proof. intros r b ox oy nx ny P U C1 C2 H. apply (bounds_eq r b ox oy nx ny P U C1 C2). lia. Qed.
Theorem C73_edges_refuted : forall r im, proper r -> north_up r ->
  from_geotiff r (Some (Bounds (west_edge r 0) (west_edge r (rcols r)) (north_edge r (rrows r)) (north_edge r 0))) = Ok im -> idata im = None.
Proof.
  intros r im P U. pose proof U as (Ux & Uy). apply (C73_beyond_refuted r _ 0 0 (S (rcols r)) (S (rrows r)) P U); [| |lia]; unfold counts, west_edge, north_edge; cbn [bxmin bxmax bymin bymax]; rewrite !S_INR; change (INR 0) with 0.
  - replace ((left_x (rgt r) + 0 * pixel_x (rgt r) - left_x (rgt r)) / pixel_x (rgt r)) with 0 by (field; lra). replace ((left_x (rgt r) + INR (rcols r) * pixel_x (rgt r) - (left_x (rgt r) + 0 * pixel_x (rgt r))) / pixel_x (rgt r)) with (INR (rcols r)) by (field; lra). repeat split; try lra. lia.
  - replace ((top_y (rgt r) - (top_y (rgt r) + 0 * pixel_y (rgt r))) / - pixel_y (rgt r)) with 0 by (field; lra). replace ((top_y (rgt r) + 0 * pixel_y (rgt r) - (top_y (rgt r) + INR (rrows r) * pixel_y (rgt r))) / - pixel_y (rgt r)) with (INR (rrows r)) by (field; lra). repeat split; try lra. lia.
Qed.
Print Assumptions C73_beyond_refuted.
Print Assumptions C73_edges_refuted.

(** ** With the extent that was returned the same image is returned, whole or not *)
Theorem C73_extent : forall r b im, proper r -> north_up r ->
  (forall b', b = Some b' -> left_x (rgt r) <= bxmin b' <= bxmax b' /\ bymin b' <= bymax b' <= top_y (rgt r)) ->
  from_geotiff r b = Ok im -> idata im <> None -> from_geotiff r (Some (iextent im)) = Ok im.
Proof.
  intros r b im P U Hb H Hd. pose proof U as (Ux & Uy). pose proof P as (Pc & Pr & _).
  assert (Q : forall ox oy nx ny, (1 <= nx)%nat -> (1 <= ny)%nat -> (ox + nx <= rcols r)%nat /\ (oy + ny <= rrows r)%nat -> from_geotiff r (Some (iextent (the_image r ox oy nx ny))) = Ok (the_image r ox oy nx ny)).
  { intros ox oy nx ny Hnx Hny. apply bounds_eq; auto; cbn [iextent the_image bxmin bxmax bymin bymax]; unfold counts, west_edge, north_edge; rewrite !minus_INR, !plus_INR by lia; cbn [INR].
    - replace ((left_x (rgt r) + INR ox * pixel_x (rgt r) - left_x (rgt r)) / pixel_x (rgt r)) with (INR ox) by (field; lra).
      replace ((left_x (rgt r) + (INR ox + INR nx - 1) * pixel_x (rgt r) - (left_x (rgt r) + INR ox * pixel_x (rgt r))) / pixel_x (rgt r)) with (INR nx - 1) by (field; lra). repeat split; try lra. exact Hnx.
    - replace ((top_y (rgt r) - (top_y (rgt r) + INR oy * pixel_y (rgt r))) / - pixel_y (rgt r)) with (INR oy) by (field; lra).
      replace ((top_y (rgt r) + INR oy * pixel_y (rgt r) - (top_y (rgt r) + (INR oy + INR ny - 1) * pixel_y (rgt r))) / - pixel_y (rgt r)) with (INR ny - 1) by (field; lra). repeat split; try lra. exact Hny. }
  destruct b as [b|].
  - destruct (Hb b eq_refl) as [Bx By].
    destruct (counted ((bxmin b - left_x (rgt r)) / pixel_x (rgt r)) ((bxmax b - bxmin b) / pixel_x (rgt r))) as (ox & nx & C1); [apply quotient; lra|apply quotient; lra|].
    destruct (counted ((top_y (rgt r) - bymax b) / - pixel_y (rgt r)) ((bymax b - bymin b) / - pixel_y (rgt r))) as (oy & ny & C2); [apply quotient; lra|apply quotient; lra|].
    destruct (bounds_eq r b ox oy nx ny P U C1 C2) as [E1 E2].
    assert (Hin : (ox + nx <= rcols r)%nat /\ (oy + ny <= rrows r)%nat). { destruct (le_dec (ox + nx) (rcols r)) as [L1|L1]; [destruct (le_dec (oy + ny) (rrows r)) as [L2|L2]; [auto|]|]; exfalso; apply Hd, E2; auto; lia. }
    rewrite (E1 Hin) in H. apply Ok_inj in H as <-. apply Q; [apply C1|apply C2|exact Hin].
  - rewrite (whole_eq r P) in H. apply Ok_inj in H as <-. apply Q; auto.
Qed.
Print Assumptions C73_extent.
