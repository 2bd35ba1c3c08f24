(** Lemmas for C91. *)
From Coq Require Import Reals List Bool Arith ZArith Lra Lia.
From Verif Require Import PyBase RBase MathModel GeoModel ConvertProps GridModel InterpModel InterpProps ExtrapProps ExtractModel ExtractSpec NodeProps ExtractProofs ExtractProps SplineProps ReadProps ReturnProps SeriesModel RegularModel CropModel ShoreModel ShoreSpec ShoreProofs CoastModel CoastSpec CoastProofs CoastProps CoastProps2 FjordModel.
Import ListNotations.
Open Scope R_scope.

Lemma not_other (t : variable) k (X : Type) (u v : X) : kind_of t = Some k -> match t with Vother => u | _ => v end = v.
Proof. destruct t; try discriminate; reflexivity. Qed.

(** ** One constituent *)
Lemma values_again_nth geo w t ex xi yi hc pps cs n q inv D : values_again geo w t ex xi yi hc pps = Ok cs -> nth_error pps n = Some (q, (inv, D)) ->
  exists h, constant_of w xi yi (readied w hc) q = Ok h /\
    (ex = None -> nth_error cs n = Some (value_again t inv D (h, masked_again w D h))) /\
    forall c, ex = Some c -> exists near queries,
      near = filter (fun n => sound (snd n) && in_bounds (coords_of geo) c queries (fst n)) (mesh_of geo xi yi (drop_invalid (readied w hc))) /\ (masked_again w D h = true -> In (place geo q) queries) /\
      nth_error cs n = Some (value_again t inv D (if masked_again w D h then reply geo c q near else (h, false))).
Proof.
  unfold values_again. set (f := readied w hc). destruct (mapM _ pps) as [hs|] eqn:E; [|discriminate]. cbn [bind]. intros H Hn.
  assert (H' : map (fun p => value_again t (fst (snd (fst p))) (snd (snd (fst p))) (snd p)) (combine pps (match ex with Some c => fill_points geo c xi yi f (map fst pps) hs | None => hs end)) = cs) by (destruct t; try discriminate; now apply Ok_inj in H).
  clear H. subst cs.
  destruct (mapM_nth _ _ _ _ _ E Hn) as (r & R1 & R2). cbn [fst snd] in R1. destruct (constant_of w xi yi f q) as [h|]; [|discriminate]. cbn [bind] in R1. apply Ok_inj in R1 as <-.
  exists h. split; [reflexivity|]. apply mapM_len in E. split.
  - intros ->. pose proof (nth_error_combine _ _ _ _ _ Hn R2) as K. apply (map_nth_error (fun p => value_again t (fst (snd (fst p))) (snd (snd (fst p))) (snd p))) in K. exact K.
  - intros c ->. destruct (fill_points_nth geo c xi yi f (map fst pps) hs n q h (masked_again w D h)) as (near & queries & En & Iq & F); [rewrite map_length; lia | apply (map_nth_error fst) in Hn; exact Hn | exact R2 |].
    exists near, queries. split; [exact En|]. split; [exact Iq|].
    pose proof (nth_error_combine _ _ _ _ _ Hn F) as K. apply (map_nth_error (fun p => value_again t (fst (snd (fst p))) (snd (snd (fst p))) (snd p))) in K. exact K.
Qed.
Lemma values_again_len geo w t ex xi yi hc pps cs : values_again geo w t ex xi yi hc pps = Ok cs -> length cs = length pps.
Proof.
  unfold values_again. set (f := readied w hc). destruct (mapM _ pps) as [hs|] eqn:E; [|discriminate]. cbn [bind]. intros H. apply mapM_len in E.
  assert (H' : map (fun p => value_again t (fst (snd (fst p))) (snd (snd (fst p))) (snd p)) (combine pps (match ex with Some c => fill_points geo c xi yi f (map fst pps) hs | None => hs end)) = cs) by (destruct t; try discriminate; now apply Ok_inj in H).
  subst cs. destruct ex; rewrite map_length, combine_length, ?fill_points_length; lia.
Qed.
(** the option never makes a difference to errors *)
Lemma values_again_err geo w t ex xi yi hc pps x : values_again geo w t ex xi yi hc pps = Err x <-> values_again geo w t None xi yi hc pps = Err x.
Proof. unfold values_again. destruct (mapM _ pps); cbn [bind]; [|split; auto]. destruct t; split; intros H; try discriminate; auto. Qed.
(** point by point *)
Definition spot (w : way) (xi yi : list R) (t : variable) (p : (R * R) * (bool * gcell R)) (f : field) : res (option (R * R)) :=
  do h <- constant_of w xi yi (readied w f) (fst p) ;; Ok (value_again t (fst (snd p)) (snd (snd p)) (h, masked_again w (snd (snd p)) h)).
Lemma values_spots geo w t k xi yi f pps : kind_of t = Some k -> values_again geo w t None xi yi f pps = mapM (fun p => spot w xi yi t p f) pps.
Proof.
  intros Hk. unfold values_again. set (fr := readied w f).
  assert (E : forall (r : res (list (gcell cpx * bool))), (do hs <- r ;; match t with Vother => Err NameError | _ => Ok (map (fun p => value_again t (fst (snd (fst p))) (snd (snd (fst p))) (snd p)) (combine pps hs)) end)
     = do hs <- r ;; Ok (map (fun p => value_again t (fst (snd (fst p))) (snd (snd (fst p))) (snd p)) (combine pps hs))) by (intros [|]; cbn [bind]; auto; destruct t; try discriminate; reflexivity).
  rewrite E. clear E. induction pps as [|p pps IH]; [reflexivity|]. cbn [mapM]. unfold spot at 1. fold fr. destruct (constant_of w xi yi fr (fst p)) as [h|]; [|reflexivity]. cbn [bind].
  rewrite <- IH. destruct (mapM _ pps) as [hs|]; reflexivity.
Qed.

(** ** Depths that are not numbers *)
Lemma nan_depth xi yi ny nx b f q h : axis xi -> axis yi -> length xi = nx -> length yi = ny -> rect ny nx b -> rect ny nx f ->
  (forall j e, (j < ny)%nat -> (e < nx)%nat -> fst (entry (None, true) b j e) <> None) ->
  (forall j e, (j < ny)%nat -> (e < nx)%nat -> snd (entry (None, true) b j e) = true -> snd (entry (None, true) f j e) = true) ->
  rbilinear xi yi b q = Ok (None, false) -> cbilinear xi yi (drop_invalid f) q = Ok h -> fst h = None.
Proof.
  intros A1 A2 Lx Ly Rb Rf Fb Mf E2 Eh.
  assert (E1 : exists D1, extract_depth Bilinear xi yi b q = Ok D1).
  { destruct q as [lon lat]. unfold extract_depth. destruct (bilinear_served _ _ _ _ _ _ _ _ _ A1 A2 E2) as [Out|(i & j & C)].
    - unfold rbilinear. rewrite gpoint_outside by auto. cbn [bind]. eauto.
    - unfold rbilinear. rewrite (gpoint_eq 0 Rplus Rmult xi yi _ lon lat i j A1 A2); [cbn [bind]; eauto| |exact C]. rewrite Lx, Ly. now apply map_rect. }
  destruct E1 as [D1 E1].
  assert (C1 : exists r1, constant Bilinear xi yi Vz D1 false q f = Ok r1) by (unfold constant; rewrite Eh; cbn [bind]; eauto). destruct C1 as [r1 C1].
  assert (C2 : exists r2, constant_again Bilinear xi yi Vz (None, false) false q f = Ok r2) by (unfold constant_again; rewrite Eh; cbn [bind]; eauto). destruct C2 as [r2 C2].
  destruct (same_constant xi yi ny nx b f Vz false q D1 (None, false) r1 r2 A1 A2 Lx Ly Rb Rf Fb Mf E1 E2 C1 C2) as [Sn ->].
  assert (SD : snd D1 = true). { unfold seen in Sn. cbn [fst snd] in Sn. unfold extract_depth in E1. match type of E1 with bind ?m _ = _ => destruct m as [d|]; [|discriminate] end. cbn [bind] in E1. apply Ok_inj in E1 as <-. cbn [fst snd] in *. destruct (snd d); auto. cbn [orb] in *. unfold is_nan in *. destruct (fst d); auto; discriminate. }
  unfold constant in C1. rewrite Eh in C1. cbn [bind] in C1. apply Ok_inj in C1. rewrite SD, orb_true_r in C1. cbn [orb] in C1.
  unfold constant_again in C2. rewrite Eh in C2. cbn [bind snd] in C2. apply Ok_inj in C2. subst r2. rewrite !orb_false_r in C2. unfold is_nan in C2. destruct (fst h); [discriminate | reflexivity].
Qed.
(** a constant that is not masked has a depth that is a number and is a number itself *)
Lemma depth_number w xi yi ny nx b f q h D : axis xi -> axis yi -> length xi = nx -> length yi = ny -> rect ny nx b -> rect ny nx f ->
  all_of b -> (forall j e, (j < ny)%nat -> (e < nx)%nat -> fst (entry (None, true) b j e) <> None) ->
  (forall j e, (j < ny)%nat -> (e < nx)%nat -> snd (entry (None, true) b j e) = true -> snd (entry (None, true) f j e) = true) ->
  depth_again w xi yi b q = Ok D -> constant_of w xi yi (readied w f) q = Ok h -> masked_again w D h = false -> fst D <> None.
Proof.
  intros A1 A2 Lx Ly Rb Rf Ab Fb Mf HD Eh Mh. destruct w as [[|]|me]; cbn [depth_again constant_of readied masked_again interpolate_depth] in *.
  - apply orb_false_iff in Mh as [M1 M2]. intros Nd. destruct D as [d m]. cbn [fst snd] in *. subst d m.
    pose proof (nan_depth xi yi ny nx b f q h A1 A2 Lx Ly Rb Rf Fb Mf HD Eh) as Nh. unfold is_nan in M1. rewrite Nh in M1. discriminate.
  - exact (gspline_of _ _ _ _ _ _ _ _ Ab HD).
  - apply orb_false_iff in Mh as [M1 M2]. destruct (gregular_of _ _ _ _ _ _ _ _ _ Ab HD) as [G|[-> _]]; auto. discriminate.
Qed.
Lemma all_fill f : all_of f -> all_of (map (map fill_zero) f).
Proof.
  intros A r c Hr Hc. apply in_map_iff in Hr as (r0 & <- & Hr). apply in_map_iff in Hc as (c0 & <- & Hc). specialize (A r0 c0 Hr Hc).
  unfold fill_zero. destruct c0 as [[z|] []]; cbn [fst snd] in *; try congruence. destruct (czero z); discriminate.
Qed.
Lemma constant_number w xi yi f b q h D : w = Quick Bilinear \/ all_of f -> depth_again w xi yi b q = Ok D -> constant_of w xi yi (readied w f) q = Ok h -> masked_again w D h = false -> fst h <> None.
Proof.
  intros N HD H V. destruct w as [[|]|me]; cbn [depth_again constant_of readied masked_again interpolate_depth] in *.
  - apply orb_false_iff in V as [V _]. unfold is_nan in V. destruct (fst h); congruence.
  - destruct N as [N|N]; [discriminate|]. exact (gspline_of _ _ _ _ _ _ _ _ N H).
  - apply orb_false_iff in V as [V VD]. destruct N as [N|N]; [discriminate|]. destruct (gregular_of _ _ _ _ _ _ _ _ _ (all_fill _ N) H) as [G|[-> O]]; auto.
    rewrite (gregular_outside _ _ _ _ _ _ _ _ _ O HD) in VD. discriminate.
Qed.

(** ** The nodes the extrapolation looks at *)
(** zeros are the fill value for scipy's regular grids and left out otherwise *)
Definition refill (w : way) (c : gcell cpx) : gcell cpx :=
  match w with
  | Quick _ => c
  | Regular _ => (match fst c with Some z => if czero z then Some fill_number else Some z | None => None end, snd c)
  end.
Lemma drop_refill w c : drop_cell (match w with Quick Bilinear => drop_cell c | Quick Spline => c | Regular _ => fill_zero c end) = drop_cell (refill w c).
Proof.
  destruct c as [[z|] m], w as [[|]|me]; unfold drop_cell, fill_zero, refill; cbn [fst snd].
  - destruct (czero z) eqn:K, m; cbn [orb fst snd]; rewrite ?K; reflexivity.
  - reflexivity.
  - destruct m; cbn [fst snd]; rewrite ?orb_true_r; [destruct (czero z); now rewrite ?orb_true_r|]. destruct (czero z) eqn:K; reflexivity.
  - destruct m; reflexivity.
  - reflexivity.
  - destruct m; cbn [fst snd]; [|reflexivity]. now rewrite orb_true_r.
Qed.
Lemma nodes_refill w f : drop_invalid (readied w f) = drop_invalid (map (map (refill w)) f).
Proof.
  unfold drop_invalid. rewrite map_map. assert (E : forall r, map drop_cell (map (refill w) r) = map (fun c => drop_cell (refill w c)) r) by (intros; now rewrite map_map).
  destruct w as [[|]|me]; cbn [readied]; unfold drop_invalid; rewrite ?map_map; apply map_ext; intros r; rewrite E, ?map_map; apply map_ext; intros c.
  - exact (drop_refill (Quick Bilinear) c).
  - reflexivity.
  - exact (drop_refill (Regular me) c).
Qed.
