(** Lemmas for C84. *)
From Coq Require Import Reals List Bool Arith ZArith Lra Lia.
From Verif Require Import PyBase RBase MathModel GeoModel ConvertProps GridModel GridProofs InterpModel InterpProps ExtrapProps ExtractModel ExtractSpec NodeProps ExtractProofs ExtractProps SplineProps ReturnProps MergeSpec MergeProps SeriesModel SeriesSpec SeriesProofs SeriesProps SeriesProps2 SeriesProps3 RegularModel RegularSpec RegularProofs RegularProps RegularProps2 CropModel CropSpec CropProofs CropProofs2 CropProps CropProps2 CropProps3 CropProps4 ShoreModel ShoreSpec.
From Verif Require ComputeProps2.
Import ListNotations.
Open Scope R_scope.

(** ** Distances *)
Definition vec_of (t : R * R * R) : vec := Vec (fst (fst t)) (snd (fst t)) (snd t).
Lemma on_globe_turns x y t : on_globe (x + 360 * IZR t, y) = on_globe (x, y).
Proof.
  unfold on_globe. cbn [fst snd]. replace ((x + 360 * IZR t) * (PI / 180)) with (x * (PI / 180) + 2 * IZR t * PI) by lra.
  destruct (ComputeProps2.turn (x * (PI / 180)) t) as [-> ->]. reflexivity.
Qed.
Lemma ecc_square : ecc1 wgs84_km ^ 2 = wgs84_e2.
Proof.
  unfold ecc1, lin_ecc, wgs84_km. cbn [ax fl]. unfold wgs84_e2. set (f := 1 / 298.257223563). assert (0 < f < 1) by (unfold f; lra).
  unfold Rdiv. rewrite Rpow_mult_distr, <- Rsqr_pow2. rewrite Rsqr_sqrt by nra. field; try lra.
Qed.
Lemma on_ellipsoid_globe p : on_ellipsoid p = vec_of (on_globe p).
Proof.
  destruct p as [x y]. transitivity (vec_of (on_globe (if Rlt_dec x 0 then x + 360 else x, y))).
  - unfold on_ellipsoid, to_cartesian, on_globe, vec_of, prime_vertical. cbn [fst snd]. rewrite ecc_square. change (ax wgs84_km) with wgs84_a. unfold AstroModel.dtr.
    f_equal; ring.
  - destruct (Rlt_dec x 0); [|reflexivity]. f_equal. rewrite <- (on_globe_turns x y 1). do 2 f_equal. ring.
Qed.
Lemma chord_dist p q : dist3 (on_ellipsoid p) (on_ellipsoid q) = chord p q.
Proof. rewrite !on_ellipsoid_globe. unfold chord, dist3, vec_of. destruct (on_globe p) as [[a b] c], (on_globe q) as [[a' b'] c']. reflexivity. Qed.
Lemma chord_turns x y t q : chord (x + 360 * IZR t, y) q = chord (x, y) q.
Proof. unfold chord. now rewrite on_globe_turns. Qed.
Lemma chord_turns_node x y t q : chord q (x + 360 * IZR t, y) = chord q (x, y).
Proof. unfold chord. now rewrite on_globe_turns. Qed.

(** ** The tree *)
Lemma closest_in {V} q (l : list (vec * V)) n : closest q l = Some n -> In n l /\ forall m, In m l -> dist3 q (fst n) <= dist3 q (fst m).
Proof.
  revert n. induction l as [|a l IH]; intros n; cbn [closest]; [discriminate|].
  destruct (closest q l) as [m|] eqn:E.
  - destruct (IH m eq_refl) as [I L]. unfold rlt. destruct (Rlt_dec _ _) as [D|D]; intros K; injection K as <-.
    + split; [now right|]. intros k [<-|K]; [lra | auto].
    + split; [now left|]. intros k [<-|K]; [lra|]. specialize (L k K). lra.
  - intros K. injection K as <-. destruct l; [|cbn in E; destruct (closest q l); [destruct (rlt _ _)|]; discriminate].
    split; [now left|]. intros k [<-|[]]. lra.
Qed.
Lemma closest_none {V} q (l : list (vec * V)) : closest q l = None -> l = [].
Proof. destruct l; auto. cbn. destruct (closest q l); [destruct (rlt _ _)|]; discriminate. Qed.
Definition cutoff_ok (c : bound) : Prop := match c with Some c => 0 <= c | None => True end.
Lemma ask_spec (c : bound) nodes queries q : cutoff_ok c -> In q queries ->
  let near := filter (fun n => sound (snd n) && in_bounds coords3 c queries (fst n)) nodes in
  ((exists n, In n nodes /\ sound (snd n) = true /\ below (dist3 q (fst n)) c) ->
     exists n, ask c q near = Some n /\ In n nodes /\ sound (snd n) = true /\ below (dist3 q (fst n)) c /\
       forall m, In m nodes -> sound (snd m) = true -> below (dist3 q (fst m)) c -> dist3 q (fst n) <= dist3 q (fst m)) /\
  (~ (exists n, In n nodes /\ sound (snd n) = true /\ below (dist3 q (fst n)) c) -> ask c q near = None).
Proof.
  intros Hc Iq near.
  assert (Near : forall n, In n near -> In n nodes /\ sound (snd n) = true) by (intros n H; apply filter_In in H as [H K]; apply andb_true_iff in K as [K _]; auto).
  assert (Near' : forall n, In n nodes -> sound (snd n) = true -> below (dist3 q (fst n)) c -> In n near).
  { intros n H V B. apply filter_In. split; auto. apply andb_true_iff. split; auto. eapply (in_bounds_near dist3 coords3 coord_le3); eauto. }
  unfold ask. split.
  - intros (n & I & Vn & B). pose proof (Near' n I Vn B) as In_n.
    destruct (closest q near) as [m|] eqn:E; [|apply closest_none in E; rewrite E in In_n; contradiction].
    apply closest_in in E as [Im Lm]. specialize (Lm n In_n) as Ln.
    assert (Bm : below (dist3 q (fst m)) c) by (destruct c; cbn in *; auto; lra).
    apply within_iff in Bm as Bm'. rewrite Bm'. exists m. destruct (Near m Im) as [Xm Ym]. split; [reflexivity|]. split; [exact Xm|]. split; [exact Ym|]. split; [exact Bm|]. auto.
  - intros N. destruct (closest q near) as [m|] eqn:E; auto. destruct (InterpModel.within _ _) eqn:W; auto.
    exfalso. apply N. apply closest_in in E as [Im _]. exists m. destruct (Near m Im). apply within_iff in W. auto.
Qed.
Lemma nodes_of_in s n ny nl : length (slat s) = ny -> length (slon s) = nl -> rect ny nl (shc s) ->
  (In n (nodes_of s) <-> exists k j, (k < nl)%nat /\ (j < ny)%nat /\ n = (on_ellipsoid (nth k (slon s) 0, nth j (slat s) 0), entry (None, true) (shc s) j k)).
Proof.
  intros L1 L2 [Rl Rr]. unfold nodes_of. rewrite in_flat_map. split.
  - intros ([y r] & Hr & Hn). cbn [fst snd] in Hn. apply in_map_iff in Hn as ([x c] & <- & Hc). cbn [fst snd].
    apply (in_combine_nth (slat s) (shc s) 0 []) in Hr as (j & Hj & -> & ->); [|lia].
    apply (in_combine_nth _ _ 0 (None, true)) in Hc as (i & Hi & -> & ->).
    + exists i, j. unfold entry. repeat split; auto; lia.
    + rewrite Rr; auto. apply nth_In. lia.
  - intros (i & j & Hi & Hj & ->). exists (nth j (slat s) 0, nth j (shc s) []). split.
    + apply (in_combine_nth (slat s) (shc s) 0 []); [lia|]. exists j. repeat split; auto; lia.
    + cbn [fst snd]. apply in_map_iff. exists (nth i (slon s) 0, nth i (nth j (shc s) []) (None, true)). split; [reflexivity|].
      apply (in_combine_nth _ _ 0 (None, true)); [|exists i; repeat split; auto; lia]. rewrite Rr; auto. apply nth_In. lia.
Qed.

(** ** The masked points one by one *)
Lemma put_nth (f : R * R -> gcell cpx) hs : forall pts n q h b, length pts = length hs -> nth_error pts n = Some q -> nth_error hs n = Some (h, b) ->
  nth_error (put hs (map f (map fst (filter snd (combine pts (map snd hs)))))) n = Some (if b then (f q, snd (f q)) else (h, false)).
Proof.
  induction hs as [|[h' b'] hs IH]; intros [|q' pts] n q h b L Hn Hh; try (destruct n; discriminate). cbn [length] in L. injection L as L.
  destruct b'; cbn [put map combine filter fst snd].
  - destruct n as [|n]; cbn [nth_error] in *; [injection Hn as ->; injection Hh as -> <-; reflexivity|]. now apply IH.
  - destruct n as [|n]; cbn [nth_error] in *; [injection Hn as ->; injection Hh as -> <-; reflexivity|]. now apply IH.
Qed.
Lemma put_length hs : forall new, length (put hs new) = length hs.
Proof. induction hs as [|[h []] hs IH]; intros new; cbn [put length]; auto. destruct new; cbn [length]; now rewrite IH. Qed.
Lemma fill_in_length c e pts hs : length (fill_in c e pts hs) = length hs.
Proof. unfold fill_in. destruct (existsb snd hs); auto. apply put_length. Qed.
Lemma fill_in_nth c e pts hs n q h b : length pts = length hs -> nth_error pts n = Some q -> nth_error hs n = Some (h, b) ->
  exists near queries, near = filter (fun n => sound (snd n) && in_bounds coords3 c queries (fst n)) (nodes_of e) /\ (b = true -> In (on_ellipsoid q) queries) /\
  nth_error (fill_in c e pts hs) n = Some (if b then match ask c (on_ellipsoid q) near with Some n => ((fst (snd n), false), false) | None => ((None, true), true) end else (h, false)).
Proof.
  intros L Hn Hh. set (asked := map fst (filter snd (combine pts (map snd hs)))).
  exists (filter (fun n => sound (snd n) && in_bounds coords3 c (map on_ellipsoid asked) (fst n)) (nodes_of e)), (map on_ellipsoid asked). split; [reflexivity|]. split.
  - intros ->. apply in_map. unfold asked. apply in_map_iff. exists (q, true). split; auto. apply filter_In. split; auto.
    clear asked. revert pts n L Hn Hh. induction hs as [|[h' b'] hs IH]; intros [|q' pts] n L Hn Hh; try (destruct n; discriminate). cbn [length] in L. injection L as L.
    destruct n as [|n]; cbn [nth_error] in *; [injection Hn as ->; injection Hh as -> ->; now left|]. right. eapply IH; eauto.
  - unfold fill_in. destruct (existsb snd hs) eqn:E.
    + unfold extrapolated. fold asked. rewrite map_map.
      match goal with |- context [map ?g asked] => pose proof (put_nth g hs pts n q h b L Hn Hh) as P end. fold asked in P. cbv beta in P. etransitivity; [exact P|]. destruct b; [|reflexivity]. destruct (ask _ _ _); reflexivity.
    + destruct b; [|now rewrite Hh]. exfalso. apply nth_error_In in Hh. assert (K : existsb snd hs = true) by (apply existsb_exists; exists (h, true); auto). congruence.
Qed.

(** ** One file *)
Definition answer (c : bound) (q : R * R) (near : list (vec * gcell cpx)) : gcell cpx * bool :=
  match ask c (on_ellipsoid q) near with Some n => ((fst (snd n), false), false) | None => ((None, true), true) end.
Lemma mapM_fst_snd {A B C D} (f : A -> res B) (g : A -> res C) (k : B -> C -> D) l :
  mapM (fun q => do a <- f q ;; do b <- g q ;; Ok (k a b)) l = do ps <- mapM (fun q => do a <- f q ;; do b <- g q ;; Ok (a, b)) l ;; Ok (map (fun p => k (fst p) (snd p)) ps).
Proof.
  induction l as [|q l IH]; [reflexivity|]. cbn [mapM]. destruct (f q) as [a|]; [|reflexivity]. cbn [bind]. destruct (g q) as [b|]; [|reflexivity]. cbn [bind]. rewrite IH.
  destruct (mapM (fun q => do a <- f q ;; do b <- g q ;; Ok (a, b)) l) as [ps|]; reflexivity.
Qed.
Lemma file_values_none src w sc e pts : file_values src w sc None e pts = mapM (sheet_value src w sc e) pts.
Proof.
  unfold file_values. rewrite (mapM_fst_snd (outside_sheet src (slon e) (slat e)) (interpolated src w e) (fun inv h => (inv, (h, hidden w h)))).
  transitivity (mapM (fun q => do inv <- outside_sheet src (slon e) (slat e) q ;; do h <- interpolated src w e q ;; Ok (finished sc inv (h, hidden w h))) pts).
  - rewrite (mapM_fst_snd (outside_sheet src (slon e) (slat e)) (interpolated src w e) (fun inv h => finished sc inv (h, hidden w h))).
    destruct (mapM _ pts) as [ps|]; [|reflexivity]. cbn [bind]. f_equal. rewrite !map_map. cbn [fst snd].
    induction ps as [|[inv h] ps IH]; [reflexivity|]. cbn [map combine fst snd]. now f_equal.
  - f_equal. destruct w as [[]|me]; reflexivity.
Qed.
Lemma file_values_len src w sc ex e pts cs : file_values src w sc ex e pts = Ok cs -> length cs = length pts.
Proof.
  unfold file_values. destruct (mapM _ pts) as [hs|] eqn:E; [|discriminate]. cbn [bind]. intros H. apply Ok_inj in H as <-. apply mapM_len in E.
  destruct ex; rewrite map_length, combine_length, ?fill_in_length, !map_length; lia.
Qed.
Lemma file_values_err src w sc ex e pts x : file_values src w sc ex e pts = Err x <-> mapM (sheet_value src w sc e) pts = Err x.
Proof.
  rewrite <- file_values_none. unfold file_values. destruct (mapM _ pts) as [hs|]; cbn [bind]; split; intros H; try discriminate; auto.
Qed.
Lemma file_values_nth src w sc c e pts cs n q : file_values src w sc (Some c) e pts = Ok cs -> nth_error pts n = Some q ->
  exists inv h near queries, outside_sheet src (slon e) (slat e) q = Ok inv /\ interpolated src w e q = Ok h /\
    near = filter (fun n => sound (snd n) && in_bounds coords3 c queries (fst n)) (nodes_of e) /\ (hidden w h = true -> In (on_ellipsoid q) queries) /\
    nth_error cs n = Some (finished sc inv (if hidden w h then answer c q near else (h, false))).
Proof.
  unfold file_values. destruct (mapM _ pts) as [hs|] eqn:E; [|discriminate]. cbn [bind]. intros H Hn. apply Ok_inj in H as <-.
  destruct (mapM_nth _ _ _ n q E Hn) as ([inv [h b]] & R2 & R1). apply mapM_len in E.
  destruct (outside_sheet src (slon e) (slat e) q) as [i'|]; [|discriminate]. cbn [bind] in R2. destruct (interpolated src w e q) as [h'|]; [|discriminate]. cbn [bind] in R2.
  apply Ok_inj in R2. injection R2 as -> -> <-.
  destruct (fill_in_nth c e pts (map snd hs) n q h (hidden w h)) as (near & queries & En & Iq & F); [rewrite map_length; lia | auto | |].
  { apply (map_nth_error snd) in R1. exact R1. }
  exists inv, h, near, queries. repeat (split; [auto|]). apply (map_nth_error fst) in R1. cbn [fst] in R1.
  assert (K : forall A B (l1 : list A) (l2 : list B) n a b, nth_error l1 n = Some a -> nth_error l2 n = Some b -> nth_error (combine l1 l2) n = Some (a, b)).
  { clear. induction l1 as [|a l1 IH]; intros [|b l2] [|n] a' b' H1 H2; try discriminate; cbn in *; [congruence | auto]. }
  pose proof (K _ _ _ _ _ _ _ R1 F) as Kc. apply (map_nth_error (fun p => finished sc (fst p) (snd p))) in Kc. cbn [fst snd] in Kc. exact Kc.
Qed.

(** ** The constants of the nodes *)
Definition all_numbers (hc : list (list (gcell cpx))) : Prop := forall r c, In r hc -> In c r -> fst c <> None.
Lemma gget2_number hc iy ix c : all_numbers hc -> gget2 hc iy ix = Ok c -> fst c <> None.
Proof.
  intros N H. unfold gget2, get1 in H. destruct (nth_error hc iy) as [r|] eqn:E1; [|discriminate]. cbn [bind] in H.
  destruct (nth_error r ix) as [c'|] eqn:E2; [|discriminate]. apply Ok_inj in H as <-. apply (N r c'); eapply nth_error_In; eauto.
Qed.
Lemma cspline_number lon lat hc q h : all_numbers hc -> cspline lon lat hc q = Ok h -> fst h <> None.
Proof.
  intros N. unfold cspline, gspline_point. destruct (negb _); [discriminate|].
  destruct (amin lon); [|discriminate]. destruct (amax lon); [|discriminate]. destruct (amin lat); [|discriminate]. destruct (amax lat); [|discriminate]. cbn [bind].
  destruct (get1 lon _); [|discriminate]. destruct (get1 lon _); [|discriminate]. destruct (get1 lat _); [|discriminate]. destruct (get1 lat _); [|discriminate]. cbn [bind].
  match goal with |- bind (gget2 ?a ?b ?c) _ = _ -> _ => destruct (gget2 a b c) as [c00|] eqn:E0; [|discriminate] end. cbn [bind].
  apply (gget2_number _ _ _ _ N) in E0. destruct c00 as [[c00|] m0]; [|now contradiction E0]. clear E0.
  match goal with |- bind (gget2 ?a ?b ?c) _ = _ -> _ => destruct (gget2 a b c) as [c01|] eqn:E1; [|discriminate] end. cbn [bind].
  apply (gget2_number _ _ _ _ N) in E1. destruct c01 as [[c01|] m1]; [|now contradiction E1]. clear E1.
  match goal with |- bind (gget2 ?a ?b ?c) _ = _ -> _ => destruct (gget2 a b c) as [c10|] eqn:E2; [|discriminate] end. cbn [bind].
  apply (gget2_number _ _ _ _ N) in E2. destruct c10 as [[c10|] m2]; [|now contradiction E2]. clear E2.
  match goal with |- bind (gget2 ?a ?b ?c) _ = _ -> _ => destruct (gget2 a b c) as [c11|] eqn:E3; [|discriminate] end. cbn [bind].
  apply (gget2_number _ _ _ _ N) in E3. destruct c11 as [[c11|] m3]; [|now contradiction E3]. clear E3.
  intros H. apply Ok_inj in H as <-. cbn [forallb fst andb]. discriminate.
Qed.
Lemma interpolated_number src w e q h : w = Quick Bilinear \/ all_numbers (shc e) -> interpolated src w e q = Ok h -> hidden w h = false -> fst h <> None.
Proof.
  intros N H V. destruct w as [[|]|me]; cbn [interpolated hidden] in *.
  - apply orb_false_iff in V as [_ V]. unfold is_nan in V. destruct (fst h); congruence.
  - destruct N as [N|N]; [discriminate|]. eapply cspline_number; eauto.
  - destruct N as [N|N]; [discriminate|]. apply orb_false_iff in V as [V _]. unfold cregular, gregular_point in H. destruct (negb _); [discriminate|].
    destruct (outside_axes _ _ q) as [out|]; [|discriminate]. cbn [bind] in H. destruct me; [| |discriminate].
    + destruct out; [apply Ok_inj in H as <-; discriminate|]. eapply cspline_number; eauto.
    + destruct out; [apply Ok_inj in H as <-; discriminate|]. destruct (MaskModel.nearer _ _); [|discriminate]. destruct (MaskModel.nearer _ _); [|discriminate]. cbn [bind] in H.
      eapply gget2_number; eauto.
Qed.
Section Grown.
  Variables (src : series) (around : bool) (x0 dx y0 dy : R) (nx ny : nat) (t e : sheet).
  Hypothesis G : grown src around x0 dx nx y0 dy ny t e.
  Hypothesis Round : around = true -> INR nx * dx = 360.
  Lemma grown_cell j k : (j < ny)%nat -> (k < bef around + nx + aft src around)%nat ->
    let i := (Z.of_nat k - Z.of_nat (bef around))%Z in
    entry (None, true) (shc e) j k = entry (None, true) (shc t) j (column nx i) /\ (column nx i < nx)%nat /\
    exists r, nth k (slon e) 0 = x0 + INR (column nx i) * dx + 360 * IZR r.
  Proof.
    destruct G as (Gx & Gy & Nx & Ny & Re & Ne). intros Hj Hk i.
    assert (W : within (bef around) (aft src around) nx i) by (unfold within, i; lia). specialize (Ne j i Hj W).
    replace (ec (bef around) i) with k in Ne by (unfold ec, i; lia). split; [exact Ne|].
    split; [unfold column; pose proof (Z.mod_pos_bound i (Z.of_nat nx)); lia|].
    destruct Gx as (Hd & Lx & Ex). rewrite Ex by lia.
    exists (i / Z.of_nat nx)%Z. unfold column. pose proof (Z.mod_pos_bound i (Z.of_nat nx)) as B. rewrite (INR_IZR_INZ (Z.to_nat _)), Z2Nat.id by lia.
    pose proof (Z.div_mod i (Z.of_nat nx)) as Dm.
    assert (E : IZR i = INR nx * IZR (i / Z.of_nat nx) + IZR (i mod Z.of_nat nx)) by (rewrite INR_IZR_INZ, <- mult_IZR, <- plus_IZR; f_equal; lia).
    assert (Ei : IZR i = INR k - INR (bef around)) by (unfold i; rewrite minus_IZR, <- !INR_IZR_INZ; reflexivity).
    destruct around eqn:A.
    - rewrite <- (Round eq_refl). replace (INR k) with (IZR i + INR (bef true)) by lra. rewrite E. ring.
    - unfold bef, aft in *. assert (Hi : (0 <= i < Z.of_nat nx)%Z) by (unfold i; lia). rewrite Z.div_small, Z.mod_small in * by lia. rewrite Ei. cbn [INR]. lra.
  Qed.
  Lemma grown_node j i : (j < ny)%nat -> (i < nx)%nat -> exists k, (k < bef around + nx + aft src around)%nat /\ nth k (slon e) 0 = x0 + INR i * dx /\ nth j (slat e) 0 = y0 + INR j * dy /\
    entry (None, true) (shc e) j k = entry (None, true) (shc t) j i.
  Proof.
    destruct G as (Gx & Gy & Nx & Ny & Re & Ne). intros Hj Hi. exists (bef around + i)%nat. split; [lia|].
    destruct Gx as (Hd & Lx & Ex). rewrite Ex by lia. destruct Gy as (Hd' & Ly & Ey). rewrite Ey by lia. rewrite plus_INR. split; [ring|]. split; [reflexivity|].
    assert (W : within (bef around) (aft src around) nx (Z.of_nat i)) by (unfold within; lia). specialize (Ne j _ Hj W).
    replace (ec (bef around) (Z.of_nat i)) with (bef around + i)%nat in Ne by (unfold ec; lia). rewrite Ne. f_equal. unfold column. rewrite Z.mod_small by lia. lia.
  Qed.
  Lemma grown_numbers : numbers ny nx t -> all_numbers (shc e).
  Proof.
    intros N r c Hr Hc. pose proof G as (Gx & Gy & Nx & Ny & [Rl Rr] & Ne).
    apply (In_nth _ _ []) in Hr as (j & Hj & Er). specialize (Rr r). assert (Ir : In r (shc e)) by (rewrite <- Er; now apply nth_In). specialize (Rr Ir).
    apply (In_nth _ _ (None, true)) in Hc as (k & Hk & Ek). assert (Hk' : (k < bef around + nx + aft src around)%nat) by exact (eq_ind _ (fun n => (k < n)%nat) Hk _ Rr). assert (Hj' : (j < ny)%nat) by exact (eq_ind _ (fun n => (j < n)%nat) Hj _ Rl). destruct (grown_cell j k Hj' Hk') as (Ec & Lt & _).
    assert (Ecell : entry (None, true) (shc e) j k = c) by exact (eq_trans (f_equal (fun r => nth k r (None, true)) Er) Ek).
    pose proof (N j _ Hj' Lt) as Nc. intros F. apply Nc. rewrite <- Ec, Ecell. exact F.
  Qed.
  Lemma sound_valid c : sound c = true <-> valid c <> None.
  Proof. unfold sound, valid. destruct c as [[z|] []]; cbn; split; congruence. Qed.
  Lemma answer_spec (c : bound) q queries near : cutoff_ok c -> In (on_ellipsoid q) queries ->
    near = filter (fun n => sound (snd n) && in_bounds coords3 c queries (fst n)) (nodes_of e) ->
    let z := fun j i => valid (entry (None, true) (shc t) j i) in
    (exists j i, nearest_valid c x0 dx nx y0 dy ny z q j i /\ answer c q near = ((z j i, false), false)) \/
    (~ (exists j i, nearby c x0 dx nx y0 dy ny z q j i)) /\ answer c q near = ((None, true), true).
  Proof.
    intros Hc Iq -> z. pose proof G as (Gx & Gy & Nx & Ny & Re & Ne). assert (Lx : length (slon e) = (bef around + nx + aft src around)%nat) by apply Gx. assert (Ly : length (slat e) = ny) by apply Gy.
    pose proof (fun m => nodes_of_in e m ny _ Ly Lx Re) as In_e.
    assert (A : forall m, In m (nodes_of e) -> sound (snd m) = true -> exists j i, (j < ny)%nat /\ (i < nx)%nat /\ z j i = fst (snd m) /\ z j i <> None /\ dist3 (on_ellipsoid q) (fst m) = chord q (node_at x0 dx y0 dy j i)).
    { intros m Hm Sm. apply In_e in Hm as (k & j & Hk & Hj & ->). cbn [fst snd] in *. destruct (grown_cell j k Hj Hk) as (Ec & Lt & r & Er).
      exists j, (column nx (Z.of_nat k - Z.of_nat (bef around))). split; [auto|]. split; [auto|]. unfold z. rewrite <- Ec. pose proof Sm as Sv. apply sound_valid in Sv. split; [|split; [auto|]].
      - unfold sound in Sm. unfold valid. destruct (snd _); [discriminate | reflexivity].
      - rewrite chord_dist, Er. rewrite chord_turns_node. unfold node_at. do 2 f_equal. destruct Gy as (_ & _ & Ey). apply Ey; auto. }
    assert (B : forall j i, (j < ny)%nat -> (i < nx)%nat -> z j i <> None -> exists m, In m (nodes_of e) /\ sound (snd m) = true /\ dist3 (on_ellipsoid q) (fst m) = chord q (node_at x0 dx y0 dy j i)).
    { intros j i Hj Hi Z0. destruct (grown_node j i Hj Hi) as (k & Hk & Ek & Ej & Ee). exists (on_ellipsoid (nth k (slon e) 0, nth j (slat e) 0), entry (None, true) (shc e) j k).
      split; [apply In_e; exists k, j; auto|]. cbn [fst snd]. split; [apply sound_valid; rewrite Ee; exact Z0|]. rewrite chord_dist, Ek, Ej. reflexivity. }
    assert (Bc : forall d, below d c <-> nearer_than c d) by (intros d; destruct c; reflexivity).
    destruct (ask_spec c (nodes_of e) queries (on_ellipsoid q) Hc Iq) as [Yes No]. unfold answer.
    set (near := filter _ _) in *. destruct (ask c (on_ellipsoid q) near) as [m|] eqn:Ea.
    - left. assert (D : exists n, In n (nodes_of e) /\ sound (snd n) = true /\ below (dist3 (on_ellipsoid q) (fst n)) c).
      { unfold ask in Ea. destruct (closest (on_ellipsoid q) near) as [m'|] eqn:Em; [|discriminate]. destruct (InterpModel.within _ _) eqn:Ew; [|discriminate].
        apply closest_in in Em as [Im _]. apply filter_In in Im as [Im Sm]. apply andb_true_iff in Sm as [Sm _]. apply within_iff in Ew. exists m'. auto. }
      destruct (Yes D) as (m' & Em & Im & Sm & Bm & Lm). injection Em as <-. destruct (A m Im Sm) as (j & i & Hj & Hi & Ez & Z0 & Ed).
      exists j, i. rewrite Ez. split; [|reflexivity]. split.
      + split; [auto|]. split; [auto|]. split; [auto|]. apply Bc. now rewrite <- Ed.
      + intros j' i' (Hj' & Hi' & Z' & N'). destruct (B j' i' Hj' Hi' Z') as (m' & Im' & Sm' & Ed'). rewrite <- Ed, <- Ed'. apply Lm; auto. apply Bc. now rewrite Ed'.
    - right. split; [|reflexivity]. intros (j & i & Hj & Hi & Z0 & N0). destruct (B j i Hj Hi Z0) as (m & Im & Sm & Ed).
      destruct Yes as (m' & Em & _); [|discriminate]. exists m. split; [auto|]. split; [auto|]. apply Bc. now rewrite Ed.
  Qed.
  (** a file with extrapolation compared to the same file without *)
  Lemma file_filled w sc (c : bound) pts cs n q : cutoff_ok c -> w = Quick Bilinear \/ numbers ny nx t ->
    file_values src w sc (Some c) e pts = Ok cs -> nth_error pts n = Some q ->
    exists inv r0 r, outside_sheet src (slon e) (slat e) q = Ok inv /\ sheet_value src w sc e q = Ok r0 /\ nth_error cs n = Some r /\
      (inv = true -> r0 = None /\ r = None) /\ (r0 <> None -> r = r0) /\
      let z := fun j i => valid (entry (None, true) (shc t) j i) in
      (inv = false -> r0 = None -> (exists j i, nearest_valid c x0 dx nx y0 dy ny z q j i /\ scaled sc (z j i) r) \/ (~ exists j i, nearby c x0 dx nx y0 dy ny z q j i) /\ r = None).
  Proof.
    intros Hc Nw H Hn. destruct (file_values_nth _ _ _ _ _ _ _ _ _ H Hn) as (inv & h & near & queries & Ei & Eh & En & Iq & Er).
    assert (Nn : hidden w h = false -> fst h <> None). { apply (interpolated_number src w e q h); auto. destruct Nw as [->|Nw]; [now left|]. right. now apply grown_numbers. }
    exists inv, (finished sc inv (h, hidden w h)), (finished sc inv (if hidden w h then answer c q near else (h, false))).
    split; [exact Ei|]. split.
    { unfold sheet_value. destruct w as [[]|me]; cbn [interpolated hidden] in *; [unfold sheet_constant | unfold sheet_constant | unfold sheet_regular]; rewrite Ei; cbn [bind]; cbn in Eh; rewrite Eh; reflexivity. }
    split; [exact Er|]. split. { intros ->. unfold finished. rewrite !orb_true_r. auto. }
    destruct (hidden w h) eqn:Hh.
    - split; [unfold finished; cbn [snd orb]; congruence|]. intros z -> _. destruct (answer_spec c q queries near Hc (Iq eq_refl) En) as [(j & i & Nv & ->) | [Nn' ->]].
      + left. exists j, i. split; [exact Nv|]. destruct Nv as [(_ & _ & Z0 & _) _]. unfold finished. cbn [fst snd orb]. fold (z j i). destruct (z j i) as [v|]; [|congruence].
        cbn [scaled]. exists (cabs v), (phase_of v). split; [apply phase_of_spec | reflexivity].
      + right. split; auto.
    - split; [reflexivity|]. intros z -> F. unfold finished in F. cbn [fst snd orb] in F. specialize (Nn eq_refl). destruct (fst h); congruence.
  Qed.
End Grown.
