(** Grids with some columns repeated on either side, and the values interpolated from them. *)
From Coq Require Import Reals List Bool Arith ZArith Lra Lia.
From Verif Require Import PyBase RBase MathModel GeoModel ConvertProps GridModel InterpModel InterpProps ExtractModel ExtractSpec NodeProps ExtractProofs ExtractProps SplineProps.
Import ListNotations.
Open Scope R_scope.

(** column i of the original grid, in the longer one *)
Definition ec (bef : nat) (i : Z) : nat := Z.to_nat (i + Z.of_nat bef).
Definition within (bef aft nx : nat) (i : Z) : Prop := (- Z.of_nat bef <= i < Z.of_nat nx + Z.of_nat aft)%Z.

Section Stretched.
  Variables (bef aft nx ny : nat) (x0 dx y0 dy : R) (xi yi : list R).
  Hypothesis Hxi : evenly (x0 - INR bef * dx) dx (bef + nx + aft) xi.
  Hypothesis Hyi : evenly y0 dy ny yi.
  Hypothesis Hx : (2 <= nx)%nat.
  Hypothesis Hy : (2 <= ny)%nat.

  Lemma ec_lt i : within bef aft nx i -> (ec bef i < bef + nx + aft)%nat.
  Proof. clear. unfold within, ec. lia. Qed.
  Lemma ec_succ i : within bef aft nx i -> ec bef (i + 1) = S (ec bef i).
  Proof. clear. unfold within, ec. lia. Qed.
  Lemma ec_x i : within bef aft nx i -> nth (ec bef i) xi 0 = node_x Heights x0 dx i.
  Proof.
    clear Hyi Hx Hy. intros Hi. destruct Hxi as (_ & _ & E). rewrite E by now apply ec_lt. unfold ec, within, node_x in *.
    rewrite (INR_IZR_INZ (Z.to_nat _)), Z2Nat.id by lia. rewrite plus_IZR, (INR_IZR_INZ bef). ring.
  Qed.
  Lemma row_y j : (j < ny)%nat -> nth j yi 0 = node_y Heights y0 dy j.
  Proof. intros Hj. destruct Hyi as (_ & _ & E). now rewrite E by auto. Qed.
  Lemma st_axes : axis xi /\ axis yi.
  Proof. split; [apply (evenly_axis _ _ _ _ Hxi); lia|apply (evenly_axis _ _ _ _ Hyi); lia]. Qed.
  Lemma st_lengths : length xi = (bef + nx + aft)%nat /\ length yi = ny.
  Proof. split; [apply Hxi|apply Hyi]. Qed.
  Lemma st_cell x y i j : within bef aft nx i -> within bef aft nx (i + 1) -> (S j < ny)%nat -> between_nodes Heights x0 dx y0 dy x y i j ->
    in_cell xi yi (ec bef i) j x y /\ (near_corner xi yi (ec bef i) j x y <-> at_node Heights x0 dx y0 dy x y i j).
  Proof.
    intros Hi Hi1 Hj (Bx & By & Lo). pose proof (ec_lt _ Hi1) as L1. rewrite ec_succ in L1 by auto.
    pose proof (ec_x i Hi) as X0. pose proof (ec_x (i + 1) Hi1) as X1. rewrite ec_succ in X1 by auto.
    pose proof (row_y j ltac:(lia)) as Y0. pose proof (row_y (S j) ltac:(lia)) as Y1. pose proof (row_y 0 ltac:(lia)) as Y2.
    destruct st_lengths as [L2 L3]. split.
    - unfold in_cell. rewrite L2, L3, X0, X1, Y0, Y1, Y2. auto.
    - unfold near_corner, at_node. rewrite X0, X1, Y0, Y1. reflexivity.
  Qed.

  (** what remains of an interpolated cell *)
  Definition kept (h : gcell cpx) : option (R * R) := if snd h || is_nan h then None else fst h.
  Lemma kept_value h : kept h = value_of h.
  Proof. unfold kept, value_of, gusable, is_nan. destruct h as [[v|] []]; reflexivity. Qed.

  Section Field.
    Variables (fd : field) (val : nat -> nat -> option (R * R)).
    Hypothesis Rf : rect ny (bef + nx + aft) fd.

    Lemma st_off x y i j :
      (forall j i, (j < ny)%nat -> within bef aft nx i -> value_of (entry (None, true) fd j (ec bef i)) = val j (column nx i)) ->
      within bef aft nx i -> within bef aft nx (i + 1) -> (S j < ny)%nat ->
      between_nodes Heights x0 dx y0 dy x y i j -> ~ at_node Heights x0 dx y0 dy x y i j ->
      let z := corners Heights x0 dx y0 dy nx x y i j val in
      exists h, cbilinear xi yi fd (x, y) = Ok h /\ kept h = both (mean (part fst z)) (mean (part snd z)).
    Proof.
      intros Hv Hi Hi1 Hj B NA z. destruct (st_cell x y i j Hi Hi1 Hj B) as [C NC]. destruct st_axes as [A1 A2]. destruct st_lengths as [L1 L2].
      assert (NN : ~ near_corner xi yi (ec bef i) j x y) by now rewrite NC.
      destruct (bilinear_off (0, 0) cadd cscale xi yi fd x y (ec bef i) j A1 A2 ltac:(rewrite L1, L2; exact Rf) C NN) as (m & Em & Hm).
      change (gbilinear_point (0, 0) cadd cscale) with cbilinear in Em. eexists. split; [exact Em|]. clear Em.
      rewrite <- (ec_succ i Hi) in *. rewrite !ec_x, !row_y in * by (auto; lia).
      match type of Hm with _ -> gweighted _ _ _ ?l = None => set (cw := l) in * end.
      assert (Ep : pairs cw = z).
      { unfold pairs, cw, z, corners. cbn [map fst snd]. now rewrite !Hv by (auto; lia). }
      assert (E1 := gweighted_mean (0, 0) cadd cscale fst cw eq_refl ltac:(auto) ltac:(auto)).
      assert (E2 := gweighted_mean (0, 0) cadd cscale snd cw eq_refl ltac:(auto) ltac:(auto)).
      rewrite Ep in E1, E2. rewrite <- E1, <- E2. unfold kept, is_nan. cbn [fst snd].
      destruct (gweighted (0, 0) cadd cscale cw) as [v|]; [|now rewrite orb_true_r].
      destruct m; [specialize (Hm eq_refl); discriminate|]. cbn. now destruct v.
    Qed.

    Lemma st_node x y i j :
      (forall j i, (j < ny)%nat -> within bef aft nx i -> value_of (entry (None, true) fd j (ec bef i)) = val j (column nx i)) ->
      within bef aft nx i -> within bef aft nx (i + 1) -> (S j < ny)%nat ->
      between_nodes Heights x0 dx y0 dy x y i j -> at_node Heights x0 dx y0 dy x y i j ->
      exists h a b, cbilinear xi yi fd (x, y) = Ok h /\ (a = i \/ a = i + 1)%Z /\ (b = j \/ b = S j) /\
        ExtractSpec.close x (node_x Heights x0 dx a) /\ ExtractSpec.close y (node_y Heights y0 dy b) /\
        (x = node_x Heights x0 dx i -> y = node_y Heights y0 dy j -> a = i /\ b = j) /\ kept h = val b (column nx a).
    Proof.
      intros Hv Hi Hi1 Hj B NA. destruct (st_cell x y i j Hi Hi1 Hj B) as [C _]. destruct st_axes as [A1 A2]. destruct st_lengths as [L1 L2].
      pose proof (gpoint_eq (0, 0) cadd cscale xi yi fd x y (ec bef i) j A1 A2 ltac:(rewrite L1, L2; exact Rf) C) as G. cbv zeta in G.
      change (gbilinear_point (0, 0) cadd cscale) with cbilinear in G.
      rewrite <- (ec_succ i Hi) in G. rewrite !ec_x, !row_y in G by (auto; lia).
      destruct (isclose y (node_y Heights y0 dy j) && isclose x (node_x Heights x0 dx i)) eqn:T1.
      { apply andb_prop in T1 as [T1 T2]. eexists. exists i, j. split; [exact G|]. repeat (split; [solve [auto using isclose_close]|]). rewrite kept_value. apply Hv; auto; lia. }
      assert (N0 : x = node_x Heights x0 dx i -> y = node_y Heights y0 dy j -> False).
      { intros -> ->. now rewrite !isclose_refl in T1. }
      destruct (isclose y (node_y Heights y0 dy (S j)) && isclose x (node_x Heights x0 dx i)) eqn:T2.
      { apply andb_prop in T2 as [T2 T3]. eexists. exists i, (S j). split; [exact G|]. repeat (split; [solve [auto using isclose_close | intros K1 K2; now destruct (N0 K1 K2)]|]). rewrite kept_value. apply Hv; auto; lia. }
      destruct (isclose y (node_y Heights y0 dy j) && isclose x (node_x Heights x0 dx (i + 1))) eqn:T3.
      { apply andb_prop in T3 as [T3 T4]. eexists. exists (i + 1)%Z, j. split; [exact G|]. repeat (split; [solve [auto using isclose_close | intros K1 K2; now destruct (N0 K1 K2)]|]). rewrite kept_value. apply Hv; auto; lia. }
      destruct (isclose y (node_y Heights y0 dy (S j)) && isclose x (node_x Heights x0 dx (i + 1))) eqn:T4.
      { apply andb_prop in T4 as [T4 T5]. eexists. exists (i + 1)%Z, (S j). split; [exact G|]. repeat (split; [solve [auto using isclose_close | intros K1 K2; now destruct (N0 K1 K2)]|]). rewrite kept_value. apply Hv; auto; lia. }
      exfalso. destruct NA as [[Kx|Kx] [Ky|Ky]]; apply close_isclose in Kx; apply close_isclose in Ky; rewrite Kx, Ky in *; discriminate.
    Qed.

    Lemma st_outside x y : x < x0 - INR bef * dx \/ x0 + INR (nx + aft - 1) * dx < x \/ y <= y0 \/ y0 + INR (ny - 1) * dy <= y ->
      exists h, cbilinear xi yi fd (x, y) = Ok h /\ kept h = None.
    Proof.
      intros H. destruct st_axes as [A1 A2]. destruct st_lengths as [L1 L2]. exists (None, true). split; [|reflexivity].
      unfold cbilinear. apply gpoint_outside; auto. rewrite L1, L2. destruct Hxi as (_ & _ & Ex). destruct Hyi as (_ & _ & Ey). rewrite !Ex, !Ey by lia.
      replace (bef + nx + aft - 1)%nat with (bef + (nx + aft - 1))%nat by lia. rewrite plus_INR. cbn [INR]. lra.
    Qed.

    Lemma st_spline x y i j :
      (forall j i, (j < ny)%nat -> within bef aft nx i -> fst (entry (None, true) fd j (ec bef i)) <> None) ->
      (forall j i, (j < ny)%nat -> within bef aft nx i ->
         (if snd (entry (None, true) fd j (ec bef i)) then None else fst (entry (None, true) fd j (ec bef i))) = val j (column nx i)) ->
      within bef aft nx i -> within bef aft nx (i + 1) -> (S j < ny)%nat ->
      bracket (i + 1 = Z.of_nat (nx + aft) - 1)%Z (node_x Heights x0 dx i) (node_x Heights x0 dx (i + 1)) x ->
      bracket (S (S j) = ny) (node_y Heights y0 dy j) (node_y Heights y0 dy (S j)) y ->
      let z := corners Heights x0 dx y0 dy nx x y i j val in
      exists v m, cspline xi yi fd (x, y) = Ok (Some v, m) /\
        (complete z -> m = false /\ both (mean (part fst z)) (mean (part snd z)) = Some v) /\ (~ complete z -> m = true).
    Proof.
      intros Hn Hv Hi Hi1 Hj Bx By z. destruct st_axes as [A1 A2]. destruct st_lengths as [L1 L2].
      destruct (bracket_le _ _ _ _ Bx) as [Bx1 Bx2]. destruct (bracket_le _ _ _ _ By) as [By1 By2].
      assert (E1 := ec_lt _ Hi1). rewrite (ec_succ i Hi) in E1.
      assert (X0 := ec_x i Hi). assert (X1 := ec_x (i + 1) Hi1). rewrite (ec_succ i Hi) in X1.
      assert (Y0 := row_y j ltac:(lia)). assert (Y1 := row_y (S j) ltac:(lia)).
      assert (Mx := axis_mono xi (S (ec bef i)) (length xi - 1) A1 ltac:(lia)). assert (Mx0 := axis_mono xi 0 (ec bef i) A1 ltac:(lia)).
      assert (My := axis_mono yi (S j) (length yi - 1) A2 ltac:(lia)). assert (My0 := axis_mono yi 0 j A2 ltac:(lia)).
      assert (Rx : Rmin (nth (length xi - 1) xi 0) x = x) by (apply Rmin_right; lra).
      assert (Ry : Rmin (nth (length yi - 1) yi 0) y = y) by (apply Rmin_right; lra).
      assert (O := spline_eq (0, 0) cadd cscale xi yi fd x y (ec bef i) j A1 A2 ltac:(rewrite L1, L2; exact Rf) ltac:(lra) ltac:(lra) ltac:(lia) ltac:(lia)).
      cbv zeta in O. rewrite Rx, Ry, X0, X1, Y0, Y1 in O. change (gspline_point (0, 0) cadd cscale) with cspline in O.
      specialize (O ltac:(destruct Bx as [K|[K1 K2]]; [now left|right; split; auto; unfold ec, within in *; lia]) ltac:(rewrite L2; exact By)).
      rewrite <- (ec_succ i Hi) in O.
      match type of O with _ = Ok (if forallb _ ?l then _ else _, _) => set (lf := l) in * end.
      assert (Ks : forall j' i', j' = j \/ j' = S j -> i' = i \/ i' = (i + 1)%Z -> (j' < ny)%nat /\ within bef aft nx i').
      { intros j' i' [-> | ->] [-> | ->]; split; auto; lia. }
      destruct (spline_corners Heights x0 dx y0 dy nx x y i j _ _ _ _ val Bx1 Bx2 By1 By2
        (Hv j i ltac:(lia) Hi) (Hv j (i + 1)%Z ltac:(lia) Hi1) (Hv (S j) i ltac:(lia) Hi) (Hv (S j) (i + 1)%Z ltac:(lia) Hi1)) as (HA & Wf & Sf & Pf).
      set (A := (node_x Heights x0 dx (i + 1) - node_x Heights x0 dx i) * (node_y Heights y0 dy (S j) - node_y Heights y0 dy j)) in *.
      change (weighed A lf = z) in Wf. change (fold_right Rplus 0 (map snd lf) = 1) in Sf. change (forall p, In p lf -> 0 <= snd p) in Pf.
      assert (Ff : forall p, In p lf -> fst (fst p) <> None) by (unfold lf; intros q [<-|[<-|[<-|[<-|[]]]]]; cbn [fst]; apply Hn; auto; lia).
      destruct (masked_complete A lf HA (fun q K => conj (Pf q K) (Ff q K))) as [Mf1 Mf2]. rewrite Wf in Mf2.
      assert (Gf : forallb (fun p : gcell (R * R) * R => match fst (fst p) with Some _ => true | None => false end) lf = true).
      { apply forallb_forall. intros q K. specialize (Ff q K). destruct q as [[[?|] ?] ?]; cbn [fst] in *; congruence. }
      rewrite Gf in O. change (fold_right Rplus 0 (map (fun p : gcell (R * R) * R => snd p * (if snd (fst p) then 1 else 0)) lf)) with (masked_part lf) in O.
      set (v := fold_right cadd (0, 0) (map (fun p : gcell (R * R) * R => cscale (snd p) (gnumber (0, 0) (fst p))) lf)) in *.
      exists v, (rlt 0 (masked_part lf)). split; [exact O|]. split.
      - intros K. split; [apply rlt_f; apply Mf2 in K; lra|].
        assert (M1 := weighed_mean (0, 0) cadd cscale A fst lf HA eq_refl ltac:(auto) ltac:(auto) Sf Ff ltac:(rewrite Wf; auto)).
        assert (M2 := weighed_mean (0, 0) cadd cscale A snd lf HA eq_refl ltac:(auto) ltac:(auto) Sf Ff ltac:(rewrite Wf; auto)).
        fold v in M1, M2. rewrite Wf in M1, M2. rewrite M1, M2. cbn [both]. now destruct v.
      - intros K. apply rlt_t. destruct (Req_dec (masked_part lf) 0) as [Z|Z]; [tauto|lra].
    Qed.
  End Field.
End Stretched.
