(** Values interpolated from grids with some columns repeated on either side, for real and
    complex numbers alike. *)
From Coq Require Import Reals List Bool Arith ZArith Lra Lia.
From Verif Require Import PyBase RBase MathModel GeoModel ConvertProps GridModel InterpModel InterpProps ExtractModel ExtractSpec NodeProps ExtractProofs ExtractProps SplineProps SeriesProofs.
Import ListNotations.
Open Scope R_scope.

Definition gkept {V} (h : gcell V) : option V := if snd h || is_nan h then None else fst h.
Lemma gkept_value {V} (h : gcell V) : gkept h = value_of h.
Proof. unfold gkept, value_of, gusable, is_nan. destruct h as [[v|] []]; reflexivity. Qed.
Definition linear {V} (vzero : V) vadd vscale (f : V -> R) : Prop :=
  f vzero = 0 /\ (forall a b, f (vadd a b) = f a + f b) /\ forall k a, f (vscale k a) = k * f a.
Lemma linear_real : linear 0 Rplus Rmult (fun x => x).
Proof. repeat split; auto. Qed.
Lemma linear_fst : linear (0, 0) cadd cscale fst.
Proof. repeat split; auto. Qed.
Lemma linear_snd : linear (0, 0) cadd cscale snd.
Proof. repeat split; auto. Qed.

Section Stretched.
  Variables (bef aft nx ny : nat) (x0 dx y0 dy : R) (xi yi : list R).
  Hypothesis Hxi : evenly (x0 - INR bef * dx) dx (bef + nx + aft) xi.
  Hypothesis Hyi : evenly y0 dy ny yi.
  Hypothesis Hx : (2 <= nx)%nat.
  Hypothesis Hy : (2 <= ny)%nat.
  Let axes := st_axes bef aft nx ny x0 dx y0 dy xi yi Hxi Hyi Hx Hy.
  Let lengths := st_lengths bef aft nx ny x0 dx y0 dy xi yi Hxi Hyi.
  Let exx := ec_x bef aft nx x0 dx xi Hxi.
  Let rowy := row_y ny y0 dy yi Hyi.
  Let scell := st_cell bef aft nx ny x0 dx y0 dy xi yi Hxi Hyi Hx Hy.

  Lemma gst_off {V} (vzero : V) vadd vscale (fd : list (list (gcell V))) val x y i j : rect ny (bef + nx + aft) fd ->
    (forall j i, (j < ny)%nat -> within bef aft nx i -> value_of (entry (None, true) fd j (ec bef i)) = val j (column nx i)) ->
    within bef aft nx i -> within bef aft nx (i + 1) -> (S j < ny)%nat ->
    between_nodes Heights x0 dx y0 dy x y i j -> ~ at_node Heights x0 dx y0 dy x y i j ->
    let z := corners Heights x0 dx y0 dy nx x y i j val in
    exists h, gbilinear_point vzero vadd vscale xi yi fd (x, y) = Ok h /\ forall f, linear vzero vadd vscale f -> option_map f (gkept h) = mean (part f z).
  Proof.
    intros Rf Hv Hi Hi1 Hj B NA z. destruct (scell x y i j Hi Hi1 Hj B) as [C NC]. destruct axes as [A1 A2]. destruct lengths as [L1 L2].
    assert (NN : ~ near_corner xi yi (ec bef i) j x y) by now rewrite NC.
    destruct (bilinear_off vzero vadd vscale xi yi fd x y (ec bef i) j A1 A2 ltac:(rewrite L1, L2; exact Rf) C NN) as (m & Em & Hm).
    eexists. split; [exact Em|]. clear Em. intros f (F0 & F1 & F2).
    rewrite <- (ec_succ bef aft nx i Hi) in *. rewrite !exx, !rowy in * by (auto; lia).
    match type of Hm with _ -> gweighted _ _ _ ?l = None => set (cw := l) in * end.
    assert (Ep : pairs cw = z).
    { unfold pairs, cw, z, corners. cbn [map fst snd]. now rewrite !Hv by (auto; lia). }
    assert (E1 := gweighted_mean vzero vadd vscale f cw F0 F1 F2). rewrite Ep in E1. rewrite <- E1. unfold gkept, is_nan. cbn [fst snd].
    destruct (gweighted vzero vadd vscale cw) as [v|]; [|now rewrite orb_true_r].
    destruct m; [specialize (Hm eq_refl); discriminate|]. reflexivity.
  Qed.

  Lemma gst_node x y i j :
    within bef aft nx i -> within bef aft nx (i + 1) -> (S j < ny)%nat ->
    between_nodes Heights x0 dx y0 dy x y i j -> at_node Heights x0 dx y0 dy x y i j ->
    exists a b, (a = i \/ a = i + 1)%Z /\ (b = j \/ b = S j) /\
      ExtractSpec.close x (node_x Heights x0 dx a) /\ ExtractSpec.close y (node_y Heights y0 dy b) /\
      (x = node_x Heights x0 dx i -> y = node_y Heights y0 dy j -> a = i /\ b = j) /\
      forall V (vzero : V) vadd vscale (fd : list (list (gcell V))), rect ny (bef + nx + aft) fd ->
        gbilinear_point vzero vadd vscale xi yi fd (x, y) = Ok (entry (None, true) fd b (ec bef a)).
  Proof.
    intros Hi Hi1 Hj B NA. destruct (scell x y i j Hi Hi1 Hj B) as [C _]. destruct axes as [A1 A2]. destruct lengths as [L1 L2].
    assert (G : forall V (vzero : V) vadd vscale (fd : list (list (gcell V))), rect ny (bef + nx + aft) fd ->
      gbilinear_point vzero vadd vscale xi yi fd (x, y) =
      (if isclose y (node_y Heights y0 dy j) && isclose x (node_x Heights x0 dx i) then Ok (entry (None, true) fd j (ec bef i))
       else if isclose y (node_y Heights y0 dy (S j)) && isclose x (node_x Heights x0 dx i) then Ok (entry (None, true) fd (S j) (ec bef i))
       else if isclose y (node_y Heights y0 dy j) && isclose x (node_x Heights x0 dx (i + 1)) then Ok (entry (None, true) fd j (ec bef (i + 1)))
       else if isclose y (node_y Heights y0 dy (S j)) && isclose x (node_x Heights x0 dx (i + 1)) then Ok (entry (None, true) fd (S j) (ec bef (i + 1)))
       else gbilinear_point vzero vadd vscale xi yi fd (x, y))).
    { intros V vzero vadd vscale fd Rf. pose proof (gpoint_eq vzero vadd vscale xi yi fd x y (ec bef i) j A1 A2 ltac:(rewrite L1, L2; exact Rf) C) as G. cbv zeta in G.
      rewrite <- (ec_succ bef aft nx i Hi) in G. rewrite !exx, !rowy in G by (auto; lia). rewrite G at 1.
      repeat match goal with |- context [if ?b then _ else _] => destruct b eqn:?; [reflexivity|] end.
      rewrite G. reflexivity. }
    destruct (isclose y (node_y Heights y0 dy j) && isclose x (node_x Heights x0 dx i)) eqn:T1.
    { apply andb_prop in T1 as [T1 T2]. exists i, j. repeat (split; [solve [auto using isclose_close]|]). exact G. }
    assert (N0 : x = node_x Heights x0 dx i -> y = node_y Heights y0 dy j -> False).
    { intros -> ->. now rewrite !isclose_refl in T1. }
    destruct (isclose y (node_y Heights y0 dy (S j)) && isclose x (node_x Heights x0 dx i)) eqn:T2.
    { apply andb_prop in T2 as [T2 T3]. exists i, (S j). repeat (split; [solve [auto using isclose_close | intros K1 K2; now destruct (N0 K1 K2)]|]). exact G. }
    destruct (isclose y (node_y Heights y0 dy j) && isclose x (node_x Heights x0 dx (i + 1))) eqn:T3.
    { apply andb_prop in T3 as [T3 T4]. exists (i + 1)%Z, j. repeat (split; [solve [auto using isclose_close | intros K1 K2; now destruct (N0 K1 K2)]|]). exact G. }
    destruct (isclose y (node_y Heights y0 dy (S j)) && isclose x (node_x Heights x0 dx (i + 1))) eqn:T4.
    { apply andb_prop in T4 as [T4 T5]. exists (i + 1)%Z, (S j). repeat (split; [solve [auto using isclose_close | intros K1 K2; now destruct (N0 K1 K2)]|]). exact G. }
    exfalso. destruct NA as [[Kx|Kx] [Ky|Ky]]; apply close_isclose in Kx; apply close_isclose in Ky; rewrite Kx, Ky in *; discriminate.
  Qed.

  Lemma gst_spline {V} (vzero : V) vadd vscale (fd : list (list (gcell V))) val x y i j : rect ny (bef + nx + aft) fd ->
    (forall j i, (j < ny)%nat -> within bef aft nx i -> fst (entry (None, true) fd j (ec bef i)) <> None) ->
    (forall j i, (j < ny)%nat -> within bef aft nx i ->
       (if snd (entry (None, true) fd j (ec bef i)) then None else fst (entry (None, true) fd j (ec bef i))) = val j (column nx i)) ->
    within bef aft nx i -> within bef aft nx (i + 1) -> (S j < ny)%nat ->
    bracket (i + 1 = Z.of_nat (nx + aft) - 1)%Z (node_x Heights x0 dx i) (node_x Heights x0 dx (i + 1)) x ->
    bracket (S (S j) = ny) (node_y Heights y0 dy j) (node_y Heights y0 dy (S j)) y ->
    let z := corners Heights x0 dx y0 dy nx x y i j val in
    exists v m, gspline_point vzero vadd vscale xi yi fd (x, y) = Ok (Some v, m) /\
      (complete z -> m = false /\ forall f, linear vzero vadd vscale f -> mean (part f z) = Some (f v)) /\ (~ complete z -> m = true).
  Proof.
    intros Rf Hn Hv Hi Hi1 Hj Bx By z. destruct axes as [A1 A2]. destruct lengths as [L1 L2].
    destruct (bracket_le _ _ _ _ Bx) as [Bx1 Bx2]. destruct (bracket_le _ _ _ _ By) as [By1 By2].
    assert (E1 := ec_lt bef aft nx _ Hi1). rewrite (ec_succ bef aft nx i Hi) in E1.
    assert (X0 := exx i Hi). assert (X1 := exx (i + 1)%Z Hi1). rewrite (ec_succ bef aft nx i Hi) in X1.
    assert (Y0 := rowy j ltac:(lia)). assert (Y1 := rowy (S j) ltac:(lia)).
    assert (Mx := axis_mono xi (S (ec bef i)) (length xi - 1) A1 ltac:(lia)). assert (Mx0 := axis_mono xi 0 (ec bef i) A1 ltac:(lia)).
    assert (My := axis_mono yi (S j) (length yi - 1) A2 ltac:(lia)). assert (My0 := axis_mono yi 0 j A2 ltac:(lia)).
    assert (Rx : Rmin (nth (length xi - 1) xi 0) x = x) by (apply Rmin_right; lra).
    assert (Ry : Rmin (nth (length yi - 1) yi 0) y = y) by (apply Rmin_right; lra).
    assert (O := spline_eq vzero vadd vscale xi yi fd x y (ec bef i) j A1 A2 ltac:(rewrite L1, L2; exact Rf) ltac:(lra) ltac:(lra) ltac:(lia) ltac:(lia)).
    cbv zeta in O. rewrite Rx, Ry, X0, X1, Y0, Y1 in O.
    specialize (O ltac:(destruct Bx as [K|[K1 K2]]; [now left|right; split; auto; unfold ec, within in *; lia]) ltac:(rewrite L2; exact By)).
    rewrite <- (ec_succ bef aft nx i Hi) in O.
    match type of O with _ = Ok (if forallb _ ?l then _ else _, _) => set (lf := l) in * end.
    destruct (spline_corners Heights x0 dx y0 dy nx x y i j _ _ _ _ val Bx1 Bx2 By1 By2
      (Hv j i ltac:(lia) Hi) (Hv j (i + 1)%Z ltac:(lia) Hi1) (Hv (S j) i ltac:(lia) Hi) (Hv (S j) (i + 1)%Z ltac:(lia) Hi1)) as (HA & Wf & Sf & Pf).
    set (A := (node_x Heights x0 dx (i + 1) - node_x Heights x0 dx i) * (node_y Heights y0 dy (S j) - node_y Heights y0 dy j)) in *.
    change (weighed A lf = z) in Wf. change (fold_right Rplus 0 (map snd lf) = 1) in Sf. change (forall p, In p lf -> 0 <= snd p) in Pf.
    assert (Ff : forall p, In p lf -> fst (fst p) <> None) by (unfold lf; intros q [<-|[<-|[<-|[<-|[]]]]]; cbn [fst]; apply Hn; auto; lia).
    destruct (masked_complete A lf HA (fun q K => conj (Pf q K) (Ff q K))) as [Mf1 Mf2]. rewrite Wf in Mf2.
    assert (Gf : forallb (fun p : gcell V * R => match fst (fst p) with Some _ => true | None => false end) lf = true).
    { apply forallb_forall. intros q K. specialize (Ff q K). destruct q as [[[?|] ?] ?]; cbn [fst] in *; congruence. }
    rewrite Gf in O. change (fold_right Rplus 0 (map (fun p : gcell V * R => snd p * (if snd (fst p) then 1 else 0)) lf)) with (masked_part lf) in O.
    set (v := fold_right vadd vzero (map (fun p : gcell V * R => vscale (snd p) (gnumber vzero (fst p))) lf)) in *.
    exists v, (rlt 0 (masked_part lf)). split; [exact O|]. split.
    - intros K. split; [apply rlt_f; apply Mf2 in K; lra|]. intros f (F0 & F1 & F2).
      assert (M1 := weighed_mean vzero vadd vscale A f lf HA F0 F1 F2 Sf Ff ltac:(rewrite Wf; auto)). fold v in M1. rewrite Wf in M1. exact M1.
    - intros K. apply rlt_t. destruct (Req_dec (masked_part lf) 0) as [Z|Z]; [tauto|lra].
  Qed.
End Stretched.
