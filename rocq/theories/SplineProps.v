(** C68: constants extracted from OTIS grids by splines (the default method). *)
From Coq Require Import Reals List Bool Arith ZArith Lra Lia.
From Verif Require Import PyBase RBase MathModel GeoModel ConvertProps GridModel InterpModel InterpProps ExtractModel ExtractSpec NodeProps ExtractProofs ExtractProps.
Import ListNotations.
Open Scope R_scope.

Lemma axis_increasing l : axis l -> increasing_axis l = true.
Proof.
  intros [_ H]. induction l as [|a t IH]; [reflexivity|]. cbn [increasing_axis]. destruct t as [|b t]; [reflexivity|].
  rewrite (rlt_t a b) by (apply (H 0%nat 1%nat); cbn; lia). apply IH. intros i j Hij. apply (H (S i) (S j)). cbn in *. lia.
Qed.
Lemma cell_of_one l : axis l -> forall n i x, (S i < length l)%nat -> bracket (S (S i) = length l) (nth i l 0) (nth (S i) l 0) x -> cell_of n l x = (n + i)%nat.
Proof.
  induction l as [|a l IH]; intros Hax n i x Hi B; [cbn in Hi; lia|]. destruct l as [|b t]; [cbn in Hi; lia|].
  destruct t as [|c t]; [destruct i; [reflexivity || (cbn; lia)|cbn in Hi; lia]|]. change (cell_of n (a :: b :: c :: t) x) with (if rlt x b then n else cell_of (S n) (b :: c :: t) x).
  destruct (axis_tail _ _ _ Hax) as (T1 & T2 & T3). specialize (T1 ltac:(discriminate)).
  destruct i as [|i].
  - destruct B as [B|(L & _)]; [|cbn in L; lia]. cbn in B. rewrite rlt_t by lra. lia.
  - change (nth (S i) (a :: b :: c :: t) 0) with (nth i (b :: c :: t) 0) in B. change (nth (S (S i)) (a :: b :: c :: t) 0) with (nth (S i) (b :: c :: t) 0) in B.
    assert (Hb : b <= nth i (b :: c :: t) 0) by (apply (axis_mono (b :: c :: t) 0 i T1); cbn in Hi |- *; lia).
    rewrite rlt_f by (destruct B as [B|(_ & -> & B)]; lra). rewrite (IH T1 (S n) i x); [lia|cbn in Hi |- *; lia|].
    destruct B as [B|(L & B)]; [now left|right; split; [cbn in L |- *; lia|exact B]].
Qed.
Lemma clamp_in lo hi x : lo <= hi -> lo <= x -> clamp lo hi x = Rmin hi x.
Proof. intros H1 H2. unfold clamp. apply Rmax_right. now apply Rmin_glb. Qed.

Section Generic.
  Context {V : Type} (vzero : V) (vadd : V -> V -> V) (vscale : R -> V -> V).
  Lemma spline_eq ilon ilat g lon lat i j : axis ilon -> axis ilat -> rect (length ilat) (length ilon) g ->
    nth 0 ilon 0 <= lon -> nth 0 ilat 0 <= lat -> (S i < length ilon)%nat -> (S j < length ilat)%nat ->
    let x := Rmin (nth (length ilon - 1) ilon 0) lon in let y := Rmin (nth (length ilat - 1) ilat 0) lat in
    bracket (S (S i) = length ilon) (nth i ilon 0) (nth (S i) ilon 0) x -> bracket (S (S j) = length ilat) (nth j ilat 0) (nth (S j) ilat 0) y ->
    let t := (x - nth i ilon 0) / (nth (S i) ilon 0 - nth i ilon 0) in let s := (y - nth j ilat 0) / (nth (S j) ilat 0 - nth j ilat 0) in
    let corners : list (gcell V * R) := [(entry (None, true) g j i, (1 - t) * (1 - s)); (entry (None, true) g j (S i), t * (1 - s));
         (entry (None, true) g (S j) i, (1 - t) * s); (entry (None, true) g (S j) (S i), t * s)] in
    gspline_point vzero vadd vscale ilon ilat g (lon, lat) =
      Ok (if forallb (fun p : gcell V * R => match fst (fst p) with Some _ => true | None => false end) corners
          then Some (fold_right vadd vzero (map (fun p => vscale (snd p) (gnumber vzero (fst p))) corners)) else None,
          rlt 0 (fold_right Rplus 0 (map (fun p : gcell V * R => snd p * (if snd (fst p) then 1 else 0)) corners))).
  Proof.
    intros A1 A2 G L1 L2 Hi Hj x y Bx By t s corners.
    unfold gspline_point. rewrite (axis_increasing _ A1), (axis_increasing _ A2), (axis_min _ A1), (axis_max _ A1), (axis_min _ A2), (axis_max _ A2). cbn [andb negb bind fst snd].
    rewrite (clamp_in _ _ lon), (clamp_in _ _ lat) by (auto; apply axis_mono; auto; destruct A1, A2; lia). fold x y.
    rewrite (cell_of_one ilon A1 0 i x Hi Bx), (cell_of_one ilat A2 0 j y Hj By). cbn [Nat.add].
    rewrite !(get1_nth _ 0) by lia. cbn [bind]. rewrite !(gget2_node (length ilat) (length ilon) g) by (auto; lia). cbn [bind]. reflexivity.
  Qed.
End Generic.

(** the valid values, with the weights as areas *)
Definition weighed {V} (A : R) (l : list (gcell V * R)) : list (R * option V) := map (fun p : gcell V * R => (A * snd p, if snd (fst p) then None else fst (fst p))) l.
Definition masked_part {V} (l : list (gcell V * R)) : R := fold_right Rplus 0 (map (fun p : gcell V * R => snd p * (if snd (fst p) then 1 else 0)) l).
Section Weighed.
  Context {V : Type} (vzero : V) (vadd : V -> V -> V) (vscale : R -> V -> V).
  Lemma masked_complete A (l : list (gcell V * R)) : 0 < A -> (forall p, In p l -> 0 <= snd p /\ fst (fst p) <> None) ->
    0 <= masked_part l /\ (masked_part l = 0 <-> complete (weighed A l)).
  Proof.
    intros HA. induction l as [|[[v m] w] l IH]; intros H.
    - cbn. split; [lra|]. split; auto. intros _ p [].
    - destruct (IH (fun p Hp => H p (or_intror Hp))) as [I1 I2]. destruct (H _ (or_introl eq_refl)) as [H1 H2]. cbn [fst snd] in H1, H2.
      unfold masked_part in *. cbn [map fold_right fst snd]. set (s := fold_right Rplus 0 _) in *.
      assert (Hs : 0 <= w * (if m then 1 else 0)) by (destruct m; lra). split; [lra|]. unfold complete in *. split.
      + intros E p [<-|Hp]; cbn [fst snd].
        * destruct m; auto. intros Nw. exfalso. apply Nw. replace w with 0 by lra. ring.
        * apply I2; auto. lra.
      + intros C. assert (s = 0) as -> by (apply I2; intros p Hp; apply C; now right).
        destruct m; [|lra]. specialize (C _ (or_introl eq_refl)). cbn [fst snd] in C.
        destruct (Req_dec w 0) as [->|N]; [lra|]. exfalso. apply C; auto. apply Rmult_integral_contrapositive. lra.
  Qed.
  Lemma weighed_mean A f (l : list (gcell V * R)) : 0 < A -> f vzero = 0 -> (forall a b, f (vadd a b) = f a + f b) -> (forall k a, f (vscale k a) = k * f a) ->
    fold_right Rplus 0 (map snd l) = 1 -> (forall p, In p l -> fst (fst p) <> None) -> complete (weighed A l) ->
    mean (part f (weighed A l)) = Some (f (fold_right vadd vzero (map (fun p : gcell V * R => vscale (snd p) (gnumber vzero (fst p))) l))).
  Proof.
    intros HA F0 F1 F2 Sm Nn Cm.
    assert (E : weight (part f (weighed A l)) = A * fold_right Rplus 0 (map snd l) /\
                total (part f (weighed A l)) = A * f (fold_right vadd vzero (map (fun p : gcell V * R => vscale (snd p) (gnumber vzero (fst p))) l))).
    { clear Sm. induction l as [|[[v m] w] l IH].
      - cbn. rewrite F0. split; ring.
      - destruct IH as [E1 E2]; [intros p Hp; apply Nn; now right|intros p Hp; apply Cm; now right|].
        unfold weight, total, part, weighed in *. cbn [map fold_right fst snd option_map]. rewrite E1, E2, F1, F2.
        specialize (Nn _ (or_introl eq_refl)). cbn [fst] in Nn. destruct v as [v|]; [|congruence]. unfold gnumber. cbn [fst].
        destruct m; cbn [option_map]; [|split; ring].
        specialize (Cm _ (or_introl eq_refl)). cbn [fst snd] in Cm.
        assert (w = 0) as ->; [|split; ring].
        destruct (Req_dec w 0) as [|N]; auto. exfalso. apply Cm; auto. apply Rmult_integral_contrapositive. lra. }
    rewrite Sm in E. destruct E as [E1 E2]. unfold mean. rewrite E1, E2. destruct (Req_EM_T (A * 1) 0); [lra|]. f_equal. field. lra.
  Qed.
End Weighed.

Lemma bracket_le P a b v : bracket P a b v -> a <= v <= b /\ a < b.
Proof. intros [H|(_ & -> & H)]; lra. Qed.

(** the weights of the interpolation are the areas over the area of the cell *)
Lemma spline_corners {V} k x0 dx y0 dy nx x y i j (c00 c01 c10 c11 : gcell V) (f : nat -> nat -> option V) :
  node_x k x0 dx i <= x <= node_x k x0 dx (i + 1) -> node_x k x0 dx i < node_x k x0 dx (i + 1) ->
  node_y k y0 dy j <= y <= node_y k y0 dy (S j) -> node_y k y0 dy j < node_y k y0 dy (S j) ->
  (if snd c00 then None else fst c00) = f j (column nx i) -> (if snd c01 then None else fst c01) = f j (column nx (i + 1)) ->
  (if snd c10 then None else fst c10) = f (S j) (column nx i) -> (if snd c11 then None else fst c11) = f (S j) (column nx (i + 1)) ->
  let t := (x - node_x k x0 dx i) / (node_x k x0 dx (i + 1) - node_x k x0 dx i) in
  let s := (y - node_y k y0 dy j) / (node_y k y0 dy (S j) - node_y k y0 dy j) in
  let A := (node_x k x0 dx (i + 1) - node_x k x0 dx i) * (node_y k y0 dy (S j) - node_y k y0 dy j) in
  let l := [(c00, (1 - t) * (1 - s)); (c01, t * (1 - s)); (c10, (1 - t) * s); (c11, t * s)] in
  0 < A /\ weighed A l = corners k x0 dx y0 dy nx x y i j f /\ fold_right Rplus 0 (map snd l) = 1 /\ forall p, In p l -> 0 <= snd p.
Proof.
  intros Hx Hx' Hy Hy' E00 E01 E10 E11 t s A l.
  assert (HA : 0 < A) by (unfold A; apply Rmult_lt_0_compat; lra). split; [exact HA|].
  assert (Et : t * (node_x k x0 dx (i + 1) - node_x k x0 dx i) = x - node_x k x0 dx i) by (unfold t; field; lra).
  assert (Es : s * (node_y k y0 dy (S j) - node_y k y0 dy j) = y - node_y k y0 dy j) by (unfold s; field; lra).
  assert (0 <= t <= 1).
  { split; [unfold t; apply Rmult_le_pos; [lra|left; apply Rinv_0_lt_compat; lra]|]. apply Rmult_le_reg_r with (node_x k x0 dx (i + 1) - node_x k x0 dx i); lra. }
  assert (0 <= s <= 1).
  { split; [unfold s; apply Rmult_le_pos; [lra|left; apply Rinv_0_lt_compat; lra]|]. apply Rmult_le_reg_r with (node_y k y0 dy (S j) - node_y k y0 dy j); lra. }
  split; [|split].
  - unfold weighed, l, corners. cbn [map fst snd]. rewrite E00, E01, E10, E11. 
    replace (node_x k x0 dx (i + 1) - x) with ((1 - t) * (node_x k x0 dx (i + 1) - node_x k x0 dx i)) by lra.
    replace (node_y k y0 dy (S j) - y) with ((1 - s) * (node_y k y0 dy (S j) - node_y k y0 dy j)) by lra.
    rewrite <- Et, <- Es. unfold A. repeat (f_equal; try ring).
  - unfold l. cbn [map snd fold_right]. ring.
  - unfold l. intros p [<-|[<-|[<-|[<-|[]]]]]; cbn [snd]; apply Rmult_le_pos; lra.
Qed.
Lemma number_value w c h : depth_entry w c -> (if snd h || snd c then None else fst h) = number w h.
Proof.
  destruct h as [z m]. destruct w as [d|]; cbn [depth_entry number fst snd].
  - intros [-> _]. cbn [snd]. rewrite orb_false_r. destruct m; reflexivity.
  - intros [-> _]. rewrite orb_true_r. reflexivity.
Qed.
Lemma water_value w c : depth_entry w c -> (if snd c then None else fst c) = w /\ fst c <> None.
Proof. destruct w as [d|]; cbn; [intros [-> _]; cbn; split; congruence|]. intros [-> H]. auto. Qed.
Lemma complete_mono {V W} (l : list (R * option V)) (m : list (R * option W)) :
  Forall2 (fun p q => fst p = fst q /\ (snd p <> None -> snd q <> None)) l m -> complete l -> complete m.
Proof.
  intros F C q Hq Hw. induction F as [|p q' l m [E1 E2] F IH]; [contradiction|]. destruct Hq as [<-|Hq].
  - apply E2. apply C; [now left|congruence].
  - apply IH; auto. intros r Hr. apply C. now right.
Qed.

(** the spline values of the arrays of a layer at a point *)
Lemma spline_values (around : bool) k x0 dx nx y0 dy ny (w : nat -> nat -> option R) xi yi (b : list (list (gcell R))) x y i j :
  evenly (node_x k (if around then x0 - dx else x0) dx 0) dx (ncols around nx) xi -> evenly (node_y k y0 dy 0) dy ny yi ->
  (2 <= nx)%nat -> (2 <= ny)%nat -> rect ny (ncols around nx) b ->
  (forall j e, (j < ny)%nat -> (e < ncols around nx)%nat -> sound_column k around (col around nx e) -> depth_entry (w j (col around nx e)) (entry (None, true) b j e)) ->
  nth 0 xi 0 <= x -> nth 0 yi 0 <= y ->
  columns around nx i -> columns around nx (i + 1) -> (S j < ny)%nat ->
  let x' := Rmin (node_x k x0 dx (last_column around nx)) x in let y' := Rmin (node_y k y0 dy (ny - 1)) y in
  bracket (i + 1 = last_column around nx)%Z (node_x k x0 dx i) (node_x k x0 dx (i + 1)) x' ->
  bracket (S (S j) = ny) (node_y k y0 dy j) (node_y k y0 dy (S j)) y' ->
  (k = Zonal -> around = true \/ (0 < i)%Z) ->
  let ws := corners k x0 dx y0 dy nx x' y' i j w in
  exists D, rspline xi yi b (x, y) = Ok D /\ (complete ws -> D = (mean ws, false) /\ mean ws <> None) /\ (~ complete ws -> snd D = true) /\
    forall hc f, rect ny (ncols around nx) f ->
      (forall j i, (j < ny)%nat -> (i < nx)%nat -> fst (entry (None, true) hc j i) <> None) ->
      (forall j e, (j < ny)%nat -> (e < ncols around nx)%nat ->
        entry (None, true) f j e = (fst (entry (None, true) hc j (col around nx e)), snd (entry (None, true) hc j (col around nx e)) || snd (entry (None, true) b j e))) ->
      let z := corners k x0 dx y0 dy nx x' y' i j (fun j i => number (w j i) (entry (None, true) hc j i)) in
      let raw := corners k x0 dx y0 dy nx x' y' i j (fun j i => fst (entry (None, true) hc j i)) in
      exists v m, cspline xi yi f (x, y) = Ok (Some v, m) /\ both (mean (part fst raw)) (mean (part snd raw)) = Some v /\
        (complete z -> m = false /\ both (mean (part fst z)) (mean (part snd z)) = Some v /\ complete ws) /\ (~ complete z -> m = true).
Proof.
  intros Hxi Hyi Hx Hy Rb Nb Xf Yf Ci Ci1 Hj x' y' Bx By HZ ws.
  set (e := ecol around i) in *.
  assert (Ce : col around nx e = column nx i) by (apply ecol_col; auto).
  assert (Ce1 : col around nx (S e) = column nx (i + 1)) by (unfold e; rewrite <- (ecol_succ around nx) by auto; apply ecol_col; auto).
  assert (L1 : (S e < ncols around nx)%nat) by (unfold e; rewrite <- (ecol_succ around nx) by auto; apply ecol_lt; auto).
  assert (Snd : forall e', e' = e \/ e' = S e -> sound_column k around (col around nx e')).
  { intros e' He. unfold sound_column. destruct k; auto. destruct (HZ eq_refl) as [Ha|Ha]; auto. destruct around; auto. right.
    unfold col. unfold e, ecol, columns in *. destruct He as [-> | ->]; lia. }
  assert (Len : length xi = ncols around nx /\ length yi = ny) by (split; [apply Hxi | apply Hyi]). destruct Len as [Lx Ly].
  assert (De : forall j' e', (j' < ny)%nat -> e' = e \/ e' = S e -> depth_entry (w j' (col around nx e')) (entry (None, true) b j' e')).
  { intros j' e' Hj' He'. apply Nb; auto. destruct He' as [-> | ->]; lia. }
  assert (N2 : (2 <= ncols around nx)%nat) by (unfold ncols; destruct around; lia).
  assert (A1 : axis xi) by (eapply evenly_axis; eauto). assert (A2 : axis yi) by (eapply evenly_axis; eauto).
  assert (X0 : nth e xi 0 = node_x k x0 dx i) by (apply (ecol_x around k x0 dx nx xi i); auto).
  assert (X1 : nth (S e) xi 0 = node_x k x0 dx (i + 1)) by (unfold e; rewrite <- (ecol_succ around nx) by auto; apply (ecol_x around k x0 dx nx xi (i + 1)); auto).
  assert (Y0 : nth j yi 0 = node_y k y0 dy j) by (apply (node_y_nth k y0 dy ny); auto; lia).
  assert (Y1 : nth (S j) yi 0 = node_y k y0 dy (S j)) by (apply (node_y_nth k y0 dy ny); auto; lia).
  assert (Xl : nth (length xi - 1) xi 0 = node_x k x0 dx (last_column around nx)).
  { rewrite <- (ecol_x around k x0 dx nx xi (last_column around nx) Hxi Hx) by (unfold columns, last_column; destruct around; lia).
    f_equal. rewrite Lx. unfold ecol, ncols, last_column. destruct around; lia. }
  assert (Yl : nth (length yi - 1) yi 0 = node_y k y0 dy (ny - 1)) by (rewrite Ly; apply (node_y_nth k y0 dy ny); auto; lia).
  assert (Bx' : bracket (S (S e) = length xi) (nth e xi 0) (nth (S e) xi 0) (Rmin (nth (length xi - 1) xi 0) x)).
  { rewrite Xl, X0, X1. fold x'. destruct Bx as [Bx|(K & Bx)]; [now left|right]. split; auto. rewrite Lx. unfold e, ecol, ncols, last_column, columns in *. destruct around; lia. }
  assert (By' : bracket (S (S j) = length yi) (nth j yi 0) (nth (S j) yi 0) (Rmin (nth (length yi - 1) yi 0) y)) by (rewrite Yl, Y0, Y1, Ly; exact By).
  destruct (bracket_le _ _ _ _ Bx) as [Bx1 Bx2]. destruct (bracket_le _ _ _ _ By) as [By1 By2].
  (* the depth *)
  pose proof (spline_eq 0 Rplus Rmult xi yi b x y e j A1 A2 ltac:(rewrite Lx, Ly; auto) Xf Yf ltac:(rewrite Lx; auto) ltac:(rewrite Ly; auto) Bx' By') as O2. cbv zeta in O2.
  change (gspline_point 0 Rplus Rmult) with rspline in O2.
  rewrite Xl, Yl, X0, X1, Y0, Y1 in O2. fold x' y' in O2.
  match type of O2 with _ = Ok (if forallb _ ?l then _ else _, _) => set (lb := l) in * end.
  assert (Vb : forall j' e', (j' < ny)%nat -> e' = e \/ e' = S e ->
     (if snd (entry (None, true) b j' e') then None else fst (entry (None, true) b j' e')) = w j' (col around nx e') /\ fst (entry (None, true) b j' e') <> None).
  { intros j' e' Hj' He'. now apply water_value, De. }
  destruct (Vb j e ltac:(lia) ltac:(auto)) as [V00 N00]. destruct (Vb j (S e) ltac:(lia) ltac:(auto)) as [V01 N01].
  destruct (Vb (S j) e ltac:(lia) ltac:(auto)) as [V10 N10]. destruct (Vb (S j) (S e) ltac:(lia) ltac:(auto)) as [V11 N11].
  rewrite Ce in V00, V10. rewrite Ce1 in V01, V11.
  destruct (spline_corners k x0 dx y0 dy nx x' y' i j _ _ _ _ w Bx1 Bx2 By1 By2 V00 V01 V10 V11) as (HA & Wb & Sb & Pb).
  set (A := (node_x k x0 dx (i + 1) - node_x k x0 dx i) * (node_y k y0 dy (S j) - node_y k y0 dy j)) in *.
  change (weighed A lb = ws) in Wb. change (fold_right Rplus 0 (map snd lb) = 1) in Sb. change (forall p, In p lb -> 0 <= snd p) in Pb.
  assert (Fb : forall p, In p lb -> fst (fst p) <> None) by (unfold lb; intros q [<-|[<-|[<-|[<-|[]]]]]; cbn [fst]; auto).
  destruct (masked_complete A lb HA (fun q K => conj (Pb q K) (Fb q K))) as [Mb1 Mb2]. rewrite Wb in Mb2.
  assert (Gb : forallb (fun p : gcell R * R => match fst (fst p) with Some _ => true | None => false end) lb = true).
  { apply forallb_forall. intros q K. specialize (Fb q K). destruct q as [[[?|] ?] ?]; cbn [fst] in *; congruence. }
  rewrite Gb in O2. change (fold_right Rplus 0 (map (fun p : gcell R * R => snd p * (if snd (fst p) then 1 else 0)) lb)) with (masked_part lb) in O2.
  eexists. split; [exact O2|]. split; [|split].
  { intros K.
    assert (E : mean ws = Some (fold_right Rplus 0 (map (fun p : gcell R * R => snd p * gnumber 0 (fst p)) lb))).
    { rewrite <- (weighed_mean 0 Rplus Rmult A (fun v => v) lb) by (auto; rewrite Wb; auto). rewrite Wb. f_equal. unfold part, ws, corners. cbn [map fst snd].
      destruct (w j (column nx i)), (w j (column nx (i + 1))), (w (S j) (column nx i)), (w (S j) (column nx (i + 1))); reflexivity. }
    split; [|congruence]. rewrite E. f_equal. apply rlt_f. apply Mb2 in K. lra. }
  { intros K. cbn [snd]. apply rlt_t. destruct (Req_dec (masked_part lb) 0) as [Z|Z]; [tauto|lra]. }
  (* the constituents *)
  intros hc f Rf Hv Nf z raw.
  assert (Lc : forall e', e' = e \/ e' = S e -> (col around nx e' < nx)%nat) by (intros e' He'; apply col_lt; auto; destruct He' as [-> | ->]; lia).
  assert (Vf : forall j' e', (j' < ny)%nat -> e' = e \/ e' = S e ->
     (if snd (entry (None, true) f j' e') then None else fst (entry (None, true) f j' e')) = number (w j' (col around nx e')) (entry (None, true) hc j' (col around nx e'))
     /\ fst (entry (None, true) f j' e') <> None /\ fst (entry (None, true) f j' e') = fst (entry (None, true) hc j' (col around nx e'))).
  { intros j' e' Hj' He'. rewrite Nf by (auto; destruct He' as [-> | ->]; lia). cbn [fst snd]. split; [apply number_value; auto|split; [apply Hv; auto|reflexivity]]. }
  destruct (Vf j e ltac:(lia) ltac:(auto)) as (W00 & K00 & R00). destruct (Vf j (S e) ltac:(lia) ltac:(auto)) as (W01 & K01 & R01).
  destruct (Vf (S j) e ltac:(lia) ltac:(auto)) as (W10 & K10 & R10). destruct (Vf (S j) (S e) ltac:(lia) ltac:(auto)) as (W11 & K11 & R11).
  rewrite Ce in W00, W10, R00, R10. rewrite Ce1 in W01, W11, R01, R11.
  pose proof (spline_eq (0, 0) cadd cscale xi yi f x y e j A1 A2 ltac:(rewrite Lx, Ly; auto) Xf Yf ltac:(rewrite Lx; auto) ltac:(rewrite Ly; auto) Bx' By') as O3. cbv zeta in O3.
  change (gspline_point (0, 0) cadd cscale) with cspline in O3.
  rewrite Xl, Yl, X0, X1, Y0, Y1 in O3. fold x' y' in O3.
  match type of O3 with _ = Ok (if forallb _ ?l then _ else _, _) => set (lf := l) in * end.
  destruct (spline_corners k x0 dx y0 dy nx x' y' i j _ _ _ _ (fun j i => number (w j i) (entry (None, true) hc j i)) Bx1 Bx2 By1 By2 W00 W01 W10 W11) as (_ & Wf & Sf & Pf).
  change (weighed A lf = z) in Wf. change (fold_right Rplus 0 (map snd lf) = 1) in Sf. change (forall p, In p lf -> 0 <= snd p) in Pf.
  assert (Ff : forall p, In p lf -> fst (fst p) <> None) by (unfold lf; intros q [<-|[<-|[<-|[<-|[]]]]]; cbn [fst]; auto).
  destruct (masked_complete A lf HA (fun q K => conj (Pf q K) (Ff q K))) as [Mf1 Mf2]. rewrite Wf in Mf2.
  assert (Gf : forallb (fun p : gcell (R * R) * R => match fst (fst p) with Some _ => true | None => false end) lf = true).
  { apply forallb_forall. intros q K. specialize (Ff q K). destruct q as [[[?|] ?] ?]; cbn [fst] in *; congruence. }
  rewrite Gf in O3. change (fold_right Rplus 0 (map (fun p : gcell (R * R) * R => snd p * (if snd (fst p) then 1 else 0)) lf)) with (masked_part lf) in O3.
  set (v := fold_right cadd (0, 0) (map (fun p : gcell (R * R) * R => cscale (snd p) (gnumber (0, 0) (fst p))) lf)) in *.
  exists v, (rlt 0 (masked_part lf)). split; [exact O3|]. split; [|split].
  - (* without the masks *)
    set (lr := map (fun p : gcell (R * R) * R => ((fst (fst p), false), snd p)) lf : list (gcell (R * R) * R)).
    assert (Wr : weighed A lr = raw).
    { destruct (spline_corners k x0 dx y0 dy nx x' y' i j (fst (entry (None, true) f j e), false) (fst (entry (None, true) f j (S e)), false) (fst (entry (None, true) f (S j) e), false) (fst (entry (None, true) f (S j) (S e)), false)
        (fun j i => fst (entry (None, true) hc j i)) Bx1 Bx2 By1 By2 R00 R01 R10 R11) as (_ & Wr & _). exact Wr. }
    assert (Fr : forall p, In p lr -> fst (fst p) <> None) by (unfold lr; intros p Hp; apply in_map_iff in Hp as (q & <- & Hq); cbn [fst]; now apply Ff).
    assert (Sr : fold_right Rplus 0 (map snd lr) = 1) by (unfold lr; rewrite map_map; exact Sf).
    assert (Cr : complete (weighed A lr)).
    { unfold weighed, lr. rewrite map_map. intros p Hp _. apply in_map_iff in Hp as (q & <- & Hq). cbn [fst snd]. now apply Ff. }
    assert (Vr : fold_right cadd (0, 0) (map (fun p : gcell (R * R) * R => cscale (snd p) (gnumber (0, 0) (fst p))) lr) = v) by (unfold lr; rewrite map_map; reflexivity).
    assert (M1 := weighed_mean (0, 0) cadd cscale A fst lr HA eq_refl ltac:(auto) ltac:(auto) Sr Fr Cr).
    assert (M2 := weighed_mean (0, 0) cadd cscale A snd lr HA eq_refl ltac:(auto) ltac:(auto) Sr Fr Cr).
    rewrite Vr, Wr in M1, M2. rewrite M1, M2. cbn [both]. now destruct v.
  - intros K. split; [apply rlt_f; apply Mf2 in K; lra|]. split.
    + assert (M1 := weighed_mean (0, 0) cadd cscale A fst lf HA eq_refl ltac:(auto) ltac:(auto) Sf Ff ltac:(rewrite Wf; auto)).
      assert (M2 := weighed_mean (0, 0) cadd cscale A snd lf HA eq_refl ltac:(auto) ltac:(auto) Sf Ff ltac:(rewrite Wf; auto)).
      fold v in M1, M2. rewrite Wf in M1, M2. rewrite M1, M2. cbn [both]. now destruct v.
    + revert K. apply complete_mono. unfold z, ws, corners. assert (Tn : forall d h, number d h <> None -> d <> None) by (intros [?|] h; unfold number; [discriminate|congruence]).
      repeat (apply Forall2_cons; [cbn [fst snd]; split; [reflexivity|apply Tn]|]). apply Forall2_nil.
  - intros K. apply rlt_t. destruct (Req_dec (masked_part lf) 0) as [Z|Z]; [tauto|lra].
Qed.
Lemma first_node (around : bool) k x0 dx nx y0 dy ny xi yi x y : evenly (node_x k (if around then x0 - dx else x0) dx 0) dx (ncols around nx) xi -> evenly (node_y k y0 dy 0) dy ny yi ->
  (2 <= nx)%nat -> (2 <= ny)%nat -> reach around x0 dx nx x -> in_rows y0 dy ny (x, y) -> nth 0 xi 0 <= x /\ nth 0 yi 0 <= y.
Proof.
  intros (Px & _ & E) (Py & _ & F) Hx Hy Hs [Hr _]. cbn [fst snd] in Hr. unfold reach in Hs. rewrite E by (unfold ncols; destruct around; lia). rewrite F by lia.
  unfold node_x, node_y. cbn [INR]. destruct around, k; cbn [IZR]; split; lra.
Qed.

(** ** C68: by splines: the bilinear interpolant of the nodes around the point, none if
    one that counts is not valid; beyond the last nodes of the velocities (at most half a
    cell) the last nodes are used *)
Theorem C68_spline_partial : forall fwd geo around t k x0 dx nx y0 dy ny g hcs lonlat out n p x y i j,
  model_grid geo around x0 dx nx y0 dy ny g hcs -> kind_of t = Some k ->
  (forall hc, In hc hcs -> forall j i, (j < ny)%nat -> (i < nx)%nat -> fst (entry (None, true) hc j i) <> None) ->
  extract_constants fwd geo Spline t g hcs lonlat = Ok out -> nth_error lonlat n = Some p ->
  convention geo x0 (x0 + INR (nx - 1) * dx) (map (fun p => fst (fwd p)) lonlat) (fst (fwd p)) x -> snd (fwd p) = y ->
  reach around x0 dx nx x -> in_rows y0 dy ny (x, y) ->
  columns around nx i -> columns around nx (i + 1) -> (S j < ny)%nat ->
  let x' := Rmin (node_x k x0 dx (last_column around nx)) x in let y' := Rmin (node_y k y0 dy (ny - 1)) y in
  bracket (i + 1 = last_column around nx)%Z (node_x k x0 dx i) (node_x k x0 dx (i + 1)) x' ->
  bracket (S (S j) = ny) (node_y k y0 dy j) (node_y k y0 dy (S j)) y' ->
  (k = Zonal -> around = true \/ (0 < i)%Z) ->
  let w := water (entry 0 (ghz g)) (entry 0%Z (gmz g)) around nx k in
  let ws := corners k x0 dx y0 dy nx x' y' i j w in
  exists D cs, nth_error out n = Some (D, cs) /\ length cs = length hcs /\
    (complete ws -> D = (mean ws, false)) /\ (~ complete ws -> snd D = true) /\
    forall c hc, nth_error hcs c = Some hc ->
      let z := corners k x0 dx y0 dy nx x' y' i j (fun j i => number (w j i) (entry (None, true) hc j i)) in
      exists r, nth_error cs c = Some r /\
        (complete z -> returned (velocity t) (mean ws) (both (mean (part fst z)) (mean (part snd z))) r) /\ (~ complete z -> r = None).
Proof.
  intros fwd geo around t k x0 dx nx y0 dy ny g hcs lonlat out n p x y i j M Hk Hv H Hn Hc' Hq Hs Hr Ci Ci1 Hj x' y' Bx By HZ w ws.
  destruct (extract_inv _ _ _ _ _ _ _ _ _ _ _ _ _ _ _ _ M Hk H) as (xe & xi & yi & b & fs & Hxe & Hxi & Hyi & Rb & Nb & Ef & _ & V).
  destruct M as (Ex & Ey & Hx & Hy & Rh & Rm & Rc & _).
  destruct (V n p x Hn Hc') as (D & inv & cs & O1 & O2 & O3 & O4). rewrite Hq in O2, O3, O4.
  rewrite (inside_valid around x0 dx nx y0 dy ny) in O3 by auto. apply Ok_inj in O3 as <-.
  destruct (first_node around k x0 dx nx y0 dy ny xi yi x y) as [Xf Yf]; auto.
  destruct (spline_values around k x0 dx nx y0 dy ny w xi yi b x y i j Hxi Hyi Hx Hy Rb Nb Xf Yf Ci Ci1 Hj Bx By HZ) as (D' & E1 & DC & DN & Vf).
  cbn [extract_depth] in O2. rewrite E1 in O2. apply Ok_inj in O2 as <-.
  exists D', cs. split; [exact O1|]. split; [now rewrite (mapM_len _ _ _ O4), (mapM_len _ _ _ Ef)|]. split; [apply DC|]. split; [exact DN|].
  intros c hc Hc z. destruct (fields_entries around ny nx b hcs fs Rb Hx Rc Ef c hc Hc) as (f & Hf & Rf & Nf).
  destruct (mapM_nth _ _ _ _ _ O4 Hf) as (r & Er & Hr'). exists r. split; [exact Hr'|].
  destruct (Vf hc f Rf (Hv hc (nth_error_In _ _ Hc)) Nf) as (v & m & Eh & _ & Zc & Zn).
  unfold constant in Er. rewrite Eh in Er. cbn [bind fst snd] in Er. apply Ok_inj in Er. rewrite orb_false_r in Er. split.
  - intros K. destruct (Zc K) as (-> & Ez & Kw). change (both (mean (part fst z)) (mean (part snd z)) = Some v) in Ez. rewrite Ez. destruct (DC Kw) as [-> Md]. cbn [orb snd] in Er.
    change (mean ws <> None) in Md. change (corners k x0 dx y0 dy nx (Rmin (node_x k x0 dx (last_column around nx)) x) (Rmin (node_y k y0 dy (ny - 1)) y) i j w) with ws in Er.
    cbn [returned]. exists (cabs v), (phase_of v). split; [destruct v; apply phase_of_spec|]. rewrite <- Er. destruct (mean ws) as [dd|]; [|congruence].
    unfold convert, velocity. destruct t; reflexivity.
  - intros K. rewrite (Zn K) in Er. cbn in Er. auto.
Qed.
Print Assumptions C68_spline_partial.
