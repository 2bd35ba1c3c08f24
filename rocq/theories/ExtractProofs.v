(** Lemmas for C68 (extraction of constants from OTIS grids). *)
From Coq Require Import Reals List Bool Arith ZArith Lra Lia.
From Verif Require Import PyBase RBase MathModel GeoModel ConvertProps GridModel InterpModel InterpProps ExtractModel ExtractSpec NodeProps.
Import ListNotations.
Open Scope R_scope.

(** ** Bilinear interpolation of masked values of any kind *)
Section Generic.
  Context {V : Type} (vzero : V) (vadd : V -> V -> V) (vscale : R -> V -> V).
  Notation nodeV g j i := (entry (None, true) g j i).
  Lemma gget2_node ny nx (g : list (list (gcell V))) i j : rect ny nx g -> (i < nx)%nat -> (j < ny)%nat -> gget2 g j i = Ok (nodeV g j i).
  Proof.
    intros Hg Hi Hj. unfold gget2. rewrite (get1_nth g []) by (rewrite (proj1 Hg); lia). cbn [bind]. unfold entry. apply get1_nth.
    rewrite (rect_row ny nx); auto.
  Qed.
  Lemma gpoint_eq ilon ilat g lon lat i j : axis ilon -> axis ilat -> rect (length ilat) (length ilon) g -> in_cell ilon ilat i j lon lat ->
    let x0 := nth i ilon 0 in let x1 := nth (S i) ilon 0 in let y0 := nth j ilat 0 in let y1 := nth (S j) ilat 0 in
    let corners := [(nodeV g j i, (x1 - lon) * (y1 - lat)); (nodeV g j (S i), (lon - x0) * (y1 - lat));
                    (nodeV g (S j) i, (x1 - lon) * (lat - y0)); (nodeV g (S j) (S i), (lon - x0) * (lat - y0))] in
    gbilinear_point vzero vadd vscale ilon ilat g (lon, lat) =
      Ok (if isclose lat y0 && isclose lon x0 then nodeV g j i
          else if isclose lat y1 && isclose lon x0 then nodeV g (S j) i
          else if isclose lat y0 && isclose lon x1 then nodeV g j (S i)
          else if isclose lat y1 && isclose lon x1 then nodeV g (S j) (S i)
          else if existsb (fun p => gusable (fst p)) corners then (gweighted vzero vadd vscale corners, false) else (None, true)).
  Proof.
    intros A1 A2 G (Hi & Hj & Hx & Hy & Hlow). intros.
    unfold gbilinear_point. rewrite (axis_min _ A1), (axis_max _ A1), (axis_min _ A2), (axis_max _ A2). cbn [bind].
    assert (L1 : nth 0 ilon 0 <= lon) by (pose proof (axis_mono ilon 0 i A1 ltac:(lia)); lra).
    assert (L2 : lon < nth (length ilon - 1) ilon 0) by (pose proof (axis_mono ilon (S i) (length ilon - 1) A1 ltac:(lia)); lra).
    assert (L3 : lat < nth (length ilat - 1) ilat 0) by (pose proof (axis_mono ilat (S j) (length ilat - 1) A2 ltac:(lia)); lra).
    rewrite (rle_t _ _ L1), (rle_t lon _) by lra. rewrite (rlt_t _ _ Hlow), (rlt_t _ _ L3). cbn [andb].
    unfold gbilinear_inside. rewrite (brackets_one ilon A1 0 i lon Hi Hx), (brackets_one ilat A2 0 j lat Hj Hy). cbn [single bind Nat.add].
    rewrite !(get1_nth _ 0) by lia. cbn [bind]. rewrite !(gget2_node (length ilat) (length ilon) g) by (auto; lia). cbn [bind].
    fold x0 x1 y0 y1.
    rewrite (Rabs_minus_sym lon x1), (Rabs_minus_sym lat y1). rewrite !Rabs_pos_eq by (unfold x0, x1, y0, y1; lra).
    fold corners.
    repeat match goal with |- context [if ?b && ?c then _ else _] => destruct (b && c); [reflexivity|] end.
    now destruct (existsb _ _).
  Qed.
  Lemma gpoint_outside ilon ilat g lon lat : axis ilon -> axis ilat ->
    lon < nth 0 ilon 0 \/ nth (length ilon - 1) ilon 0 < lon \/ lat <= nth 0 ilat 0 \/ nth (length ilat - 1) ilat 0 <= lat ->
    gbilinear_point vzero vadd vscale ilon ilat g (lon, lat) = Ok (None, true).
  Proof.
    intros A1 A2 H. unfold gbilinear_point. rewrite (axis_min _ A1), (axis_max _ A1), (axis_min _ A2), (axis_max _ A2). cbn [bind].
    destruct H as [H|[H|[H|H]]].
    - now rewrite (rle_f (nth 0 ilon 0) lon) by lra.
    - rewrite (rle_f lon) by lra. now rewrite andb_false_r.
    - rewrite (rlt_f (nth 0 ilat 0) lat) by lra. now rewrite andb_false_r.
    - rewrite (rlt_f lat) by lra. now rewrite !andb_false_r.
  Qed.
End Generic.

(** ** Evenly spaced axes *)
Lemma evenly_axis x0 d n l : evenly x0 d n l -> (2 <= n)%nat -> axis l.
Proof.
  intros (Hd & L & E) Hn. split; [lia|]. intros i j Hij. rewrite L in Hij. rewrite !E by lia.
  assert (INR i < INR j) by (apply lt_INR; lia). assert (INR i * d < INR j * d) by (apply Rmult_lt_compat_r; lra). lra.
Qed.
Lemma evenly_spacing x0 d n l : evenly x0 d n l -> (2 <= n)%nat -> spacing l = Ok d.
Proof.
  intros (Hd & L & E) Hn. unfold spacing. rewrite !(get1_nth l 0) by lia. cbn [bind]. rewrite !E by lia. cbn [INR]. f_equal. ring.
Qed.
Lemma evenly_span x0 d n l : evenly x0 d n l -> (2 <= n)%nat -> last l 0 - hd 0 l = INR (n - 1) * d.
Proof.
  intros (Hd & L & E) Hn. assert (l <> []) by (intros ->; cbn in L; lia). rewrite last_nth' by auto.
  replace (hd 0 l) with (nth 0 l 0) by (destruct l; reflexivity). rewrite L, !E by lia. cbn [INR]. ring.
Qed.
Lemma evenly_ends x0 d n l : evenly x0 d n l -> (2 <= n)%nat -> amin l = Ok x0 /\ amax l = Ok (x0 + INR (n - 1) * d).
Proof.
  intros H Hn. pose proof (evenly_axis _ _ _ _ H Hn) as A. rewrite (axis_min _ A), (axis_max _ A). destruct H as (Hd & L & E).
  rewrite L, !E by lia. cbn [INR]. split; f_equal; ring.
Qed.
Lemma extend_axis_evenly x0 d n l : evenly x0 d n l -> (2 <= n)%nat -> exists l', extend_axis l d = Ok l' /\ evenly (x0 - d) d (n + 2) l'.
Proof.
  intros H Hn. pose proof H as (Hd & L & E). destruct l as [|a l]; [cbn in L; lia|].
  eexists. split; [reflexivity|]. split; [auto|]. split; [cbn [length] in *; rewrite app_length; cbn [length]; lia|].
  intros i Hi. assert (Ea : a = x0) by (specialize (E 0%nat ltac:(lia)); cbn in E; lra).
  destruct i as [|i]; [cbn; lra|]. change (nth (S i) ((a - d) :: ((a :: l) ++ [last (a :: l) a + d])) 0) with (nth i ((a :: l) ++ [last (a :: l) a + d]) 0).
  destruct (Nat.eq_dec i n) as [->|N].
  - rewrite app_nth2 by lia. rewrite L, Nat.sub_diag. cbn [nth]. rewrite last_nth' by congruence. rewrite L.
    rewrite (nth_indep _ a 0) by lia. rewrite E by lia. rewrite S_INR, minus_INR by lia. cbn [INR]. ring.
  - rewrite app_nth1 by lia. rewrite E by lia. rewrite S_INR. ring.
Qed.
Lemma shift_evenly x0 d n l s : evenly x0 d n l -> evenly (x0 - s) d n (map (fun x => x - s) l).
Proof.
  intros (Hd & L & E). split; [auto|]. split; [now rewrite map_length|]. intros i Hi.
  rewrite (nth_indep _ 0 (0 - s)) by (rewrite map_length; lia). rewrite (map_nth (fun x => x - s)), E by auto. ring.
Qed.

(** ** Extension of the data *)
Definition ncols (around : bool) (nx : nat) : nat := if around then (nx + 2)%nat else nx.
Definition col (around : bool) (nx e : nat) : nat :=
  if around then match e with O => (nx - 1)%nat | S k => if Nat.eqb k nx then O else k end else e.
Lemma col_lt around nx e : (0 < nx)%nat -> (e < ncols around nx)%nat -> (col around nx e < nx)%nat.
Proof. unfold ncols, col. destruct around; auto. destruct e as [|k]; [lia|]. destruct (Nat.eqb k nx) eqn:K; [lia|]. apply Nat.eqb_neq in K. lia. Qed.
Lemma extend_row_nth {A} (d : A) row nx : length row = nx -> (0 < nx)%nat ->
  exists r, extend_row row = Ok r /\ length r = (nx + 2)%nat /\ forall e, (e < nx + 2)%nat -> nth e r d = nth (col true nx e) row d.
Proof.
  intros L Hx. destruct row as [|a row]; [cbn in L; lia|]. eexists. split; [reflexivity|]. split; [cbn [length] in *; rewrite app_length; cbn [length]; lia|].
  intros [|k] He.
  - change (nth 0 (last (a :: row) a :: (a :: row) ++ [a]) d) with (last (a :: row) a). rewrite last_nth' by congruence. rewrite L. cbn [col]. apply nth_indep. lia.
  - change (nth (S k) (last (a :: row) a :: (a :: row) ++ [a]) d) with (nth k ((a :: row) ++ [a]) d). cbn [col]. destruct (Nat.eqb k nx) eqn:K.
    + apply Nat.eqb_eq in K as ->. rewrite app_nth2 by lia. rewrite L, Nat.sub_diag. reflexivity.
    + apply Nat.eqb_neq in K. rewrite app_nth1 by lia. reflexivity.
Qed.
Lemma extend_if_entries {A} (d : A) around ny nx m : rect ny nx m -> (0 < nx)%nat ->
  exists m', extend_if around m = Ok m' /\ rect ny (ncols around nx) m' /\
    forall j e, (j < ny)%nat -> (e < ncols around nx)%nat -> entry d m' j e = entry d m j (col around nx e).
Proof.
  intros Hm Hx. destruct around; cbn [extend_if ncols].
  - assert (P : exists m', extend_matrix m = Ok m' /\ length m' = length m /\ forall j, (j < length m)%nat ->
             length (nth j m' []) = (nx + 2)%nat /\ forall e, (e < nx + 2)%nat -> nth e (nth j m' []) d = nth (col true nx e) (nth j m []) d).
    { destruct Hm as [_ Hr]. revert Hr. unfold extend_matrix. induction m as [|r m IH]; intros Hr.
      - exists []. repeat split; auto; cbn in *; lia.
      - destruct (extend_row_nth d r nx (Hr r (or_introl eq_refl)) Hx) as (r' & E & L & N).
        destruct IH as (m' & E' & L' & N'); [intros; apply Hr; now right|]. exists (r' :: m'). cbn [mapM]. rewrite E. cbn [bind]. rewrite E'. cbn [bind].
        split; [reflexivity|]. split; [cbn; lia|]. intros [|j] Hj; [auto|]. cbn [nth]. apply N'. cbn in Hj. lia. }
    destruct P as (m' & E & L & N). destruct Hm as [Lm Hm]. exists m'. split; [exact E|]. split.
    + apply rect_intro; [lia|]. intros j Hj. apply N. lia.
    + intros j e Hj He. apply N; lia.
  - exists m. repeat split; auto; apply Hm.
Qed.

(** ** Depths and masks of the nodes *)
Definition kind_of (t : variable) : option kind :=
  match t with Vz => Some Heights | Vu | VU => Some Zonal | Vv | VV => Some Meridional | Vother => None end.
(** the columns for which the code's depths are right *)
Definition sound_column (k : kind) (around : bool) (i : nat) : Prop :=
  match k with Zonal => around = true \/ (0 < i)%nat | _ => True end.
Definition depth_entry (w : option R) (c : gcell R) : Prop :=
  match w with Some d => c = (Some d, false) /\ d <> 0 | None => snd c = true /\ fst c <> None end.

Lemma req_t x y : x = y -> req x y = true.
Proof. intros ->. unfold req. now destruct (Req_EM_T y y). Qed.
Lemma req_f x y : x <> y -> req x y = false.
Proof. intros H. unfold req. now destruct (Req_EM_T x y). Qed.

Lemma same_shape_t {A B} ny nx (a : list (list A)) (b : list (list B)) : rect ny nx a -> rect ny nx b -> same_shape a b = true.
Proof.
  intros [L1 R1] [L2 R2]. unfold same_shape. rewrite L1, L2, Nat.eqb_refl. cbn [andb]. apply forallb_forall. intros [r s] H.
  apply in_combine_l in H as Hr. apply in_combine_r in H as Hs. cbn [fst snd]. rewrite (R1 _ Hr), (R2 _ Hs). apply Nat.eqb_refl.
Qed.

Lemma layer_entries (around : bool) dx dy x0 y0 xe yi g t k ny nx :
  kind_of t = Some k -> rect ny nx (ghz g) -> rect ny nx (gmz g) -> (2 <= ny)%nat -> (2 <= nx)%nat ->
  evenly (if around then x0 - dx else x0) dx (ncols around nx) xe -> evenly y0 dy ny yi ->
  exists xi yj b, layer around dx dy xe yi g t = Ok (xi, yj, b) /\
    evenly (node_x k (if around then x0 - dx else x0) dx 0) dx (ncols around nx) xi /\
    evenly (node_y k y0 dy 0) dy ny yj /\ rect ny (ncols around nx) b /\
    forall j e, (j < ny)%nat -> (e < ncols around nx)%nat -> sound_column k around (col around nx e) ->
      depth_entry (water (entry 0 (ghz g)) (entry 0%Z (gmz g)) around nx k j (col around nx e)) (entry (None, true) b j e).
Proof.
  intros Hk Hh Hm Hy Hx Ex Ey. set (X0 := if around then x0 - dx else x0) in *.
  assert (Zx : forall k', k' <> Zonal -> node_x k' X0 dx 0 = X0) by (intros [] N; cbn [node_x]; try congruence; ring).
  assert (Zy : forall k', k' <> Meridional -> node_y k' y0 dy 0 = y0) by (intros [] N; cbn [node_y INR]; try congruence; ring).
  assert (D0 : forall d m, depth_entry (if Req_EM_T d 0 then None else if Z.eqb m 0 then None else Some d) (depth_cell d m)).
  { intros d m. unfold depth_cell, depth_entry, nonzero. destruct (Req_EM_T d 0) as [->|N]; cbn [fst snd].
    - rewrite (req_t 0 0) by auto. split; [reflexivity|discriminate].
    - rewrite (req_f d 0) by auto. destruct (Z.eqb m 0); cbn; split; auto; discriminate. }
  assert (D1 : forall a b, depth_entry (if Rlt_dec 0 b then if Rlt_dec 0 a then Some ((b + a) / 2) else None else None)
            (depth_cell (0.5 * IZR (Z.mul (open_cell a) (open_cell b)) * (a + b)) (Z.mul (open_cell a) (open_cell b)))).
  { intros a b. unfold depth_cell, depth_entry. destruct (Rlt_dec 0 b).
    - rewrite (open_cell_pos b) by auto. destruct (Rlt_dec 0 a).
      + rewrite (open_cell_pos a) by auto. change (IZR (1 * 1)) with 1. rewrite req_f by lra. cbn. split; [|lra]. f_equal. f_equal. lra.
      + rewrite (open_cell_neg a) by lra. change (0 * 1)%Z with 0%Z. cbn. rewrite orb_true_r. split; [reflexivity|discriminate].
    - rewrite (open_cell_neg b) by lra. rewrite Z.mul_0_r. cbn. rewrite orb_true_r. split; [reflexivity|discriminate]. }
  assert (Px : (0 < nx)%nat) by lia. assert (Py : (0 < ny)%nat) by lia.
  destruct (mask_nodes_entries (ghz g) ny nx around Hh Py Px) as (mu & mv & Em & Rmu & Rmv & Vm).
  destruct (interpolate_zeta_entries (ghz g) ny nx around Hh Py Px) as (hu & hv & Eh & Rhu & Rhv & Vh).
  destruct t; cbn [kind_of] in Hk; try discriminate; injection Hk as <-; cbn [layer]; rewrite ?Em, ?Eh; cbn [bind fst snd].
  - destruct (extend_if_entries 0 around ny nx (ghz g) Hh Px) as (hz' & E1 & R1 & N1).
    destruct (extend_if_entries 0%Z around ny nx (gmz g) Hm Px) as (mz' & E2 & R2 & N2).
    rewrite E1, E2. cbn [bind]. rewrite (same_shape_t ny (ncols around nx)) by auto. exists xe, yi, (zip22 depth_cell hz' mz').
    split; [reflexivity|]. rewrite Zx, Zy by discriminate. split; [auto|]. split; [auto|]. split; [now apply zip22_rect|].
    intros j e Hj He _. rewrite (zip22_entry depth_cell ny (ncols around nx) hz' mz' 0 0%Z) by auto. rewrite N1, N2 by auto. apply D0.
  - destruct (extend_if_entries 0 around ny nx hu Rhu Px) as (hz' & E1 & R1 & N1).
    destruct (extend_if_entries 0%Z around ny nx mu Rmu Px) as (mz' & E2 & R2 & N2).
    rewrite E1, E2. cbn [bind]. eexists _, _, _. split; [reflexivity|]. rewrite Zy by discriminate.
    replace (node_x Zonal X0 dx 0) with (X0 - dx / 2) by (cbn [node_x]; ring). split; [now apply shift_evenly|]. split; [auto|]. split; [now apply zip22_rect|].
    intros j e Hj He Hs. rewrite (zip22_entry depth_cell ny (ncols around nx) hz' mz' 0 0%Z) by auto. rewrite N1, N2 by auto.
    pose proof (col_lt around nx e Px He) as Hc. destruct (Vm j _ Hj Hc) as [-> _]. destruct (Vh j _ Hj Hc) as [-> _]. cbn [water].
    replace (west true nx (col around nx e)) with (west around nx (col around nx e)); [apply D1|].
    destruct Hs as [->|Hs]; auto. destruct (col around nx e); [lia|reflexivity].
  - destruct (extend_if_entries 0 around ny nx hu Rhu Px) as (hz' & E1 & R1 & N1).
    destruct (extend_if_entries 0%Z around ny nx mu Rmu Px) as (mz' & E2 & R2 & N2).
    rewrite E1, E2. cbn [bind]. eexists _, _, _. split; [reflexivity|]. rewrite Zy by discriminate.
    replace (node_x Zonal X0 dx 0) with (X0 - dx / 2) by (cbn [node_x]; ring). split; [now apply shift_evenly|]. split; [auto|]. split; [now apply zip22_rect|].
    intros j e Hj He Hs. rewrite (zip22_entry depth_cell ny (ncols around nx) hz' mz' 0 0%Z) by auto. rewrite N1, N2 by auto.
    pose proof (col_lt around nx e Px He) as Hc. destruct (Vm j _ Hj Hc) as [-> _]. destruct (Vh j _ Hj Hc) as [-> _]. cbn [water].
    replace (west true nx (col around nx e)) with (west around nx (col around nx e)); [apply D1|].
    destruct Hs as [->|Hs]; auto. destruct (col around nx e); [lia|reflexivity].
  - destruct (extend_if_entries 0 around ny nx hv Rhv Px) as (hz' & E1 & R1 & N1).
    destruct (extend_if_entries 0%Z around ny nx mv Rmv Px) as (mz' & E2 & R2 & N2).
    rewrite E1, E2. cbn [bind]. eexists _, _, _. split; [reflexivity|]. rewrite Zx by discriminate.
    replace (node_y Meridional y0 dy 0) with (y0 - dy / 2) by (cbn [node_y INR]; ring). split; [auto|]. split; [now apply shift_evenly|]. split; [now apply zip22_rect|].
    intros j e Hj He Hs. rewrite (zip22_entry depth_cell ny (ncols around nx) hz' mz' 0 0%Z) by auto. rewrite N1, N2 by auto.
    pose proof (col_lt around nx e Px He) as Hc. destruct (Vm j _ Hj Hc) as [_ ->]. destruct (Vh j _ Hj Hc) as [_ ->]. cbn [water]. apply D1.
  - destruct (extend_if_entries 0 around ny nx hv Rhv Px) as (hz' & E1 & R1 & N1).
    destruct (extend_if_entries 0%Z around ny nx mv Rmv Px) as (mz' & E2 & R2 & N2).
    rewrite E1, E2. cbn [bind]. eexists _, _, _. split; [reflexivity|]. rewrite Zx by discriminate.
    replace (node_y Meridional y0 dy 0) with (y0 - dy / 2) by (cbn [node_y INR]; ring). split; [auto|]. split; [now apply shift_evenly|]. split; [now apply zip22_rect|].
    intros j e Hj He Hs. rewrite (zip22_entry depth_cell ny (ncols around nx) hz' mz' 0 0%Z) by auto. rewrite N1, N2 by auto.
    pose proof (col_lt around nx e Px He) as Hc. destruct (Vm j _ Hj Hc) as [_ ->]. destruct (Vh j _ Hj Hc) as [_ ->]. cbn [water]. apply D1.
Qed.
