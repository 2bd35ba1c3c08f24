(** C72: the domain of a tide model and the constants that can be extracted from it. *)
From Coq Require Import Reals List Bool Arith ZArith Lra Lia.
From Verif Require Import PyBase RBase MathModel GeoModel ConvertProps GridModel InterpModel InterpProps ExtractModel ExtractSpec NodeProps ExtractProofs ExtractProps SplineProps ReturnProps SeriesModel SeriesSpec AtlasNcModel AtlasNcSpec AtlasNcProps AtlasNcProps2 AtlasNcProps3 MaskModel MaskSpec MaskProps MaskProps2.
Import ListNotations.
Open Scope R_scope.

(** ** Nothing outside of the axes is within the domain, with every method. *)
Theorem C72_outside : forall tr fwd me s xi yi pts out n p x y, ascending xi -> ascending yi -> gridded xi yi s ->
  tide_masks tr fwd me s (P1 pts) = Ok out -> nth_error pts n = Some p -> position fwd s (tr p) = (x, y) -> ~ boxed xi yi x y ->
  length out = length pts /\ (nth_error out n = Some (Some false) \/ nth_error out n = Some None).
Proof.
  intros tr fwd me s xi yi pts out n p x y A1 A2 G H Hn Hq B. destruct (gridded_known xi yi s G) as (mz & K).
  destruct (masks_list tr fwd me s xi yi mz pts K A1 A2) as (out' & Eo & Lo & Ho).
  { pose proof K as (Ed & _ & _). unfold tide_masks in H. rewrite Ed in H. cbn [bind] in H. destruct (negb (pairs_of me (P1 pts))); [discriminate|]. cbn [flat] in H. destruct (mapM _ pts) as [ms|] eqn:Em; [|discriminate]. clear H.
    intros q Hin. apply In_nth_error in Hin as (k & Hk). destruct (mapM_nth _ _ _ _ _ Em Hk) as (qm & E1 & _). rewrite placed_position in E1. destruct (land_at me xi yi mz (position fwd s (tr q)) q); [eauto|discriminate]. }
  assert (out' = out) by congruence. subst out'. split; [exact Lo|]. destruct (Ho n p Hn) as (m & b & _ & E & Hb). rewrite Hq in Hb. cbn [fst snd] in Hb. destruct b; [exfalso; apply B, Hb; reflexivity|].
  destruct m as [m|]; [left|right]; rewrite E; cbn [option_map]; [now rewrite andb_false_r|reflexivity].
Qed.

(** ** Points west of Greenwich are never within the domain of a model from 0 to 360
    degrees with the methods of the regular grid. *)
Theorem C72_regular_refuted : forall tr fwd me s xi yi pts n p, ascending xi -> ascending yi -> gridded xi yi s -> me = Mlinear \/ me = Mnearest ->
  0 <= nth 0 xi 0 -> nth_error pts n = Some p -> fst p < 0 ->
  exists out, tide_masks tr fwd me s (P1 pts) = Ok out /\ nth_error out n = Some (Some false).
Proof.
  intros tr fwd me s xi yi pts n p A1 A2 G Hm H0 Hn Hp. destruct (position fwd s (tr p)) as [x y] eqn:Eq. destruct Hm as [-> | ->].
  - destruct (C72_linear tr fwd s xi yi pts A1 A2 G) as (out & E & _ & H). exists out. split; [exact E|]. destruct (H n p x y Hn Eq) as (b & Eb & Hb). rewrite Eb. destruct b; [|reflexivity]. exfalso. destruct (proj1 Hb eq_refl) as (_ & [[K _] _] & _). lra.
  - destruct (C72_nearest tr fwd s xi yi pts A1 A2 G) as (out & E & _ & H). exists out. split; [exact E|]. destruct (H n p x y Hn Eq) as (b & Eb & Hb). rewrite Eb. destruct b; [|reflexivity]. exfalso. destruct (proj1 Hb eq_refl) as (_ & [[K _] _] & _). lra.
Qed.

(** ** Corners that count *)
Lemma weight_nonneg {V} (l : list (R * option V)) : (forall p, In p l -> 0 <= fst p) -> 0 <= weight l.
Proof.
  unfold weight. induction l as [|[w o] l IH]; intros H; [apply Rle_refl|]. cbn [map fold_right fst snd]. pose proof (H _ (or_introl eq_refl)) as H0. cbn [fst] in H0. specialize (IH (fun p Hp => H p (or_intror Hp))). destruct o; lra.
Qed.
Lemma weight_some {V} (l : list (R * option V)) : (forall p, In p l -> 0 <= fst p) -> (weight l <> 0 <-> exists p, In p l /\ fst p <> 0 /\ snd p <> None).
Proof.
  induction l as [|[w o] l IH]; intros H; [split; [cbn; lra|intros (p & [] & _)]|]. specialize (IH (fun p Hp => H p (or_intror Hp))).
  pose proof (H _ (or_introl eq_refl)) as H0. cbn [fst] in H0. pose proof (weight_nonneg l (fun p Hp => H p (or_intror Hp))) as Hw.
  change (weight ((w, o) :: l)) with ((match o with Some _ => w | None => 0 end) + weight l). split.
  - intros N. destruct (Req_dec (weight l) 0) as [E|E].
    + exists (w, o). split; [now left|]. cbn [fst snd]. destruct o; [split; [lra|discriminate]|lra].
    + apply IH in E as (p & Hp & P). exists p. split; [now right|exact P].
  - intros (p & [<-|Hp] & P1 & P2).
    + cbn [fst snd] in *. destruct o; [lra|congruence].
    + assert (weight l <> 0) by (apply IH; eauto). destruct o; lra.
Qed.
Lemma mean_some l : mean l <> None <-> weight l <> 0.
Proof. unfold mean. destruct (Req_EM_T (weight l) 0); split; congruence || (intros; discriminate) || auto. Qed.
Lemma weight_of_part {V} (f : V -> R) l : weight (part f l) = weight l.
Proof. unfold weight, part. rewrite map_map. f_equal. apply map_ext. intros [w [v|]]; reflexivity. Qed.
Lemma both_some a b : both a b <> None <-> a <> None /\ b <> None.
Proof. destruct a, b; cbn; split; intros H; try split; try congruence; destruct H; congruence. Qed.
Lemma reported_some t sc d z r : reported t sc d z r -> (r <> None <-> d <> None /\ z <> None).
Proof.
  unfold reported. destruct z as [z|], d as [d|]; intros H; try (rewrite H; split; [congruence|intros []; congruence]).
  destruct H as (a & p & _ & ->). split; intros; try split; discriminate.
Qed.

Section Cell.
  Context (nd : nodes) (around : bool) (x0 dx y0 dy : R) (nx ny : nat) (x y : R) (i j : nat).
  Hypothesis G : nodes_grid around x0 dx nx y0 dy ny nd.
  Hypothesis Hi : (S i < nx)%nat.
  Hypothesis Hj : (S j < ny)%nat.
  Hypothesis Bx : node_x Heights x0 dx (Z.of_nat i) <= x <= node_x Heights x0 dx (Z.of_nat i + 1).
  Hypothesis By : node_y Heights y0 dy j <= y <= node_y Heights y0 dy (S j).
  Lemma grid_axes : ascending (nlon nd) /\ ascending (nlat nd) /\ length (nlon nd) = nx /\ length (nlat nd) = ny.
  Proof.
    destruct G as (Gx & Gy & Nx & Ny & _). split; [apply (evenly_axis x0 dx nx); auto|]. split; [apply (evenly_axis y0 dy ny); auto|]. split; [apply Gx|apply Gy].
  Qed.
  Lemma real_column k : (k < nx)%nat -> column nx (Z.of_nat k) = k.
  Proof. intros H. unfold column. rewrite Z.mod_small by lia. apply Nat2Z.id. Qed.
  Lemma lon_at k : (k < nx)%nat -> nth k (nlon nd) 0 = node_x Heights x0 dx (Z.of_nat k).
  Proof. intros H. destruct G as ((_ & _ & E) & _). rewrite E by auto. unfold node_x. now rewrite INR_IZR_INZ. Qed.
  Lemma lat_at k : (k < ny)%nat -> nth k (nlat nd) 0 = node_y Heights y0 dy k.
  Proof. intros H. destruct G as (_ & (_ & _ & E) & _). now rewrite E by auto. Qed.
  Lemma cell_beside_x k : beside (nlon nd) k x <-> k = i /\ x < node_x Heights x0 dx (Z.of_nat i + 1) \/ k = S i /\ node_x Heights x0 dx (Z.of_nat i) < x.
  Proof.
    destruct grid_axes as (A1 & _ & L1 & _). assert (E : node_x Heights x0 dx (Z.of_nat i + 1) = nth (S i) (nlon nd) 0) by (rewrite lon_at by lia; f_equal; lia).
    rewrite (beside_cell (nlon nd) i x A1) by (rewrite ?L1, <- ?E, ?lon_at by lia; auto). rewrite <- E, lon_at by lia. reflexivity.
  Qed.
  Lemma cell_beside_y k : beside (nlat nd) k y <-> k = j /\ y < node_y Heights y0 dy (S j) \/ k = S j /\ node_y Heights y0 dy j < y.
  Proof.
    destruct grid_axes as (_ & A2 & _ & L2). rewrite (beside_cell (nlat nd) j y A2) by (rewrite ?L2, ?lat_at by lia; auto). rewrite !lat_at by lia. reflexivity.
  Qed.
  Lemma corner_nonneg {V} (f : nat -> nat -> option V) p : In p (corners Heights x0 dx y0 dy nx x y (Z.of_nat i) j f) -> 0 <= fst p.
  Proof. unfold corners. cbv zeta. intros [<-|[<-|[<-|[<-|[]]]]]; cbn [fst]; apply Rmult_le_pos; lra. Qed.
  (** a corner that counts has a value: a node beside the point has *)
  Lemma corners_beside {V} (f : nat -> nat -> option V) : weight (corners Heights x0 dx y0 dy nx x y (Z.of_nat i) j f) <> 0 <->
    exists b a, beside (nlat nd) b y /\ beside (nlon nd) a x /\ f b a <> None.
  Proof.
    rewrite weight_some by apply corner_nonneg. assert (E1 : column nx (Z.of_nat i) = i) by (apply real_column; lia). assert (E2 : column nx (Z.of_nat i + 1) = S i) by (replace (Z.of_nat i + 1)%Z with (Z.of_nat (S i)) by lia; apply real_column; lia).
    unfold corners. cbv zeta. rewrite E1, E2. split.
    - intros (p & Hp & P1 & P2). destruct Hp as [<-|[<-|[<-|[<-|[]]]]]; cbn [fst snd] in *; apply Rmult_neq_0_reg in P1 as [Q1 Q2].
      + exists j, i. rewrite cell_beside_x, cell_beside_y. repeat split; auto; left; split; auto; lra.
      + exists j, (S i). rewrite cell_beside_x, cell_beside_y. repeat split; auto; [left|right]; split; auto; lra.
      + exists (S j), i. rewrite cell_beside_x, cell_beside_y. repeat split; auto; [right|left]; split; auto; lra.
      + exists (S j), (S i). rewrite cell_beside_x, cell_beside_y. repeat split; auto; right; split; auto; lra.
    - intros (b & a & H1 & H2 & H3). apply cell_beside_y in H1. apply cell_beside_x in H2.
      assert (Pr : forall u w, u <> 0 -> w <> 0 -> u * w <> 0) by (intros; apply Rmult_integral_contrapositive; auto).
      destruct H1 as [[-> H1]|[-> H1]], H2 as [[-> H2]|[-> H2]].
      + eexists. split; [left; reflexivity|]. split; [apply Pr; lra|exact H3].
      + eexists. split; [right; left; reflexivity|]. split; [apply Pr; lra|exact H3].
      + eexists. split; [right; right; left; reflexivity|]. split; [apply Pr; lra|exact H3].
      + eexists. split; [right; right; right; left; reflexivity|]. split; [apply Pr; lra|exact H3].
  Qed.
  Lemma corners_complete {V} (f : nat -> nat -> option V) : (exists b a, beside (nlat nd) b y /\ beside (nlon nd) a x /\ f b a = None) -> ~ complete (corners Heights x0 dx y0 dy nx x y (Z.of_nat i) j f).
  Proof.
    assert (E1 : column nx (Z.of_nat i) = i) by (apply real_column; lia). assert (E2 : column nx (Z.of_nat i + 1) = S i) by (replace (Z.of_nat i + 1)%Z with (Z.of_nat (S i)) by lia; apply real_column; lia).
    intros (b & a & H1 & H2 & H3) K. unfold complete, corners in K. cbv zeta in K. rewrite E1, E2 in K. apply cell_beside_y in H1. apply cell_beside_x in H2.
    assert (Pr : forall u w, u <> 0 -> w <> 0 -> u * w <> 0) by (intros; apply Rmult_integral_contrapositive; auto).
    destruct H1 as [[-> H1]|[-> H1]], H2 as [[-> H2]|[-> H2]].
    - apply (K _ (or_introl eq_refl)); [apply Pr; lra|exact H3].
    - apply (K _ (or_intror (or_introl eq_refl))); [apply Pr; lra|exact H3].
    - apply (K _ (or_intror (or_intror (or_introl eq_refl)))); [apply Pr; lra|exact H3].
    - apply (K _ (or_intror (or_intror (or_intror (or_introl eq_refl))))); [apply Pr; lra|exact H3].
  Qed.
End Cell.

Lemma gridded_nodes g t nd around x0 dx nx y0 dy ny : nodes_for g t nd -> fny g = ny -> nodes_grid around x0 dx nx y0 dy ny nd -> gridded (nlon nd) (nlat nd) (Satlas t g).
Proof.
  intros Hn Hny (Gx & Gy & _ & _ & Rd & _). destruct Gx as (_ & Lx & _). destruct Gy as (_ & Ly & _). apply (On_atlas _ _ t g nd); auto; [congruence|]. now rewrite Lx, Ly.
Qed.
Lemma open_depth_at g t nd j i : nodes_for g t nd -> (open_at j i (Satlas t g) <-> depth_of nd j i <> None).
Proof.
  intros Hn. split.
  - intros H. inversion H as [|t0 g0 nd' d Hn' Hd| |]; subst. assert (nd' = nd) by (apply nodes_for_eq in Hn, Hn'; congruence). subst nd'. congruence.
  - intros H. destruct (depth_of nd j i) as [d|] eqn:E; [|congruence]. now apply (Open_atlas j i t g nd d).
Qed.

(** ** Bilinearly, within the cells of an ATLAS model from 0 to 360 degrees: a point is
    within the domain exactly if there is a constant for it. *)
Theorem C72_agrees : forall fwd t sc g nd files pts out masks c f pa n p around x0 dx nx y0 dy ny x y i j,
  nodes_for g t nd -> fny g = ny -> nodes_grid around x0 dx nx y0 dy ny nd -> framed Eastern (nlon nd) ->
  extract_atlas Bilinear t sc g files pts = Ok out -> tide_masks (fun q => q) fwd Mbilinear (Satlas t g) (P1 pts) = Ok masks ->
  nth_error files c = Some f -> parts_for f t (Some pa) -> file_grid nx ny f pa ->
  (forall j i, (j < ny)%nat -> (i < nx)%nat -> number_of pa j i <> None) ->
  nth_error pts n = Some p -> eastward (fst p) = x -> snd p = y -> (S i < nx)%nat -> (S j < ny)%nat ->
  between_nodes Heights x0 dx y0 dy x y (Z.of_nat i) j ->
  (forall b a, (b < ny)%nat -> (a < nx)%nat -> ~ (ExtractSpec.close x (node_x Heights x0 dx (Z.of_nat a)) /\ ExtractSpec.close y (node_y Heights y0 dy b))) ->
  exists cs r b, nth_error (aconst out) c = Some cs /\ nth_error cs n = Some r /\ nth_error masks n = Some (Some b) /\ (b = true <-> r <> None).
Proof.
  intros fwd t sc g nd files pts out masks c f pa n p around x0 dx nx y0 dy ny x y i j Hn Hny G Fr He Ht Hf Hpa Hfg Hz Hp Hx Hy Hi Hj Bt Nn.
  pose proof Bt as (Bx & By & Lo). destruct (grid_axes nd around x0 dx y0 dy nx ny G) as (A1 & A2 & L1 & L2). pose proof G as (Gx & Gy & Nx & Ny & Rd & Ga).
  destruct (C71_cell t sc Eastern g nd files pts out c f pa n p around x0 dx nx y0 dy ny x y (Z.of_nat i) j) as (D & cs & r & _ & _ & _ & _ & E1 & _ & E2 & E3); auto.
  { unfold reached. destruct around; lia. } { unfold reached. destruct around; lia. }
  { intros [K1 K2]. destruct K1 as [K1|K1], K2 as [K2|K2]; [apply (Nn j i)|apply (Nn (S j) i)|apply (Nn j (S i))|apply (Nn (S j) (S i))]; try lia; (split; [|exact K2]); try exact K1; replace (Z.of_nat (S i)) with (Z.of_nat i + 1)%Z by lia; exact K1. }
  exists cs, r. assert (Bx' : node_x Heights x0 dx (Z.of_nat i) <= x <= node_x Heights x0 dx (Z.of_nat i + 1)) by lra. assert (By' : node_y Heights y0 dy j <= y <= node_y Heights y0 dy (S j)) by lra.
  assert (Q : exists b, nth_error masks n = Some (Some b) /\ (b = true <-> exists j i, beside (nlat nd) j y /\ beside (nlon nd) i x /\ open_at j i (Satlas t g))).
  { destruct (gridded_known _ _ _ (gridded_nodes g t nd around x0 dx nx y0 dy ny Hn Hny G)) as (mz & K). pose proof K as (_ & Rm & Hm).
    assert (Ql : forall q, In q pts -> exists m, land_at Mbilinear (nlon nd) (nlat nd) mz (position fwd (Satlas t g) q) q = Ok m).
    { pose proof K as (Ed & _ & _). unfold tide_masks in Ht. rewrite Ed in Ht. cbn [bind pairs_of negb flat] in Ht. destruct (mapM _ pts) as [ms|] eqn:Em; [|discriminate]. clear Ht.
      intros q Hin. apply In_nth_error in Hin as (k & Hk). destruct (mapM_nth _ _ _ _ _ Em Hk) as (qm & F1 & _). rewrite placed_position in F1. destruct (land_at Mbilinear (nlon nd) (nlat nd) mz (position fwd (Satlas t g) q) q); [eauto|discriminate]. }
    destruct (masks_list (fun q => q) fwd Mbilinear (Satlas t g) (nlon nd) (nlat nd) mz pts K A1 A2 Ql) as (out' & Eo & _ & Ho). assert (out' = masks) by congruence. subst out'.
    destruct (Ho n p Hp) as (m & b & F1 & F2 & F3). cbn [position fst snd] in F1, F3. rewrite Hx, Hy in F1, F3.
    assert (C : in_cell (nlon nd) (nlat nd) i j x y).
    { repeat split; try (rewrite ?L1, ?L2; lia); rewrite ?(lon_at nd around x0 dx y0 dy nx ny G), ?(lat_at nd around x0 dx y0 dy nx ny G) by lia; try replace (Z.of_nat (S i)) with (Z.of_nat i + 1)%Z by lia; try apply Bx; try apply By; apply Lo. }
    assert (N : ~ near_corner (nlon nd) (nlat nd) i j x y).
    { intros [K1 K2]. rewrite !(lon_at nd around x0 dx y0 dy nx ny G) in K1 by lia. rewrite !(lat_at nd around x0 dx y0 dy nx ny G) in K2 by lia. destruct K1 as [K1|K1], K2 as [K2|K2]; [apply (Nn j i)|apply (Nn (S j) i)|apply (Nn j (S i))|apply (Nn (S j) (S i))]; try lia; split; assumption. }
    unfold land_at in F1. destruct (bilinear_cell (nlon nd) (nlat nd) mz A1 A2 Rm x y i j C N) as (v & Er & Hv). rewrite Er in F1. cbn [bind] in F1. apply Ok_inj in F1 as <-. cbn [option_map] in F2.
    assert (b = true) as ->. { apply F3. unfold boxed, spanned. rewrite L1, L2. destruct C as (_ & _ & C1 & C2 & _). destruct A1 as [_ A1']. destruct A2 as [_ A2'].
      assert (M1 : nth 0 (nlon nd) 0 <= nth i (nlon nd) 0) by (apply axis_mono; [apply (evenly_axis x0 dx nx); auto|lia]). assert (M2 : nth (S i) (nlon nd) 0 <= nth (nx - 1) (nlon nd) 0) by (apply axis_mono; [apply (evenly_axis x0 dx nx); auto|lia]).
      assert (M3 : nth 0 (nlat nd) 0 <= nth j (nlat nd) 0) by (apply axis_mono; [apply (evenly_axis y0 dy ny); auto|lia]). assert (M4 : nth (S j) (nlat nd) 0 <= nth (ny - 1) (nlat nd) 0) by (apply axis_mono; [apply (evenly_axis y0 dy ny); auto|lia]). lra. }
    rewrite andb_true_r in F2. exists (negb (flagged v)). split; [exact F2|].
    apply (some_open _ _ _ mz (fun j => beside (nlat nd) j y) (fun i => beside (nlon nd) i x) K); auto; try (intros; apply beside_dec); intros k Hk; apply Hk. }
  destruct Q as (b & Eb & Hb). exists b. split; [exact E1|]. split; [exact E2|]. split; [exact Eb|]. rewrite Hb. apply reported_some in E3. rewrite E3.
  rewrite both_some, !mean_some, !weight_of_part. rewrite !(corners_beside nd around x0 dx y0 dy nx ny x y i j G Hi Hj Bx' By'). split.
  - intros (b' & a & H1 & H2 & H3). apply (open_depth_at g t nd) in H3; auto. assert (H3' : constant_of nd pa b' a <> None) by (unfold constant_of; destruct (depth_of nd b' a); [|congruence]; apply Hz; [rewrite <- L2; apply H1|rewrite <- L1; apply H2]). split; [eauto|split; eauto].
  - intros ((b' & a & H1 & H2 & H3) & _). exists b', a. split; auto. split; auto. now apply (open_depth_at g t nd).
Qed.
Print Assumptions C72_outside.
Print Assumptions C72_regular_refuted.
Print Assumptions C72_agrees.
