(** What _crop does with arrays on an evenly spaced grid, and with axes of which a slice
    was lowered (for C86). *)
From Coq Require Import Reals List Bool Arith ZArith Lra Lia.
From Verif Require Import PyBase RBase MathModel GeoModel ConvertProps GridModel GridProofs InterpModel InterpProps ExtractModel ExtractSpec NodeProps ExtractProofs ExtractProps SplineProps ReturnProps MergeSpec MergeProps SeriesModel SeriesSpec SeriesProofs SeriesProps SeriesProps2 SeriesProps3 RegularModel RegularSpec RegularProofs RegularProps CropModel CropSpec CropProofs CropProofs2 ShoreModel CoastModel NarrowModel NarrowSpec.
Import ListNotations.
Open Scope R_scope.

(** ** The rows or columns within the bounds *)
Lemma kept_interval lo hi m l n a na : length l = n -> (1 <= na)%nat -> (a + na <= n)%nat ->
  (forall i, (i < n)%nat -> (a <= i < a + na)%nat <-> stays lo hi m (nth i l 0)) ->
  hd 0%nat (kept lo hi m l) = a /\ last (kept lo hi m l) 0%nat = (a + na - 1)%nat /\
  forall A (v : list A), ind_slice (kept lo hi m l) v = Ok (slice a (a + na) v).
Proof.
  intros L N1 N2 H. unfold kept, flatnonzero. set (ind := flatnonzero_from 0 (within_limits (lo - m) (hi + m)) l).
  assert (Hi : forall i, In i ind <-> (a <= i < a + na)%nat).
  { intros i. unfold ind. rewrite (flatnonzero_from_In _ l 0). rewrite L, Nat.sub_0_r, within_limits_iff. split.
    - intros [H1 H2]. apply H; [lia|]. exact H2.
    - intros H1. split; [lia|]. apply (proj1 (H i ltac:(lia)) H1). }
  assert (Hs : forall i, In i ind -> (hd i ind <= i)%nat /\ (i <= last ind i)%nat) by (intros i; apply flatnonzero_from_sorted).
  clearbody ind. destruct ind as [|e t]; [exfalso; apply (proj2 (Hi a)); lia|].
  assert (E1 : e = a).
  { destruct (proj1 (Hi e) (or_introl eq_refl)). destruct (Hs a (proj2 (Hi a) ltac:(lia))) as [K _]. cbn [hd] in K. lia. }
  assert (E2 : forall d, last (e :: t) d = (a + na - 1)%nat).
  { intros d. destruct (Hs (a + na - 1)%nat (proj2 (Hi (a + na - 1)%nat) ltac:(lia))) as [_ K]. rewrite (last_default (e :: t) _ d) in K by congruence.
    assert (In (last (e :: t) d) (e :: t)) as Z by (apply last_In; congruence). apply Hi in Z. lia. }
  split; [exact E1|]. split; [apply E2|]. intros A v. cbn [ind_slice]. rewrite E2, E1. do 2 f_equal. lia.
Qed.
Lemma kept_none lo hi m l : (forall i, (i < length l)%nat -> ~ stays lo hi m (nth i l 0)) -> kept lo hi m l = [].
Proof.
  intros H. unfold kept, flatnonzero. destruct (flatnonzero_from 0 (within_limits (lo - m) (hi + m)) l) as [|e t] eqn:E; auto.
  assert (I : In e (flatnonzero_from 0 (within_limits (lo - m) (hi + m)) l)) by (rewrite E; now left).
  rewrite (flatnonzero_from_In _ l 0), Nat.sub_0_r, within_limits_iff in I. destruct I as [I1 I2]. exfalso. apply (H e); [lia | exact I2].
Qed.
Lemma stays_interval x0 d n l lo hi m k : evenly x0 d n l -> (k < n)%nat -> stays lo hi m (x0 + INR k * d) ->
  exists a na, (1 <= na)%nat /\ (a + na <= n)%nat /\ forall i, (i < n)%nat -> (a <= i < a + na)%nat <-> stays lo hi m (x0 + INR i * d).
Proof.
  intros E Hk Hin. destruct (cut_indices (lo - m) (hi + m) x0 d n l k E Hk Hin) as (a & na & H1 & H2 & H3 & _). exists a, na. auto.
Qed.
Lemma nth_seq_pair (l : list R) i : (i < length l)%nat -> nth i (combine (seq 0 (length l)) l) (0%nat, 0) = (i, nth i l 0).
Proof. intros H. rewrite combine_nth by now rewrite seq_length. now rewrite seq_nth. Qed.
Lemma lower_length ind st l : length (lower ind st l) = length l.
Proof. unfold lower. rewrite map_length, combine_length, seq_length. lia. Qed.
Lemma lower_nth lo hi m l n a na st i : length l = n -> (1 <= na)%nat -> (a + na <= n)%nat ->
  (forall i, (i < n)%nat -> (a <= i < a + na)%nat <-> stays lo hi m (nth i l 0)) -> (i < n)%nat ->
  nth i (lower (kept lo hi m l) st l) 0 = if (Nat.leb a i && Nat.ltb i (a + na))%bool then nth i l 0 - st else nth i l 0.
Proof.
  intros L N1 N2 H Hi. destruct (kept_interval lo hi m l n a na L N1 N2 H) as (E1 & E2 & _).
  unfold lower. rewrite E1, E2. set (F := fun p : nat * R => _).
  rewrite (nth_indep _ 0 (F (0%nat, 0))) by (rewrite map_length, combine_length, seq_length; lia).
  rewrite (map_nth F), nth_seq_pair by lia. unfold F. cbn [fst snd].
  replace (Nat.leb i (a + na - 1)) with (Nat.ltb i (a + na)); [reflexivity|].
  destruct (Nat.ltb_spec i (a + na)), (Nat.leb_spec i (a + na - 1)); auto; lia.
Qed.

(** ** Arrays in the longitudes of the bounds *)
Lemma rotate_matrix {A} (d0 : A) c m ny nx : rect ny nx m -> (0 < c < nx)%nat ->
  exists m', mapM (fun row => do q <- rotate_list c 0 row ;; Ok (fst q ++ snd q)%list) m = Ok m' /\ rect ny nx m' /\
    forall j i, (j < ny)%nat -> (i < nx)%nat -> entry d0 m' j i = entry d0 m j (column nx (Z.of_nat c + Z.of_nat i)).
Proof.
  intros Rm Hc. destruct (@mapM_rows A d0 (fun row => do q <- rotate_list c 0 row ;; Ok (fst q ++ snd q)%list) ny nx nx m
    (fun _ row r => forall i, (i < nx)%nat -> nth i r d0 = nth (column nx (Z.of_nat c + Z.of_nat i)) row d0) Rm) as (m' & E1 & E2 & E3).
  { intros row L. destruct c as [|c]; [lia|]. cbn [rotate_list bind fst snd]. eexists. split; [reflexivity|]. split; [now apply rotate_length|]. intros i Hi. now apply rotate_nth. }
  exists m'. split; auto. split; auto. intros j i Hj Hi. unfold entry. now apply E3.
Qed.
Lemma shift_matrix_grid {A} (d0 : A) d lon0 x0 dx nx ny xs m c : evenly x0 dx nx xs -> (2 <= nx)%nat -> rect ny nx m -> INR nx * dx = 360 -> 1 / 10000 < dx ->
  closest_column x0 dx nx lon0 c -> (0 < c)%nat -> d <> OtherDir ->
  exists t xs', shift_matrix lon0 d m xs = Ok (t, xs') /\ evenly (node_x Heights x0 dx (match d with West => Z.of_nat c - Z.of_nat nx | _ => Z.of_nat c end)) dx nx xs' /\ rect ny nx t /\
    forall j i, (j < ny)%nat -> (i < nx)%nat -> entry d0 t j i = entry d0 m j (column nx (Z.of_nat c + Z.of_nat i)).
Proof.
  intros Ex Hx Rs E Hd Hc Pc Nd.
  assert (Lc : (0 < c < nx)%nat) by (split; [auto|apply Hc]).
  destruct (rotate_matrix d0 c _ _ _ Rs Lc) as (m' & E1 & E2 & E3).
  unfold shift_matrix. rewrite (repeated_around x0 dx nx) by auto. cbn [bind]. rewrite (closest_least x0 dx nx _ _ _ Ex Hc). cbn [bind].
  assert (Er : rotate_list c 0 xs = Ok (skipn c xs, slice 0 (c + 0) xs)) by (destruct c; [lia|reflexivity]).
  rewrite Er. cbn [bind fst snd]. rewrite E1. cbn [bind]. do 2 eexists. split; [reflexivity|]. split; [|split; [exact E2 | exact E3]].
  destruct Ex as (Pd & L & Ex). split; auto. rewrite Nat.add_0_r in *.
  destruct d; [| |congruence].
  - split; [rewrite app_length, map_length, skipn_length, slice_length by lia; lia|].
    intros i Hi. unfold node_x. rewrite <- INR_IZR_INZ. destruct (le_lt_dec (nx - c) i) as [K|K].
    + rewrite app_nth2, skipn_length by (rewrite skipn_length; lia). rewrite (nth_indep _ 0 (0 + 360)) by (rewrite map_length, slice_length; lia).
      rewrite (map_nth (fun x => x + 360)), slice_nth, Ex by lia. rewrite L. replace (0 + (i - (nx - c)))%nat with (c + i - nx)%nat by lia. rewrite minus_INR, plus_INR by lia. lra.
    + rewrite app_nth1, nth_skipn, Ex by (rewrite ?skipn_length; lia). rewrite plus_INR. lra.
  - split; [rewrite app_length, map_length, skipn_length, slice_length by lia; lia|].
    intros i Hi. unfold node_x. rewrite minus_IZR, <- !INR_IZR_INZ. destruct (le_lt_dec (nx - c) i) as [K|K].
    + rewrite app_nth2, map_length, skipn_length by (rewrite map_length, skipn_length; lia). rewrite slice_nth, Ex by lia.
      rewrite L. replace (0 + (i - (nx - c)))%nat with (c + i - nx)%nat by lia. rewrite minus_INR, plus_INR by lia. lra.
    + rewrite app_nth1 by (rewrite map_length, skipn_length; lia). rewrite (nth_indep _ 0 (0 - 360)) by (rewrite map_length, skipn_length; lia).
      rewrite (map_nth (fun x => x - 360)), nth_skipn, Ex by lia. rewrite plus_INR. lra.
Qed.
Lemma not_both b1 b2 (P Q : Prop) : (b1 = true -> P) -> (b2 = true -> Q) -> ~ (P /\ Q) -> (b1 && b2)%bool = false.
Proof. intros H1 H2 N. destruct b1, b2; auto. exfalso. apply N. auto. Qed.
Lemma rlt_true a b : rlt a b = true -> a < b.
Proof. unfold rlt. destruct (Rlt_dec a b); [auto|discriminate]. Qed.
Lemma turned_none geo b xs lo hi : amin xs = Ok lo -> amax xs = Ok hi ->
  geo = false \/ ~ (Rmin (x_min b) (x_max b) < 0 /\ 180 < hi) /\ ~ (180 < Rmax (x_min b) (x_max b) /\ lo < 0) -> turned geo b xs = Ok None.
Proof.
  intros E1 E2 H. unfold turned. rewrite E1, E2. cbn [bind]. destruct H as [->|[N1 N2]]; [reflexivity|].
  destruct geo; [|reflexivity]. cbn [andb].
  now rewrite (not_both _ _ _ _ (rlt_true _ _) (rlt_true _ _) N1), (not_both _ _ _ _ (rlt_true _ _) (rlt_true _ _) N2).
Qed.
(** which way the grid is turned, and the arrays after that *)
Lemma framed geo b x0 dx nx xs f : evenly x0 dx nx xs -> (2 <= nx)%nat -> frame geo x0 dx nx (x_min b) (x_max b) f ->
  f = 0%Z \/ INR nx * dx = 360 /\ 1 / 10000 < dx ->
  exists tr xs', turned geo b xs = Ok tr /\ (tr = None <-> f = 0%Z) /\ evenly (node_x Heights x0 dx f) dx nx xs' /\ (f = 0%Z -> xs' = xs) /\
    forall A (d0 : A) ny m, rect ny nx m -> exists t, match tr with Some (lon0, d) => shift_matrix lon0 d m xs | None => Ok (m, xs) end = Ok (t, xs') /\ rect ny nx t /\
      forall j i, (j < ny)%nat -> (i < nx)%nat -> entry d0 t j i = entry d0 m j (column nx (f + Z.of_nat i)).
Proof.
  intros Ex Hx F Hf. destruct (evenly_ends _ _ _ _ Ex Hx) as [E1 E2].
  assert (Same : forall tr, f = 0%Z -> tr = None -> turned geo b xs = Ok tr ->
    exists tr xs', turned geo b xs = Ok tr /\ (tr = None <-> f = 0%Z) /\ evenly (node_x Heights x0 dx f) dx nx xs' /\ (f = 0%Z -> xs' = xs) /\
    forall A (d0 : A) ny m, rect ny nx m -> exists t, match tr with Some (lon0, d) => shift_matrix lon0 d m xs | None => Ok (m, xs) end = Ok (t, xs') /\ rect ny nx t /\
      forall j i, (j < ny)%nat -> (i < nx)%nat -> entry d0 t j i = entry d0 m j (column nx (f + Z.of_nat i))).
  { intros tr -> -> T. exists None, xs. split; [exact T|]. split; [tauto|]. split; [replace (node_x Heights x0 dx 0) with x0 by (unfold node_x; lra); exact Ex|]. split; [auto|].
    intros A d0 ny m Rm. exists m. split; [reflexivity|]. split; [exact Rm|]. intros j i Hj Hi. unfold column. rewrite Z.mod_small by lia. f_equal. lia. }
  destruct F as [[-> ->]|[-> W]].
  { apply (Same None); auto. apply (turned_none false b xs _ _ E1 E2). now left. }
  destruct W as [W1 W2|c W1 W2 W3 W4|c W1 W2 W3 W4 W5].
  - apply (Same None); auto. apply (turned_none true b xs _ _ E1 E2). right. auto.
  - destruct Hf as [Hf|[Hr Hd]]; [exfalso; destruct W3; lia|].
    destruct (shift_matrix_grid 0 West 180 x0 dx nx 0 xs [] c Ex Hx) as (t0 & xs' & S1 & S2 & _); auto; [split; [reflexivity | intros r []] | discriminate |].
    exists (Some (180, West)), xs'. split; [unfold turned; rewrite E1, E2; cbn [bind andb]; rewrite !rlt_t by auto; reflexivity|]. split; [split; [discriminate | destruct W3; lia]|]. split; [exact S2|]. split; [destruct W3; lia|].
    intros A d0 ny m Rm. destruct (shift_matrix_grid d0 West 180 x0 dx nx ny xs m c Ex Hx Rm) as (t & xs2 & T1 & T2 & T3 & T4); auto; [discriminate|].
    assert (xs2 = xs') by (eapply evenly_unique; eauto). subst xs2. exists t. split; [exact T1|]. split; [exact T3|].
    intros j i Hj Hi. rewrite T4 by auto. f_equal. unfold column. f_equal. replace (Z.of_nat c + Z.of_nat i)%Z with (Z.of_nat c - Z.of_nat nx + Z.of_nat i + 1 * Z.of_nat nx)%Z by ring. apply Z_mod_plus_full.
  - destruct Hf as [Hf|[Hr Hd]]; [exfalso; lia|].
    destruct (shift_matrix_grid 0 East 0 x0 dx nx 0 xs [] c Ex Hx) as (t0 & xs' & S1 & S2 & _); auto; [split; [reflexivity | intros r []] | discriminate |].
    exists (Some (0, East)), xs'. split; [unfold turned; rewrite E1, E2; cbn [bind andb]; rewrite (not_both _ _ _ _ (rlt_true _ _) (rlt_true _ _) W1), !rlt_t by auto; reflexivity|].
    split; [split; [discriminate | lia]|]. split; [exact S2|]. split; [lia|].
    intros A d0 ny m Rm. destruct (shift_matrix_grid d0 East 0 x0 dx nx ny xs m c Ex Hx Rm) as (t & xs2 & T1 & T2 & T3 & T4); auto; [discriminate|].
    assert (xs2 = xs') by (eapply evenly_unique; eauto). subst xs2. exists t. auto.
Qed.

(** ** Arrays of the rows and columns within the bounds *)
Lemma cut_block {A} (d0 : A) b m t xs ys nx ny a na c nr : length xs = nx -> length ys = ny -> rect ny nx t ->
  (1 <= na)%nat -> (a + na <= nx)%nat -> (forall i, (i < nx)%nat -> (a <= i < a + na)%nat <-> stays (x_min b) (x_max b) m (nth i xs 0)) ->
  (1 <= nr)%nat -> (c + nr <= ny)%nat -> (forall j, (j < ny)%nat -> (c <= j < c + nr)%nat <-> stays (y_min b) (y_max b) m (nth j ys 0)) ->
  exists h, cut_matrix b m t xs ys = Ok (h, slice a (a + na) xs, slice c (c + nr) ys) /\ rect nr na h /\
    forall j i, (j < nr)%nat -> (i < na)%nat -> entry d0 h j i = entry d0 t (c + j) (a + i).
Proof.
  intros Lx Ly Rt A1 A2 A3 C1 C2 C3. destruct (kept_interval _ _ _ _ _ _ _ Lx A1 A2 A3) as (_ & _ & Ax). destruct (kept_interval _ _ _ _ _ _ _ Ly C1 C2 C3) as (_ & _ & Ay).
  pose proof (slice_rows _ _ _ c nr Rt C2) as Rr.
  destruct (@mapM_rows A d0 (fun row => Ok (slice a (a + na) row)) nr nx na (slice c (c + nr) t) (fun _ row r => r = slice a (a + na) row) Rr) as (h & H1 & H2 & H3).
  { intros row Lr. exists (slice a (a + na) row). split; auto. split; [rewrite slice_length by lia; lia|reflexivity]. }
  exists h. split.
  - unfold cut_matrix. rewrite !Ay, !Ax. cbn [bind]. rewrite (mapM_ext_in _ (fun row => Ok (slice a (a + na) row))) by (intros row _; apply Ax). rewrite H1. reflexivity.
  - split; auto. intros j' i' Hj' Hi'. unfold entry. rewrite H3 by auto. rewrite slice_nth by lia. f_equal. now rewrite slice_nth by lia.
Qed.
(** the rows and columns that stay *)
Lemma kept_exists x0 dx nx y0 dy ny lx hx ly hy m f i j : 0 < dx -> 0 < dy ->
  (f <= i < f + Z.of_nat nx)%Z -> stays lx hx m (node_x Heights x0 dx i) -> (j < ny)%nat -> stays ly hy m (node_y Heights y0 dy j) ->
  exists a na c nr, columns_kept x0 dx nx lx hx m f a na /\ rows_kept y0 dy ny ly hy m c nr /\ (1 <= na)%nat /\ (1 <= nr)%nat.
Proof.
  intros Dx Dy Hi Si Hj Sj.
  assert (Ev : forall u d n, 0 < d -> exists l, evenly u d n l).
  { intros u d n Hd. exists (map (fun i => u + INR i * d) (seq 0 n)). split; auto. split; [now rewrite map_length, seq_length|]. intros k Hk.
    rewrite (nth_indep _ 0 (u + INR 0 * d)) by now rewrite map_length, seq_length. rewrite (map_nth (fun i => u + INR i * d)), seq_nth by auto. reflexivity. }
  assert (Nf : forall k, node_x Heights x0 dx f + INR k * dx = node_x Heights x0 dx (f + Z.of_nat k)) by (intros k; unfold node_x; rewrite plus_IZR, <- INR_IZR_INZ; ring).
  destruct (Ev (node_x Heights x0 dx f) dx nx Dx) as [xs Ex]. destruct (Ev y0 dy ny Dy) as [ys Ey].
  destruct (stays_interval _ _ _ _ lx hx m (Z.to_nat (i - f)) Ex ltac:(lia)) as (a' & na & A1 & A2 & A3). { rewrite Nf. replace (f + Z.of_nat (Z.to_nat (i - f)))%Z with i by lia. exact Si. }
  destruct (stays_interval _ _ _ _ ly hy m j Ey Hj Sj) as (c & nr & C1 & C2 & C3).
  exists (f + Z.of_nat a')%Z, na, c, nr.
  split. { split; [lia|]. split; [lia|]. intros i0 Hi0. specialize (A3 (Z.to_nat (i0 - f)) ltac:(lia)). rewrite Nf in A3. replace (f + Z.of_nat (Z.to_nat (i0 - f)))%Z with i0 in A3 by lia. rewrite <- A3. lia. }
  split; [split; auto|]. auto.
Qed.
(** _crop of any array of the model; the axes may be lowered as long as the same rows and
    columns stay *)
Definition same_rows (y0 dy : R) (ny : nat) (b : limits) (m : R) (c nr : nat) (ys : list R) : Prop :=
  length ys = ny /\ forall j, (j < ny)%nat -> (c <= j < c + nr)%nat <-> stays (y_min b) (y_max b) m (nth j ys 0).
Definition same_columns (geo : bool) (x0 dx : R) (nx : nat) (b : limits) (m : R) (f a : Z) (na : nat) (xs : list R) : Prop :=
  evenly x0 dx nx xs \/
  f = 0%Z /\ length xs = nx /\ turned geo b xs = Ok None /\ forall i, (i < nx)%nat -> (a <= Z.of_nat i < a + Z.of_nat na)%Z <-> stays (x_min b) (x_max b) m (nth i xs 0).
Lemma crop_block geo b m x0 dx nx y0 dy ny f a na c nr xs ys : (2 <= nx)%nat ->
  frame geo x0 dx nx (x_min b) (x_max b) f -> f = 0%Z \/ INR nx * dx = 360 /\ 1 / 10000 < dx ->
  columns_kept x0 dx nx (x_min b) (x_max b) m f a na -> rows_kept y0 dy ny (y_min b) (y_max b) m c nr -> (1 <= na)%nat -> (1 <= nr)%nat ->
  same_columns geo x0 dx nx b m f a na xs -> same_rows y0 dy ny b m c nr ys ->
  exists xa ya, (evenly x0 dx nx xs -> evenly (node_x Heights x0 dx a) dx na xa) /\ (evenly y0 dy ny ys -> evenly (node_y Heights y0 dy c) dy nr ya) /\
    forall A (d0 : A) t, rect ny nx t -> exists h, crop_matrix geo b m t xs ys = Ok (h, xa, ya) /\ block d0 nx a na c nr t h.
Proof.
  intros Hx F Hf (K1 & K2 & K3) (R1 & R2) N1 N2 Sx [Ly Sy].
  assert (Nf : forall k, node_x Heights x0 dx f + INR k * dx = node_x Heights x0 dx (f + Z.of_nat k)) by (intros k; unfold node_x; rewrite plus_IZR, <- INR_IZR_INZ; ring).
  assert (Tr : exists tr xs', turned geo b xs = Ok tr /\ length xs' = nx /\
    (forall i, (i < nx)%nat -> (Z.to_nat (a - f) <= i < Z.to_nat (a - f) + na)%nat <-> stays (x_min b) (x_max b) m (nth i xs' 0)) /\
    (evenly x0 dx nx xs -> evenly (node_x Heights x0 dx f) dx nx xs') /\
    forall A (d0 : A) ny m, rect ny nx m -> exists t, match tr with Some (lon0, d) => shift_matrix lon0 d m xs | None => Ok (m, xs) end = Ok (t, xs') /\ rect ny nx t /\
      forall j i, (j < ny)%nat -> (i < nx)%nat -> entry d0 t j i = entry d0 m j (column nx (f + Z.of_nat i))).
  { destruct Sx as [Ex|(-> & Lx & Tn & Sx)].
    - destruct (framed geo b x0 dx nx xs f Ex Hx F Hf) as (tr & xs' & T1 & T2 & T3 & _ & T5). exists tr, xs'. split; [exact T1|]. split; [apply T3|]. split; [|split; [intros _; exact T3 | exact T5]].
      intros i Hi. destruct T3 as (_ & _ & T3). rewrite T3, Nf by auto. rewrite <- K3 by lia. lia.
    - exists None, xs. split; [exact Tn|]. split; [exact Lx|]. split; [intros i Hi; rewrite <- Sx by auto; lia|]. split; [intros E; replace (node_x Heights x0 dx 0) with x0 by (unfold node_x; lra); exact E|].
      intros A d0 ny' t Rt. exists t. split; [reflexivity|]. split; [exact Rt|]. intros j i Hj Hi. unfold column. rewrite Z.mod_small by lia. f_equal. lia. }
  destruct Tr as (tr & xs' & T1 & L' & T3 & T4 & T5).
  exists (slice (Z.to_nat (a - f)) (Z.to_nat (a - f) + na) xs'), (slice c (c + nr) ys).
  split. { intros E. replace (node_x Heights x0 dx a) with (node_x Heights x0 dx f + INR (Z.to_nat (a - f)) * dx) by (rewrite Nf; f_equal; lia). apply (slice_evenly _ dx nx); [now apply T4 | lia]. }
  split. { intros E. now apply (slice_evenly y0 dy ny). }
  intros A d0 t Rt. destruct (T5 A d0 ny t Rt) as (t' & E1 & E2 & E3). unfold crop_matrix. rewrite T1. cbn [bind]. rewrite E1. cbn [bind fst snd].
  destruct (cut_block d0 b m t' xs' ys nx ny (Z.to_nat (a - f)) na c nr) as (h & H1 & H2 & H3); auto; [lia|].
  exists h. split; [exact H1|]. split; [exact H2|]. intros j0 i0 Hj0 Hi0. rewrite H3 by auto. rewrite E3 by lia. f_equal. f_equal. lia.
Qed.
Lemma rows_same y0 dy ny b m c nr ys : evenly y0 dy ny ys -> rows_kept y0 dy ny (y_min b) (y_max b) m c nr -> same_rows y0 dy ny b m c nr ys.
Proof. intros (_ & L & E) [_ H]. split; auto. intros j Hj. rewrite E by auto. now apply H. Qed.

(** ** Lowered axes *)
Lemma lowered lo hi m x0 d n l a na i : evenly x0 d n l -> (1 <= na)%nat -> (a + na <= n)%nat ->
  (forall i, (i < n)%nat -> (a <= i < a + na)%nat <-> stays lo hi m (x0 + INR i * d)) -> (i < n)%nat ->
  nth i (lower (kept lo hi m l) (d / 2) l) 0 = if (Nat.leb a i && Nat.ltb i (a + na))%bool then x0 + INR i * d - d / 2 else x0 + INR i * d.
Proof.
  intros (Hd & L & E) N1 N2 H Hi. rewrite (lower_nth lo hi m l n a na (d / 2) i L N1 N2); auto; [rewrite E by auto; reflexivity|]. intros k Hk. rewrite E by auto. auto.
Qed.
(** the same rows or columns stay if the first of them is not lowered out of the bounds *)
Lemma lowered_stays lo hi m x0 d n l a na : evenly x0 d n l -> (1 <= na)%nat -> (a + na <= n)%nat ->
  (forall i, (i < n)%nat -> (a <= i < a + na)%nat <-> stays lo hi m (x0 + INR i * d)) ->
  (forall i, (i < n)%nat -> stays lo hi m (x0 + INR i * d) -> lo - m <= x0 + INR i * d - d / 2) ->
  forall i, (i < n)%nat -> (a <= i < a + na)%nat <-> stays lo hi m (nth i (lower (kept lo hi m l) (d / 2) l) 0).
Proof.
  intros E N1 N2 H Hl i Hi. rewrite (lowered lo hi m x0 d n l a na i E N1 N2 H Hi). assert (Hd : 0 < d) by apply E.
  destruct (Nat.leb_spec a i), (Nat.ltb_spec i (a + na)); cbn [andb].
  - split; [|lia]. intros _. assert (S1 : stays lo hi m (x0 + INR i * d)) by (apply H; lia). pose proof (Hl i Hi S1). unfold stays in *. lra.
  - rewrite <- H by auto. reflexivity.
  - rewrite <- H by auto. reflexivity.
  - rewrite <- H by auto. reflexivity.
Qed.
(** otherwise the first of them is lost *)
Lemma lowered_lost lo hi m x0 d n l a na k : evenly x0 d n l -> (1 <= na)%nat -> (a + na <= n)%nat ->
  (forall i, (i < n)%nat -> (a <= i < a + na)%nat <-> stays lo hi m (x0 + INR i * d)) ->
  (k < n)%nat -> stays lo hi m (x0 + INR k * d) -> x0 + INR k * d - d / 2 < lo - m ->
  forall i, (i < n)%nat -> (S a <= i < a + na)%nat <-> stays lo hi m (nth i (lower (kept lo hi m l) (d / 2) l) 0).
Proof.
  intros E N1 N2 H Hk Sk Lk i Hi. rewrite (lowered lo hi m x0 d n l a na i E N1 N2 H Hi). assert (Hd : 0 < d) by apply E.
  assert (Sa : stays lo hi m (x0 + INR a * d)) by (apply H; lia). assert (Ka : (a <= k < a + na)%nat) by (apply H; auto).
  assert (K : k = a). { destruct (Nat.eq_dec k a) as [|N]; auto. exfalso. assert (INR (S a) <= INR k) by (apply le_INR; lia). rewrite S_INR in *. unfold stays in *. nra. }
  subst k. destruct (Nat.leb_spec a i), (Nat.ltb_spec i (a + na)); cbn [andb].
  - assert (Si : stays lo hi m (x0 + INR i * d)) by (apply H; lia). destruct (Nat.eq_dec i a) as [->|N].
    + split; [lia|]. unfold stays. lra.
    + split; [|lia]. intros _. assert (INR (S a) <= INR i) by (apply le_INR; lia). rewrite S_INR in *. unfold stays in *. nra.
  - split; [lia|]. intros S1. apply H in S1; auto; lia.
  - split; [lia|]. intros S1. apply H in S1; auto; lia.
  - lia.
Qed.
(** lowering does not make the grid turn *)
Lemma lowered_turned geo b lo hi m x0 d n l a na : evenly x0 d n l -> (2 <= n)%nat -> (1 <= na)%nat -> (a + na <= n)%nat ->
  (forall i, (i < n)%nat -> (a <= i < a + na)%nat <-> stays lo hi m (x0 + INR i * d)) ->
  frame geo x0 d n (x_min b) (x_max b) 0 -> (geo = true -> 180 < Rmax (x_min b) (x_max b) -> 0 <= node_x Zonal x0 d 0) ->
  turned geo b (lower (kept lo hi m l) (d / 2) l) = Ok None.
Proof.
  intros E Hn N1 N2 H F Hz. assert (Hd : 0 < d) by apply E. set (l' := lower _ _ _).
  assert (L' : length l' = n) by (unfold l'; rewrite lower_length; apply E).
  assert (Hl : forall v, In v l' -> x0 - d / 2 <= v <= x0 + INR (n - 1) * d).
  { intros v Hv. apply (In_nth _ _ 0) in Hv as (i & Hi & <-). rewrite L' in Hi. unfold l'. rewrite (lowered lo hi m x0 d n l a na i E N1 N2 H Hi).
    assert (0 <= INR i) by apply pos_INR. assert (INR i <= INR (n - 1)) by (apply le_INR; lia). destruct (_ && _); nra. }
  destruct (amin l') as [mn|] eqn:E1; [|destruct l'; [cbn in L'; lia | discriminate]]. destruct (amax l') as [mx|] eqn:E2; [|destruct l'; [cbn in L'; lia | discriminate]].
  apply (turned_none geo b l' mn mx E1 E2). apply amin_least in E1 as [I1 _]. apply amax_most in E2 as [I2 _]. apply Hl in I1. apply Hl in I2.
  destruct F as [[-> _]|[-> W]]; [now left|]. right. inversion W as [W1 W2 E0|c W1 W2 W3 W4 E0|c W1 W2 W3 W4 W5 E0].
  - split.
    + intros [A1 A2]. apply W1. split; auto. lra.
    + intros [A1 A2]. specialize (Hz eq_refl A1). unfold node_x in Hz. lra.
  - destruct W3. lia.
  - lia.
Qed.
