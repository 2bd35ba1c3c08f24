(** What _shift and _crop do with an evenly spaced grid (for C83). *)
From Coq Require Import Reals List Bool Arith ZArith Lra Lia.
From Verif Require Import PyBase RBase MathModel GeoModel ConvertProps GridModel GridProofs InterpModel InterpProps ExtractModel ExtractSpec NodeProps ExtractProofs ExtractProps SplineProps ReturnProps MergeSpec MergeProps SeriesModel SeriesSpec SeriesProofs SeriesProps SeriesProps2 SeriesProps3 RegularModel RegularSpec RegularProofs RegularProps CropModel CropSpec CropProofs.
Import ListNotations.
Open Scope R_scope.

(** ** The first minimum *)
Lemma least_from_spec l : forall pre best ib, (ib < length pre)%nat -> nth ib (pre ++ l) 0 = best ->
  (forall k, (k < length pre)%nat -> best <= nth k (pre ++ l) 0 /\ ((k < ib)%nat -> best < nth k (pre ++ l) 0)) ->
  let r := least_from best ib (length pre) l in
  (r < length (pre ++ l))%nat /\ forall k, (k < length (pre ++ l))%nat -> nth r (pre ++ l) 0 <= nth k (pre ++ l) 0 /\ ((k < r)%nat -> nth r (pre ++ l) 0 < nth k (pre ++ l) 0).
Proof.
  induction l as [|a l IH]; intros pre best ib Hib Hb Hm; cbn [least_from].
  - rewrite app_nil_r in *. split; auto. intros k Hk. rewrite Hb. auto.
  - assert (Ea : nth (length pre) (pre ++ a :: l) 0 = a) by (rewrite app_nth2, Nat.sub_diag by lia; reflexivity).
    assert (E : (pre ++ a :: l = (pre ++ [a]) ++ l)%list) by (rewrite <- app_assoc; reflexivity).
    assert (L : length (pre ++ [a]) = S (length pre)) by (rewrite app_length; cbn; lia).
    destruct (Rlt_le_dec a best) as [K2|K2]; [rewrite rlt_t by auto|rewrite rlt_f by auto].
    + rewrite E in *. rewrite <- L. apply IH; rewrite ?L; auto. intros k Hk. destruct (Nat.eq_dec k (length pre)) as [->|N].
      * rewrite Ea. split; [lra|]. intros; lia.
      * destruct (Hm k ltac:(lia)) as [M1 _]. split; intros; lra.
    + rewrite E in *. rewrite <- L. apply IH; rewrite ?L; auto. intros k Hk. destruct (Nat.eq_dec k (length pre)) as [->|N].
      * rewrite Ea. split; [lra|]. intros; lia.
      * apply Hm. lia.
Qed.

Lemma least_spec l r : least l = Ok r -> (r < length l)%nat /\ forall k, (k < length l)%nat -> nth r l 0 <= nth k l 0 /\ ((k < r)%nat -> nth r l 0 < nth k l 0).
Proof.
  destruct l as [|a l]; [discriminate|]. cbn [least]. intros E. apply Ok_inj in E as <-.
  apply (least_from_spec l [a] a 0); cbn; auto; try lia. intros k Hk. assert (k = 0%nat) as -> by lia. split; [lra|intros; lia].
Qed.
Lemma least_is l c : (c < length l)%nat -> (forall k, (k < length l)%nat -> nth c l 0 <= nth k l 0 /\ ((k < c)%nat -> nth c l 0 < nth k l 0)) -> least l = Ok c.
Proof.
  intros Hc H. destruct (least l) as [r|] eqn:E.
  - destruct (least_spec _ _ E) as [Hr R1]. f_equal. destruct (lt_eq_lt_dec r c) as [[K|K]|K]; auto; exfalso.
    + destruct (H r Hr) as [_ H2]. destruct (R1 c Hc) as [R2 _]. specialize (H2 K). lra.
    + destruct (R1 c Hc) as [_ R2]. destruct (H r Hr) as [H2 _]. specialize (R2 K). lra.
  - destruct l; [cbn in Hc; lia|discriminate].
Qed.
Lemma closest_least x0 dx nx l lon c : evenly x0 dx nx l -> closest_column x0 dx nx lon c -> least (map (fun x => Rabs (x - lon)) l) = Ok c.
Proof.
  intros (_ & L & E) [Hc H]. assert (Em : forall k, (k < nx)%nat -> nth k (map (fun x => Rabs (x - lon)) l) 0 = Rabs (x0 + INR k * dx - lon)).
  { intros k Hk. rewrite (nth_indep _ 0 (Rabs (0 - lon))) by (rewrite map_length; lia). rewrite (map_nth (fun x => Rabs (x - lon))). now rewrite E by auto. }
  apply least_is; rewrite map_length, L; auto. intros k Hk. rewrite !Em by auto. auto.
Qed.

Lemma last_default {A} (l : list A) d d' : l <> [] -> last l d = last l d'.
Proof. induction l as [|a l IH]; [congruence|]. intros _. destruct l; [reflexivity|]. apply IH. congruence. Qed.

(** ** Lists turned around *)
Lemma rotate_nth {A} (d : A) c row nx i : length row = nx -> (0 < c < nx)%nat -> (i < nx)%nat ->
  nth i (skipn c row ++ slice 0 (c + 0) row) d = nth (column nx (Z.of_nat c + Z.of_nat i)) row d.
Proof.
  intros L Hc Hi. unfold column. rewrite Nat.add_0_r. destruct (le_lt_dec (nx - c) i) as [K|K].
  - rewrite app_nth2, skipn_length by (rewrite skipn_length; lia). rewrite slice_nth by lia.
    replace (Z.of_nat c + Z.of_nat i)%Z with ((Z.of_nat c + Z.of_nat i - Z.of_nat nx) + 1 * Z.of_nat nx)%Z by ring. rewrite Z_mod_plus_full, Z.mod_small by lia. f_equal. lia.
  - rewrite app_nth1, nth_skipn by (rewrite ?skipn_length; lia). rewrite Z.mod_small by lia. f_equal. lia.
Qed.
Lemma rotate_length {A} c (row : list A) nx : length row = nx -> (0 < c < nx)%nat -> length (skipn c row ++ slice 0 (c + 0) row) = nx.
Proof. intros L Hc. rewrite app_length, skipn_length, slice_length by lia. lia. Qed.
Lemma rotate_rows c (m : field) ny nx : rect ny nx m -> (0 < c < nx)%nat ->
  exists m', mapM (fun row => do q <- rotate_list c 0 row ;; Ok (fst q ++ snd q)%list) m = Ok m' /\ rect ny nx m' /\
    forall j i, (j < ny)%nat -> (i < nx)%nat -> entry (None, true) m' j i = entry (None, true) m j (column nx (Z.of_nat c + Z.of_nat i)).
Proof.
  intros Rm Hc. destruct (@mapM_rows (gcell cpx) (None, true) (fun row => do q <- rotate_list c 0 row ;; Ok (fst q ++ snd q)%list) ny nx nx m
    (fun _ row r => forall i, (i < nx)%nat -> nth i r (None, true) = nth (column nx (Z.of_nat c + Z.of_nat i)) row (None, true)) Rm) as (m' & E1 & E2 & E3).
  { intros row L. destruct c as [|c]; [lia|]. cbn [rotate_list bind fst snd]. eexists. split; [reflexivity|]. split; [now apply rotate_length|]. intros i Hi. now apply rotate_nth. }
  exists m'. split; auto. split; auto. intros j i Hj Hi. unfold entry. now apply E3.
Qed.
Lemma repeated_around x0 dx nx l : evenly x0 dx nx l -> (2 <= nx)%nat -> INR nx * dx = 360 -> 1 / 10000 < dx -> repeated l = Ok 0%nat.
Proof.
  intros H Hn E Hd. pose proof (evenly_span _ _ _ _ H Hn) as S1. rewrite minus_INR in S1 by lia. cbn [INR] in S1.
  destruct l as [|a l]; [destruct H as (_ & L & _); cbn in L; lia|]. cbn [repeated]. cbn [hd] in S1.
  rewrite (last_default (a :: l) a 0) by congruence.
  replace (last (a :: l) 0 - a - 360) with (- dx) by lra. rewrite Rabs_Ropp, Rabs_pos_eq by lra. now rewrite rlt_t.
Qed.
Lemma shift_grid d lon0 x0 dx nx y0 dy ny s c : sheet_grid true x0 dx nx y0 dy ny s -> 1 / 10000 < dx -> closest_column x0 dx nx lon0 c -> (0 < c)%nat -> d <> OtherDir ->
  exists t, shift_sheet lon0 d s = Ok t /\ sheet_grid true (node_x Heights x0 dx (match d with West => Z.of_nat c - Z.of_nat nx | _ => Z.of_nat c end)) dx nx y0 dy ny t /\
    forall j i, (j < ny)%nat -> (i < nx)%nat -> entry (None, true) (shc t) j i = entry (None, true) (shc s) j (column nx (Z.of_nat c + Z.of_nat i)).
Proof.
  intros (Ex & Ey & Hx & Hy & Rs & Ga) Hd Hc Pc Nd. destruct Ga as [[_ E]|[Ga _]]; [|discriminate].
  assert (Lc : (0 < c < nx)%nat) by (split; [auto|apply Hc]).
  destruct (rotate_rows c _ _ _ Rs Lc) as (m' & E1 & E2 & E3).
  unfold shift_sheet. rewrite (repeated_around x0 dx nx) by auto. cbn [bind]. rewrite (closest_least x0 dx nx _ _ _ Ex Hc). cbn [bind].
  assert (Er : rotate_list c 0 (slon s) = Ok (skipn c (slon s), slice 0 (c + 0) (slon s))) by (destruct c; [lia|reflexivity]).
  rewrite Er. cbn [bind fst snd]. rewrite E1. cbn [bind]. eexists. split; [reflexivity|]. cbn [shc]. split; [|exact E3].
  unfold sheet_grid. cbn [slon slat shc]. split; [|repeat (split; auto)].
  destruct Ex as (Pd & L & Ex). split; auto. rewrite Nat.add_0_r in *.
  destruct d; [| |congruence].
  - split; [rewrite app_length, map_length, skipn_length, slice_length by lia; lia|].
    intros i Hi. unfold node_x. rewrite <- INR_IZR_INZ. destruct (le_lt_dec (nx - c) i) as [K|K].
    + rewrite app_nth2, skipn_length by (rewrite skipn_length; lia). rewrite (nth_indep _ 0 (0 + 360)) by (rewrite map_length, slice_length; lia).
      rewrite (map_nth (fun x => x + 360)), slice_nth, Ex by lia. rewrite L. replace (0 + (i - (nx - c)))%nat with (c + i - nx)%nat by lia. rewrite minus_INR, plus_INR by lia. lra.
    + rewrite app_nth1, nth_skipn, Ex by (rewrite ?skipn_length; lia). rewrite plus_INR. lra.
  - split; [rewrite app_length, map_length, skipn_length, slice_length by lia; lia|].
    intros i Hi. unfold node_x. rewrite minus_IZR, <- !INR_IZR_INZ. destruct (le_lt_dec (nx - c) i) as [K|K].
    + rewrite app_nth2, map_length, skipn_length by (rewrite map_length, skipn_length; lia). rewrite slice_nth, Ex by lia.
      rewrite L. replace (0 + (i - (nx - c)))%nat with (c + i - nx)%nat by lia. rewrite minus_INR, plus_INR by lia. lra.
    + rewrite app_nth1 by (rewrite map_length, skipn_length; lia). rewrite (nth_indep _ 0 (0 - 360)) by (rewrite map_length, skipn_length; lia).
      rewrite (map_nth (fun x => x - 360)), nth_skipn, Ex by lia. rewrite plus_INR. lra.
Qed.

(** the grid in the longitudes of the bounds *)
Lemma reframe_grid around x0 dx nx y0 dy ny s b f : sheet_grid around x0 dx nx y0 dy ny s -> window x0 dx nx (x_min b) (x_max b) f ->
  f = 0%Z \/ around = true /\ 1 / 10000 < dx ->
  exists t, reframe b s = Ok t /\ sheet_grid around (node_x Heights x0 dx f) dx nx y0 dy ny t /\
    forall j i, (j < ny)%nat -> (i < nx)%nat -> entry (None, true) (shc t) j i = entry (None, true) (shc s) j (column nx (f + Z.of_nat i)).
Proof.
  intros G W Hf. pose proof G as (Ex & _ & Hx & _). unfold reframe. destruct (evenly_ends _ _ _ _ Ex Hx) as [-> ->]. cbn [bind].
  destruct W as [W1 W2|c W1 W2 W3 W4|c W1 W2 W3 W4 W5].
  - replace (rlt (Rmin (x_min b) (x_max b)) 0 && rlt 180 (x0 + INR (nx - 1) * dx)) with false.
    2:{ symmetry. apply not_true_is_false. intros K. apply andb_prop in K as [K1 K2]. apply W1. unfold rlt in K1, K2. destruct (Rlt_dec _ 0); [|discriminate]. destruct (Rlt_dec 180 _); [auto|discriminate]. }
    replace (rlt 180 (Rmax (x_min b) (x_max b)) && rlt x0 0) with false.
    2:{ symmetry. apply not_true_is_false. intros K. apply andb_prop in K as [K1 K2]. apply W2. unfold rlt in K1, K2. destruct (Rlt_dec 180 _); [|discriminate]. destruct (Rlt_dec x0 0); [auto|discriminate]. }
    exists s. split; auto. replace (node_x Heights x0 dx 0) with x0 by (unfold node_x; lra). split; auto.
    intros j i Hj Hi. unfold column. rewrite Z.mod_small by lia. f_equal. lia.
  - rewrite !rlt_t by auto. cbn [andb]. destruct Hf as [Hf|[-> Hd]]; [exfalso; destruct W3; lia|].
    destruct (shift_grid West 180 _ _ _ _ _ _ _ c G Hd W3 W4) as (t & T1 & T2 & T3); [discriminate|]. exists t. split; auto. split; auto.
    intros j i Hj Hi. rewrite T3 by auto. f_equal. unfold column. f_equal. replace (Z.of_nat c + Z.of_nat i)%Z with (Z.of_nat c - Z.of_nat nx + Z.of_nat i + 1 * Z.of_nat nx)%Z by ring. apply Z_mod_plus_full.
  - replace (rlt (Rmin (x_min b) (x_max b)) 0 && rlt 180 (x0 + INR (nx - 1) * dx)) with false.
    2:{ symmetry. apply not_true_is_false. intros K. apply andb_prop in K as [K1 K2]. apply W1. unfold rlt in K1, K2. destruct (Rlt_dec _ 0); [|discriminate]. destruct (Rlt_dec 180 _); [auto|discriminate]. }
    rewrite !rlt_t by auto. cbn [andb]. destruct Hf as [Hf|[-> Hd]]; [exfalso; lia|].
    destruct (shift_grid East 0 _ _ _ _ _ _ _ c G Hd W4 W5) as (t & T1 & T2 & T3); [discriminate|]. exists t. auto.
Qed.

(** ** The rows and columns within the bounds *)
Lemma within_limits_iff lo hi x : within_limits lo hi x = true <-> lo <= x <= hi.
Proof.
  unfold within_limits. split.
  - intros H. apply andb_prop in H as [H1 H2]. unfold rle in *. destruct (Rle_dec lo x); [|discriminate]. destruct (Rle_dec x hi); [lra|discriminate].
  - intros [H1 H2]. now rewrite !rle_t.
Qed.
Lemma cut_indices lo hi x0 d n l k : evenly x0 d n l -> (k < n)%nat -> lo <= x0 + INR k * d <= hi ->
  exists a m, (1 <= m)%nat /\ (a + m <= n)%nat /\ (forall i, (i < n)%nat -> (a <= i < a + m)%nat <-> lo <= x0 + INR i * d <= hi) /\
    forall A (v : list A), ind_slice (flatnonzero (within_limits lo hi) l) v = Ok (slice a (a + m) v).
Proof.
  intros (Hd & L & E) Hk Hin. unfold flatnonzero. set (ind := flatnonzero_from 0 (within_limits lo hi) l).
  assert (Hi : forall i, In i ind <-> (i < n)%nat /\ lo <= x0 + INR i * d <= hi).
  { intros i. unfold ind. rewrite (flatnonzero_from_In _ l 0). rewrite L, Nat.sub_0_r, within_limits_iff. split.
    - intros [H1 H2]. rewrite E in H2 by lia. split; [lia|auto].
    - intros [H1 H2]. rewrite E by lia. split; [lia|auto]. }
  assert (Ki : In k ind) by (apply Hi; auto). 
  assert (Hs : forall i, In i ind -> (hd i ind <= i)%nat /\ (i <= last ind i)%nat) by (intros i; apply flatnonzero_from_sorted).
  clearbody ind. destruct ind as [|a t]; [destruct Ki|]. set (z := last (a :: t) a).
  assert (Za : In z (a :: t)) by (apply last_In; congruence).
  assert (Az : (a <= z)%nat) by (apply (Hs a); now left).
  destruct (proj1 (Hi a) (or_introl eq_refl)) as [An Ar]. destruct (proj1 (Hi z) Za) as [Zn Zr].
  exists a, (S z - a)%nat. split; [lia|]. split; [lia|]. split.
  - intros i Hin'. split.
    + intros [I1 I2]. assert (INR a <= INR i) by (apply le_INR; lia). assert (INR i <= INR z) by (apply le_INR; lia). nra.
    + intros Hr. assert (In i (a :: t)) as Hm by (apply Hi; auto). destruct (Hs i Hm) as [H1 H2]. cbn [hd] in H1.
      rewrite (last_default (a :: t) i a) in H2 by congruence. fold z in H2. lia.
  - intros A v. cbn [ind_slice]. fold z. do 2 f_equal. lia.
Qed.

Lemma slice_rows {A} (m : list (list A)) ny nx a n : rect ny nx m -> (a + n <= ny)%nat -> rect n nx (slice a (a + n) m).
Proof.
  intros [L H] Ha. split; [rewrite slice_length by lia; lia|]. intros r Hr. apply H. unfold slice in Hr.
  assert (forall B k (l : list B) x, In x (firstn k l) -> In x l) as F. { clear. induction k; intros l x; destruct l; cbn; try tauto. intros [->|]; auto. }
  assert (forall B k (l : list B) x, In x (skipn k l) -> In x l) as F'. { clear. induction k; intros l x; destruct l; cbn; try tauto. auto. }
  apply F in Hr. now apply F' in Hr.
Qed.
Lemma slice_evenly x0 d n l a m : evenly x0 d n l -> (a + m <= n)%nat -> evenly (x0 + INR a * d) d m (slice a (a + m) l).
Proof.
  intros (Hd & L & E) H. split; auto. split; [rewrite slice_length by lia; lia|]. intros i Hi. rewrite slice_nth, E by lia. rewrite plus_INR. ring.
Qed.
Lemma cut_grid b m x0 dx nx y0 dy ny t i j : evenly x0 dx nx (slon t) -> evenly y0 dy ny (slat t) -> rect ny nx (shc t) ->
  (i < nx)%nat -> stays (x_min b) (x_max b) m (x0 + INR i * dx) -> (j < ny)%nat -> stays (y_min b) (y_max b) m (y0 + INR j * dy) ->
  exists a n c k u, cut b m t = Ok u /\ (1 <= n)%nat /\ (a + n <= nx)%nat /\ (1 <= k)%nat /\ (c + k <= ny)%nat /\
    (forall i, (i < nx)%nat -> (a <= i < a + n)%nat <-> stays (x_min b) (x_max b) m (x0 + INR i * dx)) /\
    (forall j, (j < ny)%nat -> (c <= j < c + k)%nat <-> stays (y_min b) (y_max b) m (y0 + INR j * dy)) /\
    evenly (x0 + INR a * dx) dx n (slon u) /\ evenly (y0 + INR c * dy) dy k (slat u) /\ rect k n (shc u) /\
    forall j i, (j < k)%nat -> (i < n)%nat -> entry (None, true) (shc u) j i = entry (None, true) (shc t) (c + j) (a + i).
Proof.
  intros Ex Ey Rt Hi Si Hj Sj. destruct (cut_indices _ _ _ _ _ _ _ Ex Hi Si) as (a & n & A1 & A2 & A3 & A4).
  destruct (cut_indices _ _ _ _ _ _ _ Ey Hj Sj) as (c & k & C1 & C2 & C3 & C4).
  pose proof (slice_rows _ _ _ c k Rt C2) as Rr.
  destruct (@mapM_rows (gcell cpx) (None, true) (fun row => Ok (slice a (a + n) row)) k nx n (slice c (c + k) (shc t)) (fun _ row r => r = slice a (a + n) row) Rr) as (h & H1 & H2 & H3).
  { intros row Lr. exists (slice a (a + n) row). split; auto. split; [rewrite slice_length by lia; lia|reflexivity]. }
  exists a, n, c, k, (Sheet (slice a (a + n) (slon t)) (slice c (c + k) (slat t)) h). split.
  - unfold cut. rewrite !C4, !A4. cbn [bind]. rewrite (mapM_ext_in _ (fun row => Ok (slice a (a + n) row))) by (intros row _; apply A4). rewrite H1. reflexivity.
  - cbn [slon slat shc]. repeat (split; [assumption|]). split; [now apply (slice_evenly x0 dx nx)|]. split; [now apply (slice_evenly y0 dy ny)|]. split; auto.
    intros j' i' Hj' Hi'. unfold entry. rewrite H3 by auto. rewrite slice_nth by lia. f_equal. now rewrite slice_nth by lia.
Qed.
