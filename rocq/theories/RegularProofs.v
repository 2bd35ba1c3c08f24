(** Interpolation on regular grids: within the box, at the nearest node and outside. *)
From Coq Require Import Reals List Bool Arith ZArith Lra Lia.
From Verif Require Import PyBase RBase MathModel GeoModel ConvertProps GridModel InterpModel InterpProps ExtractModel ExtractSpec NodeProps ExtractProofs ExtractProps SplineProps ReturnProps MergeSpec MergeProps SeriesModel SeriesSpec SeriesProofs SeriesProps SeriesProps2 SeriesProps3 AtlasNcModel RegularModel.
From Verif Require MaskModel.
Import ListNotations.
Open Scope R_scope.

(** ** The box *)
Definition boxed (xi yi : list R) (q : R * R) : Prop :=
  nth 0 xi 0 <= fst q <= nth (length xi - 1) xi 0 /\ nth 0 yi 0 <= snd q <= nth (length yi - 1) yi 0.
Lemma boxed_dec xi yi q : {boxed xi yi q} + {~ boxed xi yi q}.
Proof.
  unfold boxed. destruct (Rle_dec (nth 0 xi 0) (fst q)), (Rle_dec (fst q) (nth (length xi - 1) xi 0)), (Rle_dec (nth 0 yi 0) (snd q)), (Rle_dec (snd q) (nth (length yi - 1) yi 0)); try (left; lra); right; lra.
Qed.
Lemma outside_boxed xi yi q : axis xi -> axis yi -> boxed xi yi q -> outside_axes xi yi q = Ok false.
Proof.
  intros A1 A2 [[H1 H2] [H3 H4]]. unfold outside_axes. rewrite (axis_min _ A1), (axis_max _ A1), (axis_min _ A2), (axis_max _ A2). cbn [bind].
  now rewrite !rlt_f by lra.
Qed.
Lemma outside_unboxed xi yi q : axis xi -> axis yi -> ~ boxed xi yi q -> outside_axes xi yi q = Ok true.
Proof.
  intros A1 A2 H. unfold outside_axes. rewrite (axis_min _ A1), (axis_max _ A1), (axis_min _ A2), (axis_max _ A2). cbn [bind]. f_equal.
  unfold rlt. repeat destruct (Rlt_dec _ _); try reflexivity. exfalso. apply H. unfold boxed. lra.
Qed.

Section Points.
Context {V : Type} (vzero : V) (vadd : V -> V -> V) (vscale : R -> V -> V).
Lemma regular_outside me xi yi g q : axis xi -> axis yi -> ~ boxed xi yi q -> me <> Unknown -> gregular_point vzero vadd vscale me xi yi g q = Ok (None, true).
Proof.
  intros A1 A2 H Hm. unfold gregular_point. rewrite (axis_increasing _ A1), (axis_increasing _ A2). cbn [andb negb]. rewrite outside_unboxed by auto. cbn [bind]. destruct me; auto. congruence.
Qed.
Lemma regular_linear xi yi g q : axis xi -> axis yi -> boxed xi yi q -> gregular_point vzero vadd vscale Linear xi yi g q = gspline_point vzero vadd vscale xi yi g q.
Proof.
  intros A1 A2 H. unfold gregular_point. rewrite (axis_increasing _ A1), (axis_increasing _ A2). cbn [andb negb]. rewrite outside_boxed by auto. reflexivity.
Qed.
(** the nearest node of an axis, the lower of two *)
Lemma nearer_node x0 d n l x a : evenly x0 d n l -> (2 <= n)%nat -> x0 <= x <= x0 + INR (n - 1) * d -> (a < n)%nat ->
  x0 + INR a * d - d / 2 < x <= x0 + INR a * d + d / 2 -> MaskModel.nearer l x = Ok a.
Proof.
  intros El Hn Hx Ha Na. assert (Hd : 0 < d) by apply El. assert (L : length l = n) by apply El. assert (E : forall i, (i < n)%nat -> nth i l 0 = x0 + INR i * d) by apply El.
  pose proof (evenly_axis _ _ _ _ El Hn) as Ax.
  assert (G : forall i, (S i < n)%nat -> bracket (S (S i) = length l) (nth i l 0) (nth (S i) l 0) x ->
    MaskModel.nearer l x = Ok (if rle ((x - nth i l 0) / (nth (S i) l 0 - nth i l 0)) (1 / 2) then i else S i)).
  { intros i Hi B. unfold MaskModel.nearer. rewrite (cell_of_one l Ax 0 i x) by (auto; lia). cbn [Nat.add]. rewrite (get1_nth l 0 i), (get1_nth l 0 (S i)) by lia. reflexivity. }
  assert (Q : forall i, (S i < n)%nat -> (x - nth i l 0) / (nth (S i) l 0 - nth i l 0) = (x - (x0 + INR i * d)) / d).
  { intros i Hi. rewrite !E by lia. rewrite S_INR. f_equal. ring. }
  destruct (Rle_lt_dec (x0 + INR a * d) x) as [K|K].
  - destruct (Nat.eq_dec a (n - 1)) as [Ea|Ea].
    + assert (Ex : x = x0 + INR a * d) by (rewrite Ea in *; lra).
      assert (Sb : S (n - 2) = a) by lia.
      assert (B2 : bracket (S (S (n - 2)) = length l) (nth (n - 2) l 0) (nth (S (n - 2)) l 0) x).
      { right. split; [lia|]. rewrite !E by lia. rewrite Sb, Ex. split; [reflexivity|]. rewrite <- Sb, S_INR. nra. }
      rewrite (G (n - 2)%nat ltac:(lia) B2).
      rewrite Q by lia. unfold rle. destruct (Rle_dec _ _) as [W|W]; [|now rewrite Sb].
      exfalso. rewrite Ex, <- Sb, S_INR in W. replace ((x0 + (INR (n - 2) + 1) * d - (x0 + INR (n - 2) * d)) / d) with 1 in W by (field; lra). lra.
    + rewrite (G a) by (try lia; left; rewrite !E by lia; rewrite S_INR; nra).
      rewrite Q by lia. unfold rle. destruct (Rle_dec _ _) as [W|W]; [reflexivity|]. exfalso. apply W. apply Rmult_le_reg_r with d; auto. unfold Rdiv. rewrite Rmult_assoc, Rinv_l by lra. lra.
  - destruct a as [|a]; [cbn [INR] in K; lra|]. rewrite S_INR in *.
    rewrite (G a) by (try lia; left; rewrite !E by lia; rewrite S_INR; nra).
    rewrite Q by lia. unfold rle. destruct (Rle_dec _ _) as [W|W]; [|reflexivity]. exfalso.
    apply (Rmult_le_compat_r d) in W; [|lra]. unfold Rdiv in W. rewrite Rmult_assoc, Rinv_l in W by lra. lra.
Qed.
Lemma regular_nearest x0 dx nx xi y0 dy ny yi g x y a b d : evenly x0 dx nx xi -> evenly y0 dy ny yi -> (2 <= nx)%nat -> (2 <= ny)%nat -> rect ny nx g ->
  boxed xi yi (x, y) -> (a < nx)%nat -> (b < ny)%nat ->
  x0 + INR a * dx - dx / 2 < x <= x0 + INR a * dx + dx / 2 -> y0 + INR b * dy - dy / 2 < y <= y0 + INR b * dy + dy / 2 ->
  gregular_point vzero vadd vscale Nearest xi yi g (x, y) = Ok (entry d g b a).
Proof.
  intros Ex Ey Hx Hy Rg B Ha Hb Nx Ny. pose proof (evenly_axis _ _ _ _ Ex Hx) as A1. pose proof (evenly_axis _ _ _ _ Ey Hy) as A2.
  unfold gregular_point. rewrite (axis_increasing _ A1), (axis_increasing _ A2). cbn [andb negb]. rewrite outside_boxed by auto. cbn [bind fst snd].
  destruct B as [B1 B2]. cbn [fst snd] in B1, B2.
  assert (K1 : x0 <= x <= x0 + INR (nx - 1) * dx) by (destruct Ex as (_ & L & E); rewrite L, !E in B1 by lia; cbn [INR] in B1; lra).
  assert (K2 : y0 <= y <= y0 + INR (ny - 1) * dy) by (destruct Ey as (_ & L & E); rewrite L, !E in B2 by lia; cbn [INR] in B2; lra).
  rewrite (nearer_node x0 dx nx xi x a) by auto. cbn [bind]. rewrite (nearer_node y0 dy ny yi y b) by auto. cbn [bind].
  destruct Rg as [L1 L2]. unfold gget2. rewrite (get1_nth g [] b) by lia. cbn [bind]. rewrite (get1_nth _ d a); [reflexivity|]. rewrite L2; auto. apply nth_In. lia.
Qed.
Lemma nearer_total l x : (2 <= length l)%nat -> exists i, MaskModel.nearer l x = Ok i /\ (i < length l)%nat.
Proof.
  intros H. unfold MaskModel.nearer. destruct (cell_of_bound l 0 x H) as [_ K]. cbn [Nat.add] in K.
  rewrite (get1_nth l 0), (get1_nth l 0 (S _)) by lia. cbn [bind]. eexists. split; [reflexivity|]. destruct (rle _ _); lia.
Qed.
Lemma regular_total me xi yi g q : me <> Unknown -> axis xi -> axis yi -> rect (length yi) (length xi) g -> exists h, gregular_point vzero vadd vscale me xi yi g q = Ok h.
Proof.
  intros Hm A1 A2 Rg. destruct (boxed_dec xi yi q) as [B|B]; [|rewrite regular_outside by auto; eauto].
  destruct me; [rewrite regular_linear by auto; apply spline_total; auto| |congruence].
  unfold gregular_point. rewrite (axis_increasing _ A1), (axis_increasing _ A2). cbn [andb negb]. rewrite outside_boxed by auto. cbn [bind].
  assert (L1 : (2 <= length xi)%nat) by (destruct A1; lia). assert (L2 : (2 <= length yi)%nat) by (destruct A2; lia).
  destruct (nearer_total xi (fst q) L1) as (i & -> & Hi). cbn [bind]. destruct (nearer_total yi (snd q) L2) as (j & -> & Hj). cbn [bind].
  destruct Rg as [K1 K2]. unfold gget2. rewrite (get1_nth g [] j) by lia. cbn [bind].
  assert (Li : (i < length (nth j g []))%nat) by (rewrite K2; auto; apply nth_In; lia).
  destruct (nth_error (nth j g []) i) as [c|] eqn:E; [|apply nth_error_None in E; lia]. exists c. unfold get1. now rewrite E.
Qed.
End Points.
