(** C72: which points are said to be within the domain of a tide model. *)
From Coq Require Import Reals List Bool Arith ZArith Lra Lia.
From Verif Require Import PyBase RBase MathModel GeoModel ConvertProps GridModel InterpModel InterpProps ExtractModel ExtractSpec NodeProps ExtractProofs ExtractProps SplineProps ReturnProps SeriesModel SeriesSpec AtlasNcModel AtlasNcSpec AtlasNcProps AtlasNcProps2 AtlasNcProps3 MaskModel MaskSpec.
Import ListNotations.
Open Scope R_scope.

Definition one (b : bool) : R := if b then 1 else 0.
Lemma flagged_one v : 0 <= v <= 1 -> (flagged v = true <-> v = 1).
Proof.
  intros H. unfold flagged, rfloor. pose proof (base_Int_part v) as [B1 B2]. split.
  - intros K. destruct (Z.eqb_spec (Int_part v) 0) as [E|E]; [discriminate|]. destruct (Rle_lt_dec 1 v); [lra|]. exfalso. apply E.
    assert (IZR (Int_part v) < IZR 1) by lra. assert (IZR (-1) < IZR (Int_part v)) by (lra). apply lt_IZR in H0, H1. lia.
  - intros ->. destruct (Z.eqb_spec (Int_part 1) 0) as [E|E]; [|reflexivity]. rewrite E in B2. lra.
Qed.
(** the weighted sum of four flags *)
Lemma flag4 (w1 w2 w3 w4 : R) (a b c d : bool) : 0 <= w1 -> 0 <= w2 -> 0 <= w3 -> 0 <= w4 -> w1 + w2 + w3 + w4 = 1 ->
  (flagged (w1 * one a + (w2 * one b + (w3 * one c + (w4 * one d + 0)))) = true <-> (w1 = 0 \/ a = true) /\ (w2 = 0 \/ b = true) /\ (w3 = 0 \/ c = true) /\ (w4 = 0 \/ d = true)).
Proof.
  intros H1 H2 H3 H4 S1. rewrite flagged_one by (unfold one; destruct a, b, c, d; lra). unfold one. split.
  - intros E. destruct a, b, c, d; repeat split; try (right; reflexivity); left; lra.
  - intros (A & B & C & D). destruct A as [->| ->], B as [->| ->], C as [->| ->], D as [->| ->]; lra.
Qed.

Lemma beside_cell l i x : axis l -> (S i < length l)%nat -> nth i l 0 <= x <= nth (S i) l 0 -> forall k, beside l k x <-> k = i /\ x < nth (S i) l 0 \/ k = S i /\ nth i l 0 < x.
Proof.
  intros A Hi Hx k. destruct A as [A0 A]. split.
  - intros (Hk & B1 & B2). destruct (Nat.lt_trichotomy k i) as [L|[->|L]].
    + exfalso. assert (x < nth i l 0) by (apply B2; lia). lra.
    + left. split; [reflexivity|apply B2; lia].
    + destruct (Nat.eq_dec k (S i)) as [->|N]; [right; split; [reflexivity|apply B1; lia]|]. exfalso. assert (nth (S i) l 0 < x) by (apply B1; lia). lra.
  - intros [[-> L]|[-> L]]; (split; [lia|split]); intros m Hm.
    + assert (nth m l 0 < nth i l 0) by (apply A; lia). lra.
    + destruct (Nat.eq_dec m (S i)) as [->|N]; [auto|]. assert (nth (S i) l 0 < nth m l 0) by (apply A; lia). lra.
    + destruct (Nat.eq_dec m i) as [->|N]; [auto|]. assert (nth m l 0 < nth i l 0) by (apply A; lia). lra.
    + assert (nth (S i) l 0 < nth m l 0) by (apply A; lia). lra.
Qed.
Lemma find_bracket l x : axis l -> spanned l x -> exists i, (S i < length l)%nat /\ bracket (S (S i) = length l) (nth i l 0) (nth (S i) l 0) x.
Proof.
  intros A [H1 H2]. destruct (Rlt_le_dec x (nth (length l - 1) l 0)) as [L|L].
  - destruct (find_cell l x A) as (i & Hi & B); [lra|]. exists i. split; auto. now left.
  - exists (length l - 2)%nat. destruct A as [A0 A]. replace (S (length l - 2)) with (length l - 1)%nat by lia. split; [lia|]. right. split; [lia|]. split; [lra|]. apply A. lia.
Qed.
Lemma bracket_range P a b v : bracket P a b v -> a <= v <= b /\ a < b.
Proof. intros [H|(_ & -> & H)]; lra. Qed.

Lemma frac0 a b x : a < b -> ((x - a) / (b - a) = 0 <-> x = a).
Proof. intros H. split; [|intros ->; field; lra]. intros E. assert (K : (x - a) / (b - a) * (b - a) = x - a) by (field; lra). rewrite E in K. lra. Qed.
Lemma frac1 a b x : a < b -> (1 - (x - a) / (b - a) = 0 <-> x = b).
Proof. intros H. split; [|intros ->; field; lra]. intros E. assert (K : (x - a) / (b - a) * (b - a) = x - a) by (field; lra). replace ((x - a) / (b - a)) with 1 in K by lra. lra. Qed.

(** ** Masks as grids of numbers *)
Section Grid.
  Context (xi yi : list R) (mz : list (list bool)).
  Hypothesis A1 : axis xi.
  Hypothesis A2 : axis yi.
  Hypothesis Rm : rect (length yi) (length xi) mz.
  Let cells := map (map land_cell) mz.
  Lemma cells_rect : rect (length yi) (length xi) cells.
  Proof. now apply map_rect. Qed.
  Lemma cells_entry j i : (j < length yi)%nat -> (i < length xi)%nat -> entry (None, true) cells j i = land_cell (entry true mz j i).
  Proof. intros Hj Hi. apply (map_entry land_cell (length yi) (length xi) mz true); auto. Qed.
  (** land at every node beside a point *)
  Definition all_land (x y : R) : Prop := forall j i, beside yi j y -> beside xi i x -> entry true mz j i = true.
  Lemma all_land_cell x y i j : (S i < length xi)%nat -> (S j < length yi)%nat -> nth i xi 0 <= x <= nth (S i) xi 0 -> nth j yi 0 <= y <= nth (S j) yi 0 ->
    nth i xi 0 < nth (S i) xi 0 -> nth j yi 0 < nth (S j) yi 0 ->
    let X := nth (S i) xi 0 - nth i xi 0 in let Y := nth (S j) yi 0 - nth j yi 0 in
    let t := (x - nth i xi 0) / X in let s := (y - nth j yi 0) / Y in
    (all_land x y <-> ((1 - t) * (1 - s) = 0 \/ entry true mz j i = true) /\ (t * (1 - s) = 0 \/ entry true mz j (S i) = true) /\
       ((1 - t) * s = 0 \/ entry true mz (S j) i = true) /\ (t * s = 0 \/ entry true mz (S j) (S i) = true)).
  Proof.
    intros Hi Hj Hx Hy Lx Ly X Y t s.
    assert (T1 : t = 0 <-> x = nth i xi 0) by (apply frac0; auto).
    assert (T2 : 1 - t = 0 <-> x = nth (S i) xi 0) by (apply frac1; auto).
    assert (S1 : s = 0 <-> y = nth j yi 0) by (apply frac0; auto).
    assert (S2 : 1 - s = 0 <-> y = nth (S j) yi 0) by (apply frac1; auto).
    assert (Bx := beside_cell xi i x A1 Hi Hx). assert (By := beside_cell yi j y A2 Hj Hy).
    assert (Z2 : forall a b, a * b = 0 <-> a = 0 \/ b = 0) by (intros a b; split; [apply Rmult_integral|intros [-> | ->]; ring]).
    assert (D1 : x < nth (S i) xi 0 \/ 1 - t = 0) by (rewrite T2; lra). assert (D2 : nth i xi 0 < x \/ t = 0) by (rewrite T1; lra).
    assert (D3 : y < nth (S j) yi 0 \/ 1 - s = 0) by (rewrite S2; lra). assert (D4 : nth j yi 0 < y \/ s = 0) by (rewrite S1; lra).
    rewrite !Z2. split.
    - intros H. repeat split.
      + destruct D1; [|tauto]. destruct D3; [|tauto]. right. apply H; [apply By|apply Bx]; tauto.
      + destruct D2; [|tauto]. destruct D3; [|tauto]. right. apply H; [apply By|apply Bx]; tauto.
      + destruct D1; [|tauto]. destruct D4; [|tauto]. right. apply H; [apply By|apply Bx]; tauto.
      + destruct D2; [|tauto]. destruct D4; [|tauto]. right. apply H; [apply By|apply Bx]; tauto.
    - intros (H1 & H2 & H3 & H4) m k Hm Hk. apply By in Hm. apply Bx in Hk.
      assert (N1 : x < nth (S i) xi 0 -> 1 - t <> 0) by (rewrite T2; lra). assert (N2 : nth i xi 0 < x -> t <> 0) by (rewrite T1; lra).
      assert (N3 : y < nth (S j) yi 0 -> 1 - s <> 0) by (rewrite S2; lra). assert (N4 : nth j yi 0 < y -> s <> 0) by (rewrite S1; lra).
      destruct Hm as [[-> Hm]|[-> Hm]], Hk as [[-> Hk]|[-> Hk]].
      + destruct H1 as [[K|K]|K]; [now apply N1 in K|now apply N3 in K|exact K].
      + destruct H2 as [[K|K]|K]; [now apply N2 in K|now apply N3 in K|exact K].
      + destruct H3 as [[K|K]|K]; [now apply N1 in K|now apply N4 in K|exact K].
      + destruct H4 as [[K|K]|K]; [now apply N2 in K|now apply N4 in K|exact K].
  Qed.

  Lemma spline_land x y : boxed xi yi x y -> exists v m, rspline xi yi cells (x, y) = Ok (Some v, m) /\ (flagged v = true <-> all_land x y).
  Proof.
    intros [Hx Hy]. destruct (find_bracket xi x A1 Hx) as (i & Hi & Bx). destruct (find_bracket yi y A2 Hy) as (j & Hj & By).
    destruct Hx as [Hx1 Hx2]. destruct Hy as [Hy1 Hy2]. pose proof (spline_eq 0 Rplus Rmult xi yi cells x y i j A1 A2 cells_rect Hx1 Hy1 Hi Hj) as E. cbv zeta in E.
    rewrite (Rmin_right _ x), (Rmin_right _ y) in E by auto. specialize (E Bx By). apply bracket_range in Bx, By. destruct Bx as [Bx Lx]. destruct By as [By Ly].
    rewrite !cells_entry in E by lia. cbn [land_cell forallb fst snd andb map fold_right gnumber] in E. eexists _, _. split; [exact E|].
    pose proof (all_land_cell x y i j Hi Hj Bx By Lx Ly) as E2. cbv zeta in E2. rewrite E2.
    set (t := (x - nth i xi 0) / (nth (S i) xi 0 - nth i xi 0)) in *. set (s := (y - nth j yi 0) / (nth (S j) yi 0 - nth j yi 0)) in *.
    assert (T : 0 <= t <= 1). { unfold t. split; [apply Rmult_le_pos; [lra|left; apply Rinv_0_lt_compat; lra]|]. apply (Rmult_le_reg_r (nth (S i) xi 0 - nth i xi 0)); [lra|]. unfold Rdiv. rewrite Rmult_assoc, Rinv_l by lra. lra. }
    assert (Sx : 0 <= s <= 1). { unfold s. split; [apply Rmult_le_pos; [lra|left; apply Rinv_0_lt_compat; lra]|]. apply (Rmult_le_reg_r (nth (S j) yi 0 - nth j yi 0)); [lra|]. unfold Rdiv. rewrite Rmult_assoc, Rinv_l by lra. lra. }
    apply flag4; try (apply Rmult_le_pos; lra). ring.
  Qed.
  Lemma spline_some x y : exists v m, rspline xi yi cells (x, y) = Ok (Some v, m).
  Proof.
    unfold rspline, gspline_point. rewrite (axis_increasing _ A1), (axis_increasing _ A2), (axis_min _ A1), (axis_max _ A1), (axis_min _ A2), (axis_max _ A2). cbn [andb negb bind fst snd].
    assert (C : forall l z, axis l -> spanned l (clamp (nth 0 l 0) (nth (length l - 1) l 0) z)).
    { intros l z A. assert (nth 0 l 0 <= nth (length l - 1) l 0) by (apply axis_mono; auto; destruct A; lia). unfold clamp, spanned. split; [apply Rmax_l|]. apply Rmax_lub; [auto|apply Rmin_l]. }
    destruct (find_bracket xi _ A1 (C xi x A1)) as (i & Hi & Bx). destruct (find_bracket yi _ A2 (C yi y A2)) as (j & Hj & By).
    rewrite (cell_of_one xi A1 0 i _ Hi Bx), (cell_of_one yi A2 0 j _ Hj By). cbn [Nat.add].
    rewrite !(get1_nth _ 0) by lia. cbn [bind]. rewrite !(gget2_node (length yi) (length xi) cells) by (auto using cells_rect; lia). cbn [bind]. rewrite !cells_entry by lia. cbn [land_cell forallb fst snd andb]. eauto.
  Qed.
  Lemma box_eq x y : exists b, in_box xi yi (x, y) = Ok b /\ (b = true <-> boxed xi yi x y).
  Proof.
    unfold in_box, outside_axes. rewrite (axis_min _ A1), (axis_max _ A1), (axis_min _ A2), (axis_max _ A2). cbn [bind fst snd]. eexists. split; [reflexivity|].
    unfold boxed, spanned. rewrite negb_true_iff, !orb_false_iff. split.
    - intros [[B1 B2] [B3 B4]]. repeat split; apply Rnot_lt_le; intros K; [rewrite rlt_t in B1|rewrite rlt_t in B2|rewrite rlt_t in B3|rewrite rlt_t in B4]; auto; discriminate.
    - intros [[B1 B2] [B3 B4]]. repeat split; apply rlt_f; lra.
  Qed.
  Lemma bilinear_cell x y i j : in_cell xi yi i j x y -> ~ near_corner xi yi i j x y -> exists v, rbilinear xi yi cells (x, y) = Ok (Some v, false) /\ (flagged v = true <-> all_land x y).
  Proof.
    intros C N. pose proof C as (Hi & Hj & Hx & Hy & Hlow). destruct (bilinear_off 0 Rplus Rmult xi yi cells x y i j A1 A2 cells_rect C N) as (m & E & Em).
    rewrite !cells_entry in E, Em by lia. unfold gweighted in E, Em. cbn [filter gusable land_cell fst snd negb map fold_right gnumber] in E, Em.
    set (X0 := nth i xi 0) in *. set (X1 := nth (S i) xi 0) in *. set (Y0 := nth j yi 0) in *. set (Y1 := nth (S j) yi 0) in *.
    set (sw := (X1 - x) * (Y1 - y) + _) in E, Em. assert (Esw : sw = (X1 - X0) * (Y1 - Y0)) by (unfold sw; ring). assert (P : 0 < sw) by (rewrite Esw; apply Rmult_lt_0_compat; lra).
    rewrite (req_f sw 0) in E, Em by lra. destruct m; [discriminate (Em eq_refl)|]. eexists. split; [exact E|].
    assert (Bx : X0 <= x <= X1) by lra. assert (By : Y0 <= y <= Y1) by lra. pose proof (all_land_cell x y i j Hi Hj Bx By ltac:(fold X0 X1; lra) ltac:(fold Y0 Y1; lra)) as E2. cbv zeta in E2. rewrite E2. fold X0 X1 Y0 Y1. clear E2 E Em.
    set (t := (x - X0) / (X1 - X0)). set (s := (y - Y0) / (Y1 - Y0)).
    assert (T : 0 <= t <= 1). { unfold t. split; [apply Rmult_le_pos; [lra|left; apply Rinv_0_lt_compat; lra]|]. apply (Rmult_le_reg_r (X1 - X0)); [lra|]. unfold Rdiv. rewrite Rmult_assoc, Rinv_l by lra. lra. }
    assert (Sx : 0 <= s <= 1). { unfold s. split; [apply Rmult_le_pos; [lra|left; apply Rinv_0_lt_compat; lra]|]. apply (Rmult_le_reg_r (Y1 - Y0)); [lra|]. unfold Rdiv. rewrite Rmult_assoc, Rinv_l by lra. lra. }
    match goal with |- flagged ?v = true <-> _ => replace v with ((1 - t) * (1 - s) * one (entry true mz j i) + (t * (1 - s) * one (entry true mz j (S i)) + ((1 - t) * s * one (entry true mz (S j) i) + (t * s * one (entry true mz (S j) (S i)) + 0)))) end.
    - apply flag4; try (apply Rmult_le_pos; lra). ring.
    - rewrite Esw. unfold one, t, s. field. split; lra.
  Qed.
  (** within tolerance of a node: that node *)
  Lemma bilinear_near x y i j : in_cell xi yi i j x y -> near_corner xi yi i j x y -> exists k m, (k < length xi)%nat /\ (m < length yi)%nat /\
    InterpProps.close x (nth k xi 0) /\ InterpProps.close y (nth m yi 0) /\ rbilinear xi yi cells (x, y) = Ok (land_cell (entry true mz m k)) /\ (x = nth i xi 0 -> y = nth j yi 0 -> k = i /\ m = j).
  Proof.
    intros C N. pose proof C as (Hi & Hj & Hx & Hy & Hlow). pose proof (gpoint_eq 0 Rplus Rmult xi yi cells x y i j A1 A2 cells_rect C) as E. cbv zeta in E. unfold rbilinear.
    assert (R1 : forall a b, isclose a b = true -> InterpProps.close a b) by (intros a b; apply isclose_close). assert (R2 : forall a b, InterpProps.close a b -> isclose a b = true) by (intros a b; apply close_isclose).
    assert (Q : forall b c, (b < length yi)%nat -> (c < length xi)%nat -> @entry (gcell R) (None, true) cells b c = land_cell (entry true mz b c)) by (intros; now apply cells_entry).
    assert (Z : isclose y (nth j yi 0) && isclose x (nth i xi 0) = false -> x = nth i xi 0 -> y = nth j yi 0 -> False) by (intros K -> ->; rewrite !isclose_refl in K; discriminate).
    destruct (isclose y (nth j yi 0) && isclose x (nth i xi 0)) eqn:K1.
    { apply andb_prop in K1 as [K1 K1']. exists i, j. rewrite <- Q by lia. repeat split; auto; lia. }
    destruct (isclose y (nth (S j) yi 0) && isclose x (nth i xi 0)) eqn:K2.
    { apply andb_prop in K2 as [K2 K2']. exists i, (S j). rewrite <- Q by lia. repeat split; auto; try lia; exfalso; auto. }
    destruct (isclose y (nth j yi 0) && isclose x (nth (S i) xi 0)) eqn:K3.
    { apply andb_prop in K3 as [K3 K3']. exists (S i), j. rewrite <- Q by lia. repeat split; auto; try lia; exfalso; auto. }
    destruct (isclose y (nth (S j) yi 0) && isclose x (nth (S i) xi 0)) eqn:K4.
    { apply andb_prop in K4 as [K4 K4']. exists (S i), (S j). rewrite <- Q by lia. repeat split; auto; try lia; exfalso; auto. }
    exfalso. destruct N as [[N1|N1] [N2|N2]]; apply R2 in N1, N2; [rewrite N1, N2 in K1|rewrite N1, N2 in K2|rewrite N1, N2 in K3|rewrite N1, N2 in K4]; discriminate.
  Qed.
  Lemma bilinear_out x y : ~ spanned xi x \/ y <= nth 0 yi 0 \/ nth (length yi - 1) yi 0 <= y -> rbilinear xi yi cells (x, y) = Ok (None, true).
  Proof.
    intros H. unfold rbilinear. apply gpoint_outside; auto. destruct H as [H|H]; [|tauto]. unfold spanned in H. destruct (Rlt_le_dec x (nth 0 xi 0)); [tauto|]. destruct (Rlt_le_dec (nth (length xi - 1) xi 0) x); [tauto|]. exfalso. lra.
  Qed.

  (** ** scipy's regular grids *)
  Lemma regular_out near x y : ~ boxed xi yi x y -> regular near xi yi cells (x, y) = Ok 1.
  Proof.
    intros N. unfold regular. rewrite (axis_increasing _ A1), (axis_increasing _ A2). cbn [andb negb]. destruct (box_eq x y) as (b & -> & Hb). cbn [bind]. destruct b; [tauto|reflexivity].
  Qed.
  Lemma regular_linear x y : boxed xi yi x y -> exists v, regular false xi yi cells (x, y) = Ok v /\ (flagged v = true <-> all_land x y).
  Proof.
    intros B. unfold regular. rewrite (axis_increasing _ A1), (axis_increasing _ A2). cbn [andb negb]. destruct (box_eq x y) as (b & -> & Hb). cbn [bind]. destruct b; [|exfalso; assert (false = true) by tauto; discriminate].
    destruct (spline_land x y B) as (v & m & E & F). rewrite E. cbn [bind gnumber fst]. eauto.
  Qed.
  Lemma nearer_eq l x : axis l -> spanned l x -> exists i, nearer l x = Ok i /\ nearest l i x.
  Proof.
    intros A Sp. destruct (find_bracket l x A Sp) as (i & Hi & B). unfold nearer. rewrite (cell_of_one l A 0 i x Hi B). cbn [Nat.add]. rewrite !(get1_nth _ 0) by lia. cbn [bind].
    eexists. split; [reflexivity|]. apply bracket_range in B as [B L]. destruct A as [A0 A]. set (a := nth i l 0) in *. set (b := nth (S i) l 0) in *.
    assert (D : (x - a) / (b - a) <= 1 / 2 <-> x - a <= b - x).
    { split; intros H.
      - apply (Rmult_le_compat_r (b - a)) in H; [|lra]. unfold Rdiv in H. rewrite Rmult_assoc, Rinv_l in H by lra. lra.
      - apply (Rmult_le_reg_r (b - a)); [lra|]. unfold Rdiv. rewrite Rmult_assoc, Rinv_l by lra. lra. }
    assert (Lo : forall k, (k < i)%nat -> nth k l 0 < a) by (intros; apply A; lia). assert (Hi' : forall k, (S i < k < length l)%nat -> b < nth k l 0) by (intros; apply A; lia).
    destruct (Rle_lt_dec ((x - a) / (b - a)) (1 / 2)) as [K|K].
    - rewrite rle_t by auto. apply D in K. split; [lia|]. fold a. rewrite (Rabs_right (x - a)) by lra. intros k Hk N. destruct (Nat.lt_trichotomy k i) as [L1|[L1|L1]]; [|congruence|].
      + left. specialize (Lo k L1). rewrite Rabs_right by lra. lra.
      + assert (b <= nth k l 0) by (destruct (Nat.eq_dec k (S i)) as [->|N']; [apply Rle_refl|left; apply Hi'; lia]). rewrite Rabs_minus_sym, Rabs_right by lra.
        destruct (Rlt_le_dec (x - a) (nth k l 0 - x)); [now left|]. right. split; [auto|lra].
    - rewrite rle_f by lra. assert (K' : b - x < x - a) by (apply Rnot_le_lt; intros Q; apply D in Q; lra). split; [lia|]. fold b. rewrite (Rabs_minus_sym x b), (Rabs_right (b - x)) by lra. intros k Hk N. left.
      destruct (le_lt_dec k i) as [L1|L1].
      + assert (nth k l 0 <= a) by (destruct (Nat.eq_dec k i) as [->|N']; [apply Rle_refl|left; apply Lo; lia]). rewrite Rabs_right by lra. lra.
      + specialize (Hi' k ltac:(lia)). rewrite Rabs_minus_sym, Rabs_right by lra. lra.
  Qed.
  Lemma nearest_unique l i k x : nearest l i x -> nearest l k x -> i = k.
  Proof.
    intros [H1 H2] [H3 H4]. destruct (Nat.eq_dec i k) as [|N]; auto. exfalso. destruct (H2 k H3 ltac:(auto)) as [P|[P P']], (H4 i H1 N) as [Q|[Q Q']]; try lra. lia.
  Qed.
  Lemma regular_nearest x y : boxed xi yi x y -> exists v, regular true xi yi cells (x, y) = Ok v /\ (flagged v = true <-> forall j i, nearest yi j y -> nearest xi i x -> entry true mz j i = true).
  Proof.
    intros B. unfold regular. rewrite (axis_increasing _ A1), (axis_increasing _ A2). cbn [andb negb]. destruct (box_eq x y) as (b & -> & Hb). cbn [bind]. destruct b; [|exfalso; assert (false = true) by tauto; discriminate].
    destruct B as [Bx By]. destruct (nearer_eq xi x A1 Bx) as (i & Ei & Ni). destruct (nearer_eq yi y A2 By) as (j & Ej & Nj). cbn [fst snd]. rewrite Ei, Ej. cbn [bind].
    rewrite (gget2_node (length yi) (length xi) cells) by (auto using cells_rect; first [apply Ni|apply Nj]). cbn [bind]. eexists. split; [reflexivity|]. rewrite cells_entry by (first [apply Ni|apply Nj]).
    cbn [land_cell gnumber fst]. rewrite flagged_one by (destruct (entry true mz j i); lra). split.
    - intros K j' i' Hj Hi. rewrite (nearest_unique yi j' j y Hj Nj), (nearest_unique xi i' i x Hi Ni). destruct (entry true mz j i); [reflexivity|lra].
    - intros K. now rewrite (K j i Nj Ni).
  Qed.
End Grid.

(** ** What was read *)
Lemma ascending_axis l : ascending l -> axis l.
Proof. exact (fun H => H). Qed.
Definition known (xi yi : list R) (s : source) (mz : list (list bool)) : Prop :=
  domain s = Ok (xi, yi, mz) /\ rect (length yi) (length xi) mz /\
  forall j i, (j < length yi)%nat -> (i < length xi)%nat -> (entry true mz j i = false <-> open_at j i s).
Lemma gridded_known xi yi s : gridded xi yi s -> exists mz, known xi yi s mz.
Proof.
  assert (N : forall (A B : Prop) (b : bool), (b = false <-> A) -> (A <-> B) -> (b = false <-> B)) by tauto.
  intros H. destruct H as [g Ex Ey Rm|t g nd Hn Ex Ey En Rd|sh Ex Ey Rm|sh Ex Ey Rm]; unfold known, domain.
  - eexists. rewrite Ex, Ey. split; [reflexivity|]. split; [now apply map_rect|]. intros j i Hj Hi. rewrite (map_entry _ (length yi) (length xi) (gmz g) 0%Z) by auto. unfold nonzero. rewrite negb_involutive.
    split; [intros K; constructor; intros Q; rewrite Q in K; discriminate|]. intros K. inversion K as [g0 K' E| | |]; subst. destruct (Z.eqb_spec (entry 0%Z (gmz g) j i) 0); [contradiction|reflexivity].
  - unfold read_netcdf_grid. rewrite (nodes_for_eq t g nd Hn). cbn [bind]. eexists. rewrite Ex, Ey. split; [reflexivity|]. rewrite En.
    assert (Rt : rect (length yi) (length xi) (transposed 0 (length yi) (ndepth nd))) by now apply transposed_rect.
    split; [now apply map_rect, map_rect|]. intros j i Hj Hi. rewrite (map_entry _ (length yi) (length xi) _ (None, true)) by (auto; now apply map_rect). rewrite (map_entry depth_at (length yi) (length xi) _ 0) by auto.
    rewrite (transposed_entry 0 0 (length xi) (length yi)) by auto. unfold depth_at. cbn [snd]. split.
    + intros K. apply (Open_atlas j i t g nd (entry 0 (ndepth nd) i j) Hn). unfold depth_of. destruct (Req_EM_T (entry 0 (ndepth nd) i j) 0) as [Q|]; [|reflexivity]. rewrite req_t in K by auto. discriminate.
    + intros K. inversion K as [|t0 g0 nd' d Hn' Hd Et| |]; subst. assert (nd' = nd) by (apply nodes_for_eq in Hn, Hn'; congruence). subst nd'. unfold depth_of in Hd. destruct (Req_EM_T (entry 0 (ndepth nd) i j) 0); [discriminate|]. now apply req_f.
  - eexists. rewrite Ex, Ey. split; [reflexivity|]. split; [now apply map_rect|]. intros j i Hj Hi. rewrite (map_entry _ (length yi) (length xi) (shc sh) (None, true)) by auto. split; [intros K; now constructor|]. intros K. now inversion K.
  - eexists. rewrite Ex, Ey. split; [reflexivity|]. split; [now apply map_rect|]. intros j i Hj Hi. rewrite (map_entry _ (length yi) (length xi) (shc sh) (None, true)) by auto. split; [intros K; now constructor|]. intros K. now inversion K.
Qed.
Lemma placed_position fwd s q : placed_for fwd s q = position fwd s q.
Proof. unfold placed_for, position, eastward, rlt. destruct s; try reflexivity; destruct (Rlt_dec (fst q) 0); reflexivity. Qed.
(** one array of points: each is answered for itself *)
Lemma masks_list tr fwd me s xi yi mz pts : known xi yi s mz -> ascending xi -> ascending yi ->
  (forall p, In p pts -> exists m, land_at me xi yi mz (position fwd s (tr p)) p = Ok m) ->
  exists out, tide_masks tr fwd me s (P1 pts) = Ok out /\ length out = length pts /\
    forall n p, nth_error pts n = Some p -> exists m b, land_at me xi yi mz (position fwd s (tr p)) p = Ok m /\
      nth_error out n = Some (option_map (fun m => negb m && b) m) /\ (b = true <-> boxed xi yi (fst (position fwd s (tr p))) (snd (position fwd s (tr p)))).
Proof.
  intros (Ed & Rm & Hm) A1 A2 Hp. unfold tide_masks. rewrite Ed. cbn [bind]. assert (pairs_of me (P1 pts) = true) as -> by (destruct me; reflexivity). cbn [negb flat in_place].
  match goal with |- exists out, bind (mapM ?F pts) _ = _ /\ _ => destruct (mapM_ok F pts) as (ms & Em) end.
  { intros p Hin. rewrite placed_position. destruct (Hp p Hin) as (m & ->). cbn [bind]. eauto. }
  rewrite Em. cbn [bind]. match goal with |- exists out, mapM ?F ms = _ /\ _ => destruct (mapM_ok F ms) as (out & Eo) end.
  { intros [[x y] m] _. cbn [fst snd]. destruct (box_eq xi yi A1 A2 x y) as (b & -> & _). cbn [bind]. eauto. }
  exists out. split; [exact Eo|]. split; [now rewrite (mapM_len _ _ _ Eo), (mapM_len _ _ _ Em)|]. intros n p Hn.
  destruct (mapM_nth _ _ _ _ _ Em Hn) as (qm & E1 & E2). rewrite placed_position in E1. destruct (land_at me xi yi mz (position fwd s (tr p)) p) as [m|] eqn:El; [|discriminate]. cbn [bind] in E1. apply Ok_inj in E1 as <-.
  destruct (mapM_nth _ _ _ _ _ Eo E2) as (o & E3 & E4). cbn [fst snd] in E3. destruct (position fwd s (tr p)) as [x y]. destruct (box_eq xi yi A1 A2 x y) as (b & Eb & Hb). rewrite Eb in E3. cbn [bind] in E3. apply Ok_inj in E3 as <-.
  exists m, b. cbn [fst snd]. auto.
Qed.
Lemma bounded_dec n (P : nat -> Prop) : (forall k, (k < n)%nat -> P k \/ ~ P k) -> (forall k, (k < n)%nat -> P k) \/ exists k, (k < n)%nat /\ ~ P k.
Proof.
  induction n as [|n IH]; intros D; [left; lia|]. destruct IH as [H|(k & H1 & H2)]; [intros; apply D; lia| |right; exists k; split; auto].
  destruct (D n ltac:(lia)) as [H'|H']; [|right; exists n; auto]. left. intros k Hk. destruct (Nat.eq_dec k n) as [->|]; auto. apply H. lia.
Qed.
Lemma rlt_or (a b : R) : a < b \/ ~ a < b.
Proof. destruct (Rlt_dec a b); auto. Qed.
Lemma beside_dec l i x : beside l i x \/ ~ beside l i x.
Proof.
  unfold beside. destruct (lt_dec i (length l)) as [Hi|Hi]; [|right; tauto].
  destruct (bounded_dec i (fun k => nth k l 0 < x)) as [H|(k & H1 & H2)]; [intros; apply rlt_or| |right; intros (_ & K & _); apply H2, K, H1].
  destruct (bounded_dec (length l) (fun k => (i < k)%nat -> x < nth k l 0)) as [H'|(k & H1 & H2)].
  - intros k Hk. destruct (rlt_or x (nth k l 0)) as [|N]; [now left; auto|]. destruct (lt_dec i k); [right; auto|left; lia].
  - left. split; auto. split; auto. intros k Hk. apply H'; lia.
  - right. intros (_ & _ & K). apply H2. intros Hk. apply K. lia.
Qed.
Lemma nearest_dec l i x : nearest l i x \/ ~ nearest l i x.
Proof.
  unfold nearest. destruct (lt_dec i (length l)) as [Hi|Hi]; [|right; tauto].
  destruct (bounded_dec (length l) (fun k => k <> i -> Rabs (x - nth i l 0) < Rabs (x - nth k l 0) \/ (i < k)%nat /\ Rabs (x - nth i l 0) = Rabs (x - nth k l 0))) as [H|(k & H1 & H2)].
  - intros k Hk. destruct (Nat.eq_dec k i) as [->|N]; [left; congruence|]. destruct (rlt_or (Rabs (x - nth i l 0)) (Rabs (x - nth k l 0))) as [|N1]; [left; auto|].
    destruct (lt_dec i k) as [L|L]; [|right; intros K; destruct (K N) as [|[]]; auto]. destruct (Req_dec (Rabs (x - nth i l 0)) (Rabs (x - nth k l 0))); [left; auto|right; intros K; destruct (K N) as [|[]]; auto].
  - left. auto.
  - right. intros [_ K]. apply H2. auto.
Qed.
(** not land everywhere: water somewhere *)
Lemma some_open xi yi s mz (P Q : nat -> Prop) : known xi yi s mz -> (forall j, P j -> (j < length yi)%nat) -> (forall i, Q i -> (i < length xi)%nat) -> (forall j, P j \/ ~ P j) -> (forall i, Q i \/ ~ Q i) ->
  forall b, (b = true <-> forall j i, P j -> Q i -> entry true mz j i = true) -> (negb b = true <-> exists j i, P j /\ Q i /\ open_at j i s).
Proof.
  intros (_ & _ & Hm) LP LQ DP DQ b Hb. rewrite negb_true_iff. split.
  - intros ->. destruct (bounded_dec (length yi) (fun j => forall i, (i < length xi)%nat -> P j -> Q i -> entry true mz j i = true)) as [H|(j & H1 & H2)].
    + intros j Hj. destruct (bounded_dec (length xi) (fun i => P j -> Q i -> entry true mz j i = true)) as [H|(i & H1 & H2)].
      * intros i Hi. destruct (entry true mz j i); [left; auto|]. destruct (DP j), (DQ i); [right; intros K; discriminate (K H H0)| | |]; left; tauto.
      * now left.
      * right. intros K. apply H2. now apply K.
    + assert (false = true) by (apply Hb; intros j i Pj Qi; apply H; auto). discriminate.
    + destruct (bounded_dec (length xi) (fun i => P j -> Q i -> entry true mz j i = true)) as [H|(i & H3 & H4)].
      * intros i Hi. destruct (entry true mz j i); [left; auto|]. destruct (DP j), (DQ i); [right; intros K; discriminate (K H H0)| | |]; left; tauto.
      * exfalso. apply H2. intros i Hi. now apply H.
      * exists j, i. destruct (DP j); [|tauto]. destruct (DQ i); [|tauto]. split; auto. split; auto. apply Hm; auto. destruct (entry true mz j i); [exfalso; apply H4; auto|reflexivity].
  - intros (j & i & Pj & Qi & O). destruct b; [|reflexivity]. apply Hm in O; auto. rewrite (proj1 Hb eq_refl j i Pj Qi) in O. discriminate.
Qed.
