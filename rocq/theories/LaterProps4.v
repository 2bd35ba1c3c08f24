(** C89: models of which too little is kept cannot be read. *)
From Coq Require Import Reals List Bool Arith ZArith Lra Lia.
From Verif Require Import PyBase RBase MathModel GeoModel ConvertProps GridModel InterpModel ExtractModel ExtractSpec NodeProps ExtractProofs ExtractProps SeriesModel SeriesSpec SeriesProofs SeriesProps RegularModel CropModel CropSpec CropProofs CropProofs2 CropProps CropProps2 CropProps3 ShoreModel ShoreProps LaterModel LaterProps LaterProps2.
Import ListNotations.
Open Scope R_scope.

(** ** C89: without a row or a column within the bounds there is an IndexError *)
Theorem C89_empty : forall src b m s files around x0 dx nx y0 dy ny f,
  some_limit b -> sheet_grid around x0 dx nx y0 dy ny s -> window x0 dx nx (x_min b) (x_max b) f -> f = 0%Z \/ around = true /\ 1 / 10000 < dx ->
  (forall i, (f <= i < f + Z.of_nat nx)%Z -> ~ stays (x_min b) (x_max b) m (node_x Heights x0 dx i)) \/
  (forall j, (j < ny)%nat -> ~ row_stays b m y0 dy j) ->
  read_options src true (Some b) m (s :: files) = Err IndexError.
Proof.
  intros src b m s files around x0 dx nx y0 dy ny f Sb G W Hf He. unfold read_options. cbn [mapM]. unfold read_sheet at 1. rewrite any_limit_t by auto.
  destruct (reframe_grid _ _ _ _ _ _ _ _ _ _ G W Hf) as (t' & T1 & (Tx & Ty & _ & _ & Rt & _) & _). unfold crop_sheet. rewrite T1. cbn [bind]. unfold cut.
  destruct He as [He|He].
  - rewrite (none_stays (x_min b) (x_max b) m _ _ _ _ Tx). 2:{ intros i Hi. replace (node_x Heights x0 dx f + INR i * dx) with (node_x Heights x0 dx (f + Z.of_nat i)) by (unfold node_x; rewrite plus_IZR, <- INR_IZR_INZ; ring). apply He. lia. }
    destruct (ind_slice _ (shc t')) as [rows|e] eqn:Er; cbn [bind ind_slice]; [reflexivity|].
    destruct (flatnonzero _ (slat t')); [|discriminate]. now injection Er as <-.
  - rewrite (none_stays (y_min b) (y_max b) m _ _ _ _ Ty); [reflexivity|]. intros j Hj. now apply He.
Qed.
Print Assumptions C89_empty.

(** ** C89: with a single column there is an IndexError: the step is that of the columns
    that are kept *)
Theorem C89_single : forall src b m s files around x0 dx nx y0 dy ny f i j,
  some_limit b -> sheet_grid around x0 dx nx y0 dy ny s -> window x0 dx nx (x_min b) (x_max b) f -> f = 0%Z \/ around = true /\ 1 / 10000 < dx ->
  (forall i', (f <= i' < f + Z.of_nat nx)%Z -> (stays (x_min b) (x_max b) m (node_x Heights x0 dx i') <-> i' = i)) ->
  (f <= i < f + Z.of_nat nx)%Z -> (j < ny)%nat -> row_stays b m y0 dy j ->
  read_options src true (Some b) m (s :: files) = Err IndexError.
Proof.
  intros src b m s files around x0 dx nx y0 dy ny f i j Sb G W Hf Hi Ri Hj Rj. unfold read_options. cbn [mapM]. unfold read_sheet at 1. rewrite any_limit_t by auto.
  destruct (reframe_grid _ _ _ _ _ _ _ _ _ _ G W Hf) as (t' & T1 & (Tx & Ty & _ & _ & Rt & _) & _). unfold crop_sheet. rewrite T1. cbn [bind].
  assert (Nf : forall k, node_x Heights x0 dx f + INR k * dx = node_x Heights x0 dx (f + Z.of_nat k)) by (intros k; unfold node_x; rewrite plus_IZR, <- INR_IZR_INZ; ring).
  destruct (cut_grid b m _ _ _ _ _ _ t' (Z.to_nat (i - f)) j Tx Ty Rt) as (a & n & c & k & u & U1 & U2 & U3 & _ & _ & U4 & _ & U5 & _); auto; [lia| |].
  - rewrite Nf. apply Hi; lia.
  - rewrite U1. cbn [bind]. assert (En : n = 1%nat).
    { destruct (Nat.eq_dec n 1) as [|Hn]; auto. exfalso. assert (A1 : (a <= a < a + n)%nat) by lia. assert (A2 : (a <= S a < a + n)%nat) by lia.
      apply U4 in A1; [|lia]. apply U4 in A2; [|lia]. rewrite Nf in A1, A2. apply Hi in A1; [|lia]. apply Hi in A2; lia. }
    subst n. destruct U5 as (_ & L & _). unfold extend_sheet. destruct (slon u) as [|z [|]]; try discriminate. reflexivity.
Qed.
Print Assumptions C89_single.

(** ** Finding (C89): the buffer is four columns by default when a model is extracted,
    but zero when it is read: between two columns (or two rows) of a model extraction
    returns, and reading is an IndexError *)
Theorem C89_default_refuted : forall src w sc s files x y around x0 dx nx y0 dy ny f i j,
  w <> Regular Unknown -> sheet_grid around x0 dx nx y0 dy ny s -> (forall s', In s' files -> s' = s) -> dy <= dx -> x <> 0 \/ y <> 0 ->
  window x0 dx nx x x f -> f = 0%Z \/ around = true /\ 1 / 10000 < dx ->
  (f <= i < f + Z.of_nat nx - 1)%Z -> node_x Heights x0 dx i < x < node_x Heights x0 dx (i + 1) ->
  (S j < ny)%nat -> node_y Heights y0 dy j <= y <= node_y Heights y0 dy (S j) ->
  read_options src true (Some (Limits x x y y)) 0 (s :: files) = Err IndexError /\
  exists out, extract_options src w sc true (Some (Limits x x y y)) None None (s :: files) [(x, y)] = Ok out /\ length out = S (length files).
Proof.
  intros src w sc s files x y around x0 dx nx y0 dy ny f i j Hw G Hs Hdy Hxy W Hf Hi Hx Hj Hy.
  assert (Hd : 0 < dx) by apply G.
  assert (Sb : some_limit (Limits x x y y)) by (intros (K1 & _ & K2 & _); cbn [x_min y_min] in K1, K2; lra).
  split.
  - apply (C89_empty src (Limits x x y y) 0 s files around x0 dx nx y0 dy ny f); auto. left. intros i' _ K. unfold stays, node_x in *. cbn [x_min x_max] in K. rewrite plus_IZR in Hx.
    assert (i < i' < i + 1)%Z; [|lia]. split; apply lt_IZR; [|rewrite plus_IZR]; nra.
  - unfold node_x in Hx. unfold node_y in Hy. rewrite plus_IZR in Hx. rewrite S_INR in Hy.
    assert (A : forall i', i' = i \/ i' = (i + 1)%Z -> column_available (Limits x x y y) (4 * dx) src around x0 dx nx f i').
    { intros i' Hi'. left. split; [lia|]. unfold stays, node_x. cbn [x_min x_max]. destruct Hi' as [-> | ->]; rewrite ?plus_IZR; lra. }
    destruct (C83_returns src w sc (Some (Limits x x y y)) None (Limits x x y y) (s :: files) [(x, y)]) as (out & E & L); auto; try discriminate; [reflexivity| |].
    + intros s' Hs'. assert (s' = s) as -> by (destruct Hs' as [<-|Hs']; auto). exists around, x0, dx, nx, y0, dy, ny, (4 * dx), f, i, j.
      split; auto. split; [reflexivity|]. split; auto. split; auto. split; [apply A; auto|]. split; [apply A; auto|]. split; auto.
      assert (0 < dy) by apply G. split; [|split].
      * unfold row_stays, stays, node_y. cbn [y_min y_max]. lra.
      * unfold row_stays, stays, node_y. cbn [y_min y_max]. rewrite S_INR. lra.
      * intros _ p [<-|[]]. exists (i + 1)%Z. split; [apply A; auto|]. unfold node_x. rewrite plus_IZR. cbn [fst]. lra.
    + exists out. split; auto. rewrite <- E. apply C84_off.
Qed.
Print Assumptions C89_default_refuted.
