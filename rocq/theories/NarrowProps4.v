(** C86: the constants at a point of a cropped OTIS model in terms of the whole model. *)
From Coq Require Import Reals List Bool Arith ZArith Lra Lia.
From Verif Require Import PyBase RBase MathModel GeoModel ConvertProps GridModel GridProofs InterpModel InterpProps ExtractModel ExtractSpec NodeProps ExtractProofs ExtractProps SplineProps ReturnProps SeriesModel SeriesProps SeriesProps3 RegularModel CropModel CropSpec CropProofs CropProofs2 CropProps ShoreModel CoastModel CoastProps NarrowModel NarrowSpec NarrowProofs NarrowProps NarrowProps2.
Import ListNotations.
Open Scope R_scope.

Lemma node_shift k x0 dx a i : node_x k (node_x Heights x0 dx a) dx (i - a) = node_x k x0 dx i.
Proof. unfold node_x. destruct k; rewrite minus_IZR; ring. Qed.
Lemma row_shift k y0 dy c j : (c <= j)%nat -> node_y k (node_y Heights y0 dy c) dy (j - c) = node_y k y0 dy j.
Proof. intros H. unfold node_y. destruct k; rewrite minus_INR by auto; ring. Qed.
Lemma corners_shift {V} k x0 dx y0 dy nx na a c x y i j (F F' : nat -> nat -> option V) : (c <= j)%nat ->
  F' (j - c)%nat (column na (i - a)) = F j (column nx i) -> F' (j - c)%nat (column na (i + 1 - a)) = F j (column nx (i + 1)) ->
  F' (S j - c)%nat (column na (i - a)) = F (S j) (column nx i) -> F' (S j - c)%nat (column na (i + 1 - a)) = F (S j) (column nx (i + 1)) ->
  corners k (node_x Heights x0 dx a) dx (node_y Heights y0 dy c) dy na x y (i - a) (j - c) F' = corners k x0 dx y0 dy nx x y i j F.
Proof.
  intros Hj E1 E2 E3 E4. unfold corners. replace (i - a + 1)%Z with (i + 1 - a)%Z by ring. replace (S (j - c)) with (S j - c)%nat by lia.
  rewrite !node_shift, !row_shift by lia. now rewrite E1, E2, E3, E4.
Qed.
Lemma between_shift k x0 dx y0 dy a c x y i j : 0 < dy -> (c <= j)%nat -> node_y k y0 dy j < y \/ (c < j)%nat ->
  between_nodes k x0 dx y0 dy x y i j -> between_nodes k (node_x Heights x0 dx a) dx (node_y Heights y0 dy c) dy x y (i - a) (j - c).
Proof.
  intros Hd Hj Lo (B1 & B2 & _). unfold between_nodes. replace (i - a + 1)%Z with (i + 1 - a)%Z by ring. replace (S (j - c)) with (S j - c)%nat by lia.
  rewrite !node_shift, !row_shift by lia. repeat split; try lra. replace 0%nat with (c - c)%nat by lia. rewrite row_shift by lia. unfold node_y in *.
  destruct Lo as [Lo|Lo].
  - assert (INR c <= INR j) by (apply le_INR; lia). destruct k; nra.
  - assert (INR c < INR j) by (apply lt_INR; lia). destruct k; nra.
Qed.
Lemma at_shift k x0 dx y0 dy a c x y i j : (c <= j)%nat -> at_node k (node_x Heights x0 dx a) dx (node_y Heights y0 dy c) dy x y (i - a) (j - c) <-> at_node k x0 dx y0 dy x y i j.
Proof.
  intros Hj. unfold at_node. replace (i - a + 1)%Z with (i + 1 - a)%Z by ring. replace (S (j - c)) with (S j - c)%nat by lia. now rewrite !node_shift, !row_shift by lia.
Qed.
Lemma west_column around nx i : (0 < nx)%nat -> around = true \/ (0 < i < Z.of_nat nx)%Z -> west around nx (column nx i) = column nx (i - 1).
Proof.
  intros Hn H. unfold column. assert (Hz : (0 < Z.of_nat nx)%Z) by lia. pose proof (Z.mod_pos_bound i _ Hz).
  destruct (Z.eq_dec (i mod Z.of_nat nx) 0) as [E|E].
  - rewrite E. cbn [Z.to_nat west]. destruct H as [->|H]; [|exfalso; rewrite Z.mod_small in E by lia; lia].
    assert (E' : ((i - 1) mod Z.of_nat nx = Z.of_nat nx - 1)%Z). { symmetry. apply (Z.mod_unique _ _ (i / Z.of_nat nx - 1)); [lia|]. pose proof (Z.div_mod i (Z.of_nat nx) ltac:(lia)). lia. }
    rewrite E'. lia.
  - assert (E' : ((i - 1) mod Z.of_nat nx = i mod Z.of_nat nx - 1)%Z). { symmetry. apply (Z.mod_unique _ _ (i / Z.of_nat nx)); [lia|]. pose proof (Z.div_mod i (Z.of_nat nx) ltac:(lia)). lia. }
    rewrite E'. destruct (Z.to_nat (i mod Z.of_nat nx)) as [|q] eqn:Eq; [lia|]. cbn [west]. lia.
Qed.
Lemma block_cell {A} (d : A) nx a na c nr h h' j i : block d nx a na c nr h h' -> (c <= j < c + nr)%nat -> (a <= i < a + Z.of_nat na)%Z -> entry d h' (j - c) (column na (i - a)) = entry d h j (column nx i).
Proof. intros [_ B] Hj Hi. unfold column at 1. rewrite Z.mod_small by lia. rewrite B by lia. f_equal; [lia|]. f_equal. lia. Qed.
(** the depth at a node of the cropped model *)
Lemma water_shift around k nx a na c nr h m h' m' j i : (2 <= nx)%nat -> block 0 nx a na c nr h h' -> block 0%Z nx a na c nr m m' ->
  (c <= j < c + nr)%nat -> (a <= i < a + Z.of_nat na)%Z ->
  (k = Zonal -> (a < i)%Z /\ (around = true \/ (0 < i < Z.of_nat nx)%Z)) -> (k = Meridional -> j = 0%nat \/ (c < j)%nat) ->
  water (entry 0 h') (entry 0%Z m') false na k (j - c) (column na (i - a)) = water (entry 0 h) (entry 0%Z m) around nx k j (column nx i).
Proof.
  intros Hx [_ Bh] [_ Bm] Hj Hi Hz Hv.
  assert (Ec : forall i, (a <= i < a + Z.of_nat na)%Z -> column na (i - a) = Z.to_nat (i - a)) by (intros q Hq; unfold column; rewrite Z.mod_small by lia; reflexivity).
  assert (Eh : forall j i, (c <= j < c + nr)%nat -> (a <= i < a + Z.of_nat na)%Z -> entry 0 h' (j - c) (Z.to_nat (i - a)) = entry 0 h j (column nx i)).
  { intros j' i' Hj' Hi'. rewrite Bh by lia. f_equal; [lia|]. f_equal. lia. }
  assert (Em : forall j i, (c <= j < c + nr)%nat -> (a <= i < a + Z.of_nat na)%Z -> entry 0%Z m' (j - c) (Z.to_nat (i - a)) = entry 0%Z m j (column nx i)).
  { intros j' i' Hj' Hi'. rewrite Bm by lia. f_equal; [lia|]. f_equal. lia. }
  rewrite (Ec i Hi). destruct k; cbn [water].
  - rewrite Eh, Em by auto. reflexivity.
  - destruct (Hz eq_refl) as [H1 H2]. rewrite (west_column around nx i) by (auto; lia). assert (Ew : west false na (Z.to_nat (i - a)) = Z.to_nat (i - 1 - a)) by (destruct (Z.to_nat (i - a)) as [|q] eqn:Eq; [lia|]; cbn [west]; lia).
    rewrite Ew, !Eh by (auto; lia). reflexivity.
  - assert (Es : entry 0 h' (south (j - c)) (Z.to_nat (i - a)) = entry 0 h (south j) (column nx i)).
    { unfold south. destruct (Hv eq_refl) as [->|H1]; [replace (pred (0 - c)) with (0 - c)%nat by lia; cbn [pred]; now apply Eh|]. replace (pred (j - c)) with (pred j - c)%nat by lia. apply Eh; [lia | auto]. }
    rewrite Es, Eh by auto. reflexivity.
Qed.

(** what a cell of the whole model needs to be a cell of the cropped one: its columns and
    rows stay, for zonal currents also the column to the west and for meridional ones the
    row to the south *)
Definition cell_stays (k : kind) (x0 dx : R) (nx : nat) (y0 dy : R) (ny : nat) (b : limits) (m : R) (f i : Z) (j : nat) : Prop :=
  (f <= i)%Z /\ (i + 1 < f + Z.of_nat nx)%Z /\ stays (x_min b) (x_max b) m (node_x Heights x0 dx i) /\ stays (x_min b) (x_max b) m (node_x Heights x0 dx (i + 1)) /\
  (S j < ny)%nat /\ stays (y_min b) (y_max b) m (node_y Heights y0 dy j) /\ stays (y_min b) (y_max b) m (node_y Heights y0 dy (S j)) /\
  (k = Zonal -> (f < i)%Z /\ stays (x_min b) (x_max b) m (node_x Heights x0 dx (i - 1))) /\
  (k = Meridional -> j = 0%nat \/ stays (y_min b) (y_max b) m (node_y Heights y0 dy (pred j))).
(** all of the columns of a model around the globe *)
Definition all_columns (around : bool) (x0 dx : R) (nx : nat) (b : limits) (m : R) (f : Z) : Prop :=
  around = true /\ stays (x_min b) (x_max b) m (node_x Heights x0 dx f) /\ stays (x_min b) (x_max b) m (node_x Heights x0 dx (f + Z.of_nat nx - 1)).

Lemma pairs_nth {A B} (P : A -> B -> Prop) l l' : Forall2 P l l' -> forall n p, nth_error l n = Some p -> exists q, nth_error l' n = Some q /\ P p q.
Proof. induction 1 as [|x y l l' H _ IH]; intros [|n] p Hp; try discriminate; cbn [nth_error] in *; [injection Hp as <-; eauto | now apply IH]. Qed.
Section Cell.
  Variables (fwd : R * R -> R * R) (geo around : bool) (t : variable) (k : kind) (bounds : option limits) (buffer : option R) (b : limits) (m x0 dx : R) (nx : nat) (y0 dy : R) (ny : nat).
  Variables (g : grid) (hcs : list field) (lonlat : list (R * R)) (f i : Z) (j : nat).
  Hypothesis M : model_grid geo around x0 dx nx y0 dy ny g hcs.
  Hypothesis Hk : kind_of t = Some k.
  Hypothesis Hg : geo = true -> 1 / 250 < dx /\ INR nx * dx <= 360.
  Hypothesis Hb : for_points bounds (map fwd lonlat) b.
  Hypothesis Sb : some_limit b.
  Hypothesis Hm : margin buffer dx m.
  Hypothesis F : frame geo x0 dx nx (x_min b) (x_max b) f.
  Hypothesis Hf : f = 0%Z \/ around = true.
  Hypothesis NL : nothing_lost geo around k x0 dx nx y0 dy ny b m f.
  Hypothesis Cs : cell_stays k x0 dx nx y0 dy ny b m f i j.
  Hypothesis Na : ~ all_columns around x0 dx nx b m f.

  (** the cropped model, and the points in its longitudes *)
  Lemma cell_model w ex n p : nth_error lonlat n = Some p -> ex = None ->
    exists a na c nr g' hcs' pts, model_grid false false (node_x Heights x0 dx a) dx na (node_y Heights y0 dy c) dy nr g' hcs' /\
      block 0 nx a na c nr (ghz g) (ghz g') /\ block 0%Z nx a na c nr (gmz g) (gmz g') /\
      length hcs' = length hcs /\ (forall n hc, nth_error hcs n = Some hc -> exists hc', nth_error hcs' n = Some hc' /\ block (None, true) nx a na c nr hc hc') /\
      (a <= i)%Z /\ (i + 1 < a + Z.of_nat na)%Z /\ (c <= j)%nat /\ (S j < c + nr)%nat /\ (k = Zonal -> (a < i)%Z /\ (around = true \/ (0 < i < Z.of_nat nx)%Z)) /\ (k = Meridional -> j = 0%nat \/ (c < j)%nat) /\
      columns_kept x0 dx nx (x_min b) (x_max b) m f a na /\ rows_kept y0 dy ny (y_min b) (y_max b) m c nr /\
      (exists x, nth_error pts n = Some (x, snd (fwd p)) /\ settled geo (node_x Heights x0 dx (a + Z.of_nat na - 1)) (map (fun p => fst (fwd p)) lonlat) (fst (fwd p)) x) /\
      extract_narrow fwd geo w t ex true bounds buffer g hcs lonlat = extract_extrapolated (fun p => p) false w t None g' hcs' pts.
  Proof.
    intros Hn He. destruct Cs as (C1 & C2 & C3 & C4 & C5 & C6 & C7 & C8 & C9). assert (Ne : lonlat <> []) by (destruct lonlat; [destruct n; discriminate | discriminate]).
    destruct (C86_model fwd geo around w t k ex bounds buffer b m x0 dx nx y0 dy ny g hcs lonlat f i j M Hk Hg Ne Hb Sb Hm F Hf NL C1 C2 C3 C4 C5 C6 C7) as (around' & a & na & c & nr & g' & hcs' & Cm & _ & Off).
    destruct Cm as (Kc & Kr & Ha & M' & Bh & Bz & Lh & Bc). pose proof Kc as (K1 & K2 & K3). pose proof Kr as (R1 & R2).
    assert (Af : around' = false). { destruct around'; auto. exfalso. destruct (proj1 Ha eq_refl) as [A1 ->]. apply Na. assert (2 <= nx)%nat by apply M'. split; auto. split; apply K3; lia. }
    set (hi := node_x Heights x0 dx (a + Z.of_nat na - 1)) in *. set (X := map (fun p => fst (fwd p)) lonlat) in *.
    assert (Pt : exists pts, Forall2 (fun p q => snd q = snd (fwd p) /\ settled geo hi X (fst (fwd p)) (fst q)) lonlat pts).
    { assert (D : (geo = false \/ (forall v, In v X -> v <= hi)) \/ (geo = true /\ exists v, In v X /\ hi < v)).
      { destruct geo; [|left; now left]. clear - X. induction X as [|v X' IH]; [left; right; intros v []|]. destruct IH as [[IH|IH]|[_ (u & U1 & U2)]]; [discriminate | | right; split; auto; exists u; split; [now right | auto]].
        destruct (Rle_lt_dec v hi) as [L|L]; [left; right; intros u [<-|U]; auto | right; split; auto; exists v; split; [now left | auto]]. }
      destruct D as [D|[D1 D2]].
      - exists (map fwd lonlat). clearbody X. generalize lonlat as l. intros l. induction l as [|q l IH]; cbn [map]; constructor; auto. split; auto. now apply settled_same.
      - exists (map (fun p => (westward (fst (fwd p)), snd (fwd p))) lonlat). clearbody X. generalize lonlat as l. intros l. induction l as [|q l IH]; cbn [map]; constructor; auto. split; auto. now apply settled_west. }
    destruct Pt as [pts Pt]. exists a, na, c, nr, g', hcs', pts.
    split; [destruct M' as (Q1 & Q2 & Q3 & Q4 & Q5 & Q6 & Q7 & Q8); repeat (split; [assumption|]); right; auto|]. split; [exact Bh|]. split; [exact Bz|]. split; [exact Lh|]. split; [exact Bc|].
    apply K3 in C3; [|lia]. apply K3 in C4; [|lia]. apply R2 in C6; [|lia]. apply R2 in C7; [|lia].
    split; [lia|]. split; [lia|]. split; [lia|]. split; [lia|]. split.
    { intros Ez. destruct (C8 Ez) as [Z1 Z2]. apply K3 in Z2; [|lia]. split; [lia|]. destruct Hf as [->|Hf']; [right; lia | now left]. }
    split. { intros Ev. destruct (C9 Ev) as [V1|V1]; [now left|]. destruct j as [|j']; [now left|]. right. cbn [pred] in V1. apply R2 in V1; lia. }
    split; [exact Kc|]. split; [exact Kr|]. split.
    { destruct (pairs_nth _ _ _ Pt n p Hn) as ([x y] & N1 & N2 & N3). cbn [fst snd] in *. subst y. eauto. }
    apply Off; auto.
  Qed.
  Lemma depth_cells a na c nr g' hcs' : model_grid false false (node_x Heights x0 dx a) dx na (node_y Heights y0 dy c) dy nr g' hcs' ->
    block 0 nx a na c nr (ghz g) (ghz g') -> block 0%Z nx a na c nr (gmz g) (gmz g') ->
    (a <= i)%Z -> (i + 1 < a + Z.of_nat na)%Z -> (c <= j)%nat -> (S j < c + nr)%nat -> (k = Zonal -> (a < i)%Z /\ (around = true \/ (0 < i < Z.of_nat nx)%Z)) -> (k = Meridional -> j = 0%nat \/ (c < j)%nat) ->
    forall j' i', j' = j \/ j' = S j -> i' = i \/ i' = (i + 1)%Z ->
      water (entry 0 (ghz g')) (entry 0%Z (gmz g')) false na k (j' - c) (column na (i' - a)) = water (entry 0 (ghz g)) (entry 0%Z (gmz g)) around nx k j' (column nx i').
  Proof.
    intros M' Bh Bz A1 A2 R1 R2 Hz Hv j' i' Hj' Hi'. apply (water_shift around k nx a na c nr); [apply M | exact Bh | exact Bz | lia | lia | intros E; destruct (Hz E) as [Z1 Z2]; split; [lia|]; destruct Z2 as [Z2|Z2]; [now left|]; destruct Cs as (C1 & C2 & _); destruct Hf as [->|Hf']; [right; lia | now left] | intros E; destruct (Hv E) as [V1|V1]; [destruct Hj' as [->|Hj']; [now left | right; lia] | right; lia]].
  Qed.

  (** which columns are kept *)
  Lemma kept_unique a na a' na' : (0 < na)%nat -> (0 < na')%nat -> columns_kept x0 dx nx (x_min b) (x_max b) m f a na -> columns_kept x0 dx nx (x_min b) (x_max b) m f a' na' -> a = a' /\ na = na'.
  Proof.
    intros N1 N2 (A1 & A2 & A3) (B1 & B2 & B3).
    assert (Q : forall i, (f <= i < f + Z.of_nat nx)%Z -> (a <= i < a + Z.of_nat na)%Z <-> (a' <= i < a' + Z.of_nat na')%Z) by (intros; rewrite A3, B3; tauto).
    pose proof (proj1 (Q a ltac:(lia)) ltac:(lia)). pose proof (proj2 (Q a' ltac:(lia)) ltac:(lia)).
    pose proof (proj1 (Q (a + Z.of_nat na - 1)%Z ltac:(lia)) ltac:(lia)). pose proof (proj2 (Q (a' + Z.of_nat na' - 1)%Z ltac:(lia)) ltac:(lia)). lia.
  Qed.
End Cell.

(** C86: bilinear interpolation in a cropped model gives the value of the whole model: the
    point lies in a cell whose rows and columns stay *)
Theorem C86_cell : forall fwd geo around t k bounds buffer b m x0 dx nx y0 dy ny g hcs lonlat f a na i j depths cols n p x y,
  model_grid geo around x0 dx nx y0 dy ny g hcs -> kind_of t = Some k -> (geo = true -> 1 / 250 < dx /\ INR nx * dx <= 360) ->
  for_points bounds (map fwd lonlat) b -> some_limit b -> margin buffer dx m ->
  frame geo x0 dx nx (x_min b) (x_max b) f -> f = 0%Z \/ around = true ->
  nothing_lost geo around k x0 dx nx y0 dy ny b m f ->
  cell_stays k x0 dx nx y0 dy ny b m f i j -> ~ all_columns around x0 dx nx b m f -> columns_kept x0 dx nx (x_min b) (x_max b) m f a na ->
  extract_narrow fwd geo (Quick Bilinear) t None true bounds buffer g hcs lonlat = Ok (depths, cols) ->
  nth_error lonlat n = Some p -> settled geo (node_x Heights x0 dx (a + Z.of_nat na - 1)) (map (fun p => fst (fwd p)) lonlat) (fst (fwd p)) x -> snd (fwd p) = y ->
  node_y Heights y0 dy 0 <= y -> node_y k y0 dy j < y \/ (exists j', j = S j' /\ stays (y_min b) (y_max b) m (node_y Heights y0 dy j')) ->
  between_nodes k x0 dx y0 dy x y i j -> ~ at_node k x0 dx y0 dy x y i j ->
  let w := water (entry 0 (ghz g)) (entry 0%Z (gmz g)) around nx k in
  let depth := mean (corners k x0 dx y0 dy nx x y i j w) in
  nth_error depths n = Some (depth, no_value depth) /\ length cols = length hcs /\
    forall c hc, nth_error hcs c = Some hc ->
      let z := corners k x0 dx y0 dy nx x y i j (fun j i => tide (w j i) (entry (None, true) hc j i)) in
      exists col r, nth_error cols c = Some col /\ nth_error col n = Some r /\ returned (ExtractProps.velocity t) depth (both (mean (part fst z)) (mean (part snd z))) r.
Proof.
  intros fwd geo around t k bounds buffer b m x0 dx nx y0 dy ny g hcs lonlat f a na i j depths cols n p x y M Hk Hg Hb Sb Hm F Hf NL Cs Nac Ka Ho Hn Sx <- Ly Lj Bt Nt w depth.
  destruct (cell_model fwd geo around t k bounds buffer b m x0 dx nx y0 dy ny g hcs lonlat f i j M Hk Hg Hb Sb Hm F Hf NL Cs Nac (Quick Bilinear) None n p Hn eq_refl)
    as (a' & na' & c & nr & g' & hcs' & pts & M' & Bh & Bz & Lh & Bc & A1 & A2 & R1 & R2 & Hz & Hv & Kc & Kr & (x' & Np & Sx') & Eq).
  assert (Un : a' = a /\ na' = na).
  { apply (kept_unique geo around b m x0 dx nx f Hf); auto; try lia. destruct Ka as (_ & K2 & K3). destruct Cs as (C1 & C2 & C3 & _). destruct na as [|na]; [|lia]. apply K3 in C3; lia. }
  destruct Un as [-> ->]. assert (Exx : x' = x).
  { destruct Sx as [Q1|Q1 Q2]; destruct Sx' as [P1|P1 P2]; auto; exfalso; [destruct Q1 as [Q1|Q1]; [congruence|]; destruct P2 as (v & V1 & V2); specialize (Q1 v V1) | destruct P1 as [P1|P1]; [congruence|]; destruct Q2 as (v & V1 & V2); specialize (P1 v V1)]; lra. }
  subst x'. rewrite Eq in Ho. destruct (proj1 (C85_off_returns _ _ _ _ _ _) _ _ Ho) as [rows Hr].
  destruct (C85_off _ _ _ _ _ _ _ _ Hr) as (ds' & cols' & E' & (Sd & Sl & St)). rewrite Ho in E'. apply Ok_inj in E'. injection E' as <- <-.
  pose proof M as (Ex & Ey & Hx2 & Hy2 & _). assert (Dx : 0 < dx) by apply Ex. assert (Dy : 0 < dy) by apply Ey.
  assert (Lc : node_y k y0 dy j < snd (fwd p) \/ (c < j)%nat). { destruct Lj as [Lj|(j' & -> & Lj)]; [now left | right]. destruct Kr as [_ Kr]. destruct Cs as (_ & _ & _ & _ & C5 & _). apply Kr in Lj; lia. }
  assert (HIc : INR c <= INR j) by (apply le_INR; lia). assert (HIa : IZR a <= IZR i) by (apply IZR_le; lia). assert (HIb : IZR (i + 1) <= IZR (a + Z.of_nat na - 1)) by (apply IZR_le; lia).
  assert (HIr : INR (S j) <= INR c + INR (nr - 1)) by (rewrite <- plus_INR; apply le_INR; lia). rewrite S_INR in HIr. rewrite minus_IZR, !plus_IZR in HIb.
  assert (T1 : IZR a * dx <= IZR i * dx) by nra. assert (T2 : (IZR i + 1) * dx <= (IZR a + IZR (Z.of_nat na) - 1) * dx) by (apply Rmult_le_compat_r; lra).
  assert (T3 : INR c * dy <= INR j * dy) by nra. assert (T4 : (INR j + 1) * dy <= (INR c + INR (nr - 1)) * dy) by (apply Rmult_le_compat_r; lra).
  destruct (C68_cell_partial (fun p => p) false false t k (node_x Heights x0 dx a) dx na (node_y Heights y0 dy c) dy nr g' hcs' pts rows n (x, snd (fwd p)) x (snd (fwd p)) (i - a) (j - c) M' Hk Hr Np) as (cs & O1 & Lcs & Oc).
  { now apply projected. } { reflexivity. }
  { unfold reach. destruct Bt as ((B1 & B2) & _). rewrite INR_IZR_INZ, Nat2Z.inj_sub, minus_IZR by lia. change (Z.of_nat 1) with 1%Z. unfold node_x in *. rewrite plus_IZR in B2.
    destruct k; [nra | | nra]. destruct (Hz eq_refl) as [Z1 _]. assert (IZR (a + 1) <= IZR i) by (apply IZR_le; lia). rewrite plus_IZR in H. nra. }
  { unfold in_rows. cbn [snd]. destruct Bt as (_ & (B1 & B2) & _). unfold node_y in *. rewrite S_INR in B2. cbn [INR] in Ly.
    destruct k; [nra | nra |]. destruct (Hv eq_refl) as [->|V1]; [replace c with 0%nat in * by lia; cbn [INR] in *; nra | assert (INR (S c) <= INR j) by (apply le_INR; lia); rewrite S_INR in H; nra]. }
  { unfold columns. lia. } { unfold columns. lia. } { lia. }
  { apply between_shift; auto. } { rewrite at_shift by auto. exact Nt. } { intros Ez. right. specialize (Hz Ez). lia. }
  pose proof (depth_cells geo around k b m x0 dx nx y0 dy ny g hcs f i j M F Hf NL Cs Nac a na c nr g' hcs' M' Bh Bz A1 A2 R1 R2 Hz Hv) as Dc.
  assert (Ew : corners k (node_x Heights x0 dx a) dx (node_y Heights y0 dy c) dy na x (snd (fwd p)) (i - a) (j - c) (water (entry 0 (ghz g')) (entry 0%Z (gmz g')) false na k) = corners k x0 dx y0 dy nx x (snd (fwd p)) i j w)
    by (apply corners_shift; auto; apply Dc; auto).
  rewrite Ew in O1, Oc. fold depth in O1, Oc. destruct (St n _ _ O1) as [_ Sv]. split; [|split; [now rewrite Sl|]].
  { rewrite Sd. exact (map_nth_error fst n rows O1). }
  intros c' hc Hc z. destruct (Bc c' hc Hc) as (hc' & Hc' & Bf). destruct (Oc c' hc' Hc') as (r & Or & Rr). destruct (Sv c' r Or) as (col & S1 & _ & S2).
  exists col, r. split; [exact S1|]. split; [exact S2|]. cbn zeta in Rr.
  assert (Ez : corners k (node_x Heights x0 dx a) dx (node_y Heights y0 dy c) dy na x (snd (fwd p)) (i - a) (j - c) (fun j i => tide (water (entry 0 (ghz g')) (entry 0%Z (gmz g')) false na k j i) (entry (None, true) hc' j i)) = z).
  { apply corners_shift; auto; rewrite Dc by auto; f_equal; apply (block_cell (None, true) nx a na c nr hc hc'); auto; lia. }
  rewrite Ez in Rr. exact Rr.
Qed.
Print Assumptions C86_cell.
