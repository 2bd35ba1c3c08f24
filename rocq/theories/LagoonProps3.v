(** C90: extrapolation from ATLAS models that were read, and what cannot be read. *)
From Coq Require Import Reals List Bool Arith ZArith Lra Lia.
From Verif Require Import PyBase RBase MathModel GeoModel ConvertProps GridModel GridProofs InterpModel InterpProps ExtrapProps ExtractModel ExtractSpec NodeProps ExtractProofs ExtractProps SplineProps ReturnProps SeriesModel SeriesSpec SeriesProofs SeriesProps SeriesProps2 SeriesProps3 StretchProofs AtlasNcModel AtlasNcSpec AtlasNcProps AtlasNcProps2 AtlasNcProps3 RegularModel RegularProps3 CropModel CropSpec CropProofs CropProps CropProps4 ShoreModel ShoreSpec ShoreProofs ShoreProps ShoreProps2 NarrowModel NarrowSpec NarrowProofs NarrowProps NarrowProps4 ReefModel ReefSpec ReefProofs ReefProps ReefProps2 ReefProps3 ReefProps4 ReefProps5 LaterModel LaterSpec LaterProofs LaterProps LaterProps2 LaterProps3 LagoonModel LagoonProofs LagoonProps LagoonProps2.
Import ListNotations.
Open Scope R_scope.

(** ** Extrapolation makes no difference to errors, depths and what is left *)
Lemma lagoon_both w t sc co c pts :
  (exists o o0 ds c', interpolate_lagoon w t sc (Some co) c pts = Ok (o, ds, c') /\ interpolate_lagoon w t sc None c pts = Ok (o0, ds, c')) \/
  exists x, interpolate_lagoon w t sc (Some co) c pts = Err x /\ interpolate_lagoon w t sc None c pts = Err x.
Proof.
  unfold interpolate_lagoon. destruct (adjust (alon c) pts) as [pts'|]; [|right; eexists; split; reflexivity]. cbn [bind]. destruct (mapM (outside_axes _ _) pts') as [inv|]; [|right; eexists; split; reflexivity]. cbn [bind].
  destruct (mapM (bed_by w _ _ _) pts') as [ds|]; [|right; eexists; split; reflexivity]. cbn [bind].
  assert (K : (exists u v, mapM (fun f => lagoon_constituent w t sc (Some co) (alon c) (alat c) (fst f) (combine pts' (combine inv ds))) (afields c) = Ok u /\ mapM (fun f => lagoon_constituent w t sc None (alon c) (alat c) (fst f) (combine pts' (combine inv ds))) (afields c) = Ok v) \/
     exists e, mapM (fun f => lagoon_constituent w t sc (Some co) (alon c) (alat c) (fst f) (combine pts' (combine inv ds))) (afields c) = Err e /\ mapM (fun f => lagoon_constituent w t sc None (alon c) (alat c) (fst f) (combine pts' (combine inv ds))) (afields c) = Err e).
  { apply mapM_both. intros f. unfold lagoon_constituent. destruct (mapM _ _); cbn [bind]; [left | right]; eauto. }
  destruct t; try (right; eexists; split; reflexivity); (destruct K as [(u & v & -> & ->)|(e & -> & ->)]; cbn [bind]; [left; exists u, v, ds; eexists; split; reflexivity | right; exists e; split; reflexivity]).
Qed.
Theorem C90_errors : forall w t sc cutoff c pts x,
  interpolate_lagoon w t sc (Some cutoff) c pts = Err x <-> interpolate_lagoon w t sc None c pts = Err x.
Proof. intros. destruct (lagoon_both w t sc cutoff c pts) as [(o & o0 & ds & c' & -> & ->)|(e & -> & ->)]; split; intros H; try discriminate; auto. Qed.
Print Assumptions C90_errors.
(** ** C90: what is left in a model is what was read, except that bilinear interpolation
    removes the numbers under the mask of the depths *)
Theorem C90_left : forall w t sc ex c pts cs ds c', interpolate_lagoon w t sc ex c pts = Ok (cs, ds, c') ->
  alon c' = alon c /\ alat c' = alat c /\ afields c' = afields c /\ length ds = length pts /\ length cs = length (afields c) /\ (forall o, In o cs -> length o = length pts) /\
  abath c' = match w with Quick Bilinear => map (map (fun v : option R * bool => if snd v then (None, true) else v)) (abath c) | _ => abath c end.
Proof.
  intros w t sc ex c pts cs ds c' H. unfold interpolate_lagoon in H. destruct (adjust (alon c) pts) as [pts'|] eqn:Ea; [|discriminate]. cbn [bind] in H. destruct (mapM (outside_axes _ _) pts') as [inv|] eqn:Ei; [|discriminate]. cbn [bind] in H.
  destruct (mapM (bed_by w _ _ _) pts') as [ds1|] eqn:Ed; [|discriminate]. cbn [bind] in H. destruct t; try discriminate;
  (match type of H with bind (mapM ?F _) _ = _ => destruct (mapM F (afields c)) as [o|] eqn:Eo; [|discriminate] end); cbn [bind] in H; apply Ok_inj in H; injection H as <- <- <-; cbn [alon alat afields abath];
  (assert (Lp : length pts' = length pts) by (clear - Ea; unfold adjust in Ea; repeat match type of Ea with bind ?x _ = _ => destruct x; [|discriminate]; cbn [bind] in Ea end; apply Ok_inj in Ea as <-; repeat match goal with |- context [if ?b then _ else _] => destruct b end; auto; apply map_length));
  (split; [reflexivity|]; split; [reflexivity|]; split; [reflexivity|]; split; [rewrite (mapM_len _ _ _ Ed); exact Lp|]; split; [exact (mapM_len _ _ _ Eo)|]; split; [|destruct w as [[]|]; reflexivity]);
  intros cs1 Hc; destruct (mapM_from _ _ _ _ Eo Hc) as (f & _ & Ef); unfold lagoon_constituent in Ef;
  (match type of Ef with bind (mapM ?F _) _ = _ => destruct (mapM F (combine pts' (combine inv ds1))) as [hs|] eqn:Eh; [|discriminate] end); cbn [bind] in Ef; apply Ok_inj in Ef as <-;
  rewrite map_length, combine_length; apply mapM_len in Eh, Ei, Ed; rewrite !combine_length in *;
  (destruct ex as [co|]; [rewrite fill_in_length|]); lia.
Qed.
Print Assumptions C90_left.
(** ** C90: a point without an interpolated constant gets that of the nearest valid node *)
Theorem C90_filled : forall w t sc fr cutoff m g nd files pts c cs ds c' k f pa n p around x0 dx nx y0 dy ny,
  match cutoff with Some d => 0 <= d | None => True end ->
  nodes_for g t nd -> fny g = ny -> nodes_grid around x0 dx nx y0 dy ny nd -> SeriesSpec.framed fr (nlon nd) -> files_for w t nx ny files -> same_frame FES fr around x0 dx nx pts ->
  read_lagoon t false None m g files = Ok c -> interpolate_lagoon w t sc (Some cutoff) c pts = Ok (cs, ds, c') ->
  nth_error files k = Some f -> parts_for f t (Some pa) -> file_grid nx ny f pa ->
  (forall j i, (j < ny)%nat -> (i < nx)%nat -> number_of pa j i <> None) -> nth_error pts n = Some p ->
  let z := constant_of nd pa in
  exists cs0 l0 l D r0 r,
    interpolate_lagoon w t sc None c pts = Ok (cs0, ds, c') /\
    nth_error ds n = Some D /\ nth_error (map snd (afields c')) k = Some (read_name f) /\
    nth_error cs0 k = Some l0 /\ nth_error l0 n = Some r0 /\ nth_error cs k = Some l /\ nth_error l n = Some r /\
    (r0 <> None -> r = r0) /\
    (beyond FES around x0 dx nx y0 dy ny (SeriesSpec.placed fr (fst p)) (snd p) -> r = None) /\
    (~ beyond FES around x0 dx nx y0 dy ny (SeriesSpec.placed fr (fst p)) (snd p) -> r0 = None ->
       (exists j i, nearest_valid cutoff x0 dx nx y0 dy ny z p j i /\ exists d, divisor w D d /\ lent (AtlasNcSpec.velocity t) sc d (z j i) r) \/
       (~ exists j i, nearby cutoff x0 dx nx y0 dy ny z p j i) /\ r = None).
Proof.
  intros w t sc fr cutoff m g nd files pts c cs ds c' k f pa n p around x0 dx nx y0 dy ny Hcut Hn Hny G Fr Hf Hs Rc H Hk Hpa Hg Nn Hp z.
  destruct (C90_read w t sc (Some cutoff) fr None m None g nd files pts around x0 dx nx y0 dy ny Hn Hny G Fr Hf Hs) as (c1 & E1 & S1). rewrite Rc in E1. apply Ok_inj in E1 as <-.
  destruct (C90_read w t sc None fr None m None g nd files pts around x0 dx nx y0 dy ny Hn Hny G Fr Hf Hs) as (c2 & E2 & S2). rewrite Rc in E2. apply Ok_inj in E2 as <-.
  rewrite H in S1. destruct (extract_reef w t sc (Some cutoff) false None None g files pts) as [a|] eqn:Ea; [|contradiction]. destruct S1 as (-> & Sd & Sn).
  destruct (lagoon_both w t sc cutoff c pts) as [(o & o0 & ds1 & c1 & F1 & F2)|(x & F1 & _)]; [|congruence]. rewrite H in F1. apply Ok_inj in F1. injection F1 as <- <- <-.
  destruct (C87_filled w t sc fr cutoff false None None g nd files pts a k f pa n p around x0 dx nx y0 dy ny Hcut (or_introl eq_refl) Hn Hny G Fr Ea Hk Hpa Hg Nn Hp) as (out0 & l0 & l & D & r0 & r & A1 & A2 & A3 & A4 & A5 & A6 & A7 & A8 & A9 & A10 & A11 & A12 & A13).
  rewrite A1, F2 in S2. destruct S2 as (-> & _ & _).
  assert (exists D', nth_error ds n = Some D' /\ same_depth w D D') as (D' & N1 & N2).
  { clear - Sd A2. revert n A2. induction Sd as [|d d' l l' Q _ IH]; intros [|n] A2; try discriminate; [cbn in *; injection A2 as <-; eauto | apply IH, A2]. }
  exists (aconst out0), l0, l, D', r0, r. rewrite Sn. repeat (split; [assumption|]). intros B F. destruct (A13 B F) as [(j & i & Q1 & d & Q2 & Q3)|Q]; [|right; exact Q].
  left. exists j, i. split; [exact Q1|]. exists d. split; [|exact Q3]. unfold divisor in *. destruct N2 as [_ N2]. destruct w as [[]|]; [exact Q2 | |]; (rewrite <- N2; [exact Q2 | right; discriminate]).
Qed.
Print Assumptions C90_filled.
(** ** C90: the same for a model that was cropped when it was read: of the nodes within
    the bounds *)
Theorem C90_filled_cropped : forall w t sc cutoff b m m' g nd files pts pts' c cs ds c' k fl pa n p around x0 dx nx y0 dy ny f i j,
  match cutoff with Some d => 0 <= d | None => True end ->
  nodes_for g t nd -> fny g = ny -> nodes_grid around x0 dx nx y0 dy ny nd -> files_for w t nx ny files -> 1 / 250 < dx -> INR nx * dx <= 360 -> some_limit b ->
  window x0 dx nx (x_min b) (x_max b) f -> f = 0%Z \/ around = true -> cell_within x0 dx nx y0 dy ny b m f i j ->
  m' <> 0 -> same_kept b m m' x0 dx nx y0 dy ny f -> moved (kept_longitude b m FES around x0 dx nx f) pts pts' ->
  read_lagoon t true (Some b) m g files = Ok c -> interpolate_lagoon w t sc (Some cutoff) c pts = Ok (cs, ds, c') ->
  nth_error files k = Some fl -> parts_for fl t (Some pa) -> file_grid nx ny fl pa ->
  (forall j i, (j < ny)%nat -> (i < nx)%nat -> number_of pa j i <> None) -> nth_error pts' n = Some p ->
  let z := fun j i => constant_of nd pa j (column nx i) in
  let kept := kept_node b m' x0 dx nx y0 dy ny f in
  let outside := beyond_kept b m' FES around x0 dx nx y0 dy ny f (fst p) (snd p) in
  exists cs0 l0 l D r0 r,
    interpolate_lagoon w t sc None c pts = Ok (cs0, ds, c') /\
    nth_error ds n = Some D /\ nth_error (map snd (afields c')) k = Some (read_name fl) /\
    nth_error cs0 k = Some l0 /\ nth_error l0 n = Some r0 /\ nth_error cs k = Some l /\ nth_error l n = Some r /\
    (r0 <> None -> r = r0) /\ (outside -> r = None) /\
    (~ outside -> r0 = None ->
       (exists j i, nearest_kept kept cutoff x0 dx y0 dy z p j i /\ exists d, divisor w D d /\ lent (AtlasNcSpec.velocity t) sc d (z j i) r) \/
       (~ exists j i, nearby_kept kept cutoff x0 dx y0 dy z p j i) /\ r = None).
Proof.
  intros w t sc cutoff b m m' g nd files pts pts' c cs ds c' k fl pa n p around x0 dx nx y0 dy ny f i j Hcut Hn Hny G Hf Hd Hw Sb W Hf0 Ce Hm' Sk Mv Rc H Hk Hpa Hg Nn Hp z kept outside.
  assert (Ne : pts <> []) by (intros ->; inversion Mv; subst; destruct n; discriminate).
  destruct (C90_cropped w t sc (Some cutoff) b m m' g nd files pts pts' around x0 dx nx y0 dy ny f i j Hn Hny G Hf Hd Hw Sb W Hf0 Ce Hm' Sk Ne Mv) as (c1 & E1 & S1). rewrite Rc in E1. apply Ok_inj in E1 as <-.
  destruct (C90_cropped w t sc None b m m' g nd files pts pts' around x0 dx nx y0 dy ny f i j Hn Hny G Hf Hd Hw Sb W Hf0 Ce Hm' Sk Ne Mv) as (c2 & E2 & S2). rewrite Rc in E2. apply Ok_inj in E2 as <-.
  rewrite H in S1. destruct (extract_reef w t sc (Some cutoff) true (Some b) (Some m') g files pts') as [a|] eqn:Ea; [|contradiction]. destruct S1 as (-> & Sd & Sn).
  destruct (lagoon_both w t sc cutoff c pts) as [(o & o0 & ds1 & c1 & F1 & F2)|(x & F1 & _)]; [|congruence]. rewrite H in F1. apply Ok_inj in F1. injection F1 as <- <- <-.
  assert (Cr : cropping t around x0 dx nx y0 dy ny (Some b) (Some m') b m' f g nd files pts').
  { split; [exact Hn|]. split; [exact Hny|]. split; [exact G|]. split; [intros f1 Hf1; destruct (Hf f1 Hf1) as (pa1 & P1 & P2 & _); eauto|]. split; [exact Hd|]. split; [exact Hw|]. split; [now apply (moved_nonempty _ _ _ Mv)|]. split; [reflexivity|]. split; [exact Sb|]. split; [unfold margin; auto|]. auto. }
  assert (Ce' : cell_within x0 dx nx y0 dy ny b m' f i j).
  { destruct Ce as (Q1 & Q2 & Q3 & Q4 & Q5 & Q6 & Q7). destruct Sk as [Sk1 Sk2]. split; [auto|]. split; [auto|]. split; [apply Sk1; auto; lia|]. split; [apply Sk1; auto; lia|]. split; [auto|]. split; [apply (Sk2 j); auto; lia | apply (Sk2 (S j)); auto]. }
  destruct (C88_filled w t sc cutoff around x0 dx nx y0 dy ny (Some b) (Some m') b m' f g nd files pts' a i j k fl pa n p Hcut Cr Ce' Ea Hk Hpa Hg Nn Hp) as (out0 & l0 & l & D & r0 & r & A1 & A2 & A3 & A4 & A5 & A6 & A7 & A8 & A9 & A10 & A11 & A12 & A13).
  rewrite A1, F2 in S2. destruct S2 as (-> & _ & _).
  assert (exists D', nth_error ds n = Some D' /\ same_depth w D D') as (D' & N1 & N2).
  { clear - Sd A2. revert n A2. induction Sd as [|d d' l l' Q _ IH]; intros [|n] A2; try discriminate; [cbn in *; injection A2 as <-; eauto | apply IH, A2]. }
  exists (aconst out0), l0, l, D', r0, r. rewrite Sn. repeat (split; [assumption|]). intros B F. destruct (A13 B F) as [(j1 & i1 & Q1 & d & Q2 & Q3)|Q]; [|right; exact Q].
  left. exists j1, i1. split; [exact Q1|]. exists d. split; [|exact Q3]. unfold divisor in *. destruct N2 as [_ N2]. destruct w as [[]|]; [exact Q2 | |]; (rewrite <- N2; [exact Q2 | right; discriminate]).
Qed.
Print Assumptions C90_filled_cropped.

(** ** C90: without a row or column within the bounds, or with a single column, reading is
    an IndexError *)
Theorem C90_empty : forall t b m g nd files around x0 dx nx y0 dy ny f,
  nodes_for g t nd -> fny g = ny -> nodes_grid around x0 dx nx y0 dy ny nd -> some_limit b ->
  window x0 dx nx (x_min b) (x_max b) f -> f = 0%Z \/ around = true /\ 1 / 10000 < dx ->
  (forall i, (f <= i < f + Z.of_nat nx)%Z -> ~ stays (x_min b) (x_max b) m (node_x Heights x0 dx i)) \/
  (forall j, (j < ny)%nat -> ~ stays (y_min b) (y_max b) m (node_y Heights y0 dy j)) ->
  read_lagoon t true (Some b) m g files = Err IndexError.
Proof.
  intros t b m g nd files around x0 dx nx y0 dy ny f Hn Hny G Sb W Hf He.
  pose proof G as (Ex & Ey & Hx & Hy & Rd & Ga). destruct (read_grid t g nd around x0 dx nx y0 dy ny Hn Hny G) as (h & Eh & Ch).
  unfold read_lagoon. rewrite Eh. cbn [bind]. rewrite any_limit_t by auto.
  assert (Hf' : f = 0%Z \/ INR nx * dx = 360 /\ 1 / 10000 < dx). { destruct Hf as [Hf|[Hf Hd]]; [now left|]. right. destruct Ga as [[_ E]|[E _]]; [|congruence]. split; [exact E | lra]. }
  destruct (NarrowProofs.framed true b x0 dx nx (nlon nd) f Ex Hx ltac:(right; auto) Hf') as (tr & xs' & T1 & _ & T3 & _ & T5). destruct (T5 (gcell R) (None, true) ny h (proj1 Ch)) as (t' & E1 & E2 & _).
  assert (Ec : crop_matrix true b m h (nlon nd) (nlat nd) = Err IndexError).
  { unfold crop_matrix. rewrite T1. cbn [bind]. match goal with |- bind ?x _ = _ => assert (E1' : x = Ok (t', xs')) by exact E1; rewrite E1' end. cbn [bind fst snd]. unfold cut_matrix. destruct He as [He|He].
    - rewrite (kept_none (x_min b) (x_max b) m xs'). 2:{ destruct T3 as (_ & L & N). rewrite L. intros i Hi. rewrite N by auto. replace (node_x Heights x0 dx f + INR i * dx) with (node_x Heights x0 dx (f + Z.of_nat i)) by (unfold node_x; rewrite plus_IZR, <- INR_IZR_INZ; ring). apply He. lia. }
      destruct (ind_slice _ t') as [rows|e] eqn:Er; cbn [bind ind_slice]; [reflexivity|]. destruct (kept _ _ _ (nlat nd)); [|discriminate]. now injection Er as <-.
    - rewrite (kept_none (y_min b) (y_max b) m (nlat nd)); [reflexivity|]. destruct Ey as (_ & L & N). rewrite L. intros j Hj. rewrite N by auto. now apply He. }
  match goal with |- bind ?x _ = _ => assert (E9 : x = Err IndexError) by exact Ec; rewrite E9 end. reflexivity.
Qed.
Print Assumptions C90_empty.
Theorem C90_single : forall t b m g nd files around x0 dx nx y0 dy ny f i c nr,
  nodes_for g t nd -> fny g = ny -> nodes_grid around x0 dx nx y0 dy ny nd -> some_limit b ->
  window x0 dx nx (x_min b) (x_max b) f -> f = 0%Z \/ around = true /\ 1 / 10000 < dx ->
  columns_kept x0 dx nx (x_min b) (x_max b) m f i 1 -> rows_kept y0 dy ny (y_min b) (y_max b) m c nr -> (1 <= nr)%nat ->
  read_lagoon t true (Some b) m g files = Err IndexError.
Proof.
  intros t b m g nd files around x0 dx nx y0 dy ny f i c nr Hn Hny G Sb W Hf Kc Kr Hnr. pose proof G as (Gx & Gy & Nx & Ny & Rd & Ga).
  destruct (read_grid t g nd around x0 dx nx y0 dy ny Hn Hny G) as (h & Eh & Ch).
  assert (Hf' : f = 0%Z \/ INR nx * dx = 360 /\ 1 / 10000 < dx). { destruct Hf as [Hf|[Hf Hd]]; [now left|]. right. destruct Ga as [[_ E]|[E _]]; [|congruence]. split; [exact E | lra]. }
  destruct (crop_block true b m x0 dx nx y0 dy ny f i 1 c nr (nlon nd) (nlat nd) Nx ltac:(right; auto) Hf' Kc Kr ltac:(lia) ltac:(lia) (or_introl Gx) (rows_same _ _ _ _ _ _ _ _ Gy Kr)) as (xa & ya & Xa & Ya & Cr).
  specialize (Xa Gx). destruct (Cr (gcell R) (None, true) h (proj1 Ch)) as (h1 & E1 & B1). unfold read_lagoon. rewrite Eh. cbn [bind]. rewrite any_limit_t by auto.
  match goal with |- bind ?x _ = _ => assert (E9 : x = Ok (h1, xa, ya)) by exact E1; rewrite E9 end. cbn [bind fst snd]. destruct Xa as (_ & L & _). destruct xa as [|v [|v' xa]]; try discriminate. reflexivity.
Qed.
Print Assumptions C90_single.
(** ** Finding (C90): the buffer is four columns by default when a model is extracted, but
    zero when it is read: between two columns of a model extraction returns, and reading
    is an IndexError *)
Theorem C90_default_refuted : forall w t sc g nd files x y around x0 dx nx y0 dy ny f i j,
  w <> Regular Unknown -> nodes_for g t nd -> fny g = ny -> nodes_grid around x0 dx nx y0 dy ny nd -> files_grid t nx ny files -> 1 / 250 < dx -> INR nx * dx <= 360 -> dy <= dx -> x <> 0 \/ y <> 0 ->
  window x0 dx nx x x f -> f = 0%Z \/ around = true ->
  (f <= i < f + Z.of_nat nx - 1)%Z -> node_x Heights x0 dx i < x < node_x Heights x0 dx (i + 1) ->
  (S j < ny)%nat -> node_y Heights y0 dy j <= y <= node_y Heights y0 dy (S j) ->
  read_lagoon t true (Some (Limits x x y y)) 0 g files = Err IndexError /\
  exists out, extract_reef w t sc None true (Some (Limits x x y y)) None g files [(x, y)] = Ok out.
Proof.
  intros w t sc g nd files x y around x0 dx nx y0 dy ny f i j Ht Hn Hny G Gf Hd Hw Hdy Hxy W Hf Hi Hx Hj Hy. pose proof G as ((Dx & _) & (Dy & _) & _).
  assert (Sb : some_limit (Limits x x y y)) by (intros (K1 & _ & K2 & _); cbn [x_min y_min] in K1, K2; lra).
  split.
  - apply (C90_empty t (Limits x x y y) 0 g nd files around x0 dx nx y0 dy ny f); auto; [destruct Hf; [left; auto | right; split; [auto | lra]]|]. left. intros i' _ K. unfold stays, node_x in *. cbn [x_min x_max] in K. rewrite plus_IZR in Hx.
    assert (i < i' < i + 1)%Z; [|lia]. split; apply lt_IZR; [|rewrite plus_IZR]; nra.
  - unfold node_x in Hx. unfold node_y in Hy. rewrite plus_IZR in Hx. rewrite S_INR in Hy.
    apply (C88_returns w t sc None around x0 dx nx y0 dy ny (Some (Limits x x y y)) None (Limits x x y y) (4 * dx) f g nd files [(x, y)] i j); auto.
    + split; [auto|]. split; [auto|]. split; [auto|]. split; [auto|]. split; [auto|]. split; [auto|]. split; [discriminate|]. split; [reflexivity|]. split; [auto|]. split; [reflexivity|]. auto.
    + split; [lia|]. split; [lia|]. unfold stays, node_x, node_y. cbn [x_min x_max y_min y_max]. rewrite plus_IZR, S_INR. repeat split; auto; lra.
    + intros _ p l [<-|[]] (_ & L2). cbn [fst]. assert (K : node_x Heights x0 dx (i + 1) <= node_x Heights x0 dx l).
      { unfold node_x. apply Rplus_le_compat_l, Rmult_le_compat_r; [lra|]. apply IZR_le. apply L2. left. split; [lia|]. unfold stays, node_x. cbn [x_min x_max]. rewrite plus_IZR. lra. }
      unfold node_x in *. rewrite plus_IZR in K. lra.
Qed.
Print Assumptions C90_default_refuted.
