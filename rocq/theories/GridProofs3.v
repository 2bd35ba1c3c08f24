(** Proofs: conventions of the readers, ocean pole tide map. *)
From Coq Require Import List ZArith Lia Bool ZifyBool ZifyNat.
From Verif Require Import PyBase GridModel GridSpec GridProofs GridProofs2 IERSModel.
Import ListNotations.
Open Scope Z_scope.

Lemma locate_otis_interpolate_ok u x0 step n xs out :
  global_axis u x0 step n -> conv_0_360 u x0 step \/ conv_180 u x0 step ->
  (forall x, In x xs -> -180 * u <= x <= 360 * u) ->
  locate_otis_interpolate u step (even_axis x0 step n) xs = Ok out ->
  per_point_ok u xs out.
Proof.
  intros Hg Hc Hq. unfold locate_otis_interpolate.
  rewrite (even_axis_ext _ _ _ _ Hg). destruct Hg as (Hu & Hs & Hn). cbn [bind].
  rewrite even_axis_min, even_axis_max by lia. cbn [bind].
  match goal with |- bind ?c _ = _ -> _ => destruct c eqn:E end; cbn [bind]; [|discriminate].
  intros <-%Ok_inj. eapply convention_otis_ok in E; eauto.
  unfold conv_0_360, conv_180 in Hc.
  replace (Z.of_nat (n + 2) - 1) with (Z.of_nat n + 1) by lia. nia.
Qed.

Lemma locate_otis_interpolate_total u x0 step n xs :
  global_axis u x0 step n -> xs <> [] ->
  is_ok (locate_otis_interpolate u step (even_axis x0 step n) xs) = true.
Proof.
  intros Hg Hx. unfold locate_otis_interpolate.
  rewrite (even_axis_ext _ _ _ _ Hg). destruct Hg as (Hu & Hs & Hn). cbn [bind].
  rewrite even_axis_min, even_axis_max by lia. cbn [bind].
  destruct xs as [|x xs]; [congruence|]. unfold convention_otis. cbn [np_min bind].
  destruct (_ <? _); reflexivity.
Qed.

(** the extraction path is right as soon as no query point lies beyond the last
    column of the unextended axis, or the model is stored as -180..180 *)
Lemma locate_otis_extract_partial u x0 step n xs out :
  global_axis u x0 step n ->
  conv_0_360 u x0 step /\ (forall x, In x xs -> x <= x0 + 360 * u - step /\
       (x < 0 -> x <= x0 - step)) \/ conv_180 u x0 step /\ step < 180 * u /\
       (forall x, In x xs -> x <= 180 * u -> x <= x0 + 360 * u - step /\ x0 <= x) ->
  (forall x, In x xs -> -180 * u <= x <= 360 * u) ->
  locate_otis_extract u step (even_axis x0 step n) xs = Ok out ->
  per_point_ok u xs out.
Proof.
  intros Hg Hc Hq. unfold locate_otis_extract.
  rewrite (even_axis_ext _ _ _ _ Hg). destruct Hg as (Hu & Hs & Hn). cbn [bind].
  assert (Hn0 : (0 < n)%nat) by nia.
  rewrite even_axis_min, even_axis_max by lia. cbn [bind].
  rewrite even_axis_min, even_axis_max by lia. cbn [bind].
  replace (Z.of_nat (n + 2) - 1) with (Z.of_nat n + 1) by lia.
  replace (x0 + (Z.of_nat n - 1) * step) with (x0 + 360 * u - step) by lia.
  replace (x0 - step + (Z.of_nat n + 1) * step) with (x0 + 360 * u) by lia.
  unfold convention_otis. unfold conv_0_360, conv_180 in Hc.
  destruct (np_min xs) as [mn|] eqn:Emn; cbn [bind]; [|discriminate].
  apply np_min_ok in Emn. destruct Emn as [Mn1 Mn2].
  destruct (mn <? x0) eqn:B1.
  - destruct (np_max (add_neg u xs)) as [mx|] eqn:Emx; cbn [bind]; [|discriminate].
    apply np_max_ok in Emx. destruct Emx as [Mx1 Mx2].
    unfold add_neg in Mx2. apply in_map_iff in Mx2. destruct Mx2 as (z & Ez & Hz).
    intros <-%Ok_inj. destruct (mx >? _) eqn:B2.
    + exfalso. pose proof (Hq z Hz). pose proof (Hq _ Mn2).
      destruct Hc as [[Hc1 Hc2]|[Hc1 [Hc2 Hc3]]].
      * pose proof (Hc2 z Hz). destruct (z <? 0) eqn:Bz; lia.
      * pose proof (Hc3 mn Mn2). lia.
    + apply per_point_map. intros x Hx. split; [apply add_neg_meridian|].
      assert (Hmx : (if x <? 0 then x + 360 * u else x) <= mx).
      { apply Mx1. apply in_map_iff. exists x; auto. }
      pose proof (Hq _ Mn2). pose proof (Hq x Hx). pose proof (Mn1 x Hx).
      unfold outside. destruct Hc as [[Hc1 Hc2]|[Hc1 [Hc2 Hc3]]].
      * destruct (x <? 0) eqn:Bx; lia.
      * pose proof (Hc3 mn Mn2). lia.
  - destruct (np_max xs) as [mx|] eqn:Emx; cbn [bind]; [|discriminate].
    apply np_max_ok in Emx. destruct Emx as [Mx1 Mx2].
    intros <-%Ok_inj. destruct (mx >? _) eqn:B2.
    + apply per_point_map. intros x Hx. split; [apply sub_big_meridian|].
      pose proof (Mn1 x Hx). pose proof (Mx1 x Hx). pose proof (Hq x Hx). pose proof (Hq mx Mx2).
      unfold outside. destruct Hc as [[Hc1 Hc2]|[Hc1 [Hc2 Hc3]]].
      * pose proof (Hc2 mx Mx2). lia.
      * destruct (x >? 180 * u) eqn:Bx; [|specialize (Hc3 x Hx ltac:(lia))]; lia.
    + rewrite <- (map_id xs) at 2. apply per_point_map. intros x Hx.
      split; [apply same_meridian_refl|].
      specialize (Mn1 x Hx). specialize (Mx1 x Hx). unfold outside. lia.
Qed.

Lemma locate_fes_extract_ok u x0 step n xs out :
  global_axis u x0 step n -> step < 180 * u ->
  conv_0_360 u x0 step \/ conv_180 u x0 step ->
  (forall x, In x xs -> -180 * u <= x <= 360 * u) ->
  locate_fes_extract u step (even_axis x0 step n) xs = Ok out ->
  per_point_ok u xs out.
Proof.
  intros Hg Hst Hc Hq. unfold locate_fes_extract.
  rewrite (even_axis_ext _ _ _ _ Hg). destruct Hg as (Hu & Hs & Hn). cbn [bind].
  assert (Hn0 : (0 < n)%nat) by nia.
  rewrite even_axis_min, even_axis_max by lia. cbn [bind].
  rewrite even_axis_min, even_axis_max by lia. cbn [bind].
  replace (Z.of_nat (n + 2) - 1) with (Z.of_nat n + 1) by lia.
  replace (x0 + (Z.of_nat n - 1) * step) with (x0 + 360 * u - step) by lia.
  replace (x0 - step + (Z.of_nat n + 1) * step) with (x0 + 360 * u) by lia.
  unfold convention_fes. unfold conv_0_360, conv_180 in Hc.
  destruct (np_min xs) as [mn|] eqn:Emn; cbn [bind]; [|discriminate].
  destruct (np_max xs) as [mx|] eqn:Emx; cbn [bind]; [|discriminate].
  apply np_min_ok in Emn. destruct Emn as [Mn1 Mn2].
  apply np_max_ok in Emx. destruct Emx as [Mx1 Mx2].
  intros <-%Ok_inj. destruct ((mn <? 0) && _)%bool eqn:B1.
  - apply per_point_map. intros x Hx. split; [apply add_neg_meridian|].
    pose proof (Mn1 x Hx). pose proof (Mx1 x Hx). pose proof (Hq x Hx). pose proof (Hq mn Mn2).
    unfold outside. destruct (x <? 0) eqn:Bx; lia.
  - destruct ((mx >? _) && _)%bool eqn:B2.
    + apply per_point_map. intros x Hx. split; [apply sub_big_meridian|].
      pose proof (Mn1 x Hx). pose proof (Mx1 x Hx). pose proof (Hq x Hx). pose proof (Hq mx Mx2).
      unfold outside. destruct (x >? 180 * u) eqn:Bx; lia.
    + rewrite <- (map_id xs) at 2. apply per_point_map. intros x Hx.
      split; [apply same_meridian_refl|].
      pose proof (Hq x Hx). specialize (Mn1 x Hx). specialize (Mx1 x Hx). unfold outside. lia.
Qed.

(** the interpolation path of FES/ATLAS is right for models whose extended axis
    starts exactly at longitude 0 or covers at most 180 degrees east *)
Lemma locate_fes_interpolate_partial_ok u x0 step n xs out :
  global_axis u x0 step n -> step < 180 * u ->
  x0 = step \/ x0 = -180 * u ->
  (forall x, In x xs -> -180 * u <= x <= 360 * u) ->
  locate_fes_interpolate u step (even_axis x0 step n) xs = Ok out ->
  per_point_ok u xs out.
Proof.
  intros Hg Hst Hc Hq. unfold locate_fes_interpolate.
  rewrite (even_axis_ext _ _ _ _ Hg). destruct Hg as (Hu & Hs & Hn). cbn [bind].
  assert (Hn0 : (0 < n)%nat) by nia.
  rewrite even_axis_min, even_axis_max by lia. cbn [bind].
  replace (Z.of_nat (n + 2) - 1) with (Z.of_nat n + 1) by lia.
  replace (x0 - step + (Z.of_nat n + 1) * step) with (x0 + 360 * u) by lia.
  unfold convention_fes.
  destruct (np_min xs) as [mn|] eqn:Emn; cbn [bind]; [|discriminate].
  destruct (np_max xs) as [mx|] eqn:Emx; cbn [bind]; [|discriminate].
  apply np_min_ok in Emn. destruct Emn as [Mn1 Mn2].
  apply np_max_ok in Emx. destruct Emx as [Mx1 Mx2].
  intros <-%Ok_inj. destruct ((mn <? 0) && _)%bool eqn:B1.
  - apply per_point_map. intros x Hx. split; [apply add_neg_meridian|].
    pose proof (Mn1 x Hx). pose proof (Mx1 x Hx). pose proof (Hq x Hx). pose proof (Hq mn Mn2).
    unfold outside. destruct (x <? 0) eqn:Bx; lia.
  - destruct ((mx >? _) && _)%bool eqn:B2.
    + apply per_point_map. intros x Hx. split; [apply sub_big_meridian|].
      pose proof (Mn1 x Hx). pose proof (Mx1 x Hx). pose proof (Hq x Hx). pose proof (Hq mx Mx2).
      unfold outside. destruct (x >? 180 * u) eqn:Bx; lia.
    + rewrite <- (map_id xs) at 2. apply per_point_map. intros x Hx.
      split; [apply same_meridian_refl|].
      pose proof (Hq x Hx). specialize (Mn1 x Hx). specialize (Mx1 x Hx). unfold outside. lia.
Qed.

(** ** Ocean pole tide map (C34) *)

Lemma glon_shift : shift_axis iu (180 * iu) (360 * iu) West glon = Ok (even_axis (-721) 2 720).
Proof. vm_compute. reflexivity. Qed.
Lemma glon_index : shift_index (180 * iu) glon = Ok 359%nat.
Proof. vm_compute. reflexivity. Qed.
Lemma glon_offset : shift_offset iu (360 * iu) glon = Ok 0%nat.
Proof. vm_compute. reflexivity. Qed.
Lemma final_glon_eq : final_glon = Ok (even_axis (-723) 2 722).
Proof. vm_compute. reflexivity. Qed.

Lemma glon_length : length glon = 720%nat.
Proof. apply even_axis_length. Qed.

Lemma final_parallel_nth {V} (rs : list (record V)) j l :
  final_parallel rs j = Ok l ->
  length l = 722%nat /\
  forall k, (k < 722)%nat -> nth k l None = fill rs ((Z.of_nat k + 358) mod 720) j.
Proof.
  unfold final_parallel. intros H.
  destruct (shift_row iu (180 * iu) (360 * iu) glon (parallel rs j)) as [row|] eqn:E;
    cbn [bind] in H; [|discriminate].
  assert (HL : length (parallel rs j) = length glon).
  { unfold parallel. rewrite map_length, seq_length, glon_length. reflexivity. }
  pose proof (shift_row_nth _ _ _ _ _ _ _ _ None HL E glon_index glon_offset) as [L1 N1].
  rewrite glon_length in *. rewrite HL in L1.
  pose proof (extend_row_nth _ _ None H) as [L2 N2]. rewrite L1 in *.
  split; [lia|]. intros k Hk. rewrite N2 by lia.
  set (q := ((k + (720 - 1)) mod 720)%nat).
  assert (Hq : (q < 720)%nat) by (apply Nat.mod_upper_bound; lia).
  rewrite N1 by lia.
  assert (Np : forall i, (i < 720)%nat -> nth i (parallel rs j) None = fill rs (Z.of_nat i) j).
  { intros i Hi. unfold parallel.
    rewrite nth_indep with (d' := (fun i => fill rs (Z.of_nat i) j) 0%nat)
      by (rewrite map_length, seq_length; lia).
    rewrite (map_nth (fun i => fill rs (Z.of_nat i) j)). now rewrite seq_nth by lia. }
  assert (Hq' : Z.of_nat q = (Z.of_nat k + 719) mod 720).
  { unfold q. rewrite Nat2Z.inj_mod. f_equal. lia. }
  unfold shifted_src. destruct (q <? 720 - 359)%nat eqn:B.
  - rewrite Np by lia. f_equal. rewrite Nat2Z.inj_add, Hq'. lia.
  - rewrite Np by lia. f_equal. lia.
Qed.

Lemma final_parallel_ok {V} (rs : list (record V)) j :
  is_ok (final_parallel rs j) = true.
Proof.
  unfold final_parallel, shift_row. rewrite glon_index, glon_offset. cbn [bind].
  unfold rotate_list. cbn [bind fst snd].
  destruct (skipn 359 (parallel rs j) ++ slice 0 (359 + 0) (parallel rs j)) as [|a t] eqn:E.
  - apply (f_equal (@length (option V))) in E. rewrite app_length, skipn_length in E.
    unfold parallel in E. rewrite map_length, seq_length in E. cbn in E. lia.
  - reflexivity.
Qed.

Lemma at_cell_index {V} (r : record V) i j :
  at_cell r i j -> ilon r = i /\ ilat r = j.
Proof.
  intros (Hi & Hj & Hlo & Hla). unfold ilon, ilat. rewrite Hlo, Hla.
  rewrite !Z.quot_div_nonneg by lia. lia.
Qed.

Lemma fill_last {V} (rs1 rs2 : list (record V)) r i j :
  ilon r = i -> ilat r = j ->
  (forall r', In r' rs2 -> ~ (ilon r' = i /\ ilat r' = j)) ->
  fill (rs1 ++ r :: rs2) i j = Some (r_val r).
Proof.
  intros H1 H2 H3. unfold fill. rewrite fold_left_app. cbn [fold_left].
  rewrite H1, H2, !Z.eqb_refl. cbn [andb].
  generalize (Some (r_val r)) as acc. clear - H3.
  induction rs2 as [|r' rs2 IH]; intros acc; cbn [fold_left]; auto.
  destruct ((ilon r' =? i) && (ilat r' =? j))%bool eqn:B.
  - exfalso. apply (H3 r'); [now left|]. lia.
  - apply IH. intros; apply H3; now right.
Qed.

Lemma iers_record_lands {V} (rs1 rs2 : list (record V)) r i j :
  at_cell r i j ->
  (forall r', In r' rs2 -> (r_lon r', r_lat r') <> (r_lon r, r_lat r) /\
                           exists i' j', at_cell r' i' j') ->
  exists lons row, final_glon = Ok lons /\ final_parallel (rs1 ++ r :: rs2) j = Ok row /\
    length row = length lons /\
    (forall k, (k < length lons)%nat -> same_meridian iu (nth k lons 0) (r_lon r) ->
       nth k row None = Some (r_val r)) /\
    (exists k, (k < length lons)%nat /\ same_meridian iu (nth k lons 0) (r_lon r)).
Proof.
  intros Hr Hrs.
  pose proof (final_parallel_ok (rs1 ++ r :: rs2) j) as Hok.
  destruct (final_parallel (rs1 ++ r :: rs2) j) as [row|] eqn:E; [|discriminate].
  destruct (final_parallel_nth _ _ _ E) as [L N].
  exists (even_axis (-723) 2 722), row. rewrite even_axis_length.
  assert (F : fill (rs1 ++ r :: rs2) i j = Some (r_val r)).
  { destruct (at_cell_index r i j Hr) as [I J].
    apply fill_last; auto. intros r' Hr' [I' J'].
    destruct (Hrs r' Hr') as (Hne & i' & j' & Hc).
    destruct (at_cell_index r' i' j' Hc). apply Hne.
    destruct Hr as (_ & _ & -> & ->). destruct Hc as (_ & _ & -> & ->). f_equal; lia. }
  split; [apply final_glon_eq|]. split; [reflexivity|]. split; [lia|]. split.
  - intros k Hk [q Hq]. rewrite even_axis_nth in Hq by lia.
    destruct Hr as (Hi & Hj & Hlo & Hla). rewrite Hlo in Hq. unfold iu in Hq.
    rewrite N by lia. rewrite <- F. f_equal.
    symmetry. apply Z.mod_unique with (1 + q); lia.
  - destruct Hr as (Hi & Hj & Hlo & Hla). rewrite Hlo.
    destruct (Z_lt_ge_dec i 359) as [H|H].
    + exists (Z.to_nat (i + 362)). split; [lia|]. rewrite even_axis_nth by lia. exists 0. unfold iu. lia.
    + exists (Z.to_nat (i - 358)). split; [lia|]. rewrite even_axis_nth by lia. exists (-1). unfold iu. lia.
Qed.
