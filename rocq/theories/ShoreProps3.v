(** C84: cropping changes what is extrapolated. *)
From Coq Require Import Reals List Bool Arith ZArith Lra Lia.
From Verif Require Import PyBase RBase MathModel GeoModel ConvertProps GridModel GridProofs InterpModel InterpProps ExtrapProps ExtractModel ExtractSpec NodeProps ExtractProofs ExtractProps SplineProps ReturnProps CaseProps MergeSpec MergeProps SeriesModel SeriesSpec SeriesProofs SeriesProps SeriesProps2 SeriesProps3 SeriesCases RegularModel RegularSpec RegularProofs RegularProps RegularProps2 RegularProps6 CropModel CropSpec CropProofs CropProofs2 CropProps CropProps2 CropProps3 CropProps4 CropCases ShoreModel ShoreSpec ShoreProofs ShoreProps ShoreProps2 ShoreCases.
Import ListNotations.
Open Scope R_scope.

(** a node far away is used with the whole model but not with the one cropped around the point *)
Definition far (j k : nat) : bool := Nat.eqb j 0 && Nat.eqb k 6.
Theorem C84_crop_refuted : exists sea p, extract_options GOT (Regular Linear) 1 false None None (Some None) [isles sea] [(10, 45)] = Ok [[Some (7, p)]] /\ extract_options GOT (Regular Linear) 1 true None None (Some None) [isles sea] [(10, 45)] = Ok [[None]].
Proof.
  exists far. destruct (isles_north GOT far 10 45) as (r & E & _ & N); [lra | lra|]. destruct (N eq_refl) as [(j & i & [(B1 & B2 & B3 & _) Nn] & S)|[No _]].
  2:{ exfalso. apply No. exists 0%nat, 6%nat. split; [lia|]. split; [lia|]. split; [|exact I]. rewrite isles_valid by lia. discriminate. }
  assert (Hj : far j i = true) by (rewrite isles_valid in B3 by auto; destruct (far j i); [auto | congruence]). unfold far in Hj. apply andb_true_iff in Hj as [Hj Hi]. apply Nat.eqb_eq in Hj as ->. apply Nat.eqb_eq in Hi as ->.
  rewrite isles_valid in S by auto. cbn [far Nat.eqb andb scaled] in S. destruct S as (a & p & A & ->). apply abs_real in A; [|cbn; lra]. exists p. rewrite E. split; [replace 7 with (a * 1) by (rewrite A; cbn [INR]; lra); reflexivity|].
  clear. destruct (one_limit 10 45) as [L1 L2]; [lra|]. set (b := Limits 10 10 45 45) in *.
  assert (Ro : forall j, (j < 3)%nat -> row_stays b 144 0 18 j) by (intros j Hj; do 3 (destruct j as [|j]; [unfold row_stays, stays, node_y; cbn; lra|]); lia).
  assert (W : window 18 36 10 (x_min b) (x_max b) 0) by (apply (ramp_east 10); lra).
  assert (C0 : column_available b 144 GOT true 18 36 10 0 0) by (left; split; [cbn; lia|]; unfold stays, node_x; cbn [x_min x_max b]; lra).
  assert (C1 : column_available b 144 GOT true 18 36 10 0 (0 + 1)) by (left; split; [cbn; lia|]; unfold stays, node_x; cbn [x_min x_max b Z.add]; lra).
  assert (G := isles_grid far).
  destruct (C83_returns GOT (Regular Linear) 1 None None b [isles far] [(10, 45)]) as (out0 & Ho & Lo); auto; try discriminate.
  { intros s [<-|[]]. exists true, 18, 36, 10%nat, 0, 18, 3%nat, 144, 0%Z, 0%Z, 0%nat. split; [exact G|]. split; [cbn; lra|]. split; [exact W|]. split; [now left|].
    split; [exact C0|]. split; [exact C1|]. split; [lia|]. split; [apply Ro; lia|]. split; [apply Ro; lia|]. discriminate. }
  destruct (options_both GOT (Regular Linear) 1 true None None None [isles far] [(10, 45)]) as [(out & o & E & E0)|(e & _ & E)]; [|rewrite C84_off in E; congruence]. rewrite E.
  destruct (C84_cropped GOT (Regular Linear) 1 None None None b 144 [isles far] [(10, 45)] out 0 (isles far) 0 10 45 true 18 36 10 0 18 3 0%Z 0%Z 0%nat) as (o' & cs0 & cs & r0 & r & A1 & A2 & A3 & A4 & A5 & A6 & A7 & A8); auto; try lia; try lra.
  - unfold margin. lra.
  - cbn. lra.
  - right. apply isles_numbers.
  - assert (N0 : r0 = None).
    { destruct (C83_outside GOT (Regular Linear) 1 None None b 144 [isles far] [(10, 45)] o' 0 (isles far) 0 10 45 18 36 10 0 18 3 0%Z 0%Z 0%nat) as (cs' & O1 & O2); auto; try lia; try lra.
      - unfold margin. lra.
      - right. right. right. intros k Hk _. do 3 (destruct k as [|k]; [unfold node_y; cbn; lra|]). lia.
      - right. eauto.
      - rewrite O1 in A2. injection A2 as <-. rewrite O2 in A3. now injection A3 as <-. }
    destruct (A8 (or_introl eq_refl) N0) as [(j & i & [(K & Z0 & _) _] & _)|[_ ->]].
    + exfalso. destruct K as (K1 & _ & K3 & K4). unfold stays, node_x in K4. cbn [x_min x_max b] in K4. apply Z0. cbn [Z.add Z.of_nat] in K3.
      assert (Hi : (column 10 i < 10)%nat) by (apply column_lt; lia). rewrite isles_valid by auto. unfold far.
      assert (Hi6 : (i < 6)%Z) by (apply lt_IZR; lra). replace (Nat.eqb (column 10 i) 6) with false; [now rewrite andb_false_r|]. symmetry. apply Nat.eqb_neq. unfold column. rewrite Z.mod_small by lia. lia.
    + destruct (fill_cropped_inv _ _ _ _ _ _ _ _ _ _ _ _ L1 L2 E (eq_refl : nth_error [isles far] 0 = Some (isles far))) as (d & u & e & cs' & _ & _ & _ & D4 & D5).
      rewrite A4 in D5. injection D5 as <-. apply file_values_len in D4. cbn [length] in D4.
      assert (Lf : length out = 1%nat).
      { unfold extract_options in E. cbn [map amin amax bind] in E. revert E. cbn [fill_files]. intros E. repeat (match type of E with bind ?x _ = _ => destruct x; [|discriminate] end; cbn [bind] in E). apply Ok_inj in E as <-. reflexivity. }
      destruct out as [|c [|]]; try discriminate. cbn in A4. injection A4 as ->. destruct cs as [|c [|]]; try discriminate. cbn in A5. injection A5 as ->. reflexivity.
Qed.
Print Assumptions C84_crop_refuted.
