(** C87: which constants of ATLAS models are filled in, and from which nodes. *)
From Coq Require Import Reals List Bool Arith ZArith Lra Lia.
From Verif Require Import PyBase RBase MathModel GeoModel ConvertProps GridModel InterpModel InterpProps ExtrapProps ExtractModel ExtractSpec NodeProps ExtractProofs ExtractProps SplineProps ReturnProps SeriesModel SeriesSpec SeriesProofs SeriesProps SeriesProps2 SeriesProps3 StretchProofs AtlasNcModel AtlasNcSpec AtlasNcProps AtlasNcProps2 AtlasNcProps3 RegularModel RegularProps3 CropModel CropProofs ShoreModel ShoreSpec ShoreProofs ShoreProps CoastModel CoastSpec CoastProofs CoastProps NarrowModel ReefModel ReefSpec ReefProofs ReefProps.
Import ListNotations.
Open Scope R_scope.

Lemma read_file t f pa nx ny : parts_for f t (Some pa) -> file_grid nx ny f pa ->
  exists r, read_netcdf_file t f = Ok (r, read_name f) /\ cells (None, true) ny nx (fun j i => (number_of pa j i, false)) r.
Proof.
  intros Hp (Ht & R1 & R2). destruct (read_parts_entries nx ny pa R1 R2) as (r & Er & Rr & Nr). exists r. split; [rewrite (parts_for_eq _ _ _ Hp), Ht, Er; reflexivity|]. now split.
Qed.
Lemma read_grid t g nd around x0 dx nx y0 dy ny : nodes_for g t nd -> fny g = ny -> nodes_grid around x0 dx nx y0 dy ny nd ->
  exists h, read_netcdf_grid t g = Ok (nlon nd, nlat nd, h) /\ cells (None, true) ny nx (fun j i => depth_at (entry 0 (ndepth nd) i j)) h.
Proof.
  intros Hn Hny (Gx & Gy & Nx & Ny & Rd & Ga). unfold read_netcdf_grid. rewrite (nodes_for_eq t g nd Hn), Hny. cbn [bind]. eexists. split; [reflexivity|].
  assert (R1 := transposed_rect 0 nx ny _ Rd). split; [now apply map_rect|]. intros j i Hj Hi. rewrite (map_entry depth_at ny nx _ 0 (None, true)) by auto.
  now rewrite (transposed_entry 0 0 nx ny _ i j Rd Hi Hj).
Qed.
Lemma around_spans around x0 dx nx y0 dy ny nd : nodes_grid around x0 dx nx y0 dy ny nd -> isclose (INR (nx - 1) * dx) (360 - dx) = around.
Proof. intros G. rewrite <- (around_nodes _ _ _ _ _ _ _ _ G). destruct G as (Gx & _ & Nx & _). now rewrite (evenly_span x0 dx nx) by auto. Qed.

Theorem C87_filled : forall w t sc fr cutoff crop bounds buffer g nd files pts out c f pa n p around x0 dx nx y0 dy ny,
  match cutoff with Some d => 0 <= d | None => True end -> not_cropped crop bounds pts ->
  nodes_for g t nd -> fny g = ny -> nodes_grid around x0 dx nx y0 dy ny nd -> framed fr (nlon nd) ->
  extract_reef w t sc (Some cutoff) crop bounds buffer g files pts = Ok out ->
  nth_error files c = Some f -> parts_for f t (Some pa) -> file_grid nx ny f pa ->
  (forall j i, (j < ny)%nat -> (i < nx)%nat -> number_of pa j i <> None) -> nth_error pts n = Some p ->
  let z := constant_of nd pa in
  exists out0 cs0 cs D r0 r,
    extract_reef w t sc None crop bounds buffer g files pts = Ok out0 /\
    nth_error (adepth out) n = Some D /\ length (adepth out) = length pts /\ nth_error (anames out) c = Some (read_name f) /\
    nth_error (aconst out0) c = Some cs0 /\ nth_error cs0 n = Some r0 /\
    length (aconst out) = length files /\ nth_error (aconst out) c = Some cs /\ length cs = length pts /\ nth_error cs n = Some r /\
    (r0 <> None -> r = r0) /\
    (beyond FES around x0 dx nx y0 dy ny (placed fr (fst p)) (snd p) -> r = None) /\
    (~ beyond FES around x0 dx nx y0 dy ny (placed fr (fst p)) (snd p) -> r0 = None ->
       (exists j i, nearest_valid cutoff x0 dx nx y0 dy ny z p j i /\ exists d, divisor w D d /\ lent (velocity t) sc d (z j i) r) \/
       (~ exists j i, nearby cutoff x0 dx nx y0 dy ny z p j i) /\ r = None).
Proof.
  intros w t sc fr cutoff crop bounds buffer g nd files pts out c f pa n p around x0 dx nx y0 dy ny Hcut U Hn Hny G Fr H Hc Hpa Hf Nn Hp z.
  destruct (reef_both w t sc cutoff crop bounds buffer g files pts) as [(o & out0 & E & E0 & _)|(e & E & _)]; [|congruence]. rewrite H in E. apply Ok_inj in E as <-. exists out0. pose proof E0 as E00.
  apply not_cropped_un in U. rewrite reef_off in H, E0 by auto. destruct (read_grid t g nd around x0 dx nx y0 dy ny Hn Hny G) as (h & Eh & Ch). rewrite Eh in H, E0. cbn [bind] in H, E0.
  destruct (amin (map fst pts)); [|discriminate]. cbn [bind] in H, E0. pose proof G as (Gx & Gy & Nx & Ny & Rd & Ga). rewrite (evenly_spacing x0 dx nx) in H, E0 by auto. cbn [bind] in H, E0.
  destruct (adjust (nlon nd) pts) as [pts'|] eqn:Ea; [|discriminate]. cbn [bind] in H, E0. apply (adjust_placed fr) in Ea; auto. subst pts'.
  pose proof (map_nth_error (fun p => (placed fr (fst p), snd p)) _ _ Hp) as Hq. cbn beta in Hq.
  destruct (read_file t f pa nx ny Hpa Hf) as (r & Er & Cr).
  destruct (from_filled w t sc x0 dx y0 dy nx ny (nlon nd) (nlat nd) h (fun hc => Ok hc) (fun j i => entry 0 (ndepth nd) i j) (number_of pa) around Gx Gy Nx Ny Ch (around_spans _ _ _ _ _ _ _ _ G)
      ltac:(intros K; destruct Ga as [[_ E]|[K' _]]; [exact E | congruence]) Nn cutoff files _ out out0 c f n _ r Hcut H E0 Hc Hq Er (ex_intro _ r (conj eq_refl Cr)))
    as (cs0 & cs & D & r0 & v & Q1 & Q2 & Q3 & Q4 & Q5 & Q6 & Q7 & Q8 & Q9 & Q10 & Q11 & Q12).
  rewrite map_length in Q2, Q8. cbn [fst snd] in Q11, Q12. exists cs0, cs, D, r0, v. split; [exact E00|]. repeat (split; [assumption|]).
  intros B F. specialize (Q12 B F). destruct (placed_turns fr (fst p)) as (k & Ek). rewrite Ek in Q12. destruct Q12 as [(j & i & A1 & A2)|[A1 A2]].
  - left. exists j, i. split; [|exact A2]. destruct p as [x y]. exact (proj1 (nearest_turns _ _ _ _ _ _ _ _ _ _ k _ _) A1).
  - right. split; [|exact A2]. intros (j & i & K). apply A1. exists j, i. destruct p as [x y]. exact (proj2 (nearby_turns _ _ _ _ _ _ _ _ _ _ k _ _) K).
Qed.
Print Assumptions C87_filled.

(** extraction returns *)
Theorem C87_returns : forall w t sc fr ex crop bounds buffer g nd files pts around x0 dx nx y0 dy ny,
  not_cropped crop bounds pts ->
  nodes_for g t nd -> fny g = ny -> nodes_grid around x0 dx nx y0 dy ny nd -> framed fr (nlon nd) ->
  (forall f, In f files -> exists pa, parts_for f t (Some pa) /\ file_grid nx ny f pa) ->
  pts <> [] -> w <> Regular Unknown ->
  (w = Quick Bilinear -> forall p, In p pts -> placed fr (fst p) <> node_x Heights x0 dx (last_of 1 around nx)) ->
  exists out, extract_reef w t sc ex crop bounds buffer g files pts = Ok out.
Proof.
  intros w t sc fr ex crop bounds buffer g nd files pts around x0 dx nx y0 dy ny U Hn Hny G Fr Hf Hne Hw Hb.
  assert (exists out0, extract_reef w t sc None crop bounds buffer g files pts = Ok out0) as (out0 & E0).
  { destruct w as [me|me].
    - rewrite C87_off by auto. destruct (C71_returns me t sc fr g nd files pts around x0 dx nx y0 dy ny Hn Hny G Fr Hf Hne ltac:(intros ->; now apply Hb)) as (out & E & _). eauto.
    - rewrite C87_off_regular by auto. destruct (C82_atlas_returns me t sc fr g nd files pts around x0 dx nx y0 dy ny Hn Hny G Fr Hf Hne ltac:(congruence)) as (out & E & _). eauto. }
  destruct ex as [cutoff|]; [|eauto]. destruct (extract_reef w t sc (Some cutoff) crop bounds buffer g files pts) as [out|e] eqn:E; [eauto|]. rewrite (proj1 (C87_errors w t sc cutoff crop bounds buffer g files pts e) E) in E0. discriminate.
Qed.
Print Assumptions C87_returns.

(** ** An example: a shelf in the east *)
Definition shelf : nodes := Nodes [10; 11; 12] [20; 21] [[0; 0]; [0; 0]; [100; 100]].
Definition shelf_grid : grid_file := GridFile 3 2 shelf shelf shelf.
Definition shelf_parts : parts := ([[Some 1; Some 1]; [Some 1; Some 1]; [Some 1; Some 1]], [[Some 0; Some 0]; [Some 0; Some 0]; [Some 0; Some 0]]).
Definition shelf_file : tide_file := TideFile 3 2 [109%Z; 50%Z; 32%Z; 32%Z] false (Some shelf_parts) (Some shelf_parts) (Some shelf_parts).
Lemma shelf_nodes_grid : nodes_grid false 10 1 3 20 1 2 shelf.
Proof.
  split; [|split; [|split; [|split; [|split; [|right; split; [reflexivity|]]]]]]; try lia.
  - split; [lra|]. split; [reflexivity|]. intros i Hi. destruct i as [|[|[|i]]]; [cbn; lra .. | exfalso; lia].
  - split; [lra|]. split; [reflexivity|]. intros i Hi. destruct i as [|[|i]]; [cbn; lra .. | exfalso; lia].
  - split; [reflexivity|]. intros r [<-|[<-|[<-|[]]]]; reflexivity.
  - unfold ExtractSpec.close. replace (INR (3 - 1) * 1) with 2 by (cbn; ring). rewrite (Rabs_left (2 - (360 - 1))), (Rabs_right (360 - 1)) by lra. lra.
Qed.
Lemma shelf_file_grid : file_grid 3 2 shelf_file shelf_parts.
Proof. split; [reflexivity|]. split; (split; [reflexivity|]); intros r [<-|[<-|[<-|[]]]]; reflexivity. Qed.
Lemma shelf_framed : framed Either (nlon shelf).
Proof. split; [discriminate|]. intros a [<-|[<-|[<-|[]]]]; lra. Qed.
Lemma shelf_number j i : (j < 2)%nat -> (i < 3)%nat -> number_of shelf_parts j i = Some (1, 0).
Proof. intros Hj Hi. destruct j as [|[|j]], i as [|[|[|i]]]; try reflexivity; lia. Qed.
Lemma shelf_depth j i : (j < 2)%nat -> (i < 3)%nat -> depth_of shelf j i = if Nat.eqb i 2 then Some 100 else None.
Proof. intros Hj Hi. unfold depth_of. destruct j as [|[|j]], i as [|[|[|i]]]; try lia; cbn [shelf ndepth entry nth Nat.eqb]; destruct (Req_EM_T _ 0); auto; lra. Qed.
Definition shelf_point : R * R := (21 / 2, 41 / 2).
(** the point is in a cell on land *)
Lemma shelf_masked t sc crop bounds buffer out0 cs0 r0 : not_cropped crop bounds [shelf_point] ->
  extract_reef (Quick Bilinear) t sc None crop bounds buffer shelf_grid [shelf_file] [shelf_point] = Ok out0 ->
  nodes_for shelf_grid t shelf -> parts_for shelf_file t (Some shelf_parts) ->
  nth_error (aconst out0) 0 = Some cs0 -> nth_error cs0 0 = Some r0 -> r0 = None.
Proof.
  intros U H Hn Hpa Hc Hr. rewrite C87_off in H by auto.
  destruct (C71_cell t sc Either shelf_grid shelf [shelf_file] [shelf_point] out0 0 shelf_file shelf_parts 0 shelf_point false 10 1 3 20 1 2 (21 / 2) (41 / 2) 0 0
      Hn eq_refl shelf_nodes_grid shelf_framed H eq_refl Hpa shelf_file_grid eq_refl eq_refl eq_refl) as (D & cs & r & _ & _ & _ & _ & A1 & _ & A2 & A3).
  - cbn. lia.
  - cbn. lia.
  - lia.
  - unfold between_nodes, node_x, node_y. cbn [INR IZR IPR]. change (0 + 1)%Z with 1%Z. cbn [IZR IPR]. cbn [INR]. lra.
  - unfold at_node, node_x, node_y. cbn [INR]. change (0 + 1)%Z with 1%Z. intros [[K|K] _]; revert K; unfold ExtractSpec.close; cbn [IZR IPR]; unfold Rabs; repeat destruct (Rcase_abs _); lra.
  - rewrite Hc in A1. injection A1 as <-. rewrite Hr in A2. injection A2 as <-. revert A3. unfold corners. cbn [column].
    assert (Z0 : forall j i, (j < 2)%nat -> (i < 2)%nat -> constant_of shelf shelf_parts j i = None) by (intros j i Hj Hi; unfold constant_of; rewrite shelf_depth by lia; destruct i as [|[|i]]; [reflexivity .. | lia]).
    change (column 3 0) with 0%nat. change (column 3 (0 + 1)) with 1%nat. rewrite !Z0 by lia.
    assert (Mn : forall (g : R * R -> R) w1 w2 w3 w4, mean (part g [(w1, None); (w2, None); (w3, None); (w4, None)]) = None).
    { intros g w1 w2 w3 w4. unfold mean, part, weight, total. cbn [map fst snd option_map fold_right]. destruct (Req_EM_T _ 0) as [_|N]; [reflexivity|]. exfalso. apply N. ring. }
    rewrite Mn. cbn [both reported]. auto.
Qed.
Lemma unit_amplitude a ph : amplitude_phase (1, 0) a ph -> a = 1.
Proof.
  intros (A0 & _ & A1 & A2). cbn [fst snd] in *. pose proof (sin2_cos2 (ph * PI / 180)) as T. unfold Rsqr in T. set (c := cos _) in *. set (s := sin _) in *.
  assert (E : a * a = 1). { transitivity (a * a * (s * s + c * c)); [rewrite T; ring|]. transitivity ((a * s) * (a * s) + (a * c) * (a * c)); [ring|]. rewrite <- A1. replace (a * s) with 0 by lra. ring. }
  nra.
Qed.
(** ** Velocities that are filled in are divided by the fill value *)
Theorem C87_velocity_refuted : ~ (forall w t sc fr cutoff crop bounds buffer g nd files pts out out0 c f pa n p around x0 dx nx y0 dy ny j i cs0 cs r,
  match cutoff with Some d => 0 <= d | None => True end -> not_cropped crop bounds pts ->
  nodes_for g t nd -> fny g = ny -> nodes_grid around x0 dx nx y0 dy ny nd -> framed fr (nlon nd) ->
  extract_reef w t sc (Some cutoff) crop bounds buffer g files pts = Ok out -> extract_reef w t sc None crop bounds buffer g files pts = Ok out0 ->
  nth_error files c = Some f -> parts_for f t (Some pa) -> file_grid nx ny f pa ->
  (forall j i, (j < ny)%nat -> (i < nx)%nat -> number_of pa j i <> None) -> nth_error pts n = Some p ->
  nth_error (aconst out0) c = Some cs0 -> nth_error cs0 n = Some None -> nth_error (aconst out) c = Some cs -> nth_error cs n = Some r ->
  ~ beyond FES around x0 dx nx y0 dy ny (placed fr (fst p)) (snd p) -> nearest_valid cutoff x0 dx nx y0 dy ny (constant_of nd pa) p j i ->
  reported t sc (depth_of nd j i) (constant_of nd pa j i) r).
Proof.
  intros All.
  assert (U : not_cropped false None [shelf_point]) by now left. pose proof (For_u shelf_grid) as Hn. cbn [shelf_grid fu] in Hn. pose proof (Parts_u shelf_file) as Hpa. cbn [shelf_file tu] in Hpa.
  assert (Nn : forall j i, (j < 2)%nat -> (i < 3)%nat -> number_of shelf_parts j i <> None) by (intros j i Hj Hi; rewrite shelf_number by auto; discriminate).
  destruct (C87_returns (Quick Bilinear) Vu 1 Either (Some None) false None None shelf_grid shelf [shelf_file] [shelf_point] false 10 1 3 20 1 2 U Hn eq_refl shelf_nodes_grid shelf_framed) as (out & H).
  { intros f [<-|[]]. exists shelf_parts. split; [exact Hpa | apply shelf_file_grid]. }
  { discriminate. } { discriminate. }
  { intros _ p [<-|[]]. unfold shelf_point, placed, node_x, last_of. cbn [fst]. change (IZR (Z.of_nat 3 - 1)) with 2. lra. }
  destruct (C87_filled (Quick Bilinear) Vu 1 Either None false None None shelf_grid shelf [shelf_file] [shelf_point] out 0 shelf_file shelf_parts 0 shelf_point false 10 1 3 20 1 2
      I U Hn eq_refl shelf_nodes_grid shelf_framed H eq_refl Hpa shelf_file_grid Nn eq_refl) as (out0 & cs0 & cs & D & r0 & r & E0 & _ & _ & _ & C0 & R0 & _ & C1 & _ & R1 & _ & _ & F).
  assert (r0 = None) as -> by exact (shelf_masked Vu 1 false None None out0 cs0 r0 U E0 Hn Hpa C0 R0).
  assert (B : ~ beyond FES false 10 1 3 20 1 2 (placed Either (fst shelf_point)) (snd shelf_point)).
  { unfold beyond, placed, shelf_point, node_x, node_y, first_of, last_of, behind. cbn [fst snd]. change (IZR (Z.of_nat 3 - 1)) with 2. change (INR (2 - 1)) with 1. change (INR 0) with 0. lra. }
  specialize (F B eq_refl). destruct F as [(j & i & Nv & d & Dd & v & a & ph & Ez & Ap & Er)|[No _]].
  2:{ apply No. exists 0%nat, 2%nat. split; [lia|]. split; [lia|]. split; [|exact I]. unfold constant_of. rewrite shelf_depth by lia. cbn [Nat.eqb]. rewrite shelf_number by lia. discriminate. }
  pose proof (All (Quick Bilinear) Vu 1 Either None false None None shelf_grid shelf [shelf_file] [shelf_point] out out0 0%nat shelf_file shelf_parts 0%nat shelf_point false 10 1 3%nat 20 1 2%nat j i cs0 cs r
      I U Hn eq_refl shelf_nodes_grid shelf_framed H E0 eq_refl Hpa shelf_file_grid Nn eq_refl C0 R0 C1 R1 B Nv) as K.
  destruct Nv as [(Hj & Hi & Zn & _) _]. rewrite Ez in K. assert (Ed : depth_of shelf j i = Some 100 /\ v = (1, 0)).
  { unfold constant_of in Ez. rewrite shelf_depth in * by auto. destruct (Nat.eqb i 2); [|discriminate]. rewrite shelf_number in Ez by auto. injection Ez as <-. auto. }
  destruct Ed as [Ed ->]. rewrite Ed in K. cbn [reported velocity] in K. destruct K as (a' & ph' & Ap' & Er'). cbn [divisor] in Dd. rewrite Er in Er'. cbn [velocity] in Er'. injection Er' as Ea _.
  apply unit_amplitude in Ap. apply unit_amplitude in Ap'. subst a a' d.
  assert (Hd : 100 < 10 ^ 20) by (replace 100 with (10 ^ 2) by ring; apply Rlt_pow; [lra | lia]).
  revert Ea Hd. generalize (10 ^ 20). intros d Ea Hd. apply (f_equal (fun x => x * d)) in Ea. unfold Rdiv in Ea. rewrite !Rmult_1_l, !Rmult_1_r in Ea. rewrite Rinv_mult, Rinv_inv in Ea. rewrite Rinv_r, Rinv_1 in Ea by lra.
  assert (E1 : / d * 100 * d = 100) by (field; lra). lra.
Qed.
Print Assumptions C87_velocity_refuted.

(** ** Concrete cases *)
(** heights at the point on land: nothing without extrapolation, the node's with it *)
Example C87_filled_case : exists out out0 ph,
  extract_reef (Quick Bilinear) Vz 2 (Some None) false None None shelf_grid [shelf_file] [shelf_point] = Ok out /\ aconst out = [[Some (2, ph)]] /\
  extract_reef (Quick Bilinear) Vz 2 None false None None shelf_grid [shelf_file] [shelf_point] = Ok out0 /\ aconst out0 = [[None]].
Proof.
  assert (U : not_cropped false None [shelf_point]) by now left. pose proof (For_z shelf_grid) as Hn. cbn [shelf_grid fz] in Hn. pose proof (Parts_z shelf_file) as Hpa. cbn [shelf_file th] in Hpa.
  assert (Nn : forall j i, (j < 2)%nat -> (i < 3)%nat -> number_of shelf_parts j i <> None) by (intros j i Hj Hi; rewrite shelf_number by auto; discriminate).
  destruct (C87_returns (Quick Bilinear) Vz 2 Either (Some None) false None None shelf_grid shelf [shelf_file] [shelf_point] false 10 1 3 20 1 2 U Hn eq_refl shelf_nodes_grid shelf_framed) as (out & H).
  { intros f [<-|[]]. exists shelf_parts. split; [exact Hpa | apply shelf_file_grid]. }
  { discriminate. } { discriminate. }
  { intros _ p [<-|[]]. unfold shelf_point, placed, node_x, last_of. cbn [fst]. change (IZR (Z.of_nat 3 - 1)) with 2. lra. }
  destruct (C87_filled (Quick Bilinear) Vz 2 Either None false None None shelf_grid shelf [shelf_file] [shelf_point] out 0 shelf_file shelf_parts 0 shelf_point false 10 1 3 20 1 2
      I U Hn eq_refl shelf_nodes_grid shelf_framed H eq_refl Hpa shelf_file_grid Nn eq_refl) as (out0 & cs0 & cs & D & r0 & r & E0 & _ & _ & _ & C0 & R0 & L1 & C1 & L2 & R1 & _ & _ & F).
  assert (r0 = None) as -> by exact (shelf_masked Vz 2 false None None out0 cs0 r0 U E0 Hn Hpa C0 R0).
  assert (B : ~ beyond FES false 10 1 3 20 1 2 (placed Either (fst shelf_point)) (snd shelf_point)).
  { unfold beyond, placed, shelf_point, node_x, node_y, first_of, last_of, behind. cbn [fst snd]. change (IZR (Z.of_nat 3 - 1)) with 2. change (INR (2 - 1)) with 1. change (INR 0) with 0. lra. }
  specialize (F B eq_refl). destruct F as [(j & i & [(Hj & Hi & _) _] & d & _ & v & a & ph & Ez & Ap & Er)|[No _]].
  2:{ exfalso. apply No. exists 0%nat, 2%nat. split; [lia|]. split; [lia|]. split; [|exact I]. unfold constant_of. rewrite shelf_depth by lia. cbn [Nat.eqb]. rewrite shelf_number by lia. discriminate. }
  assert (v = (1, 0)) as ->. { unfold constant_of in Ez. rewrite shelf_depth in Ez by auto. destruct (Nat.eqb i 2); [|discriminate]. rewrite shelf_number in Ez by auto. now injection Ez as <-. }
  apply unit_amplitude in Ap. subst a. cbn [velocity] in Er. rewrite Rmult_1_l in Er. subst r. exists out, out0, ph. split; [exact H|]. split.
  - destruct (aconst out) as [|k [|]]; try discriminate L1. injection C1 as ->. destruct cs as [|k [|]]; try discriminate L2. injection R1 as ->. reflexivity.
  - split; [exact E0|]. rewrite C87_off in E0 by auto.
    destruct (C71_returns Bilinear Vz 2 Either shelf_grid shelf [shelf_file] [shelf_point] false 10 1 3 20 1 2 Hn eq_refl shelf_nodes_grid shelf_framed) as (o & Eo & Lo & _).
    { intros f [<-|[]]. exists shelf_parts. split; [exact Hpa | apply shelf_file_grid]. }
    { discriminate. }
    { intros _ p [<-|[]]. unfold shelf_point, placed, node_x, last_of. cbn [fst]. change (IZR (Z.of_nat 3 - 1)) with 2. lra. }
    rewrite E0 in Eo. apply Ok_inj in Eo as <-. destruct (aconst out0) as [|k [|]] eqn:Ek; try discriminate Lo. injection C0 as ->. f_equal.
    destruct (atlas_inv _ _ _ _ _ _ _ _ _ 0 shelf_file shelf_parts 0 shelf_point _ _ _ _ _ _ _ Hn eq_refl shelf_nodes_grid shelf_framed E0 eq_refl Hpa shelf_file_grid eq_refl) as
      (xi & b & hc & inv & D' & cs1 & r1 & _ & _ & _ & _ & _ & _ & _ & _ & _ & _ & _ & K1 & K2 & _). rewrite Ek in K1. injection K1 as <-. destruct cs0 as [|k [|]]; try discriminate K2. now injection R0 as ->.
Qed.
(** bounds that are all zero do not crop *)
Example C87_off_case : not_cropped true (Some (Limits 0 0 0 0)) [shelf_point] /\ ~ not_cropped true (Some (Limits 0 20 0 0)) [shelf_point] /\ ~ not_cropped true None [shelf_point].
Proof.
  split; [right; cbn [x_min x_max y_min y_max]; repeat split|]. split; intros [K|K]; try discriminate; cbn [x_min x_max y_min y_max] in K.
  - destruct K as (_ & K & _). lra.
  - specialize (K shelf_point (or_introl eq_refl)). injection K as K _. lra.
Qed.
(** an error with extrapolation and without: there are no points *)
Example C87_errors_case : exists e, extract_reef (Quick Spline) Vz 1 (Some None) false None None shelf_grid [shelf_file] [] = Err e.
Proof. eexists. reflexivity. Qed.
