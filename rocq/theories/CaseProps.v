(** C68: where extraction and interpolation of what was read differ, and worked cases. *)
From Coq Require Import Reals List Bool Arith ZArith Lra Lia.
From Verif Require Import PyBase RBase MathModel GeoModel ConvertProps GridModel InterpModel InterpProps ExtractModel ExtractSpec NodeProps ExtractProofs ExtractProps SplineProps ReadProps ReturnProps.
Import ListNotations.
Open Scope R_scope.

(** ** Interpolating by splines from what was read always returns *)
Lemma again_total fwd geo around t k x0 dx nx y0 dy ny g hcs lonlat : model_grid geo around x0 dx nx y0 dy ny g hcs -> kind_of t = Some k -> lonlat <> [] ->
  exists c out c', read_constants geo t g hcs = Ok c /\ interpolate_constants fwd geo Spline t c lonlat = Ok (out, c').
Proof.
  intros M Hk Hne. destruct (read_total _ _ _ _ _ _ _ _ _ _ _ _ M Hk) as (xi & yi & b & fs & Er & Hxi & Hyi & Rb & Nb & Ef). exists (Cons xi yi b fs).
  destruct M as (Ex & Ey & Hx & Hy & Rh & Rm & Rc & _).
  assert (N2 : (2 <= ncols around nx)%nat) by (unfold ncols; destruct around; lia).
  assert (A1 : axis xi) by (eapply evenly_axis; eauto). assert (A2 : axis yi) by (eapply evenly_axis; eauto).
  assert (Lx : length xi = ncols around nx) by apply Hxi. assert (Ly : length yi = ny) by apply Hyi.
  unfold interpolate_constants. cbn [cx cy cbath cfields]. rewrite (axis_min _ A1), (axis_max _ A1). cbn [bind].
  destruct (batch_total geo (nth 0 xi 0) (nth (length xi - 1) xi 0) (map fwd lonlat)) as (pts & Eb & _); [destruct lonlat; [congruence|discriminate]|]. rewrite Eb. cbn [bind].
  destruct (mapM_total (outside_axes xi yi) pts) as (invs & Ei); [intros; now apply outside_total|]. rewrite Ei. cbn [bind].
  destruct (mapM_total (interpolate_depth Spline xi yi b) pts) as (ds & Ed); [intros; apply spline_total; auto; rewrite Lx, Ly; auto|]. rewrite Ed. cbn [bind].
  destruct (points_total (fun q i D => mapM (constant_again Spline xi yi t D i q) fs) (combine pts (combine invs ds))) as (out & Eo).
  { intros q i D _. apply mapM_total. intros f Hf. apply In_nth_error in Hf as (c & Hf).
    assert (Hcl : (c < length hcs)%nat) by (eapply Nat.lt_le_trans; [apply nth_error_Some; rewrite Hf; discriminate|exact (Nat.eq_le_incl _ _ (mapM_len _ _ _ Ef))]).
    destruct (nth_error hcs c) as [hc|] eqn:Eh; [|apply nth_error_None in Eh; lia].
    destruct (fields_entries around ny nx b hcs fs Rb Hx Rc Ef c hc Eh) as (f' & Hf' & Rf & _). assert (f' = f) as -> by congruence.
    unfold constant_again. destruct (spline_total (0, 0) cadd cscale xi yi f q A1 A2) as (h & Eh'); [rewrite Lx, Ly; auto|].
    match goal with |- exists _, bind ?m _ = _ => replace m with (Ok h) by (symmetry; exact Eh') end. cbn [bind]. eauto. }
  exists out. eexists. split; [exact Er|]. destruct t; try discriminate; (match goal with |- bind ?m _ = _ => replace m with (Ok out) by (symmetry; exact Eo) end); reflexivity.
Qed.

(** ** Small grids *)
Definition flat {A} (ny nx : nat) (a : A) : list (list A) := repeat (repeat a nx) ny.
Lemma flat_rect {A} ny nx (a : A) : rect ny nx (flat ny nx a).
Proof. split; [apply repeat_length|]. intros r Hr. apply repeat_spec in Hr as ->. apply repeat_length. Qed.
Lemma flat_entry {A} (d : A) ny nx a j i : (j < ny)%nat -> (i < nx)%nat -> entry d (flat ny nx a) j i = a.
Proof.
  intros Hj Hi. unfold entry, flat. assert (N : forall n m (b : list A) dd, (m < n)%nat -> nth m (repeat b n) dd = b) by (induction n as [|n IH]; intros [|m] b dd L; cbn; auto; try lia; apply IH; lia).
  rewrite N by auto. clear N. revert i Hi. induction nx as [|nx IH]; intros [|i] Hi; cbn; auto; try lia. apply IH. lia.
Qed.
Definition steps (x0 dx : R) (n : nat) : list R := map (fun i => x0 + INR i * dx) (seq 0 n).
Lemma steps_evenly x0 dx n : 0 < dx -> evenly x0 dx n (steps x0 dx n).
Proof. intros H. split; auto. unfold steps. split; [now rewrite map_length, seq_length|]. intros i Hi. now rewrite nth_map_seq. Qed.
(** two by two nodes ten deep *)
Definition pond : grid := Grid (steps 0 1 2) (steps 0 1 2) (flat 2 2 10) (flat 2 2 1%Z).
Definition pond_tide (m : bool) : field := flat 2 2 (Some (1, 0), m).
Lemma pond_model m : model_grid false false 0 1 2 0 1 2 pond [pond_tide m].
Proof.
  unfold model_grid. cbn [gx gy ghz gmz pond].
  split; [apply steps_evenly; lra|]. split; [apply steps_evenly; lra|]. split; [lia|]. split; [lia|]. split; [apply flat_rect|]. split; [apply flat_rect|].
  split; [intros hc [<-|[]]; apply flat_rect|]. right. auto.
Qed.
Definition here (p : R * R) : R * R := p.

(** ** At the southern half of the first cells the velocities are returned from the
    constants that were read but not by extraction (and the western ones likewise) *)
Theorem C68_half_cell_refuted :
  exists g hcs p out c out' c', model_grid false false 0 1 2 0 1 2 g hcs /\
    extract_constants here false Spline VV g hcs [p] = Ok out /\ read_constants false VV g hcs = Ok c /\ interpolate_constants here false Spline VV c [p] = Ok (out', c') /\
    (exists D, out = [(D, [None])]) /\ (exists D r, out' = [(D, [Some r])]).
Proof.
  pose proof (pond_model false) as M. exists pond, [pond_tide false], (1 / 2, - (1 / 4)).
  destruct (C68_returns here false false Spline VV Meridional 0 1 2 0 1 2 pond [pond_tide false] [(1 / 2, - (1 / 4))] M eq_refl) as (out & Eo & Lo); [discriminate|discriminate|].
  destruct (again_total here false false VV Meridional 0 1 2 0 1 2 pond [pond_tide false] [(1 / 2, - (1 / 4))] M eq_refl) as (c & out' & c' & Ec & Ei); [discriminate|].
  exists out, c, out', c'. split; [exact M|]. split; [exact Eo|]. split; [exact Ec|]. split; [exact Ei|].
  destruct (C68_outside here false false Spline VV Meridional 0 1 2 0 1 2 pond [pond_tide false] _ out 0 (1 / 2, - (1 / 4)) (1 / 2) M eq_refl Eo eq_refl) as (D & cs & O1 & O2 & O3).
  { now apply projected. } { left. unfold in_rows, here. cbn [snd]. lra. }
  destruct (C68_again_spline_partial here false false VV Meridional 0 1 2 0 1 2 pond [pond_tide false] [(1 / 2, - (1 / 4))] c out' c' 0 (1 / 2, - (1 / 4)) (1 / 2) (- (1 / 4)) 0 0 M eq_refl) as (D' & cs' & P1 & P2 & P3 & _ & P5); auto; try (cbn; lia).
  - intros hc [<-|[]] j i Hj Hi. unfold pond_tide. rewrite flat_entry by auto. discriminate.
  - now apply projected.
  - left. unfold node_x. cbn [Z.add]. lra.
  - left. unfold node_y. cbn [INR]. lra.
  - discriminate.
  - set (ws := corners _ _ _ _ _ _ _ _ _ _ _) in *.
    assert (K : complete ws).
    { intros q Hq _. unfold ws, corners in Hq. cbn [ghz gmz pond] in Hq. change (column 2 0) with 0%nat in Hq. change (column 2 (0 + 1)) with 1%nat in Hq. unfold water, south in Hq. cbn [pred] in Hq.
      rewrite !flat_entry in Hq by lia. destruct (Rlt_dec 0 10); [|lra]. destruct Hq as [<-|[<-|[<-|[<-|[]]]]]; discriminate. }
    destruct (P5 0%nat _ eq_refl) as (r & R1 & R2 & _). specialize (R2 K). cbv zeta in R2. unfold returned in R2.
    match type of R2 with match ?z with _ => _ end => assert (Z : z = Some (1, 0)) end.
    { unfold corners. change (column 2 0) with 0%nat. change (column 2 (0 + 1)) with 1%nat. unfold pond_tide. rewrite !flat_entry by lia. unfold part. cbn [map fst snd option_map].
      unfold both, mean, weight, total. cbn [map fst snd fold_right]. unfold node_x, node_y. cbn [IZR INR Z.add]. 
      destruct (Req_EM_T _ 0) as [E|_]; [lra|]. f_equal. f_equal; field; lra. }
    rewrite Z in R2. destruct R2 as (a & ph & _ & Er). split.
    + destruct out as [|[D0 cs0] [|? ?]]; cbn in Lo, O1; try discriminate; injection O1 as -> ->.
      destruct cs as [|r0 [|? ?]]; try discriminate O2. exists D. rewrite (O3 0%nat r0 eq_refl). reflexivity.
    + pose proof (interpolate_inv here false Spline VV Meridional c 0 1 2 [(1 / 2, - (1 / 4))] out' c' eq_refl) as L.
      destruct (read_total _ _ _ _ _ _ _ _ _ _ _ _ M (eq_refl : kind_of VV = Some Meridional)) as (xi & yi & b & fs & Er' & Hxi & _).
      rewrite Er' in Ec. apply Ok_inj in Ec as <-. cbn [cx] in L. destruct L as [L _]; auto.
      { replace 0 with (node_x Meridional 0 1 0) by (unfold node_x; cbn; lra). exact Hxi. }
      destruct out' as [|[D0 cs0] [|? ?]]; cbn in L, P1; try discriminate; injection P1 as -> ->.
      destruct cs' as [|r0 [|? ?]]; try discriminate P2. cbn in R1. injection R1 as ->. exists D', (a, ph). rewrite Er. cbn [velocity]. reflexivity.
Qed.
Print Assumptions C68_half_cell_refuted.

Lemma one_result (out : list result) D cs r : length out = 1%nat -> nth_error out 0 = Some (D, cs) -> length cs = 1%nat -> nth_error cs 0 = Some r -> out = [(D, [r])].
Proof.
  intros L1 H1 L2 H2. destruct out as [|x [|? ?]]; try discriminate L1. destruct cs as [|y [|? ?]]; try discriminate L2. cbn in H1, H2. injection H1 as ->. injection H2 as ->. reflexivity.
Qed.
Lemma again_length fwd geo around t k x0 dx nx y0 dy ny g hcs c lonlat out c' me : model_grid geo around x0 dx nx y0 dy ny g hcs -> kind_of t = Some k ->
  read_constants geo t g hcs = Ok c -> interpolate_constants fwd geo me t c lonlat = Ok (out, c') -> length out = length lonlat.
Proof.
  intros M Hk Hc H. destruct (read_total _ _ _ _ _ _ _ _ _ _ _ _ M Hk) as (xi & yi & b & fs & Er & Hxi & _). rewrite Er in Hc. apply Ok_inj in Hc as <-.
  destruct M as (_ & _ & Hx & _). eapply interpolate_inv in H as [L _]; [exact L|exact Hk|exact Hxi|unfold ncols; destruct around; lia].
Qed.

(** ** By splines from what was read the mask of a constituent is not used: values masked
    in the file are returned (extraction masks them) *)
Theorem C68_mask_refuted :
  exists g hcs p out c out' c', model_grid false false 0 1 2 0 1 2 g hcs /\
    (forall hc, In hc hcs -> forall j i, (j < 2)%nat -> (i < 2)%nat -> snd (entry (None, true) hc j i) = true) /\
    extract_constants here false Spline Vz g hcs [p] = Ok out /\ read_constants false Vz g hcs = Ok c /\ interpolate_constants here false Spline Vz c [p] = Ok (out', c') /\
    (exists D, out = [(D, [None])]) /\ (exists D r, out' = [(D, [Some r])]).
Proof.
  pose proof (pond_model true) as M. set (p := (1 / 2, 1 / 2)). exists pond, [pond_tide true], p.
  destruct (C68_returns here false false Spline Vz Heights 0 1 2 0 1 2 pond [pond_tide true] [p] M eq_refl) as (out & Eo & Lo); [discriminate|discriminate|].
  destruct (again_total here false false Vz Heights 0 1 2 0 1 2 pond [pond_tide true] [p] M eq_refl) as (c & out' & c' & Ec & Ei); [discriminate|].
  exists out, c, out', c'. split; [exact M|].
  split; [intros hc [<-|[]] j i Hj Hi; unfold pond_tide; now rewrite flat_entry|]. split; [exact Eo|]. split; [exact Ec|]. split; [exact Ei|].
  assert (Hv : forall hc, In hc [pond_tide true] -> forall j i, (j < 2)%nat -> (i < 2)%nat -> fst (entry (None, true) hc j i) <> None).
  { intros hc [<-|[]] j i Hj Hi. unfold pond_tide. rewrite flat_entry by auto. discriminate. }
  assert (Bx : bracket (0 + 1 = last_column false 2)%Z (node_x Heights 0 1 0) (node_x Heights 0 1 (0 + 1)) (1 / 2)) by (left; unfold node_x; cbn [Z.add]; lra).
  assert (By : bracket (2 = 2)%nat (node_y Heights 0 1 0) (node_y Heights 0 1 1) (1 / 2)) by (left; unfold node_y; cbn [INR]; lra).
  destruct (C68_spline_partial here false false Vz Heights 0 1 2 0 1 2 pond [pond_tide true] [p] out 0 p (1 / 2) (1 / 2) 0 0 M eq_refl Hv Eo eq_refl) as (D & cs & O1 & O2 & _ & _ & O3).
  { now apply projected. } { reflexivity. } { unfold reach. cbn. lra. } { unfold in_rows. cbn. lra. } { cbn; lia. } { cbn; lia. } { lia. }
  { replace (Rmin _ _) with (1 / 2); [exact Bx|]. symmetry. apply Rmin_right. unfold node_x, last_column. cbn. lra. }
  { replace (Rmin _ _) with (1 / 2); [exact By|]. symmetry. apply Rmin_right. unfold node_y. cbn. lra. } { discriminate. }
  destruct (C68_again_spline_partial here false false Vz Heights 0 1 2 0 1 2 pond [pond_tide true] [p] c out' c' 0 p (1 / 2) (1 / 2) 0 0 M eq_refl Hv Ec Ei eq_refl) as (D' & cs' & P1 & P2 & P3 & _ & P5).
  { now apply projected. } { reflexivity. } { cbn; lia. } { cbn; lia. } { lia. } { exact Bx. } { exact By. } { discriminate. }
  split.
  - destruct (O3 0%nat _ eq_refl) as (r & R1 & _ & R2). exists D. apply (one_result out D cs None); auto. rewrite R1. f_equal. apply R2. clear. intros K.
    match type of K with complete (corners ?k ?a ?b ?c ?d ?n ?x ?y ?i ?j ?f) => specialize (K ((node_x k a b (i + 1) - x) * (node_y k c d (S j) - y), f j (column n i)) (or_introl eq_refl)) end.
    rewrite !Rmin_right in K by (unfold node_x, node_y, last_column; cbn; lra). cbn [fst snd] in K. apply K.
    + unfold node_x, node_y. cbn [Z.add INR]. lra.
    + unfold pond_tide. rewrite flat_entry by (cbn; lia). unfold number. now destruct (water _ _ _ _ _ _ _).
  - clear O3. set (ws := corners _ _ _ _ _ _ _ _ _ _ _) in *.
    assert (K : complete ws).
    { intros q Hq _. unfold ws, corners in Hq. cbn [ghz gmz pond] in Hq. change (column 2 0) with 0%nat in Hq. change (column 2 (0 + 1)) with 1%nat in Hq. unfold water in Hq.
      rewrite !flat_entry in Hq by lia. destruct (Req_EM_T 10 0); [lra|]. destruct Hq as [<-|[<-|[<-|[<-|[]]]]]; discriminate. }
    destruct (P5 0%nat _ eq_refl) as (r & R1 & R2 & _). specialize (R2 K). cbv zeta in R2. unfold returned in R2.
    match type of R2 with match ?z with _ => _ end => assert (Z : z = Some (1, 0)) end.
    { unfold corners. change (column 2 0) with 0%nat. change (column 2 (0 + 1)) with 1%nat. unfold pond_tide. rewrite !flat_entry by lia. unfold part. cbn [map fst snd option_map].
      unfold both, mean, weight, total. cbn [map fst snd fold_right]. unfold node_x, node_y. cbn [IZR INR Z.add].
      destruct (Req_EM_T _ 0) as [E|_]; [lra|]. f_equal. f_equal; field; lra. }
    rewrite Z in R2. destruct R2 as (a & ph & _ & Er). exists D', (a, ph). apply (one_result out' D' cs' (Some (a, ph))); auto.
    + exact (again_length here false false Vz Heights 0 1 2 0 1 2 pond [pond_tide true] c [p] out' c' Spline M eq_refl Ec Ei).
    + rewrite R1, Er. reflexivity.
Qed.
Print Assumptions C68_mask_refuted.

(** ** Cases *)
(** three by three nodes, one on land *)
Definition bay : grid := Grid (steps 0 1 3) (steps 0 1 3) [[0; 20; 10]; [30; 40; 10]; [10; 10; 10]] (flat 3 3 1%Z).
Definition bay_tide : field := flat 3 3 (Some (3, - 4), false).
Lemma bay_model : model_grid false false 0 1 3 0 1 3 bay [bay_tide].
Proof.
  unfold model_grid. cbn [gx gy ghz gmz bay].
  split; [apply steps_evenly; lra|]. split; [apply steps_evenly; lra|]. split; [lia|]. split; [lia|]. split; [split; [reflexivity|]; intros r [<-|[<-|[<-|[]]]]; reflexivity|]. split; [apply flat_rect|].
  split; [intros hc [<-|[]]; apply flat_rect|]. right. auto.
Qed.
Example C68_case : exists ph, extract_constants here false Bilinear Vz bay [bay_tide] [(1 / 2, 1 / 2)] = Ok [((Some 30, false), [Some (5, ph)])] /\ 0 < ph < 360.
Proof.
  pose proof bay_model as M. set (p := (1 / 2, 1 / 2)).
  destruct (C68_returns here false false Bilinear Vz Heights 0 1 3 0 1 3 bay [bay_tide] [p] M eq_refl) as (out & Eo & Lo); [discriminate| |].
  { intros _ q x [<-|[]] C. inversion C as [D|D|D|D|D]; try discriminate D. unfold node_x, last_column, p, here. cbn. lra. }
  destruct (C68_cell_partial here false false Vz Heights 0 1 3 0 1 3 bay [bay_tide] [p] out 0 p (1 / 2) (1 / 2) 0 0 M eq_refl Eo eq_refl) as (cs & O1 & O2 & O3).
  { now apply projected. } { reflexivity. } { unfold reach. cbn. lra. } { unfold in_rows. cbn. lra. } { cbn; lia. } { cbn; lia. } { lia. }
  { unfold between_nodes, node_x, node_y. cbn [Z.add INR]. lra. }
  { unfold at_node, ExtractSpec.close, node_x, node_y. cbn [Z.add INR]. intros [[K|K] _]; revert K; [rewrite (Rabs_pos_eq (0 + 0 * 1)) by lra; rewrite Rabs_pos_eq by lra; lra|].
    rewrite (Rabs_pos_eq (0 + 1 * 1)) by lra. rewrite Rabs_left by lra. lra. }
  { discriminate. }
  destruct (O3 0%nat _ eq_refl) as (r & R1 & R2). cbv zeta in O1, R2. rewrite Eo. 
  match type of O1 with _ = Some ((?d, _), _) => assert (Ed : d = Some 30) end.
  { unfold corners. cbn [ghz gmz bay]. change (column 3 0) with 0%nat. change (column 3 (0 + 1)) with 1%nat. unfold water, entry. cbn [nth flat repeat].
    destruct (Req_EM_T 0 0) as [_|N]; [|lra]. destruct (Req_EM_T 20 0); [lra|]. destruct (Req_EM_T 30 0); [lra|]. destruct (Req_EM_T 40 0); [lra|]. cbn [Z.eqb].
    unfold mean, weight, total, node_x, node_y. cbn [map fst snd fold_right Z.add INR]. destruct (Req_EM_T _ 0) as [E|_]; [lra|]. f_equal. field. }
  rewrite Ed in O1, R2.
  match type of R2 with returned _ _ ?z _ => assert (Z : z = Some (3, - 4)) end.
  { unfold corners. cbn [ghz gmz bay]. change (column 3 0) with 0%nat. change (column 3 (0 + 1)) with 1%nat. unfold bay_tide. rewrite !flat_entry by lia. unfold water, entry. cbn [nth flat repeat].
    destruct (Req_EM_T 0 0) as [_|N]; [|lra]. destruct (Req_EM_T 20 0); [lra|]. destruct (Req_EM_T 30 0); [lra|]. destruct (Req_EM_T 40 0); [lra|]. cbn [Z.eqb tide].
    destruct (Req_EM_T 3 0); [lra|]. unfold both, mean, weight, total, part, node_x, node_y. cbn [map fst snd fold_right option_map Z.add INR].
    destruct (Req_EM_T _ 0) as [E|_]; [lra|]. f_equal. f_equal; field; lra. }
  rewrite Z in R2. unfold returned in R2. destruct R2 as (a & ph & (P1 & P2 & P3 & P4) & Er). cbn [fst snd velocity] in *.
  assert (Sq : a * a = 25).
  { pose proof (sin2_cos2 (ph * PI / 180)) as T. unfold Rsqr in T. replace (a * a) with ((a * sin (ph * PI / 180)) * (a * sin (ph * PI / 180)) + (a * cos (ph * PI / 180)) * (a * cos (ph * PI / 180))) by (rewrite <- (Rmult_1_r (a * a)), <- T; ring).
    rewrite <- P3. replace (a * sin (ph * PI / 180)) with 4 by lra. lra. }
  assert (A5 : a = 5) by nra. exists ph. split.
  - f_equal. rewrite <- A5 at 1. rewrite Er in R1. exact (one_result out _ _ _ Lo O1 O2 R1).
  - split; [|lra]. destruct P2 as [[K|K] _]; auto. exfalso. subst ph. replace (0 * PI / 180) with 0 in P4 by lra. rewrite sin_0 in P4. lra.
Qed.
(** a globe of four columns: a point alone has its constants, but not together with
    another just west of Greenwich *)
Definition globe : grid := Grid (steps 45 90 4) (steps 0 1 2) (flat 2 4 100) (flat 2 4 1%Z).
Definition globe_tide : field := flat 2 4 (Some (1, 0), false).
Lemma globe_model : model_grid true true 45 90 4 0 1 2 globe [globe_tide].
Proof.
  unfold model_grid. cbn [gx gy ghz gmz globe].
  split; [apply steps_evenly; lra|]. split; [apply steps_evenly; lra|]. split; [lia|]. split; [lia|]. split; [apply flat_rect|]. split; [apply flat_rect|].
  split; [intros hc [<-|[]]; apply flat_rect|]. left. cbn [INR]. split; auto. split; auto. lra.
Qed.
Example C68_seam_case : exists out D D' r,
  extract_constants here true Spline Vz globe [globe_tide] [(- 30, 1 / 2); (- 120, 1 / 2)] = Ok out /\ nth_error out 1 = Some (D, [None]) /\
  extract_constants here true Spline Vz globe [globe_tide] [(- 120, 1 / 2)] = Ok [(D', [Some r])].
Proof.
  pose proof globe_model as M.
  destruct (C68_returns here true true Spline Vz Heights 45 90 4 0 1 2 globe [globe_tide] [(- 30, 1 / 2); (- 120, 1 / 2)] M eq_refl) as (out & Eo & Lo); [discriminate|discriminate|].
  destruct (C68_returns here true true Spline Vz Heights 45 90 4 0 1 2 globe [globe_tide] [(- 120, 1 / 2)] M eq_refl) as (out' & Eo' & Lo'); [discriminate|discriminate|].
  assert (C2 : convention true 45 (45 + INR (4 - 1) * 90) (map (fun p => fst (here p)) [(- 30, 1 / 2); (- 120, 1 / 2)]) (- 120) (- 120)).
  { replace (- 120) with (westward (eastward (- 120))) at 3.
    - apply to_both; auto; exists (- 30); cbn [map here fst In]; split; auto; [lra|]. unfold eastward. destruct (Rlt_dec (- 30) 0); [|lra]. cbn [Nat.sub INR]. lra.
    - unfold westward, eastward. destruct (Rlt_dec (- 120) 0); [|lra]. destruct (Rlt_dec 180 _); lra. }
  destruct (C68_outside here true true Spline Vz Heights 45 90 4 0 1 2 globe [globe_tide] _ out 1 (- 120, 1 / 2) (- 120) M eq_refl Eo eq_refl C2) as (D & cs & O1 & O2 & O3).
  { right. unfold reach. lra. }
  assert (E240 : eastward (- 120) = 240) by (unfold eastward; destruct (Rlt_dec (- 120) 0); lra).
  assert (C1 : convention true 45 (45 + INR (4 - 1) * 90) (map (fun p => fst (here p)) [(- 120, 1 / 2)]) (- 120) 240).
  { rewrite <- E240. apply to_east; auto; [exists (- 120); cbn [map here fst In]; split; auto; lra|]. cbn [map here fst In]. intros a [<-|[]]. rewrite E240. cbn [Nat.sub INR]. lra. }
  destruct (C68_spline_partial here true true Vz Heights 45 90 4 0 1 2 globe [globe_tide] [(- 120, 1 / 2)] out' 0 (- 120, 1 / 2) 240 (1 / 2) 2 0 M eq_refl) as (D' & cs' & P1 & P2 & P3 & P4 & P5); auto.
  { intros hc [<-|[]] j i Hj Hi. unfold globe_tide. rewrite flat_entry by auto. discriminate. }
  { unfold reach. cbn [INR]. lra. } { unfold in_rows. cbn [Nat.sub INR snd]. lra. } { cbn; lia. } { cbn; lia. }
  { left. rewrite Rmin_right by (unfold node_x, last_column; cbn [Z.of_nat Pos.of_succ_nat Pos.succ]; lra). unfold node_x. cbn [Z.add]. change (2 + 1)%positive with 3%positive. cbn. lra. }
  { left. rewrite Rmin_right by (unfold node_y; cbn [Nat.sub INR]; lra). unfold node_y. cbn [INR]. lra. }
  cbv zeta in P3, P4, P5. rewrite !Rmin_right in P3, P4, P5 by (unfold node_x, node_y, last_column; cbn; lra).
  destruct (P5 0%nat _ eq_refl) as (r & R1 & R2 & _). 
  match type of R2 with complete ?z -> _ => assert (K : complete z) end.
  { unfold corners. cbn [ghz gmz globe]. change (column 4 2) with 2%nat. change (column 4 (2 + 1)) with 3%nat. unfold water, globe_tide. rewrite !flat_entry by lia.
    destruct (Req_EM_T 100 0); [lra|]. intros q Hq _. destruct Hq as [<-|[<-|[<-|[<-|[]]]]]; discriminate. }
  specialize (R2 K). unfold returned in R2.
  match type of R2 with match ?z with _ => _ end => assert (Z : z = Some (1, 0)) end.
  { unfold corners. cbn [ghz gmz globe]. change (column 4 2) with 2%nat. change (column 4 (2 + 1)) with 3%nat. unfold water, globe_tide. rewrite !flat_entry by lia.
    destruct (Req_EM_T 100 0); [lra|]. cbn [Z.eqb number]. unfold both, mean, weight, total, part, node_x, node_y. cbn [map fst snd fold_right option_map INR]. change (2 + 1)%Z with 3%Z.
    destruct (Req_EM_T _ 0) as [E|_]; [lra|]. f_equal. f_equal; field; lra. }
  rewrite Z in R2. destruct R2 as (a & ph & _ & Er). exists out, D, D', (a, ph). split; [exact Eo|]. split.
  - destruct cs as [|r0 [|? ?]]; try discriminate O2. rewrite (O3 0%nat r0 eq_refl) in O1. exact O1.
  - rewrite Eo'. f_equal. rewrite Er in R1. exact (one_result out' D' cs' _ Lo' P1 P2 R1).
Qed.
(** constants read once and interpolated: the same as extracted *)
Example C68_read_case : exists out c out' c', extract_constants here false Spline Vz pond [pond_tide false] [(1 / 4, 1 / 2)] = Ok out /\
  read_constants false Vz pond [pond_tide false] = Ok c /\ interpolate_constants here false Spline Vz c [(1 / 4, 1 / 2)] = Ok (out', c') /\
  length out = 1%nat /\ map snd out' = map snd out.
Proof.
  pose proof (pond_model false) as M. set (p := (1 / 4, 1 / 2)).
  destruct (C68_returns here false false Spline Vz Heights 0 1 2 0 1 2 pond [pond_tide false] [p] M eq_refl) as (out & Eo & Lo); [discriminate|discriminate|].
  destruct (again_total here false false Vz Heights 0 1 2 0 1 2 pond [pond_tide false] [p] M eq_refl) as (c & out' & c' & Ec & Ei); [discriminate|].
  exists out, c, out', c'. split; [exact Eo|]. split; [exact Ec|]. split; [exact Ei|]. split; [exact Lo|].
  destruct (C68_read_heights here false false Spline 0 1 2 0 1 2 pond [pond_tide false] [p] out c out' c' M) as [L V]; auto; [discriminate| |].
  - intros _ hc [<-|[]] j i Hj Hi. unfold pond_tide. rewrite flat_entry by auto. discriminate.
  - destruct out as [|r [|? ?]]; try discriminate Lo. destruct out' as [|r' [|? ?]]; try discriminate L.
    destruct (V 0%nat r eq_refl) as (r'' & E & _ & S'). cbn in E. injection E as <-. cbn [map]. now rewrite S'.
Qed.
