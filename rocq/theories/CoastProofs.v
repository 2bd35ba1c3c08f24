(** Lemmas for C85. *)
From Coq Require Import Reals List Bool Arith ZArith Lra Lia.
From Verif Require Import PyBase RBase MathModel GeoModel ConvertProps GridModel InterpModel InterpProps ExtrapProps ExtractModel ExtractSpec NodeProps ExtractProofs ExtractProps SplineProps ReturnProps SeriesModel RegularModel CropModel ShoreModel ShoreSpec ShoreProofs CoastModel CoastSpec.
From Verif Require MaskModel.
Import ListNotations.
Open Scope R_scope.

(** ** Distances *)
Lemma coord_le_of geo p q k : Rabs (nth k (coords_of geo p) 0 - nth k (coords_of geo q) 0) <= dist3 p q.
Proof.
  destruct geo; [apply coord_le3|]. destruct k as [|[|k]]; cbn [coords_of nth].
  - exact (coord_le3 p q 0).
  - exact (coord_le3 p q 1).
  - destruct k; cbn [nth]; rewrite Rminus_diag_eq, Rabs_R0 by reflexivity; unfold dist3; apply sqrt_pos.
Qed.
Lemma apart_dist geo p q : dist3 (place geo p) (place geo q) = apart geo p q.
Proof.
  destruct geo; [apply chord_dist|]. unfold dist3, place, apart. cbn [vx vy vz]. f_equal. ring.
Qed.
(** ** The tree *)
Lemma ask_near geo (c : bound) nodes queries q : cutoff_ok c -> In q queries ->
  let near := filter (fun n => sound (snd n) && in_bounds (coords_of geo) c queries (fst n)) nodes in
  (exists n, ask c q near = Some n /\ In n nodes /\ sound (snd n) = true /\ below (dist3 q (fst n)) c /\
     forall m, In m nodes -> sound (snd m) = true -> below (dist3 q (fst m)) c -> dist3 q (fst n) <= dist3 q (fst m)) \/
  (~ exists n, In n nodes /\ sound (snd n) = true /\ below (dist3 q (fst n)) c) /\ ask c q near = None.
Proof.
  intros Hc Iq near.
  assert (Near : forall n, In n near -> In n nodes /\ sound (snd n) = true) by (intros n H; apply filter_In in H as [H K]; apply andb_true_iff in K as [K _]; auto).
  assert (Near' : forall n, In n nodes -> sound (snd n) = true -> below (dist3 q (fst n)) c -> In n near).
  { intros n H V B. apply filter_In. split; auto. apply andb_true_iff. split; auto. eapply (in_bounds_near dist3 (coords_of geo) (coord_le_of geo)); eauto. }
  unfold ask. destruct (closest q near) as [m|] eqn:E.
  - apply closest_in in E as [Im Lm]. destruct (Near m Im) as [Xm Ym]. destruct (InterpModel.within (dist3 q (fst m)) c) eqn:W.
    + left. exists m. apply within_iff in W. repeat (split; [auto|]). auto.
    + right. split; [|reflexivity]. intros (n & I & Vn & B). specialize (Lm n (Near' n I Vn B)).
      assert (Bm : below (dist3 q (fst m)) c) by (destruct c; cbn in *; auto; lra). apply within_iff in Bm. congruence.
  - right. split; [|reflexivity]. intros (n & I & Vn & B). apply closest_none in E. pose proof (Near' n I Vn B) as In_n. rewrite E in In_n. contradiction.
Qed.
Lemma mesh_of_in geo xi yi hc n ny nl : length yi = ny -> length xi = nl -> rect ny nl hc ->
  (In n (mesh_of geo xi yi hc) <-> exists k j, (k < nl)%nat /\ (j < ny)%nat /\ n = (place geo (nth k xi 0, nth j yi 0), entry (None, true) hc j k)).
Proof.
  intros L1 L2 [Rl Rr]. unfold mesh_of. rewrite in_flat_map. split.
  - intros ([y r] & Hr & Hn). cbn [fst snd] in Hn. apply in_map_iff in Hn as ([x c] & <- & Hc). cbn [fst snd].
    apply (in_combine_nth yi hc 0 []) in Hr as (j & Hj & -> & ->); [|lia].
    apply (in_combine_nth _ _ 0 (None, true)) in Hc as (i & Hi & -> & ->).
    + exists i, j. unfold entry. repeat split; auto; lia.
    + rewrite Rr; auto. apply nth_In. lia.
  - intros (i & j & Hi & Hj & ->). exists (nth j yi 0, nth j hc []). split.
    + apply (in_combine_nth yi hc 0 []); [lia|]. exists j. repeat split; auto; lia.
    + cbn [fst snd]. apply in_map_iff. exists (nth i xi 0, nth i (nth j hc []) (None, true)). split; [reflexivity|].
      apply (in_combine_nth _ _ 0 (None, true)); [|exists i; repeat split; auto; lia]. rewrite Rr; auto. apply nth_In. lia.
Qed.
Definition reply (geo : bool) (c : bound) (q : R * R) (near : list (vec * gcell cpx)) : gcell cpx * bool :=
  match ask c (place geo q) near with Some n => ((fst (snd n), false), false) | None => ((None, true), true) end.
Lemma fill_points_length geo c xi yi hc pts hs : length (fill_points geo c xi yi hc pts hs) = length hs.
Proof. unfold fill_points. destruct (existsb snd hs); auto. apply put_length. Qed.
Lemma fill_points_nth geo c xi yi hc pts hs n q h b : length pts = length hs -> nth_error pts n = Some q -> nth_error hs n = Some (h, b) ->
  exists near queries, near = filter (fun n => sound (snd n) && in_bounds (coords_of geo) c queries (fst n)) (mesh_of geo xi yi (drop_invalid hc)) /\ (b = true -> In (place geo q) queries) /\
  nth_error (fill_points geo c xi yi hc pts hs) n = Some (if b then reply geo c q near else (h, false)).
Proof.
  intros L Hn Hh. set (asked := map fst (filter snd (combine pts (map snd hs)))).
  exists (filter (fun n => sound (snd n) && in_bounds (coords_of geo) c (map (place geo) asked) (fst n)) (mesh_of geo xi yi (drop_invalid hc))), (map (place geo) asked). split; [reflexivity|]. split.
  - intros ->. apply in_map. unfold asked. apply in_map_iff. exists (q, true). split; auto. apply filter_In. split; auto.
    clear asked. revert pts n L Hn Hh. induction hs as [|[h' b'] hs IH]; intros [|q' pts] n L Hn Hh; try (destruct n; discriminate). cbn [length] in L. injection L as L.
    destruct n as [|n]; cbn [nth_error] in *; [injection Hn as ->; injection Hh as -> ->; now left|]. right. eapply IH; eauto.
  - unfold fill_points. destruct (existsb snd hs) eqn:E.
    + unfold extrapolated_from. fold asked. rewrite map_map.
      match goal with |- context [map ?g asked] => pose proof (put_nth g hs pts n q h b L Hn Hh) as P end. fold asked in P. cbv beta in P. etransitivity; [exact P|]. destruct b; [|reflexivity]. unfold reply. destruct (ask _ _ _); reflexivity.
    + destruct b; [|now rewrite Hh]. exfalso. apply nth_error_In in Hh. assert (K : existsb snd hs = true) by (apply existsb_exists; exists (h, true); auto). congruence.
Qed.

(** ** One constituent *)
Lemma constituent_values_nth geo w t ex xi yi hc pps cs n q inv D : constituent_values geo w t ex xi yi hc pps = Ok cs -> nth_error pps n = Some (q, (inv, D)) ->
  exists h, constant_by w xi yi hc q = Ok h /\
    (ex = None -> nth_error cs n = Some (value_at t inv D (h, masked_by w D h))) /\
    forall c, ex = Some c -> exists near queries,
      near = filter (fun n => sound (snd n) && in_bounds (coords_of geo) c queries (fst n)) (mesh_of geo xi yi (drop_invalid hc)) /\ (masked_by w D h = true -> In (place geo q) queries) /\
      nth_error cs n = Some (value_at t inv D (if masked_by w D h then reply geo c q near else (h, false))).
Proof.
  unfold constituent_values. destruct (mapM _ pps) as [hs|] eqn:E; [|discriminate]. cbn [bind]. intros H Hn. apply Ok_inj in H as <-.
  destruct (mapM_nth _ _ _ _ _ E Hn) as (r & R1 & R2). cbn [fst snd] in R1. destruct (constant_by w xi yi hc q) as [h|]; [|discriminate]. cbn [bind] in R1. apply Ok_inj in R1 as <-.
  exists h. split; [reflexivity|]. apply mapM_len in E. split.
  - intros ->. pose proof (nth_error_combine _ _ _ _ _ Hn R2) as K. apply (map_nth_error (fun p => value_at t (fst (snd (fst p))) (snd (snd (fst p))) (snd p))) in K. exact K.
  - intros c ->. destruct (fill_points_nth geo c xi yi hc (map fst pps) hs n q h (masked_by w D h)) as (near & queries & En & Iq & F); [rewrite map_length; lia | apply (map_nth_error fst) in Hn; exact Hn | exact R2 |].
    exists near, queries. split; [exact En|]. split; [exact Iq|].
    pose proof (nth_error_combine _ _ _ _ _ Hn F) as K. apply (map_nth_error (fun p => value_at t (fst (snd (fst p))) (snd (snd (fst p))) (snd p))) in K. exact K.
Qed.
Lemma constituent_values_len geo w t ex xi yi hc pps cs : constituent_values geo w t ex xi yi hc pps = Ok cs -> length cs = length pps.
Proof.
  unfold constituent_values. destruct (mapM _ pps) as [hs|] eqn:E; [|discriminate]. cbn [bind]. intros H. apply Ok_inj in H as <-. apply mapM_len in E.
  destruct ex; rewrite map_length, combine_length, ?fill_points_length; lia.
Qed.
(** the option never makes a difference to errors *)
Lemma constituent_values_err geo w t ex xi yi hc pps x : constituent_values geo w t ex xi yi hc pps = Err x <-> constituent_values geo w t None xi yi hc pps = Err x.
Proof. unfold constituent_values. destruct (mapM _ pps); cbn [bind]; split; intros H; try discriminate; auto. Qed.

(** ** Numbers *)
Definition all_of {V} (m : list (list (gcell V))) : Prop := forall r c, In r m -> In c r -> fst c <> None.
Lemma gget2_of {V} (m : list (list (gcell V))) iy ix c : all_of m -> gget2 m iy ix = Ok c -> fst c <> None.
Proof.
  intros N H. unfold gget2, get1 in H. destruct (nth_error m iy) as [r|] eqn:E1; [|discriminate]. cbn [bind] in H.
  destruct (nth_error r ix) as [c'|] eqn:E2; [|discriminate]. apply Ok_inj in H as <-. apply (N r c'); eapply nth_error_In; eauto.
Qed.
Lemma gspline_of {V} (z : V) add scale lon lat hc q h : all_of hc -> gspline_point z add scale lon lat hc q = Ok h -> fst h <> None.
Proof.
  intros N. unfold gspline_point. destruct (negb _); [discriminate|].
  destruct (amin lon); [|discriminate]. destruct (amax lon); [|discriminate]. destruct (amin lat); [|discriminate]. destruct (amax lat); [|discriminate]. cbn [bind].
  destruct (get1 lon _); [|discriminate]. destruct (get1 lon _); [|discriminate]. destruct (get1 lat _); [|discriminate]. destruct (get1 lat _); [|discriminate]. cbn [bind].
  match goal with |- bind (gget2 ?a ?b ?c) _ = _ -> _ => destruct (gget2 a b c) as [c00|] eqn:E0; [|discriminate] end. cbn [bind].
  apply (gget2_of _ _ _ _ N) in E0. destruct c00 as [[c00|] m0]; [|now contradiction E0]. clear E0.
  match goal with |- bind (gget2 ?a ?b ?c) _ = _ -> _ => destruct (gget2 a b c) as [c01|] eqn:E1; [|discriminate] end. cbn [bind].
  apply (gget2_of _ _ _ _ N) in E1. destruct c01 as [[c01|] m1]; [|now contradiction E1]. clear E1.
  match goal with |- bind (gget2 ?a ?b ?c) _ = _ -> _ => destruct (gget2 a b c) as [c10|] eqn:E2; [|discriminate] end. cbn [bind].
  apply (gget2_of _ _ _ _ N) in E2. destruct c10 as [[c10|] m2]; [|now contradiction E2]. clear E2.
  match goal with |- bind (gget2 ?a ?b ?c) _ = _ -> _ => destruct (gget2 a b c) as [c11|] eqn:E3; [|discriminate] end. cbn [bind].
  apply (gget2_of _ _ _ _ N) in E3. destruct c11 as [[c11|] m3]; [|now contradiction E3]. clear E3.
  intros H. apply Ok_inj in H as <-. cbn [forallb fst andb]. discriminate.
Qed.
Lemma gregular_of {V} (z : V) add scale me lon lat hc q h : all_of hc -> gregular_point z add scale me lon lat hc q = Ok h -> fst h <> None \/ h = (None, true) /\ outside_axes lon lat q = Ok true.
Proof.
  intros N H. unfold gregular_point in H. destruct (negb _); [discriminate|]. destruct (outside_axes lon lat q) as [out|]; [|discriminate]. cbn [bind] in H. destruct me; [| |discriminate].
  - destruct out; [apply Ok_inj in H as <-; now right|]. left. eapply gspline_of; eauto.
  - destruct out; [apply Ok_inj in H as <-; now right|]. destruct (MaskModel.nearer _ _); [|discriminate]. destruct (MaskModel.nearer _ _); [|discriminate]. cbn [bind] in H.
    left. eapply gget2_of; eauto.
Qed.
Lemma gregular_outside {V} (z : V) add scale me lon lat hc q h : outside_axes lon lat q = Ok true -> gregular_point z add scale me lon lat hc q = Ok h -> h = (None, true).
Proof. intros O H. unfold gregular_point in H. destruct (negb _); [discriminate|]. rewrite O in H. cbn [bind] in H. destruct me; try discriminate; now apply Ok_inj in H as <-. Qed.
(** a constant that is not masked is a number *)
Lemma constant_by_number w xi yi hc b q h D : w = Quick Bilinear \/ all_of hc -> constant_by w xi yi hc q = Ok h -> depth_by w xi yi b q = Ok D -> masked_by w D h = false -> fst h <> None.
Proof.
  intros N H HD V. destruct w as [[|]|me]; cbn [constant_by depth_by masked_by] in *; apply orb_false_iff in V as [V VD].
  - unfold is_nan in V. destruct (fst h); congruence.
  - destruct N as [N|N]; [discriminate|]. exact (gspline_of _ _ _ _ _ _ _ _ N H).
  - destruct N as [N|N]; [discriminate|]. destruct (gregular_of _ _ _ _ _ _ _ _ _ N H) as [G|[-> O]]; auto.
    rewrite (gregular_outside _ _ _ _ _ _ _ _ _ O HD) in VD. discriminate.
Qed.
(** a depth that is not masked is a number *)
Lemma depth_by_number w xi yi b q D : all_of b -> depth_by w xi yi b q = Ok D -> snd D = false -> fst D <> None.
Proof.
  intros N H V. destruct w as [[|]|me]; cbn [depth_by extract_depth] in H.
  - destruct (rbilinear _ _ _ q) as [d|]; [|discriminate]. cbn [bind] in H. apply Ok_inj in H as <-. cbn [fst snd] in *. apply orb_false_iff in V as [_ V]. unfold is_nan in V. destruct (fst d); congruence.
  - exact (gspline_of _ _ _ _ _ _ _ _ N H).
  - destruct (gregular_of _ _ _ _ _ _ _ _ _ N H) as [G|[-> _]]; auto. discriminate.
Qed.

(** ** The nodes of a layer *)
Lemma apart_turns x y t p : apart true p (x + 360 * IZR t, y) = apart true p (x, y).
Proof. cbn [apart]. apply chord_turns_node. Qed.
Section Layer.
  Variables (geo around : bool) (k : kind) (x0 dx y0 dy : R) (nx ny : nat) (xi yi : list R) (w : nat -> nat -> option R) (b : list (list (gcell R))) (hc f : field).
  Hypothesis Hx : (2 <= nx)%nat.
  Hypothesis Hxi : evenly (node_x k (if around then x0 - dx else x0) dx 0) dx (ncols around nx) xi.
  Hypothesis Hyi : evenly (node_y k y0 dy 0) dy ny yi.
  Hypothesis Round : around = true -> geo = true /\ INR nx * dx = 360.
  Hypothesis Rf : rect ny (ncols around nx) f.
  Hypothesis Nb : forall j e, (j < ny)%nat -> (e < ncols around nx)%nat -> depth_entry (w j (col around nx e)) (entry (None, true) b j e).
  Hypothesis Nf : forall j e, (j < ny)%nat -> (e < ncols around nx)%nat ->
    entry (None, true) f j e = (fst (entry (None, true) hc j (col around nx e)), snd (entry (None, true) hc j (col around nx e)) || snd (entry (None, true) b j e)).
  Let z := fun j i => tide (w j i) (entry (None, true) hc j i).
  Lemma layer_column e : (e < ncols around nx)%nat -> (col around nx e < nx)%nat /\
    forall j p, (j < ny)%nat -> apart geo p (nth e xi 0, nth j yi 0) = apart geo p (node_of k x0 dx y0 dy j (col around nx e)).
  Proof.
    intros He. assert (Lt : (col around nx e < nx)%nat).
    { unfold col, ncols in *. destruct around; [|lia]. destruct e as [|e]; [lia|]. destruct (Nat.eqb e nx) eqn:K; [lia|]. apply Nat.eqb_neq in K. lia. }
    split; [exact Lt|]. intros j p Hj. rewrite (node_y_nth k y0 dy ny yi j) by auto. destruct Hxi as (_ & _ & Ex). rewrite Ex by auto. unfold node_of.
    destruct around eqn:A.
    - destruct (Round eq_refl) as [-> E]. set (i := (Z.of_nat e - 1)%Z).
      assert (T : exists r, node_x k (x0 - dx) dx 0 + INR e * dx = node_x k x0 dx (Z.of_nat (col true nx e)) + 360 * IZR r).
      { unfold col, ncols in *. destruct e as [|e].
        - exists (-1)%Z. unfold node_x. rewrite Nat2Z.inj_sub, minus_IZR, <- INR_IZR_INZ by lia. rewrite <- E. destruct k; cbn [INR]; change (IZR (Z.of_nat 1)) with 1; lra.
        - rewrite S_INR. destruct (Nat.eqb e nx) eqn:K.
          + apply Nat.eqb_eq in K. subst e. exists 1%Z. rewrite <- E. unfold node_x. destruct k; change (Z.of_nat 0) with 0%Z; lra.
          + exists 0%Z. unfold node_x. rewrite <- INR_IZR_INZ. destruct k; lra. }
      destruct T as [r ->]. apply apart_turns.
    - do 2 f_equal. unfold col, node_x. rewrite <- INR_IZR_INZ. destruct k; lra.
  Qed.
  Lemma layer_node j i : (j < ny)%nat -> (i < nx)%nat -> exists e, (e < ncols around nx)%nat /\ col around nx e = i.
  Proof.
    intros Hj Hi. unfold col, ncols. destruct around; [exists (S i) | exists i]; split; try lia. destruct (Nat.eqb i nx) eqn:K; auto. apply Nat.eqb_eq in K. lia.
  Qed.
  Lemma layer_cell j e : (j < ny)%nat -> (e < ncols around nx)%nat -> let c := entry (None, true) (drop_invalid f) j e in
    (sound c = true <-> z j (col around nx e) <> None) /\ fst c = z j (col around nx e).
  Proof.
    intros Hj He c. assert (E : c = drop_cell (fst (entry (None, true) hc j (col around nx e)), snd (entry (None, true) hc j (col around nx e)) || snd (entry (None, true) b j e))).
    { etransitivity; [exact (map_entry drop_cell ny (ncols around nx) f (None, true) (None, true) j e Rf Hj He)|]. exact (f_equal drop_cell (Nf j e Hj He)). }
    clearbody c. subst c.
    destruct (tide_value _ _ (entry (None, true) hc j (col around nx e)) (Nb j e Hj He)) as [V F]. fold (z j (col around nx e)) in V, F. split; [|exact F].
    set (dc := drop_cell _) in *. rewrite <- V. unfold sound, value_of, gusable. destruct dc as [[v|] []]; cbn; split; congruence.
  Qed.
  Lemma reply_spec (c : bound) q queries near : cutoff_ok c -> In (place geo q) queries ->
    near = filter (fun n => sound (snd n) && in_bounds (coords_of geo) c queries (fst n)) (mesh_of geo xi yi (drop_invalid f)) ->
    (exists j i, closest_node geo c k x0 dx nx y0 dy ny z q j i /\ reply geo c q near = ((z j i, false), false)) \/
    (~ exists j i, close_node geo c k x0 dx nx y0 dy ny z q j i) /\ reply geo c q near = ((None, true), true).
  Proof.
    intros Hc Iq ->. assert (Lx : length xi = ncols around nx) by apply Hxi. assert (Ly : length yi = ny) by apply Hyi.
    assert (Rd : rect ny (ncols around nx) (drop_invalid f)) by now apply map_rect.
    pose proof (fun m => mesh_of_in geo xi yi (drop_invalid f) m ny _ Ly Lx Rd) as In_e.
    assert (Bc : forall d, below d c <-> nearer_than c d) by (intros d; destruct c; reflexivity).
    assert (A : forall m, In m (mesh_of geo xi yi (drop_invalid f)) -> sound (snd m) = true -> below (dist3 (place geo q) (fst m)) c ->
      exists j i, close_node geo c k x0 dx nx y0 dy ny z q j i /\ fst (snd m) = z j i /\ dist3 (place geo q) (fst m) = apart geo q (node_of k x0 dx y0 dy j i)).
    { intros m Hm Sm Bm. apply In_e in Hm as (e & j & He & Hj & ->). cbn [fst snd] in *. destruct (layer_cell j e Hj He) as [C1 C2]. destruct (layer_column e He) as [Lt Ap].
      exists j, (col around nx e). rewrite apart_dist, (Ap j q Hj) in *. split; [|split; [exact C2 | reflexivity]]. split; [auto|]. split; [auto|]. split; [now apply C1|]. now apply Bc. }
    assert (B : forall j i, close_node geo c k x0 dx nx y0 dy ny z q j i -> exists m, In m (mesh_of geo xi yi (drop_invalid f)) /\ sound (snd m) = true /\ below (dist3 (place geo q) (fst m)) c /\ dist3 (place geo q) (fst m) = apart geo q (node_of k x0 dx y0 dy j i)).
    { intros j i (Hj & Hi & Z0 & N0). destruct (layer_node j i Hj Hi) as (e & He & <-). destruct (layer_cell j e Hj He) as [C1 C2]. destruct (layer_column e He) as [Lt Ap].
      exists (place geo (nth e xi 0, nth j yi 0), entry (None, true) (drop_invalid f) j e). split; [apply In_e; exists e, j; auto|]. cbn [fst snd]. split; [now apply C1|].
      rewrite apart_dist, (Ap j q Hj). split; [now apply Bc | reflexivity]. }
    destruct (ask_near geo c (mesh_of geo xi yi (drop_invalid f)) queries (place geo q) Hc Iq) as [(m & Ea & Im & Sm & Bm & Lm) | [No Ea]]; unfold reply; rewrite Ea.
    - left. destruct (A m Im Sm Bm) as (j & i & Cl & Ez & Ed). exists j, i. rewrite Ez. split; [|reflexivity]. split; [exact Cl|].
      intros j' i' Cl'. destruct (B j' i' Cl') as (m' & Im' & Sm' & Bm' & Ed'). rewrite <- Ed, <- Ed'. now apply Lm.
    - right. split; [|reflexivity]. intros (j & i & Cl). apply No. destruct (B j i Cl) as (m & Im & Sm & Bm & _). eauto.
  Qed.
End Layer.
