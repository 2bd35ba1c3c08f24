(** C96: the interactive map shows the location of its marker. *)
From Coq Require Import Reals String List Bool ZArith Lra Lia.
From Verif Require Import PyBase RBase StrBase LeafModel LeafSpec.
Import ListNotations.
Open Scope R_scope.

(** ** longitudes *)
Lemma wrap_exists lon : exists k : Z, -180 < lon + 360 * IZR k <= 180.
Proof.
  destruct (base_Int_part (- ((lon - 180) / 360))) as [H1 H2].
  exists (Int_part (- ((lon - 180) / 360))).
  assert (E : lon = 360 * ((lon - 180) / 360) + 180) by field. lra.
Qed.
Lemma trig_period t (k : Z) : sin (t + 2 * PI * IZR k) = sin t /\ cos (t + 2 * PI * IZR k) = cos t.
Proof.
  destruct (Z_le_dec 0 k) as [H|H].
  - rewrite <- (Z2Nat.id k H), <- INR_IZR_INZ.
    replace (t + 2 * PI * INR (Z.to_nat k)) with (t + 2 * INR (Z.to_nat k) * PI) by ring.
    now rewrite sin_period, cos_period.
  - set (n := Z.to_nat (- k)). assert (E : IZR k = - INR n).
    { unfold n. rewrite INR_IZR_INZ, Z2Nat.id by lia. rewrite opp_IZR. lra. }
    rewrite E. rewrite <- (sin_period (t + 2 * PI * - INR n) n), <- (cos_period (t + 2 * PI * - INR n) n).
    replace (t + 2 * PI * - INR n + 2 * INR n * PI) with t by ring. auto.
Qed.
Lemma wrap_in lon : -180 < lon <= 180 -> wrap_longitudes lon = lon.
Proof.
  intros H. unfold wrap_longitudes. pose proof PI_RGT_0 as P.
  pose proof (atan2_polar 1 (lon * PI / 180) Rlt_0_1) as A. rewrite !Rmult_1_l in A. rewrite A.
  - field; lra.
  - split.
    + apply Rmult_lt_reg_r with (180 / PI); [apply Rdiv_lt_0_compat; lra|].
      replace (lon * PI / 180 * (180 / PI)) with lon by (field; lra).
      replace (- PI * (180 / PI)) with (-180) by (field; lra). lra.
    + apply Rmult_le_reg_r with (180 / PI); [apply Rdiv_lt_0_compat; lra|].
      replace (lon * PI / 180 * (180 / PI)) with lon by (field; lra).
      replace (PI * (180 / PI)) with 180 by (field; lra). lra.
Qed.
Lemma wrap_shift lon (k : Z) : wrap_longitudes (lon + 360 * IZR k) = wrap_longitudes lon.
Proof.
  unfold wrap_longitudes.
  replace ((lon + 360 * IZR k) * PI / 180) with (lon * PI / 180 + 2 * PI * IZR k) by field.
  destruct (trig_period (lon * PI / 180) k) as [-> ->]. reflexivity.
Qed.

(** The longitude shown is the one on the same meridian from -180 (excluded) to 180; it depends on the
    meridian only. *)
Theorem C96_wrap : forall lon,
  -180 < wrap_longitudes lon <= 180 /\ same_meridian lon (wrap_longitudes lon) /\
  (forall other, same_meridian lon other -> wrap_longitudes other = wrap_longitudes lon) /\
  (forall other, same_meridian lon other -> -180 < other <= 180 -> other = wrap_longitudes lon).
Proof.
  intros lon. destruct (wrap_exists lon) as (k & K).
  assert (W : wrap_longitudes lon = lon + 360 * IZR k) by (rewrite <- (wrap_shift lon k); now apply wrap_in).
  split; [rewrite W; exact K|]. split; [exists k; exact W|]. split.
  - intros other (j & ->). apply wrap_shift.
  - intros other (j & ->) H. rewrite <- (wrap_shift lon j). symmetry. now apply wrap_in.
Qed.

(** ** decimals *)
Lemma rint_near x : Rabs (IZR (rint x) - x) <= 1 / 2.
Proof.
  unfold rint. destruct (base_Int_part x) as [H1 H2].
  destruct (Rlt_dec _ _); [apply Rabs_le; lra|].
  destruct (Rlt_dec _ _); [rewrite plus_IZR; apply Rabs_le; lra|].
  destruct (Z.even _); [|rewrite plus_IZR]; apply Rabs_le; lra.
Qed.
Lemma rint_Z z : rint (IZR z) = z.
Proof.
  pose proof (rint_near (IZR z)) as H. rewrite <- minus_IZR in H.
  assert (A : Rabs (IZR (rint (IZR z) - z)) < 1) by lra.
  rewrite <- abs_IZR in A. apply lt_IZR in A. lia.
Qed.
Lemma digits_written z : digits (written z) = z.
Proof. unfold digits, written. replace (IZR z / 100000000 * 100000000) with (IZR z) by field. apply rint_Z. Qed.
Lemma digits_nearest x : nearest (digits x) x.
Proof.
  unfold nearest, digits, half_unit. pose proof (rint_near (x * 100000000)) as H.
  replace (IZR (rint (x * 100000000)) / 100000000 - x) with ((IZR (rint (x * 100000000)) - x * 100000000) / 100000000) by field.
  unfold Rdiv at 1. rewrite Rabs_mult, (Rabs_right (/ 100000000)) by lra. lra.
Qed.
Lemma same_pair_true a b : same_pair a b = true <-> a = b.
Proof.
  unfold same_pair. destruct a as [a1 a2], b as [b1 b2]. cbn.
  destruct (Req_EM_T a1 b1), (Req_EM_T a2 b2); cbn; split; intros H; try discriminate; try (injection H as ? ?); subst; congruence.
Qed.
Lemma same_label_true t a b : same_label t a b = true <-> t = Formatted a b.
Proof.
  destruct t as [x y|l]; cbn; [|split; discriminate]. rewrite andb_true_iff, !Z.eqb_eq.
  split; [intros [-> ->]; reflexivity | intros H; injection H; auto].
Qed.
Lemma abs_bounds x e : Rabs x <= e -> - e <= x <= e.
Proof. unfold Rabs. destruct (Rcase_abs x); lra. Qed.
(** bounds of the longitude written *)
Lemma digits_range x : -180 < x <= 180 -> (-18000000000 <= digits x <= 18000000000)%Z.
Proof.
  intros H. pose proof (rint_near (x * 100000000)) as N. apply abs_bounds in N.
  unfold digits. split.
  - apply Z.lt_succ_r. apply lt_IZR. rewrite succ_IZR. lra.
  - apply Z.lt_succ_r. apply lt_IZR. rewrite succ_IZR. lra.
Qed.
Lemma written_range z : (-18000000000 < z <= 18000000000)%Z -> -180 < written z <= 180.
Proof. intros [H1 H2]. apply IZR_lt in H1. apply IZR_le in H2. unfold written. split; lra. Qed.

(** text written for a location that was read from a text *)
Lemma settle_step n s (a b : Z) : (-18000000000 < b <= 18000000000)%Z -> shown s = Formatted a b ->
  move (S n) s (written a, written b) = Some (View (written a, written b) (Formatted a b) (center s) (cursor s)).
Proof.
  intros H T. cbn [move]. destruct (same_pair _ _) eqn:E.
  - apply same_pair_true in E. f_equal. destruct s as [l t c u]; cbn in *. now subst.
  - cbn [fst snd shown center cursor]. rewrite digits_written, (wrap_in (written b)) by now apply written_range.
    rewrite digits_written. rewrite T. assert (Q : same_label (Formatted a b) a b = true) by now apply same_label_true.
    now rewrite Q.
Qed.
Lemma antimeridian : wrap_longitudes (written (-18000000000)) = written 18000000000.
Proof.
  replace (written (-18000000000)) with (written 18000000000 + 360 * IZR (-1)) by (unfold written; lra).
  rewrite wrap_shift. apply wrap_in. unfold written; lra.
Qed.

(** Moving the marker: the calls of the observers end, after three at most; the marker is then within half
    a unit of the eighth decimal of where it was put, on that meridian; the text shows its location; and
    the map and the cursor have not changed. *)
Theorem C96_marker : forall s lat lon,
  exists s', (forall n, (3 <= n)%nat -> move n s (lat, lon) = Some s') /\
  Rabs (fst (location s') - lat) <= half_unit /\
  (exists there, same_meridian lon there /\ Rabs (snd (location s') - there) <= half_unit) /\
  center s' = center s /\ cursor s' = cursor s /\
  ((lat, lon) <> location s -> exists a b, shown s' = Formatted a b /\
     nearest a (fst (location s')) /\ exists there, same_meridian (snd (location s')) there /\ -180 < there <= 180 /\ nearest b there) /\
  (forall n, (1 <= n)%nat -> move n s' (location s') = Some s').
Proof.
  intros s lat lon.
  assert (HU : 0 <= half_unit) by (unfold half_unit; lra).
  assert (Z0 : forall x, Rabs (x - x) <= half_unit) by (intros x; rewrite Rminus_diag_eq, Rabs_R0 by reflexivity; exact HU).
  assert (M0 : forall x, same_meridian x x) by (intros x; exists 0%Z; lra).
  assert (Stay : forall t n, (1 <= n)%nat -> move n t (location t) = Some t).
  { intros t [|n] Hn; [lia|]. cbn [move]. assert (Q : same_pair (location t) (location t) = true) by now apply same_pair_true. now rewrite Q. }
  destruct (C96_wrap lon) as (WR & WM & _ & _).
  set (a := digits lat). set (b := digits (wrap_longitudes lon)).
  destruct (same_pair (location s) (lat, lon)) eqn:E.
  { pose proof E as E'. apply same_pair_true in E'. exists s.
    split; [intros [|n] Hn; [lia|]; cbn [move]; now rewrite E|].
    rewrite E'. cbn [fst snd]. repeat split; auto.
    - exists lon. auto.
    - intros N. congruence.
    - intros n Hn. rewrite <- E'. now apply Stay. }
  destruct (same_label (shown s) a b) eqn:T.
  { pose proof T as T'. apply same_label_true in T'.
    exists (View (lat, lon) (shown s) (center s) (cursor s)).
    split; [intros [|n] Hn; [lia|]; cbn [move]; rewrite E; cbn [fst snd shown]; fold a b; now rewrite T|].
    cbn [location fst snd shown center cursor]. repeat split; auto.
    - exists lon. auto.
    - intros _. exists a, b. split; [exact T'|]. split; [apply digits_nearest|].
      exists (wrap_longitudes lon). split; [exact WM|]. split; [exact WR|]. apply digits_nearest.
    - intros n Hn. apply (Stay (View (lat, lon) (shown s) (center s) (cursor s)) n Hn). }
  assert (R1 := digits_range _ WR). fold b in R1.
  set (s2 := View (lat, lon) (Formatted a b) (center s) (cursor s)).
  assert (Go : forall n, move (S n) s (lat, lon) = move n s2 (written a, written b)).
  { intros n. cbn [move]. rewrite E. cbn [fst snd shown]. fold a b. rewrite T. reflexivity. }
  assert (NL : shown s <> Formatted a b). { intros Q. apply same_label_true in Q. congruence. }
  destruct (Z.eq_dec b (-18000000000)) as [B|B].
  - (* the antimeridian *)
    set (c := 18000000000%Z).
    destruct (same_pair (lat, lon) (written a, written b)) eqn:P.
    + (* the marker was put at -180 exactly: not possible, as wrapping gives 180 *)
      exfalso. apply same_pair_true in P. injection P as P1 P2.
      assert (Q : b = digits (wrap_longitudes (written b))) by (unfold b at 1; now rewrite P2 at 1).
      rewrite B in Q. rewrite antimeridian, digits_written in Q. discriminate.
    + exists (View (written a, written c) (Formatted a c) (center s) (cursor s)).
      split.
      { intros [|[|[|n]]] Hn; try lia. rewrite Go. unfold s2. cbn [move location]. rewrite P.
        cbn [fst snd shown center cursor]. rewrite digits_written. rewrite B, antimeridian, digits_written.
        assert (Q : same_label (Formatted a (-18000000000)) a 18000000000 = false).
        { apply not_true_iff_false. rewrite same_label_true. intros Q. injection Q. discriminate. }
        rewrite Q. apply (settle_step n (View (written a, written (-18000000000)) (Formatted a 18000000000) (center s) (cursor s)));
          [unfold c; lia | reflexivity]. }
      cbn [location fst snd shown center cursor].
      assert (Nb : nearest b (wrap_longitudes lon)) by apply digits_nearest.
      repeat split; auto.
      * apply digits_nearest.
      * destruct WM as (k & WM). exists (wrap_longitudes lon + 360). split.
        { exists (k + 1)%Z. rewrite plus_IZR. lra. }
        unfold nearest in Nb. rewrite B in Nb. unfold written, c.
        replace (18000000000 / 100000000 - (wrap_longitudes lon + 360)) with (-18000000000 / 100000000 - wrap_longitudes lon) by lra. exact Nb.
      * intros _. exists a, c. split; [reflexivity|]. split; [apply Z0|].
        exists (written c). split; [apply M0|]. split; [unfold written, c; lra|]. apply Z0.
      * intros n Hn. apply (Stay (View (written a, written c) (Formatted a c) (center s) (cursor s)) n Hn).
  - exists (View (written a, written b) (Formatted a b) (center s) (cursor s)).
    split.
    { intros [|[|n]] Hn; try lia. rewrite Go. apply (settle_step n s2); [lia | reflexivity]. }
    cbn [location fst snd shown center cursor]. repeat split; auto.
    + apply digits_nearest.
    + exists (wrap_longitudes lon). split; [exact WM|]. apply digits_nearest.
    + intros _. exists a, b. split; [reflexivity|]. split; [apply Z0|].
      exists (written b). split; [apply M0|]. split; [apply written_range; lia|]. apply Z0.
    + intros n Hn. apply (Stay (View (written a, written b) (Formatted a b) (center s) (cursor s)) n Hn).
Qed.
Print Assumptions C96_wrap.
Print Assumptions C96_marker.

(** Typing a location moves the marker there, up to the eighth decimal; a text other than two numbers
    separated by a comma is an exception, and leaves the marker. *)
Theorem C96_typed : forall s fields,
  (forall lat lon, fields = [Some lat; Some lon] ->
     exists s', (forall n, (3 <= n)%nat -> type_text n s fields = Some (s', None)) /\
       Rabs (fst (location s') - lat) <= half_unit /\
       (exists there, same_meridian lon there /\ Rabs (snd (location s') - there) <= half_unit) /\
       center s' = center s) /\
  ((forall lat lon, fields <> [Some lat; Some lon]) -> forall n,
     exists s', type_text n s fields = Some (s', Some ValueError) /\ location s' = location s /\ center s' = center s).
Proof.
  intros s fields. split.
  - intros lat lon ->.
    destruct (C96_marker (View (location s) (Typed [Some lat; Some lon]) (center s) (cursor s)) lat lon) as (s' & H & L1 & L2 & C & _).
    exists s'. split; [|repeat split; auto]. intros n Hn. unfold type_text. now rewrite (H n Hn).
  - intros N n. exists (View (location s) (Typed fields) (center s) (cursor s)). split; [|split; reflexivity].
    unfold type_text. destruct fields as [|[a|] [|[b|] [|x q]]]; try reflexivity. exfalso. now apply (N a b).
Qed.
Print Assumptions C96_typed.

(** The centre of the map follows its own changes, not those of the marker: moved anywhere, the map goes
    back to the marker; moving the marker leaves it. *)
Theorem C96_center_refuted :
  (forall s c, c <> center s -> forall n, (3 <= n)%nat ->
     pan n s c = Some (View (location s) (shown s) (location s) (cursor s))) /\
  (forall s l n s', move n s l = Some s' -> center s' = center s).
Proof.
  split.
  - intros s c N n Hn. destruct n as [|[|[|n]]]; try lia. cbn [pan].
    destruct (same_pair (center s) c) eqn:E; [apply same_pair_true in E; congruence|].
    cbn [center location shown cursor].
    destruct (same_pair c (location s)) eqn:F; [apply same_pair_true in F; now subst|].
    assert (Q : same_pair (location s) (location s) = true) by now apply same_pair_true. now rewrite Q.
  - intros s l n. revert s l. induction n as [|n IH]; intros s l s' H; [discriminate|]. cbn [move] in H.
    destruct (same_pair _ _); [now injection H as <-|]. cbn [shown] in H.
    destruct (same_label _ _ _); [now injection H as <-|]. now apply IH in H.
Qed.
Print Assumptions C96_center_refuted.

(** The cursor label shows where the cursor is, to four decimals, and changes on moves of the cursor only. *)
Theorem C96_cursor : forall s lat lon,
  (exists a b there, handle_interaction s "mousemove" (lat, lon) = View (location s) (shown s) (center s) (Some (a, b)) /\
     Rabs (IZR a / 10000 - lat) <= 5 / 100000 /\
     same_meridian lon there /\ -180 < there <= 180 /\ Rabs (IZR b / 10000 - there) <= 5 / 100000) /\
  (forall type c, type <> "mousemove"%string -> handle_interaction s type c = s).
Proof.
  assert (K : forall x, Rabs (IZR (rint (x * 10000)) / 10000 - x) <= 5 / 100000).
  { intros x. pose proof (rint_near (x * 10000)) as H.
    replace (IZR (rint (x * 10000)) / 10000 - x) with ((IZR (rint (x * 10000)) - x * 10000) / 10000) by field.
    unfold Rdiv at 1. rewrite Rabs_mult, (Rabs_right (/ 10000)) by lra. lra. }
  intros s lat lon. split.
  - destruct (C96_wrap lon) as (WR & WM & _ & _).
    exists (rint (lat * 10000)), (rint (wrap_longitudes lon * 10000)), (wrap_longitudes lon).
    split; [reflexivity|]. auto.
  - intros type c N. unfold handle_interaction. destruct (String.eqb type "mousemove") eqn:E; [|reflexivity].
    apply String.eqb_eq in E. contradiction.
Qed.
Print Assumptions C96_cursor.

(** Construction, where marker_control is given: the system of the projection, or of the map passed in for
    any other name; the controls in order; the marker at the centre, with its text. *)
Theorem C96_init : forall projection k shown_marker,
  k_marker_control k = Some shown_marker ->
  let name := match find (fun e => String.eqb (fst e) projection) systems with
              | Some e => Some (snd e)
              | None => match k_map k with Some (Some n) => Some n | _ => None end
              end in
  let at_center := match k_center k with Some c => c | None => (39, -108) end in
  (name = None -> init projection k = Err AttributeError) /\
  (forall n, name = Some n -> exists w, init projection k = Ok w /\ crs w = n /\
     controls w = chosen [ (match k_layer_control k with Some b => b | None => true end, "layers"%string);
                           (match k_zoom_control k with Some b => b | None => false end, "zoom"%string);
                           (match k_scale_control k with Some b => b | None => false end, "scale"%string);
                           (match k_cursor_control k with Some b => b | None => true end, "cursor"%string);
                           (shown_marker, "marker"%string) ] /\
     (shown_marker = false -> marker w = None) /\
     (shown_marker = true -> exists a b, marker w = Some (at_center, Formatted a b) /\
        nearest a (fst at_center) /\ nearest b (snd at_center))).
Proof.
  intros projection k m E name at_center.
  assert (I : init projection k = match name with None => Err AttributeError | Some n =>
    Ok (Leaflet n (chosen [ (match k_layer_control k with Some b => b | None => true end, "layers"%string);
                           (match k_zoom_control k with Some b => b | None => false end, "zoom"%string);
                           (match k_scale_control k with Some b => b | None => false end, "scale"%string);
                           (match k_cursor_control k with Some b => b | None => true end, "cursor"%string);
                           (m, "marker"%string) ])
         (if m then Some (at_center, Formatted (digits (fst at_center)) (digits (snd at_center))) else None)) end).
  { unfold init, name. cbn [find systems fst snd]. rewrite !(String.eqb_sym _ projection). rewrite E.
    fold (default (k_center k) (39, -108)) in *. change (default (k_center k) (39, -108)) with at_center.
    unfold chosen, default.
    destruct (String.eqb projection "Global"), (String.eqb projection "North"), (String.eqb projection "South");
      destruct (k_map k) as [[?|]|]; cbn [bind]; try reflexivity;
      destruct (k_layer_control k) as [[]|], (k_zoom_control k) as [[]|], (k_scale_control k) as [[]|], (k_cursor_control k) as [[]|], m; reflexivity. }
  split.
  - intros N. now rewrite I, N.
  - intros n N. rewrite N in I. eexists. split; [exact I|]. cbn [crs controls marker]. repeat split.
    + intros ->. reflexivity.
    + intros ->. exists (digits (fst at_center)), (digits (snd at_center)). split; [reflexivity|]. split; apply digits_nearest.
Qed.
Print Assumptions C96_init.

(** marker_control is the only argument without a default: left out, the map is an exception. *)
Theorem C96_default_refuted : forall projection k,
  k_marker_control k = None ->
  (In projection (map fst systems) \/ (exists n, k_map k = Some (Some n))) -> init projection k = Err KeyError.
Proof.
  intros projection k E H. unfold init. rewrite E.
  assert (Q : exists n, (if String.eqb projection "Global" then Ok "EPSG:3857"%string
     else if String.eqb projection "North" then Ok "EPSG:5936"%string
     else if String.eqb projection "South" then Ok "EPSG:3031"%string
     else match default (k_map k) None with Some n => Ok n | None => Err AttributeError end) = Ok n).
  { destruct H as [H|(n & H)].
    - cbn in H. destruct H as [<-|[<-|[<-|[]]]]; eexists; reflexivity.
    - rewrite H. cbn [default]. destruct (String.eqb projection "Global"), (String.eqb projection "North"), (String.eqb projection "South"); eexists; reflexivity. }
  destruct Q as (n & ->). reflexivity.
Qed.
Print Assumptions C96_default_refuted.

(** ** concrete cases *)
Example C96_wrap_case : wrap_longitudes 370 = 10 /\ wrap_longitudes (-180) = 180 /\ wrap_longitudes 180 = 180.
Proof.
  repeat split.
  - replace 370 with (10 + 360 * IZR 1) by lra. rewrite wrap_shift. apply wrap_in. lra.
  - replace (-180) with (180 + 360 * IZR (-1)) by lra. rewrite wrap_shift. apply wrap_in. lra.
  - apply wrap_in. lra.
Qed.
(** a marker dragged over the antimeridian *)
Definition a_view : view := View (10, 179) (Formatted 1000000000 17900000000) (10, 179) None.
Example C96_marker_case : exists s', move 3 a_view (20, 181) = Some s' /\ location s' = (written 2000000000, written (-17900000000)) /\
  shown s' = Formatted 2000000000 (-17900000000).
Proof.
  assert (W : wrap_longitudes 181 = written (-17900000000)).
  { replace 181 with (written (-17900000000) + 360 * IZR 1) by (unfold written; lra). rewrite wrap_shift. apply wrap_in. unfold written; lra. }
  assert (D : digits 20 = 2000000000%Z) by (replace 20 with (written 2000000000) by (unfold written; lra); apply digits_written).
  exists (View (written 2000000000, written (-17900000000)) (Formatted 2000000000 (-17900000000)) (10, 179) None).
  split; [|split; reflexivity].
  change 3%nat with (S 2). cbn [move location a_view].
  destruct (same_pair (10, 179) (20, 181)) eqn:E; [apply same_pair_true in E; injection E; intros; lra|].
  cbn [fst snd shown center cursor]. rewrite D, W, digits_written.
  replace (same_label (Formatted 1000000000 17900000000) 2000000000 (-17900000000)) with false by reflexivity.
  change 2%nat with (S 1).
  apply (settle_step 1 (View (20, 181) (Formatted 2000000000 (-17900000000)) (10, 179) None)); [lia | reflexivity].
Qed.
Example C96_typed_case : exists s', type_text 3 a_view [Some 1; None] = Some (s', Some ValueError) /\ location s' = (10, 179).
Proof. eexists. split; reflexivity. Qed.
Example C96_center_case : (20, 0) <> center a_view.
Proof. cbn. intros E. injection E. intros. lra. Qed.
Example C96_init_case :
  init "North" (Keywords None (Some true) None (Some false) None (Some false) None) = Ok (Leaflet "EPSG:5936" ["layers"; "zoom"]%string None) /\
  init "Global" (Keywords None None None None None None None) = Err KeyError /\
  init "Other" (Keywords None None None None None (Some true) None) = Err AttributeError.
Proof. repeat split. Qed.
