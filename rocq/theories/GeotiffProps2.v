(** C73: what is written to geotiff images and read back. *)
From Coq Require Import Reals String List Bool Arith ZArith Lra Lia.
From Verif Require Import PyBase RBase MathModel GeoModel ConvertProps ExtractSpec ExtractProofs GeotiffModel GeotiffSpec GeotiffProps.
Import ListNotations.
Open Scope R_scope.

Lemma rect_hd {A} ny nx (m : list (list A)) : rect ny nx m -> (1 <= ny)%nat -> length (hd [] m) = nx.
Proof. intros (L & H) Hy. destruct m as [|r m]; [cbn in L; lia|]. apply H. now left. Qed.
Lemma nth_at {A} (l : list A) i a d : nth_error l i = Some a -> nth i l d = a.
Proof. intros H. now apply nth_error_nth. Qed.

(** expanding keeps places *)
Lemma expanded_sizes a ny nx nb : stacked a ny nx nb ->
  rect ny nx (expanded a) /\ (1 <= ny)%nat /\ (1 <= nx)%nat /\ (1 <= nb)%nat /\ (forall row cs, In row (expanded a) -> In cs row -> length cs = nb).
Proof.
  intros S. destruct S as [m ny nx (L & H) Hy Hx|m ny nx nb Rm Hy Hx Hb Hc]; cbn [expanded]; [|auto].
  split; [split; [now rewrite map_length|]; intros r Hr; apply in_map_iff in Hr as (r' & <- & Hr); rewrite map_length; auto|]. split; [auto|]. split; [auto|]. split; [auto|].
  intros row cs Hr Hc. apply in_map_iff in Hr as (r' & <- & Hr). apply in_map_iff in Hc as (c & <- & _). reflexivity.
Qed.
Lemma expanded_place a j i b c : at_place a j i b c -> exists row cs, nth_error (expanded a) j = Some row /\ nth_error row i = Some cs /\ nth_error cs b = Some c.
Proof.
  intros Q. destruct Q as [m j i row c H1 H2|m j i b row cs c H1 H2 H3]; [|eauto]. cbn [expanded].
  exists (map (fun c => [c]) row), [c]. split; [now apply map_nth_error|]. split; [|reflexivity]. now apply (map_nth_error (fun c => [c])).
Qed.

(** ** What is written is read back: the numbers, the coordinates from the upper left
    corner, masked where they are the fill value *)
Theorem C73_write_read : forall a ny nx nb extent spacing wkt fill, stacked a ny nx nb ->
  exists r im d, to_geotiff GTiff a extent spacing wkt fill = Ok r /\ from_geotiff r None = Ok im /\ idata im = Some d /\ sized d nb ny nx /\
    (forall j i b c, at_place a j i b c -> exists c', pixel d b j i c' /\ fst c' = fst c /\ (snd c' = true <-> missing fill (fst c))) /\
    length (ix im) = nx /\ (forall i, (i < nx)%nat -> nth i (ix im) 0 = bxmin extent + (INR i + 1 / 2) * fst spacing) /\
    length (iy im) = ny /\ (forall j, (j < ny)%nat -> nth j (iy im) 0 = bymax extent + (INR j + 1 / 2) * snd spacing) /\
    ispacing im = spacing /\ iwkt im = wkt /\ bxmin (iextent im) = bxmin extent /\ bymax (iextent im) = bymax extent /\ (forall v, ifill im = Some v <-> missing fill v).
Proof.
  intros a ny nx nb extent spacing wkt fill Sa. destruct (expanded_sizes a ny nx nb Sa) as (Rm & Hy & Hx & Hb & Hc). pose proof Rm as (Lm & Lr).
  assert (Eh : length (hd [] (expanded a)) = nx) by (apply (rect_hd ny nx); auto).
  assert (Eb : length (hd [] (hd [] (expanded a))) = nb).
  { destruct (expanded a) as [|row m] eqn:E; [cbn in Lm; lia|]. cbn [hd] in *. destruct row as [|cs row]; [cbn in Eh; lia|]. apply (Hc (cs :: row)); now left. }
  set (bands := map (fun k => map (map (fun cs => fst (nth k cs (0, false)))) (expanded a)) (seq 0 nb)).
  set (r := Raster nx ny (Transform (bxmin extent) (fst spacing) (bymax extent) (snd spacing)) bands fill wkt).
  assert (Et : to_geotiff GTiff a extent spacing wkt fill = Ok r).
  { unfold to_geotiff. cbv zeta. rewrite Lm, Eh, Eb. rewrite !(proj2 (Nat.eqb_neq _ _)) by lia. reflexivity. }
  assert (Lb : length bands = nb) by (unfold bands; now rewrite map_length, seq_length).
  assert (P : proper r).
  { split; [exact Hx|]. split; [exact Hy|]. cbn [rbands r rrows rcols]. split; [intros K; rewrite K in Lb; cbn in Lb; lia|]. intros p Hp. apply in_map_iff in Hp as (k & <- & _). split; [now rewrite map_length|]. intros row Hr. apply in_map_iff in Hr as (row' & <- & Hr). rewrite map_length. auto. }
  destruct (C73_read r P) as (im & Ei & Lx & Ly & Cx & Cy & (d & Ed & Sd & Hd) & Ex & Sp & _ & Wk & Fl). cbn [rcols rrows rgt rbands rnodata rwkt r left_x pixel_x top_y pixel_y] in *. rewrite Lb in *.
  exists r, im, d. split; [exact Et|]. split; [exact Ei|]. split; [exact Ed|]. split; [exact Sd|]. split.
  { intros j i b c Hp. destruct (expanded_place a j i b c Hp) as (row & cs & H1 & H2 & H3).
    assert (Hj : (j < ny)%nat) by (rewrite <- Lm; apply nth_error_Some; congruence). assert (Ir : In row (expanded a)) by (eapply nth_error_In; eassumption). assert (Lrow := Lr row Ir).
    assert (Hi : (i < nx)%nat) by (rewrite <- Lrow; apply nth_error_Some; congruence). assert (Hbb : (b < nb)%nat) by (rewrite <- (Hc row cs Ir (nth_error_In _ _ H2)); apply nth_error_Some; congruence).
    destruct (Hd b j i Hbb Hj Hi) as (c' & Q1 & Q2 & Q3). exists c'. split; [exact Q1|].
    assert (Q4 : fst c' = fst c).
    { rewrite Q2. unfold value, entry. cbn [Nat.add rbands r]. unfold bands. rewrite (nth_map' _ _ b O []) by now rewrite seq_length. rewrite seq_nth by auto. cbn [Nat.add]. unfold cell in *.
      rewrite (nth_map' _ _ j [] []) by lia. rewrite (nth_at _ _ _ [] H1). rewrite (nth_map' _ _ i [] 0) by lia. rewrite (nth_at _ _ _ [] H2). now rewrite (nth_at _ _ _ _ H3). }
    split; [exact Q4|]. rewrite Q3, Q4. reflexivity. }
  split; [exact Lx|]. split; [intros i Hi; rewrite Cx by auto; reflexivity|]. split; [exact Ly|]. split; [intros j Hj; rewrite Cy by auto; reflexivity|].
  split; [rewrite Sp; now destruct spacing|]. split; [exact Wk|]. rewrite Ex. unfold west_edge, north_edge. cbn [bxmin bymax rgt left_x top_y pixel_x pixel_y INR r]. split; [lra|]. split; [lra|exact Fl].
Qed.
Print Assumptions C73_write_read.

(** ** An image of one band, or part of it, written as it was read is read the same *)
Lemma centres_part x0 dx n o k : (o + k <= n)%nat -> firstn k (skipn o (centres x0 dx n)) = centres (x0 + INR o * dx) dx k.
Proof.
  intros H. apply (nth_ext _ _ 0 0); [rewrite pick_len, centres_len; [reflexivity|rewrite centres_len; lia]|]. intros i Hi. rewrite pick_len in Hi by (rewrite centres_len; lia). rewrite pick_nth by auto. rewrite !centres_nth by lia. rewrite plus_INR. lra.
Qed.
Theorem C73_again : forall r b im a, proper r -> north_up r -> length (rbands r) = 1%nat ->
  (forall b', b = Some b' -> left_x (rgt r) <= bxmin b' <= bxmax b' /\ bymin b' <= bymax b' <= top_y (rgt r)) ->
  from_geotiff r b = Ok im -> idata im = Some a ->
  exists r', to_geotiff GTiff a (iextent im) (ispacing im) (iwkt im) (ifill im) = Ok r' /\ from_geotiff r' None = Ok im /\ (b = None -> rnodata r <> Some 0 -> r' = r).
Proof.
  intros r b im a P U L1 Hb H Hd. pose proof U as (Ux & Uy). pose proof P as (Pc & Pr & Pn & Pb).
  assert (exists ox oy nx ny, im = the_image r ox oy nx ny /\ (1 <= nx)%nat /\ (1 <= ny)%nat /\ (ox + nx <= rcols r)%nat /\ (oy + ny <= rrows r)%nat /\ (b = None -> ox = O /\ oy = O /\ nx = rcols r /\ ny = rrows r)) as (ox & oy & nx & ny & Ei & Hnx & Hny & Hox & Hoy & Hall).
  { destruct b as [b|].
    - destruct (Hb b eq_refl) as [Bx By].
      destruct (counted ((bxmin b - left_x (rgt r)) / pixel_x (rgt r)) ((bxmax b - bxmin b) / pixel_x (rgt r))) as (ox & nx & C1); [apply quotient; lra|apply quotient; lra|].
      destruct (counted ((top_y (rgt r) - bymax b) / - pixel_y (rgt r)) ((bymax b - bymin b) / - pixel_y (rgt r))) as (oy & ny & C2); [apply quotient; lra|apply quotient; lra|].
      destruct (bounds_eq r b ox oy nx ny P U C1 C2) as [E1 E2].
      assert (Hin : (ox + nx <= rcols r)%nat /\ (oy + ny <= rrows r)%nat). { destruct (le_dec (ox + nx) (rcols r)) as [K1|K1]; [destruct (le_dec (oy + ny) (rrows r)) as [K2|K2]; [auto|]|]; exfalso; (enough (idata im = None) by congruence); apply E2; auto; lia. }
      rewrite (E1 Hin) in H. apply Ok_inj in H as <-. exists ox, oy, nx, ny. split; [reflexivity|]. split; [apply C1|]. split; [apply C2|]. split; [apply Hin|]. split; [apply Hin|discriminate].
    - rewrite (whole_eq r P) in H. apply Ok_inj in H as <-. exists 0%nat, 0%nat, (rcols r), (rrows r). repeat split; auto. }
  destruct (rbands r) as [|p [|q l]] eqn:Eb; try discriminate. assert (Rp : rect (rrows r) (rcols r) p) by (apply Pb; rewrite ?Eb; now left).
  set (w := map (fun row => firstn nx (skipn ox row)) (firstn ny (skipn oy p))). assert (Rw : rect ny nx w) by (apply (pick_rect (rrows r) (rcols r)); auto). pose proof Rw as (Lw & Lwr).
  set (f := fun u : R => (u, match rnodata r with Some v => if req v 0 then false else req u v | None => false end)).
  set (fill := match rnodata r with Some v => if req v 0 then None else Some v | None => None end).
  assert (Ea : a = A2 (map (map f) w)). { subst im. unfold the_image in Hd. cbn [idata] in Hd. rewrite Eb in Hd. apply (f_equal (fun o => match o with Some z => z | None => a end)) in Hd. symmetry. exact Hd. }
  set (r' := Raster nx ny (Transform (west_edge r ox) (pixel_x (rgt r)) (north_edge r oy) (pixel_y (rgt r))) [w] fill (rwkt r)).
  assert (Et : to_geotiff GTiff a (iextent im) (ispacing im) (iwkt im) (ifill im) = Ok r').
  { subst im a. unfold the_image. cbn [iextent ispacing iwkt ifill fst snd bxmin bymax]. fold fill. unfold to_geotiff. cbn [expanded]. cbv zeta. rewrite !map_length, Lw.
    assert (Lh : length (hd [] (map (map (fun c : cell => [c])) (map (map f) w))) = nx) by (destruct w as [|row w']; [cbn in Lw; lia|]; cbn [map hd]; rewrite !map_length; apply Lwr; now left).
    assert (Lb : length (hd [] (hd [] (map (map (fun c : cell => [c])) (map (map f) w)))) = 1%nat) by (destruct w as [|row w']; [cbn in Lw; lia|]; cbn [map hd] in *; destruct row as [|c row]; [cbn in Lh; lia|reflexivity]).
    rewrite Lh, Lb. rewrite !(proj2 (Nat.eqb_neq _ _)) by lia. cbn [orb seq map Nat.eqb]. unfold r'. do 2 f_equal.
    assert (Ew : map (map (fun cs : list cell => fst (nth 0 cs (0, false)))) (map (map (fun c : cell => [c])) (map (map f) w)) = w); [|exact (f_equal (fun z => [z]) Ew)].
    rewrite !map_map. rewrite <- (map_id w) at 2. apply map_ext. intros row. rewrite !map_map. rewrite <- (map_id row) at 2. apply map_ext. reflexivity. }
  assert (P' : proper r'). { split; [exact Hnx|]. split; [exact Hny|]. split; [discriminate|]. intros band [<-|[]]. exact Rw. }
  exists r'. split; [exact Et|]. split.
  - rewrite (whole_eq r' P'). f_equal. subst im. unfold the_image. cbn [rcols rrows rgt rbands rnodata rwkt r' left_x pixel_x top_y pixel_y skipn map]. rewrite Eb. cbn [map]. fold w.
    rewrite (centres_part _ _ (rcols r)), (centres_part _ _ (rrows r)) by auto. rewrite !(firstn_all2 (centres _ _ _)) by (rewrite centres_len; lia). rewrite (firstn_all2 w) by lia.
    replace (map (fun row => firstn nx row) w) with w by (rewrite <- (map_id w) at 1; apply map_ext_in; intros row Hr; rewrite firstn_all2 by (rewrite (Lwr row Hr); lia); reflexivity).
    fold (west_edge r ox) (north_edge r oy). cbn [Nat.add].
    replace (Bounds (west_edge r' 0) _ _ _) with (Bounds (west_edge r ox) (west_edge r (ox + nx - 1)) (north_edge r (oy + ny - 1)) (north_edge r oy)).
    2:{ unfold west_edge, north_edge. cbn [rgt r' left_x pixel_x top_y pixel_y]. unfold west_edge, north_edge. rewrite !minus_INR, !plus_INR by lia. cbn [INR]. f_equal; lra. }
    assert (Ef : forall u : R, (u, match fill with Some v => if req v 0 then false else req u v | None => false end) = f u).
    { intros u. unfold fill, f. destruct (rnodata r) as [v|]; [|reflexivity]. destruct (req v 0) eqn:Ev; [reflexivity|]. now rewrite Ev. }
    assert (Es : shown (fun u : R => (u, match fill with Some v => if req v 0 then false else req u v | None => false end)) [w] = shown f [w]).
    { cbn [shown]. f_equal. apply map_ext. intros row. apply map_ext. exact Ef. }
    rewrite Es. f_equal. unfold fill. destruct (rnodata r) as [v|]; [|reflexivity]. destruct (req v 0) eqn:Ev; [reflexivity|]. now rewrite Ev.
  - intros Hn Hz. destruct (Hall Hn) as (-> & -> & -> & ->). unfold r', fill. destruct r as [c rw [x0 dx y0 dy] bs nd wk]. cbn [rcols rrows rgt rbands rnodata rwkt left_x pixel_x top_y pixel_y] in *. subst bs. f_equal.
    + unfold west_edge, north_edge. cbn [rgt left_x pixel_x top_y pixel_y INR]. f_equal; lra.
    + f_equal. unfold w. cbn [skipn]. destruct Rp as [Lp Lpr]. rewrite firstn_all2 by lia. rewrite <- (map_id p) at 2. apply map_ext_in. intros row Hr. rewrite firstn_all2 by (rewrite (Lpr row Hr); lia). reflexivity.
    + destruct nd as [v|]; [|reflexivity]. rewrite req_f; [reflexivity|congruence].
Qed.
Print Assumptions C73_again.

(** ** Several bands: written as they were read, bands become rows and columns bands *)
Theorem C73_bands_refuted : forall r im a, proper r -> length (rbands r) <> 1%nat -> from_geotiff r None = Ok im -> idata im = Some a ->
  exists r', to_geotiff GTiff a (iextent im) (ispacing im) (iwkt im) (ifill im) = Ok r' /\ rcols r' = rrows r /\ rrows r' = length (rbands r) /\ length (rbands r') = rcols r.
Proof.
  intros r im a P Ln H Hd. pose proof P as (Pc & Pr & Pn & Pb). rewrite (whole_eq r P) in H. apply Ok_inj in H as <-.
  destruct (image_shows r 0 0 (rcols r) (rrows r) P Pc Pr (le_n _) (le_n _)) as (_ & _ & _ & _ & (a' & Ea & Sa & _) & _). rewrite Hd in Ea. injection Ea as <-.
  inversion Sa as [|m nb ny nx Hnb Lm Rm E1 E2 E3 E4]; [congruence|]. subst. unfold to_geotiff. cbn [expanded]. cbv zeta.
  destruct m as [|p m]; [cbn in Lm; destruct (rbands r); [congruence|discriminate]|]. cbn [hd]. destruct (Rm p (or_introl eq_refl)) as (Lp & Lpr). destruct p as [|row p]; [cbn in Lp; lia|]. cbn [hd]. rewrite Lp, (Lpr row (or_introl eq_refl)), Lm.
  assert (L0 : length (rbands r) <> 0%nat) by (destruct (rbands r); [congruence|discriminate]). rewrite (proj2 (Nat.eqb_neq _ _) L0), (proj2 (Nat.eqb_neq (rrows r) 0)) by lia. cbn [orb]. eexists. split; [reflexivity|]. cbn [rcols rrows rbands]. rewrite map_length, seq_length. auto.
Qed.
Print Assumptions C73_bands_refuted.

(** ** Masks are not written *)
Theorem C73_masks_refuted : forall dr m m' extent spacing wkt fill, map (map fst) m = map (map fst) m' ->
  to_geotiff dr (A2 m) extent spacing wkt fill = to_geotiff dr (A2 m') extent spacing wkt fill.
Proof.
  intros dr m m' extent spacing wkt fill E. unfold to_geotiff. cbn [expanded]. cbv zeta. destruct dr; [|reflexivity|reflexivity]. unfold cell in *.
  assert (Lm : length m = length m') by (rewrite <- (map_length (map fst) m), E; apply map_length). rewrite !map_length, Lm.
  assert (Lh : length (hd [] (map (map (fun c : R * bool => [c])) m)) = length (hd [] (map (map (fun c : R * bool => [c])) m'))).
  { destruct m as [|r m], m' as [|r' m']; try discriminate; [reflexivity|]. cbn [map hd] in *. rewrite !map_length. injection E as E _. rewrite <- (map_length fst r), E. apply map_length. }
  rewrite Lh.
  assert (Lb : length (hd [] (hd [] (map (map (fun c : R * bool => [c])) m))) = length (hd [] (hd [] (map (map (fun c : R * bool => [c])) m')))).
  { destruct m as [|r m], m' as [|r' m']; try discriminate; [reflexivity|]. cbn [map hd] in *. injection E as E _. destruct r, r'; try discriminate; reflexivity. }
  rewrite Lb. destruct (_ || _); [reflexivity|]. do 2 f_equal. apply map_ext_in. intros k Hk. apply in_seq in Hk.
  assert (k = 0)%nat as ->. { enough (length (hd [] (hd [] (map (map (fun c : R * bool => [c])) m'))) <= 1)%nat by lia. destruct m' as [|[|c r] m']; cbn; lia. }
  rewrite !map_map. transitivity (map (map fst) m). { apply map_ext. intros r. rewrite map_map. reflexivity. } rewrite E. apply map_ext. intros r. rewrite map_map. reflexivity.
Qed.
Print Assumptions C73_masks_refuted.

(** ** A fill value of zero masks nothing *)
Theorem C73_zero_fill_refuted : forall r im, proper r -> rnodata r = Some 0 -> from_geotiff r None = Ok im ->
  ifill im = None /\ exists a, idata im = Some a /\ forall b j i, (b < length (rbands r))%nat -> (j < rrows r)%nat -> (i < rcols r)%nat -> exists c, pixel a b j i c /\ fst c = value r b j i /\ snd c = false.
Proof.
  intros r im P Hz H. destruct (C73_read r P) as (im' & E & _ & _ & _ & _ & (a & Ea & _ & Ha) & _ & _ & _ & _ & Hf). assert (im' = im) by congruence. subst im'. split.
  - destruct (ifill im) as [v|]; [|reflexivity]. destruct (proj1 (Hf v) eq_refl) as [K1 K2]. congruence.
  - exists a. split; [exact Ea|]. intros b j i Hb Hj Hi. destruct (Ha b j i Hb Hj Hi) as (c & Q1 & Q2 & Q3). exists c. split; [exact Q1|]. split; [exact Q2|]. destruct (snd c); [|reflexivity]. destruct (proj1 Q3 eq_refl) as [K1 K2]. congruence.
Qed.
(** ** With the default driver nothing is written *)
Theorem C73_default_refuted : forall a extent spacing wkt fill, to_geotiff Cog a extent spacing wkt fill = Err AttributeError.
Proof. reflexivity. Qed.
Print Assumptions C73_zero_fill_refuted.
Print Assumptions C73_default_refuted.
