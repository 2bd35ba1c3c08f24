(** C75: what is read from TMD3 files and what is extracted from them. *)
From Coq Require Import String Ascii Reals List Bool Arith ZArith Lia Lra.
From Verif Require Import PyBase RBase MathModel GeoModel GridModel InterpModel ConvertProps ExtractModel ExtractSpec ExtractProofs NodeProps ExtractProps ReturnProps Tmd3Model Tmd3Spec.
Import ListNotations.
Open Scope R_scope.

Lemma rev_entry {A} (d : A) ny nx m j i : rect ny nx m -> (j < ny)%nat -> entry d (rev m) j i = from_south d ny m j i.
Proof. intros [L _] Hj. unfold entry, from_south, entry. rewrite rev_nth by lia. now replace (length m - S j)%nat with (ny - 1 - j)%nat by lia. Qed.
Lemma rev_rect {A} ny nx (m : list (list A)) : rect ny nx m -> rect ny nx (rev m).
Proof. intros [L H]. split; [now rewrite rev_length|]. intros r Hr. apply H. now apply in_rev. Qed.
Lemma south_axis y0 dy ny l : southward y0 dy ny l -> evenly y0 dy ny (rev l).
Proof. intros (Hd & L & H). split; [exact Hd|]. split; [now rewrite rev_length|]. intros i Hi. rewrite rev_nth by lia. replace (length l - S i)%nat with (ny - 1 - i)%nat by lia. now apply H. Qed.
Lemma from_south_map {A B} (g : A -> B) ny nx m d d' j i : rect ny nx m -> (j < ny)%nat -> (i < nx)%nat -> from_south d' ny (map (map g) m) j i = g (from_south d ny m j i).
Proof. intros H Hj Hi. unfold from_south. apply (map_entry g ny nx); auto. lia. Qed.

(** ** Names *)
Lemma blank_spec a : blank a = true <-> white a.
Proof. unfold blank, white. rewrite !orb_true_iff, !Ascii.eqb_eq. tauto. Qed.
Lemma blank_no a : ~ white a -> blank a = false.
Proof. intros H. destruct (blank a) eqn:E; [apply blank_spec in E; contradiction|reflexivity]. Qed.
Lemma words_white b t : Forall white b -> words (b ++ t) = words t.
Proof. induction 1 as [|a b Ha _ IH]; [reflexivity|]. cbn [app words]. now rewrite (proj2 (blank_spec a) Ha). Qed.
Lemma words_word w : Forall (fun a => ~ white a) w -> w <> [] -> words w = [w].
Proof.
  induction 1 as [|a w Ha Hw IH]; intros Hn; [congruence|]. cbn [words]. rewrite (blank_no a Ha). destruct w as [|b w]; [reflexivity|]. inversion Hw; subst. rewrite (blank_no b) by auto. rewrite IH by discriminate. reflexivity.
Qed.
Lemma words_next w c t : Forall (fun a => ~ white a) w -> w <> [] -> white c -> words (w ++ c :: t) = w :: words t.
Proof.
  induction 1 as [|a w Ha Hw IH]; intros Hn Hc; [congruence|]. change ((a :: w) ++ c :: t) with (a :: (w ++ c :: t)). cbn [words]. rewrite (blank_no a Ha). destruct w as [|b w].
  - cbn [app]. rewrite (proj2 (blank_spec c) Hc). f_equal. cbn [words]. now rewrite (proj2 (blank_spec c) Hc).
  - cbn [app]. inversion Hw; subst. rewrite (blank_no b) by auto. change (b :: w ++ c :: t) with ((b :: w) ++ c :: t). rewrite IH by (auto; discriminate). reflexivity.
Qed.
Lemma words_spelled t ws : spelled t ws -> words t = ws.
Proof.
  induction 1 as [b Hb|b w Hb [Hn Hw]|b w c t ws Hb [Hn Hw] Hc _ IH].
  - rewrite <- (app_nil_r b). rewrite words_white by auto. reflexivity.
  - rewrite words_white by auto. now apply words_word.
  - rewrite words_white by auto. rewrite words_next by auto. now rewrite IH.
Qed.
(** ** The constituents are the words of the attribute, in their order *)
Theorem C75_names f names : spelled (t_order f) names -> read_names f = names.
Proof. apply words_spelled. Qed.
Print Assumptions C75_names.

(** ** Depths, water masks and flexure are those of the file, from south to north *)
Theorem C75_grid f ny nx j i : rect ny nx (t_wct f) -> rect ny nx (t_mask f) -> rect ny nx (t_flexure f) -> length (t_y f) = ny -> (j < ny)%nat -> (i < nx)%nat ->
  let '(g, hz, sf) := read_grid f in
  gx g = t_x f /\ nth j (gy g) 0 = nth (ny - 1 - j) (t_y f) 0 /\
  entry 0 (ghz g) j i = fst (from_south (0, false) ny (t_wct f) j i) /\
  entry 0%Z (gmz g) j i = from_south 0%Z ny (t_mask f) j i /\
  (let h := fst (from_south (0, false) ny (t_wct f) j i) in (h = 0 -> entry (0, false) hz j i = (h, true)) /\ (h <> 0 -> entry (0, false) hz j i = (h, false))) /\
  (forall s, from_south (0, false) ny (t_flexure f) j i = (s, false) -> (s = 0 -> entry (0, false) sf j i = (0, true)) /\ (s <> 0 -> entry (0, false) sf j i = (s / 100, false))).
Proof.
  intros Rw Rm Rf Ly Hj Hi. unfold read_grid, north_up. cbn [gx gy ghz gmz].
  pose proof (rev_rect ny nx _ (map_rect fst ny nx _ Rw)) as Rh.
  assert (Eh : entry 0 (rev (map (map fst) (t_wct f))) j i = fst (from_south (0, false) ny (t_wct f) j i)).
  { rewrite (rev_entry 0 ny nx) by (auto; now apply map_rect). apply (from_south_map (@fst R bool) ny nx); auto. }
  split; [reflexivity|]. split; [rewrite rev_nth by lia; now replace (length (t_y f) - S j)%nat with (ny - 1 - j)%nat by lia|]. split; [exact Eh|]. split; [now apply (rev_entry 0%Z ny nx)|]. split.
  - cbv zeta. rewrite (map_entry (fun h => (h, req h 0)) ny nx _ 0) by auto. rewrite Eh. split; intros K; [rewrite (req_t _ _ K)|rewrite (req_f _ _ K)]; reflexivity.
  - intros s Es. set (d := fun c : ncell => if snd c then fst c else fst c / 100).
    assert (Ef : entry 0 (rev (map (map d) (t_flexure f))) j i = s / 100).
    { rewrite (rev_entry 0 ny nx) by (auto; now apply map_rect). rewrite (from_south_map d ny nx _ (0, false)) by auto. unfold ncell. rewrite Es. reflexivity. }
    pose proof (rev_rect ny nx _ (map_rect d ny nx _ Rf)) as Rs. rewrite (map_entry (fun h => (h, req h 0)) ny nx _ 0) by auto. rewrite Ef. split; intros K.
    + subst s. replace (0 / 100) with 0 by lra. rewrite (req_t 0 0) by reflexivity. reflexivity.
    + rewrite req_f by lra. reflexivity.
Qed.
Print Assumptions C75_grid.

(** ** Constants are those of the file, the imaginary part with its sign changed *)
Theorem C75_constants f ny nx nc t ic : t <> Vother -> arrays nc ny nx (real_part f t) -> arrays nc ny nx (imaginary_part f t) -> (ic < nc)%nat ->
  exists hc re im, read_file f ic t = Ok hc /\ rect ny nx hc /\ nth_error (real_part f t) ic = Some re /\ nth_error (imaginary_part f t) ic = Some im /\
    forall j i, (j < ny)%nat -> (i < nx)%nat -> entry (None, true) hc j i = (Some (fst (from_south (0, false) ny re j i), - fst (from_south (0, false) ny im j i)), false).
Proof.
  intros Ht [L1 R1] [L2 R2] Hic. destruct (nth_error (real_part f t) ic) as [re|] eqn:E1; [|apply nth_error_None in E1; lia]. destruct (nth_error (imaginary_part f t) ic) as [im|] eqn:E2; [|apply nth_error_None in E2; lia].
  pose proof (R1 re (nth_error_In _ _ E1)) as Rr. pose proof (R2 im (nth_error_In _ _ E2)) as Ri.
  assert (Ec : components f t = Some (real_part f t, imaginary_part f t)) by (destruct t; try reflexivity; congruence).
  unfold read_file. rewrite Ec. unfold get1, ncell. rewrite E1, E2. cbn [bind]. unfold north_up.
  pose proof (rev_rect ny nx re Rr) as Rr'. pose proof (rev_rect ny nx im Ri) as Ri'.
  do 3 eexists. split; [reflexivity|]. split; [now apply zip22_rect|]. split; [reflexivity|]. split; [reflexivity|]. intros j i Hj Hi.
  rewrite (zip22_entry _ ny nx _ _ (0, false) (0, false)) by auto. now rewrite !(rev_entry (0, false) ny nx) by auto.
Qed.
Print Assumptions C75_constants.

Lemma tide_zero w a b : a = 0 -> b = 0 -> tide w (Some (a, b), false) = None.
Proof. intros -> ->. unfold tide. destruct w; [|reflexivity]. destruct (Req_EM_T 0 0); [|congruence]. reflexivity. Qed.
Lemma tide_masked w z : tide w (z, true) = None.
Proof. unfold tide. destruct w; [|reflexivity]. destruct z as [[a b]|]; reflexivity. Qed.
Lemma fields_read geo around x0 dx nx y0 dy ny names t flexure f : tmd3_file geo around x0 dx nx y0 dy ny names t f -> t <> Vother ->
  (forall j i, (j < ny)%nat -> (i < nx)%nat -> snd (from_south (0, false) ny (t_flexure f) j i) = false) ->
  exists hcs, tmd3_fields f t flexure = Ok hcs /\ length hcs = length names /\ (forall hc, In hc hcs -> rect ny nx hc) /\
    forall c hc, nth_error hcs c = Some hc -> exists re im, nth_error (real_part f t) c = Some re /\ nth_error (imaginary_part f t) c = Some im /\
      forall j i w, (j < ny)%nat -> (i < nx)%nat ->
        tide w (entry (None, true) hc j i) = tide w (Some (factor flexure t ny f j i * fst (from_south (0, false) ny re j i), - (factor flexure t ny f j i * fst (from_south (0, false) ny im j i))), false).
Proof.
  intros (Ex & Ey & Hx & Hy & Rw & Rm & Rf & Sp & Ar & Ai & _) Ht Hmiss.
  unfold tmd3_fields. destruct (read_grid f) as [[g hz] sf] eqn:Eg. rewrite (C75_names f names Sp).
  assert (Sf : forall j i, (j < ny)%nat -> (i < nx)%nat -> entry (0, false) sf j i = (let s := fst (from_south (0, false) ny (t_flexure f) j i) / 100 in (s, req s 0))).
  { intros j i Hj Hi. pose proof (C75_grid f ny nx j i Rw Rm Rf (proj1 (proj2 Ey)) Hj Hi) as G. rewrite Eg in G. destruct G as (_ & _ & _ & _ & _ & G). specialize (Hmiss j i Hj Hi). destruct (from_south (0, false) ny (t_flexure f) j i) as [s b]. cbn [fst snd] in *. subst b. destruct (G s eq_refl) as [G1 G2]. cbv zeta. destruct (Req_EM_T s 0) as [->|N].
    - rewrite (G1 eq_refl). replace (0 / 100) with 0 by lra. now rewrite (req_t 0 0).
    - rewrite (G2 N). rewrite req_f by lra. reflexivity. }
  assert (Rs : rect ny nx sf). { pose proof (f_equal snd Eg) as E. cbn [snd] in E. rewrite <- E. unfold read_grid, north_up. cbn [snd]. apply map_rect, rev_rect, map_rect. exact Rf. }
  assert (One : forall c, In c (seq 0 (length names)) -> exists hc, (do h <- read_file f c t ;; Ok (match t with Vz => if flexure then flexed sf h else h | _ => h end)) = Ok hc).
  { intros c Hc. apply in_seq in Hc. destruct (C75_constants f ny nx (length names) t c Ht Ar Ai ltac:(lia)) as (h & re & im & E & _). rewrite E. cbn [bind]. eexists. reflexivity. }
  destruct (mapM_total _ _ One) as [hcs Eh]. exists hcs. split; [exact Eh|]. split; [rewrite (mapM_len _ _ _ Eh); apply seq_length|].
  assert (Each : forall c hc, nth_error hcs c = Some hc -> rect ny nx hc /\ exists re im, nth_error (real_part f t) c = Some re /\ nth_error (imaginary_part f t) c = Some im /\
      forall j i w, (j < ny)%nat -> (i < nx)%nat ->
        tide w (entry (None, true) hc j i) = tide w (Some (factor flexure t ny f j i * fst (from_south (0, false) ny re j i), - (factor flexure t ny f j i * fst (from_south (0, false) ny im j i))), false)).
  { intros c hc Ec. assert (Hc : (c < length names)%nat) by (rewrite <- (seq_length (length names) 0), <- (mapM_len _ _ _ Eh); apply nth_error_Some; congruence).
    destruct (mapM_nth _ _ _ c c Eh) as (hc' & E1 & E2); [rewrite (nth_error_nth' _ 0%nat) by (now rewrite seq_length); rewrite seq_nth by auto; reflexivity|]. assert (hc' = hc) by congruence. subst hc'.
    destruct (C75_constants f ny nx (length names) t c Ht Ar Ai Hc) as (h & re & im & E & Rh & Er & Ei & Hv). rewrite E in E1. cbn [bind] in E1. apply Ok_inj in E1.
    assert (Plain : hc = h -> (forall j i, factor flexure t ny f j i = 1) -> rect ny nx hc /\ exists re im, nth_error (real_part f t) c = Some re /\ nth_error (imaginary_part f t) c = Some im /\
      forall j i w, (j < ny)%nat -> (i < nx)%nat ->
        tide w (entry (None, true) hc j i) = tide w (Some (factor flexure t ny f j i * fst (from_south (0, false) ny re j i), - (factor flexure t ny f j i * fst (from_south (0, false) ny im j i))), false)).
    { intros -> F1. split; [exact Rh|]. exists re, im. split; [exact Er|]. split; [exact Ei|]. intros j i w Hj Hi. rewrite (Hv j i Hj Hi), F1, !Rmult_1_l. reflexivity. }
    destruct flexure; [destruct t|destruct t]; try (apply Plain; [now symmetry|reflexivity]).
    clear Plain. subst hc. split; [now apply zip22_rect|]. exists re, im. split; [exact Er|]. split; [exact Ei|]. intros j i w Hj Hi.
    pose proof (zip22_entry (fun (s : R * bool) (c : gcell cpx) => if snd s then (fst c, true) else (option_map (cscale (fst s)) (fst c), snd c)) ny nx sf h (0, false) (None, true) (None, true) j i Rs Rh Hj Hi) as E0. cbv beta in E0. pose proof (Hv j i Hj Hi) as V0. unfold gcell in *. rewrite (Sf j i Hj Hi), V0 in E0. cbv zeta in E0.
    change (zip22 _ sf h) with (flexed sf h) in E0. etransitivity; [exact (f_equal (tide w) E0)|]. clear E0. cbn [fst snd factor]. set (s := fst (from_south (0, false) ny (t_flexure f) j i) / 100).
    destruct (Req_EM_T s 0) as [Z|N].
    - rewrite (req_t s 0 Z). rewrite tide_masked. rewrite tide_zero; [reflexivity| |]; rewrite Z; ring.
    - rewrite (req_f s 0 N). cbn [option_map]. unfold cscale. cbn [fst snd cre cim]. do 4 f_equal. unfold cim. cbn. ring. }
  split.
  - intros hc Hin. apply In_nth_error in Hin as [c Ec]. exact (proj1 (Each c hc Ec)).
  - intros c hc Ec. exact (proj2 (Each c hc Ec)).
Qed.
