(** C76: how far the angles of the package are from the Conventions, and the
    sidereal time that is made from them. *)
From Coq Require Import String Ascii List Reals ZArith Bool Lia Lra Psatz.
From Verif Require Import PyBase RBase MathModel AstroModel AstroProps NutationData NutationModel NutationSpec NutationProps NutationProps2.
Import ListNotations.
Open Scope R_scope.

(** ** Sizes of series *)
Definition amplitude (r : row) : R := Rabs (row_sine r) + Rabs (row_cosine r).
Lemma trig_bound s c x : Rabs (s * sin x + c * cos x) <= Rabs s + Rabs c.
Proof.
  eapply Rle_trans; [apply Rabs_triang|]. rewrite !Rabs_mult.
  assert (Rabs (sin x) <= 1) by (apply Rabs_le; apply SIN_bound). assert (Rabs (cos x) <= 1) by (apply Rabs_le; apply COS_bound).
  pose proof (Rabs_pos s); pose proof (Rabs_pos c). nra.
Qed.
Lemma value_bound fs r : Rabs (term_value fs r) <= amplitude r.
Proof. apply trig_bound. Qed.
Lemma total_bound fs rs : Rabs (total (term_value fs) rs) <= total amplitude rs.
Proof.
  induction rs as [|r rs IH]; cbn [total]; [rewrite Rabs_R0; lra|].
  eapply Rle_trans; [apply Rabs_triang|]. pose proof (value_bound fs r). lra.
Qed.
Lemma total_planets fs (p : row -> bool) rs :
  (forall r, p r = false -> term_value fs (without_planets r) = term_value fs r) ->
  Rabs (total (term_value fs) (map without_planets rs) - total (term_value fs) rs) <= 2 * total amplitude (filter p rs).
Proof.
  intros H. induction rs as [|r rs IH]; cbn [map total filter]; [rewrite Rminus_0_r, Rabs_R0; lra|].
  match goal with |- Rabs (?a + ?b - (?c + ?d)) <= _ => replace (a + b - (c + d)) with ((a - c) + (b - d)) by ring end.
  eapply Rle_trans; [apply Rabs_triang|]. destruct (p r) eqn:E.
  - cbn [total]. assert (Rabs (term_value fs (without_planets r) - term_value fs r) <= 2 * amplitude r); [|lra].
    pose proof (value_bound fs (without_planets r)) as B1. pose proof (value_bound fs r) as B2.
    change (amplitude (without_planets r)) with (amplitude r) in B1.
    unfold Rminus; eapply Rle_trans; [apply Rabs_triang|]. rewrite Rabs_Ropp. lra.
  - rewrite H by exact E. replace (term_value fs r - term_value fs r) with 0 by ring. rewrite Rabs_R0. lra.
Qed.

(** amplitudes computed from what was read, in units of 2^-40 *)
Definition size (x : Z * Z) : Z := (Z.abs (fst x) * 2 ^ (snd x + 40))%Z.
Definition normal (t : term) : bool := ((-40 <=? snd (sine t)) && (-40 <=? snd (cosine t)))%Z.
Definition sizes (ts : list term) : Z := fold_right (fun t n => (size (sine t) + size (cosine t) + n)%Z) 0%Z ts.
Lemma size_value x : (-40 <= snd x)%Z -> Rabs (single_value x) = IZR (size x) / 2 ^ 40.
Proof.
  intros H. unfold single_value, size. rewrite mult_IZR, abs_IZR, <- pow_Z by lia. rewrite powerRZ_add by lra.
  change (powerRZ 2 40) with (2 ^ 40). rewrite Rabs_mult, (Rabs_pos_eq (powerRZ 2 (snd x))) by (left; apply pow_pos).
  field.
Qed.
Lemma sizes_total ts : forallb normal ts = true -> total amplitude (rows ts) = IZR (sizes ts) / 2 ^ 40.
Proof.
  induction ts as [|t ts IH]; [intros _; cbn; lra|]. cbn [forallb]. intros H; apply andb_true_iff in H as [Hn H].
  unfold normal in Hn; apply andb_true_iff in Hn as [H1 H2]; apply Z.leb_le in H1, H2.
  unfold rows; cbn [map total sizes fold_right]. fold (rows ts) (sizes ts). rewrite (IH H), !plus_IZR. unfold amplitude; cbn [row_of row_sine row_cosine].
  rewrite !size_value by assumption. field.
Qed.
Lemma sizes_le ts n : forallb normal ts = true -> (sizes ts <=? n * 2 ^ 40)%Z = true -> total amplitude (rows ts) <= IZR n.
Proof.
  intros H K. rewrite (sizes_total ts H). apply Z.leb_le, IZR_le in K. rewrite mult_IZR in K.
  assert (P : 0 < 2 ^ 40) by (apply pow_lt; lra). apply Rmult_le_reg_r with (2 ^ 40); [exact P|].
  unfold Rdiv. rewrite Rmult_assoc, Rinv_l, Rmult_1_r by lra. rewrite (pow_IZR 2 40). exact K.
Qed.

Definition planetary (t : term) : bool := existsb (fun n => negb (n =? 0)%Z) (skipn 5 (multipliers t)).
Definition planetary_row (r : row) : bool := existsb (fun n => negb (n =? 0)%Z) (skipn 5 (row_multipliers r)).
Lemma planetary_false r : planetary_row r = false -> lunisolar r.
Proof.
  unfold planetary_row, lunisolar. induction (skipn 5 (row_multipliers r)) as [|n l IH]; cbn [existsb]; [constructor|].
  intros H; apply orb_false_iff in H as [H1 H2]. constructor; [|auto]. apply negb_false_iff, Z.eqb_eq in H1; auto.
Qed.
Lemma filter_rows ts : filter planetary_row (rows ts) = rows (filter planetary ts).
Proof.
  induction ts as [|t ts IH]; [reflexivity|]. unfold rows in *; cbn [map filter]. change (planetary_row (row_of t)) with (planetary t).
  destruct (planetary t); cbn [map]; rewrite IH; reflexivity.
Qed.

(** ** The tables of the package *)
(** what is computed from them: all numbers are normal, the sum of all
    amplitudes is at most [n0] and [n1], of those of planetary terms at most [p],
    and no term multiplied by the time is planetary *)
Definition measured (tb : table) (n0 n1 p : Z) : bool :=
  forallb normal (fst tb) && forallb normal (snd tb) && (sizes (fst tb) <=? n0 * 2 ^ 40)%Z && (sizes (snd tb) <=? n1 * 2 ^ 40)%Z
  && (sizes (filter planetary (fst tb)) <=? p * 2 ^ 40)%Z && forallb (fun t => negb (planetary t)) (snd tb).
Lemma measured_a : measured table_5_3a 19467666 18290 5520 = true.
Proof. vm_compute; reflexivity. Qed.
Lemma measured_b : measured table_5_3b 10088950 1422 2766 = true.
Proof. vm_compute; reflexivity. Qed.
Lemma measured_e : measured table_5_2e 2747 1 2747 = true.
Proof. vm_compute; reflexivity. Qed.

Lemma measured_spec tb n0 n1 p : measured tb n0 n1 p = true ->
  total amplitude (rows (fst tb)) <= IZR n0 /\ total amplitude (rows (snd tb)) <= IZR n1
  /\ total amplitude (filter planetary_row (rows (fst tb))) <= IZR p
  /\ Forall lunisolar (rows (snd tb)).
Proof.
  unfold measured; rewrite !andb_true_iff. intros (((((H1 & H2) & H3) & H4) & H5) & H6).
  split; [now apply sizes_le|]. split; [now apply sizes_le|]. split.
  - rewrite filter_rows. apply sizes_le; [|exact H5]. apply forallb_forall. intros t Ht. apply filter_In in Ht as [Ht _].
    rewrite forallb_forall in H1; auto.
  - apply Forall_forall. intros r Hr. apply in_map_iff in Hr as (t & <- & Ht). apply planetary_false.
    rewrite forallb_forall in H6. specialize (H6 t Ht). apply negb_true_iff in H6. exact H6.
Qed.
Lemma measured_planets tb n0 n1 p T : measured tb n0 n1 p = true ->
  Rabs (conventions (map without_planets (rows (fst tb))) (map without_planets (rows (snd tb))) T
        - conventions (rows (fst tb)) (rows (snd tb)) T) <= 2 * IZR p.
Proof.
  intros H; destruct (measured_spec tb n0 n1 p H) as (_ & _ & H3 & H4). unfold conventions.
  rewrite (lunisolar_total T (rows (snd tb)) H4).
  match goal with |- Rabs (?a + ?c - (?b + ?c)) <= _ => replace (a + c - (b + c)) with (a - b) by ring end.
  eapply Rle_trans; [apply (total_planets _ planetary_row)|lra]. intros r Hr. apply lunisolar_same, planetary_false, Hr.
Qed.
Lemma measured_size tb n0 n1 p T : measured tb n0 n1 p = true ->
  Rabs (conventions (rows (fst tb)) (rows (snd tb)) T) <= IZR n0 + Rabs T * IZR n1.
Proof.
  intros H; destruct (measured_spec tb n0 n1 p H) as (H1 & H2 & _ & _). unfold conventions.
  eapply Rle_trans; [apply Rabs_triang|]. rewrite Rabs_mult.
  pose proof (total_bound (fundamental T) (rows (fst tb))). pose proof (total_bound (fundamental T) (rows (snd tb))).
  pose proof (Rabs_pos T). nra.
Qed.

(** The angles that are computed from the tables of the package differ from the
    series of these tables by no more than 11040 and 5532 microarcseconds, the
    unit of the tables.  Missing for equality: the arguments of the planets. *)
Theorem C76_angles_partial : forall c a0 a1 b0 b1,
  clock_T c = (clock_tt c - 2451545) / 36525 -> 0 <= clock_unit c ->
  parse_table_5_3a tab5_3a = Ok (a0, a1) -> parse_table_5_3b tab5_3b = Ok (b0, b1) ->
  Rabs (fst (nutation_angles c (a0, a1) (b0, b1)) - clock_unit c * conventions (rows a0) (rows a1) (clock_T c)) <= 11040 * clock_unit c
  /\ Rabs (snd (nutation_angles c (a0, a1) (b0, b1)) - clock_unit c * conventions (rows b0) (rows b1) (clock_T c)) <= 5532 * clock_unit c.
Proof.
  intros c a0 a1 b0 b1 HT Hu Ea Eb. rewrite ok_5_3a in Ea; apply Ok_inj in Ea. rewrite ok_5_3b in Eb; apply Ok_inj in Eb.
  pose proof (measured_planets table_5_3a _ _ _ (clock_T c) measured_a) as A. pose proof (measured_planets table_5_3b _ _ _ (clock_T c) measured_b) as B.
  rewrite Ea in A; rewrite Eb in B; cbn [fst snd] in A, B. rewrite C76_angles by assumption; cbn [fst snd].
  split; rewrite <- Rmult_minus_distr_l, Rabs_mult, (Rabs_pos_eq (clock_unit c)) by assumption; nra.
Qed.
Print Assumptions C76_angles_partial.

(** ** Sidereal time *)
Lemma obliquity_same c : clock_T c = (clock_tt c - 2451545) / 36525 ->
  mean_obliquity (clock_tt c - jd_mjd) = obliquity_of_date (clock_T c) - arcsec (0.00180306 * clock_T c ^ 3).
Proof.
  intros HT. unfold mean_obliquity, obliquity_of_date.
  replace ((clock_tt c - jd_mjd - mjd_j2000) / century) with (clock_T c) by (rewrite HT; unfold jd_mjd, mjd_j2000, century; lra).
  rewrite C52_polynomial_is_horner; unfold atr, arcsec; cbn [horner].
  generalize (clock_T c); intros T.
  match goal with |- PI / 648000 * ?a = ?b * PI / 648000 - ?d * PI / 648000 => assert (E : a = b - d) by lra; rewrite E end.
  unfold Rdiv; ring.
Qed.

(** Finding: the mean obliquity is that of the Conventions but for its cubic
    term, which is ten times too small; the two agree at the epoch only. *)
Theorem C76_obliquity_refuted : forall MJD,
  let T := (MJD - 51544.5) / 36525 in
  mean_obliquity MJD = obliquity_of_date T - arcsec (0.00180306 * T ^ 3)
  /\ (mean_obliquity MJD = obliquity_of_date T <-> MJD = 51544.5).
Proof.
  intros MJD T. pose (c := Clock (MJD + jd_mjd) T 0 0).
  assert (HT : clock_T c = (clock_tt c - 2451545) / 36525) by (unfold c, T; cbn [clock_T clock_tt]; unfold jd_mjd; lra).
  pose proof (obliquity_same c HT) as E. unfold c in E; cbn [clock_T clock_tt] in E.
  replace (MJD + jd_mjd - jd_mjd) with MJD in E by ring. split; [exact E|]. rewrite E. split.
  - intros H. assert (Z : arcsec (0.00180306 * T ^ 3) = 0) by lra. unfold arcsec in Z. pose proof PI_RGT_0.
    assert (Z1 : T ^ 3 = 0) by nra. destruct (Req_dec T 0) as [T0|T0].
    + unfold T in T0. lra.
    + exfalso. apply (pow_nonzero T 3 T0 Z1).
  - intros H. assert (T0 : T = 0) by (unfold T; rewrite H; lra). rewrite T0. unfold arcsec. lra.
Qed.
Print Assumptions C76_obliquity_refuted.

(** The sidereal time is the mean sidereal time with one twenty-fourth of the
    equation of the equinoxes, as part of a turn. *)
Theorem C76_gast : forall c la lb le a0 a1 b0 b1 e0 e1,
  clock_T c = (clock_tt c - 2451545) / 36525 ->
  parse_table_5_3a la = Ok (a0, a1) -> parse_table_5_3b lb = Ok (b0, b1) -> parse_table_5_2e le = Ok (e0, e1) ->
  exists g, gast c la lb le = Ok g /\ 0 <= g < 1 /\
    let T := clock_T c in
    let dpsi := clock_unit c * conventions (map without_planets (rows a0)) (map without_planets (rows a1)) T in
    let deps := clock_unit c * conventions (map without_planets (rows b0)) (map without_planets (rows b1)) T in
    same_turn g (clock_st c + (dpsi * cos (obliquity_of_date T - arcsec (0.00180306 * T ^ 3) + deps) + clock_unit c * conventions (rows e0) (rows e1) T) / 24).
Proof.
  intros c la lb le a0 a1 b0 b1 e0 e1 HT Ea Eb Ee. unfold gast; rewrite Ea, Eb, Ee; cbn [bind].
  eexists; split; [reflexivity|]. unfold gast_of. rewrite C76_angles by assumption. rewrite (obliquity_same c HT). rewrite C76_complement.
  split; [apply rmod_bounds; lra|]. cbv zeta.
  match goal with |- same_turn (rmod ?x 1) _ => destruct (rmod_cong x 1) as [k E] end.
  exists k. rewrite E; ring.
Qed.
Print Assumptions C76_gast.

Lemma sin_abs x : Rabs (sin x) <= Rabs x.
Proof.
  assert (P : forall y, 0 < y -> Rabs (sin y) <= y).
  { intros y Hy. destruct (Rle_dec y 1) as [L|L].
    - pose proof PI2_1. rewrite Rabs_pos_eq by (apply sin_ge_0; lra). left; now apply sin_lt_x.
    - apply Rabs_le. pose proof (SIN_bound y). lra. }
  destruct (Rtotal_order x 0) as [H|[->|H]].
  - specialize (P (- x) ltac:(lra)). rewrite sin_neg, Rabs_Ropp in P. rewrite (Rabs_left x) by lra. exact P.
  - rewrite sin_0; lra.
  - rewrite (Rabs_pos_eq x) by lra. apply P; lra.
Qed.
Lemma cos_near x d : Rabs (cos (x + d) - cos x) <= Rabs d.
Proof.
  rewrite form2. replace ((x + d - x) / 2) with (d / 2) by field.
  rewrite !Rabs_mult. replace (Rabs (-2)) with 2 by (rewrite Rabs_left; lra).
  pose proof (sin_abs (d / 2)) as A. unfold Rdiv in A. rewrite Rabs_mult, (Rabs_pos_eq (/ 2)) in A by lra.
  assert (B : Rabs (sin ((x + d + x) / 2)) <= 1) by (apply Rabs_le; apply SIN_bound).
  pose proof (Rabs_pos (sin (d / 2))). pose proof (Rabs_pos (sin ((x + d + x) / 2))). unfold Rdiv in *. nra.
Qed.

(** ** The leading term *)
Lemma first_a : exists ts, fst table_5_3a = Term 1 (-8603212, 1)%Z (13674906, -12)%Z [0; 0; 0; 0; 1; 0; 0; 0; 0; 0; 0; 0; 0; 0]%Z :: ts
  /\ total amplitude (rows ts) <= 2257904.
Proof.
  exists (tl (fst table_5_3a)). split; [vm_compute; reflexivity|]. apply (sizes_le _ 2257904); vm_compute; reflexivity.
Qed.

Lemma leading ts t1 T : total amplitude (rows ts) <= 2257904 -> total amplitude (rows t1) <= 18290 ->
  Rabs T <= 10 -> / 2 <= Rabs (sin (nth 4 (fundamental T) 0)) ->
  6100000 <= Rabs (conventions (rows (Term 1 (-8603212, 1)%Z (13674906, -12)%Z [0; 0; 0; 0; 1; 0; 0; 0; 0; 0; 0; 0; 0; 0]%Z :: ts)) (rows t1) T).
Proof.
  intros Hts H1 HT Hs. unfold conventions. unfold rows at 1; cbn [map total]. fold (rows ts).
  unfold term_value at 1. cbn [row_of row_sine row_cosine row_multipliers sine cosine multipliers number].
  pose proof (total_bound (fundamental T) (rows ts)) as B0.
  pose proof (total_bound (fundamental T) (rows t1)) as B1.
  assert (S0 : single_value (-8603212, 1)%Z = -17206424) by (unfold single_value; cbn [fst snd]; rewrite powerRZ_1; lra).
  assert (S1 : Rabs (single_value (13674906, -12)%Z) <= 3339).
  { rewrite size_value by (cbn [snd]; lia). replace (size (13674906, -12)%Z) with 3670829627867136%Z by (vm_compute; reflexivity). lra. }
  rewrite S0. set (k := single_value (13674906, -12)%Z) in *. clearbody k.
  assert (Earg : combination [0; 0; 0; 0; 1; 0; 0; 0; 0; 0; 0; 0; 0; 0]%Z (fundamental T) = nth 4 (fundamental T) 0).
  { unfold fundamental; cbn [combination nth]. ring. }
  rewrite Earg. set (node := nth 4 (fundamental T) 0) in *. clearbody node.
  set (r0 := total (term_value (fundamental T)) (rows ts)) in *.
  set (r1 := total (term_value (fundamental T)) (rows t1)) in *.
  clearbody r0 r1. set (q0 := total amplitude (rows ts)) in *. set (q1 := total amplitude (rows t1)) in *. clearbody q0 q1.
  assert (K : Rabs (k * cos node) <= 3339).
  { rewrite Rabs_mult. assert (Rabs (cos node) <= 1) by (apply Rabs_le; apply COS_bound). pose proof (Rabs_pos k); pose proof (Rabs_pos (cos node)). nra. }
  assert (R1 : Rabs (T * r1) <= 182900).
  { rewrite Rabs_mult. pose proof (Rabs_pos T); pose proof (Rabs_pos r1). nra. }
  set (y := T * r1) in *; clearbody y. set (z := k * cos node) in *; clearbody z.
  pose proof (Rabs_triang (-17206424 * sin node + z + r0 + y) (- (z + r0 + y))) as Tr.
  replace (-17206424 * sin node + z + r0 + y + - (z + r0 + y)) with (-17206424 * sin node) in Tr by ring.
  rewrite Rabs_mult, Rabs_Ropp in Tr. replace (Rabs (-17206424)) with 17206424 in Tr by (rewrite Rabs_left; lra).
  pose proof (Rabs_triang (z + r0) y). pose proof (Rabs_triang z r0). lra.
Qed.

(** Finding: the sidereal time that is made from the tables of the package is
    not the mean sidereal time with the equation of the equinoxes, an angle in
    radians, as part of a turn.  This holds whenever the node of the moon is
    more than thirty degrees from the equinoxes, for a thousand years before and
    after the epoch. *)
Theorem C76_gast_refuted : forall c a0 a1 b0 b1 e0 e1,
  clock_T c = (clock_tt c - 2451545) / 36525 -> clock_unit c = PI / 648000e6 ->
  parse_table_5_3a tab5_3a = Ok (a0, a1) -> parse_table_5_3b tab5_3b = Ok (b0, b1) -> parse_table_5_2e tab5_2e = Ok (e0, e1) ->
  Rabs (clock_T c) <= 10 -> / 2 <= Rabs (sin (nth 4 (fundamental (clock_T c)) 0)) ->
  exists g, gast c tab5_3a tab5_3b tab5_2e = Ok g /\
    let T := clock_T c in
    let dpsi := clock_unit c * conventions (rows a0) (rows a1) T in
    let complement := clock_unit c * conventions (rows e0) (rows e1) T in
    ~ same_turn g (clock_st c + (dpsi * cos (obliquity_of_date T) + complement) / (2 * PI)).
Proof.
  intros c a0 a1 b0 b1 e0 e1 HT Hu Ea Eb Ee Ht Hs.
  destruct (C76_gast c tab5_3a tab5_3b tab5_2e a0 a1 b0 b1 e0 e1 HT Ea Eb Ee) as (g & Eg & _ & Hg).
  exists g; split; [exact Eg|]. cbv zeta in *.
  rewrite ok_5_3a in Ea; apply Ok_inj in Ea. rewrite ok_5_3b in Eb; apply Ok_inj in Eb. rewrite ok_5_2e in Ee; apply Ok_inj in Ee.
  set (T := clock_T c) in *. set (u := clock_unit c) in *.
  pose proof (measured_planets table_5_3a _ _ _ T measured_a) as A1. pose proof (measured_size table_5_3a _ _ _ T measured_a) as A2.
  pose proof (measured_planets table_5_3b _ _ _ T measured_b) as B1. pose proof (measured_size table_5_3b _ _ _ T measured_b) as B2.
  pose proof (measured_size table_5_2e _ _ _ T measured_e) as C1.
  destruct first_a as (ts & Ets & Hts). destruct (measured_spec table_5_3a _ _ _ measured_a) as (_ & Ha1 & _ & _).
  rewrite Ea in A1, A2, Ets, Ha1. cbn [fst snd] in Ets, Ha1.
  pose proof (leading ts a1 T Hts Ha1 Ht Hs) as L. rewrite <- Ets in L. rewrite Eb in B1, B2. rewrite Ee in C1. cbn [fst snd] in *.
  set (S' := conventions (map without_planets (rows a0)) (map without_planets (rows a1)) T) in *.
  set (S := conventions (rows a0) (rows a1) T) in *.
  set (D' := conventions (map without_planets (rows b0)) (map without_planets (rows b1)) T) in *.
  set (D := conventions (rows b0) (rows b1) T) in *.
  set (C := conventions (rows e0) (rows e1) T) in *.
  set (eps := obliquity_of_date T) in *.
  assert (Hpi : 2 < PI <= 4) by (pose proof PI2_1; pose proof PI_4; lra).
  assert (U : 0 < u <= / 150000000000) by (rewrite Hu; lra).
  (* the angles *)
  assert (De : Rabs (u * D') <= / 10000).
  { rewrite Rabs_mult, (Rabs_pos_eq u) by lra.
    assert (Rabs D' <= 10108702).
    { replace D' with ((D' - D) + D) by ring. eapply Rle_trans; [apply Rabs_triang|]. pose proof (Rabs_pos T). lra. }
    pose proof (Rabs_pos D'). nra. }
  assert (Dt : Rabs (- arcsec (0.00180306 * T ^ 3)) <= / 10000).
  { rewrite Rabs_Ropp. unfold arcsec, Rdiv. rewrite !Rabs_mult. rewrite <- RPow_abs.
    rewrite (Rabs_pos_eq PI), (Rabs_pos_eq (/ 648000)) by lra. rewrite Rabs_pos_eq by lra.
    pose proof (Rabs_pos T) as P0. assert (P3 : Rabs T ^ 3 <= 1000).
    { replace 1000 with (10 ^ 3) by ring. apply pow_incr; lra. }
    assert (0 <= Rabs T ^ 3) by (apply pow_le; lra). nra. }
  set (w := eps - arcsec (0.00180306 * T ^ 3) + u * D') in *.
  assert (Dw : Rabs (cos w - cos eps) <= / 5000).
  { replace w with (eps + (- arcsec (0.00180306 * T ^ 3) + u * D')) by (unfold w, eps; ring).
    eapply Rle_trans; [apply cos_near|]. eapply Rle_trans; [apply Rabs_triang|]. lra. }
  assert (Ce : / 2 <= cos eps).
  { assert (Be : - (PI / 3) <= eps <= PI / 3).
    { unfold eps, obliquity_of_date, arcsec. 
      assert (X : Rabs (84381.406 - 46.836769 * T - 0.0001831 * T ^ 2 + 0.00200340 * T ^ 3 - 0.000000576 * T ^ 4 - 0.0000000434 * T ^ 5) <= 216000).
      { apply Rabs_le. pose proof (Rabs_pos T) as P0. assert (Q : -10 <= T <= 10) by (unfold Rabs in Ht; destruct (Rcase_abs T); lra).
        assert (T2 : 0 <= T ^ 2 <= 100) by nra. 
        assert (T3 : -1000 <= T ^ 3 <= 1000) by (replace (T ^ 3) with (T * T ^ 2) by ring; nra).
        assert (T4 : 0 <= T ^ 4 <= 10000) by (replace (T ^ 4) with (T ^ 2 * T ^ 2) by ring; nra).
        assert (T5 : -100000 <= T ^ 5 <= 100000) by (replace (T ^ 5) with (T * T ^ 4) by ring; nra).
        lra. }
      apply Rabs_def2b in X || (unfold Rabs in X; destruct (Rcase_abs _) in X).
      all: split; nra. }
    replace (/ 2) with (1 / 2) by lra. rewrite <- cos_PI3. destruct (Rle_dec 0 eps) as [G|G].
    - destruct (Req_dec eps (PI / 3)) as [->|N]; [lra|]. left; apply cos_decreasing_1; lra.
    - rewrite <- (cos_neg eps). destruct (Req_dec (- eps) (PI / 3)) as [->|N]; [lra|]. left; apply cos_decreasing_1; lra. }
  assert (Ce1 : cos eps <= 1) by apply COS_bound. assert (Cw1 : -1 <= cos w <= 1) by apply COS_bound.
  generalize dependent (cos w). generalize dependent (cos eps).
  intros ce Ce Ce1 cw Hg Dw Cw1.
  clear w De Dt B1 B2 HT Hs Eg Ea Eb Ee Ets Hts Ha1.
  assert (A2' : Rabs S <= 19650566) by (pose proof (Rabs_pos T); lra).
  assert (C1' : Rabs C <= 2757) by (pose proof (Rabs_pos T); lra).
  set (P := S * ce + C). set (Q := S' * cw + C).
  assert (HP : 3000000 <= Rabs P <= 19700000).
  { assert (X : Rabs (S * ce) = Rabs S * ce) by (rewrite Rabs_mult, (Rabs_pos_eq ce) by lra; ring).
    split.
    - replace (S * ce) with (P + - C) in X by (unfold P; ring). pose proof (Rabs_triang P (- C)) as Y. rewrite Rabs_Ropp in Y.
      rewrite X in Y. nra.
    - unfold P. eapply Rle_trans; [apply Rabs_triang|]. rewrite X. pose proof (Rabs_pos S). nra. }
  assert (HQ : Rabs (Q - P) <= 16000).
  { replace (Q - P) with ((S' - S) * cw + S * (cw - ce)) by (unfold P, Q; ring).
    eapply Rle_trans; [apply Rabs_triang|]. rewrite !Rabs_mult. assert (Rabs cw <= 1) by (apply Rabs_le; lra).
    pose proof (Rabs_pos (S' - S)); pose proof (Rabs_pos S); pose proof (Rabs_pos cw); pose proof (Rabs_pos (cw - ce)). nra. }
  intros [k Hk]. destruct Hg as [j Hj].
  assert (E : u * (P / (2 * PI) - Q / 24) = IZR (j - k)).
  { rewrite minus_IZR. replace (u * (P / (2 * PI) - Q / 24)) with ((u * S * ce + u * C) / (2 * PI) - (u * S' * cw + u * C) / 24) by (unfold P, Q; field; lra).
    lra. }
  assert (V : P / (2 * PI) = P * / (2 * PI)) by reflexivity.
  assert (I1 : / 8 <= / (2 * PI)) by (apply Rinv_le_contravar; lra).
  assert (I2 : / (2 * PI) <= / 4) by (apply Rinv_le_contravar; lra).
  set (h := / (2 * PI)) in *. clearbody h.
  assert (Z : P * h - Q / 24 <> 0 /\ Rabs (P * h - Q / 24) <= 20000000).
  { replace (P * h - Q / 24) with (P * (h - / 24) - (Q - P) / 24) by field.
    assert (X1 : 250000 <= Rabs (P * (h - / 24)) <= 19700000).
    { rewrite Rabs_mult, (Rabs_pos_eq (h - / 24)) by lra. nra. }
    assert (X2 : Rabs ((Q - P) / 24) <= 1000) by (unfold Rdiv; rewrite Rabs_mult, (Rabs_pos_eq (/ 24)) by lra; lra).
    split.
    - intros E0. assert (E1 : P * (h - / 24) = (Q - P) / 24) by lra. rewrite E1 in X1. lra.
    - unfold Rminus at 1. eapply Rle_trans; [apply Rabs_triang|]. rewrite Rabs_Ropp. lra. }
  destruct Z as [Z1 Z2]. rewrite V in E. set (v := P * h - Q / 24) in *. clearbody v.
  assert (Sm : Rabs (IZR (j - k)) < 1).
  { rewrite <- E, Rabs_mult, (Rabs_pos_eq u) by lra. pose proof (Rabs_pos v). nra. }
  rewrite <- abs_IZR in Sm. apply lt_IZR in Sm. assert (J : (j - k = 0)%Z) by lia. rewrite J in E.
  apply Rmult_integral in E as [E|E]; [lra|contradiction].
Qed.
Print Assumptions C76_gast_refuted.

(** The node of the moon at the epoch is such a case. *)
Example C76_case_epoch : forall st, exists g,
  gast (Clock 2451545 0 st (PI / 648000e6)) tab5_3a tab5_3b tab5_2e = Ok g
  /\ / 2 <= Rabs (sin (nth 4 (fundamental 0) 0)).
Proof.
  intros st. unfold gast. rewrite ok_5_3a, ok_5_3b, ok_5_2e; cbn [bind]. eexists; split; [reflexivity|].
  replace (nth 4 (fundamental 0) 0) with (PI - 197839.601964 / 648000 * PI) by (unfold fundamental, arcsec; cbn [nth]; rewrite !pow_i by lia; lra).
  rewrite sin_PI_x.
  pose proof PI_RGT_0. eapply Rle_trans; [|apply Rle_abs]. replace (/ 2) with (1 / 2) by lra. rewrite <- sin_PI6.
  left; apply sin_increasing_1; lra.
Qed.
