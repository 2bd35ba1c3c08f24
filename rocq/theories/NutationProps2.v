(** C76: the angles of nutation and the complement of the equation of the
    equinoxes are the series of the tables; the tables of the package. *)
From Coq Require Import String Ascii List Reals ZArith Bool Lia Lra Psatz.
From Verif Require Import PyBase RBase MathModel AstroModel AstroProps NutationData NutationModel NutationSpec NutationProps.
Import ListNotations.
Open Scope R_scope.

(** the numbers of a term as they were read *)
Definition row_of (t : term) : row := Row (number t) (single_value (sine t)) (single_value (cosine t)) (multipliers t).
Definition rows (ts : list term) : list row := map row_of ts.

Lemma sin_same x y : same_mod (2 * PI) x y -> sin x = sin y.
Proof. intros [k ->]. replace (y + 2 * PI * IZR k) with (y + 2 * IZR k * PI) by ring. apply sin_turns. Qed.
Lemma cos_same x y : same_mod (2 * PI) x y -> cos x = cos y.
Proof. intros [k ->]. replace (y + 2 * PI * IZR k) with (y + 2 * IZR k * PI) by ring. apply cos_turns. Qed.
Lemma dot_same ns : forall fs gs, Forall2 (same_mod (2 * PI)) fs gs -> same_mod (2 * PI) (dot_int ns fs) (combination ns gs).
Proof.
  induction ns as [|n ns IH]; intros fs gs H; [exists 0%Z; cbn [dot_int combination]; ring|].
  destruct H as [|f g fs gs [k Hk] H]; [exists 0%Z; cbn [dot_int combination]; ring|].
  destruct (IH fs gs H) as [j Hj]. exists (n * k + j)%Z. cbn [dot_int combination]. rewrite Hj, Hk, plus_IZR, mult_IZR. ring.
Qed.

(** the series of the model against the series of the Conventions *)
Lemma dot_total (arg : term -> R) ts :
  dot_terms (fun t => single_value (sine t)) (fun t => sin (arg t)) ts
  + dot_terms (fun t => single_value (cosine t)) (fun t => cos (arg t)) ts
  = fold_right (fun t acc => (single_value (sine t) * sin (arg t) + single_value (cosine t) * cos (arg t)) + acc) 0 ts.
Proof. induction ts as [|t ts IH]; cbn [dot_terms fold_right]; [ring|]. rewrite <- IH; ring. Qed.
Lemma series_conventions tb arg T (q : row -> row) :
  (forall t, row_sine (q (row_of t)) = single_value (sine t)) -> (forall t, row_cosine (q (row_of t)) = single_value (cosine t)) ->
  (forall t, same_mod (2 * PI) (arg t) (combination (row_multipliers (q (row_of t))) (fundamental T))) ->
  series tb arg T = conventions (map q (rows (fst tb))) (map q (rows (snd tb))) T.
Proof.
  intros Hs Hc Ha.
  assert (K : forall ts, dot_terms (fun t => single_value (sine t)) (fun t => sin (arg t)) ts
    + dot_terms (fun t => single_value (cosine t)) (fun t => cos (arg t)) ts
    = total (term_value (fundamental T)) (map q (rows ts))).
  { intros ts; rewrite dot_total. induction ts as [|t ts IH]; [reflexivity|]. cbn [fold_right rows map total].
    fold (rows ts). rewrite <- IH. f_equal. unfold term_value. rewrite Hs, Hc, (sin_same _ _ (Ha t)), (cos_same _ _ (Ha t)). reflexivity. }
  unfold series, conventions. rewrite <- !K. ring.
Qed.

(** ** The arguments *)
Lemma same_arcsec (cs : list R) T x :
  polynomial_sum cs T = x -> same_mod (2 * PI) (atr * normalize_angle (polynomial_sum cs T) circle) (arcsec x).
Proof.
  intros <-. unfold normalize_angle. destruct (rmod_cong (polynomial_sum cs T) circle) as [k ->].
  exists k. unfold atr, circle, arcsec. field.
Qed.
Lemma same_split T c0 c1 c1' c2 c3 c4 n x : c1 = c1' + 1296000 * n ->
  c0 + c1 * T + c2 * T ^ 2 + c3 * T ^ 3 + c4 * T ^ 4 = x ->
  same_mod (2 * PI) (rmod (atr * polynomial_sum [c0; c1'; c2; c3; c4] T + 2 * PI * rmod (n * T) 1) (2 * PI)) (arcsec x).
Proof.
  intros E <-. match goal with |- same_mod _ (rmod ?y _) _ => destruct (rmod_cong y (2 * PI)) as [k ->] end.
  destruct (rmod_cong (n * T) 1) as [j ->].
  exists (k + j)%Z; rewrite plus_IZR, !C52_polynomial_is_horner; unfold atr, arcsec; cbn [horner]. rewrite E; field.
Qed.
Lemma same_rmod x y : x = y -> same_mod (2 * PI) (rmod x (2 * PI)) y.
Proof. intros ->. destruct (rmod_cong y (2 * PI)) as [k ->]. exists k; ring. Qed.

Lemma delaunay_fundamental MJD :
  Forall2 (same_mod (2 * PI)) (delaunay_arguments MJD) (firstn 5 (fundamental ((MJD - 51544.5) / 36525))).
Proof.
  unfold delaunay_arguments, delaunay_coefs, fundamental; cbv zeta; cbn [map firstn].
  change ((MJD - mjd_j2000) / century) with ((MJD - 51544.5) / 36525). set (T := (MJD - 51544.5) / 36525).
  repeat (apply Forall2_cons; [apply same_arcsec; rewrite C52_polynomial_is_horner; cbn [horner]; lra|]); apply Forall2_nil.
Qed.
Lemma complement_fundamental T : Forall2 (same_mod (2 * PI)) (complement_arguments T) (fundamental T).
Proof.
  unfold complement_arguments, eqeq_arguments, eqeq_coefs, planet_coefs, fundamental; cbn [map app fst snd].
  do 5 (apply Forall2_cons; [eapply same_split; [reflexivity|lra]|]).
  repeat (apply Forall2_cons; [apply same_rmod; rewrite C52_polynomial_is_horner; cbn [horner]; lra|]); apply Forall2_nil.
Qed.
Lemma combination_firstn k : forall ns fs, combination (firstn k ns) (firstn k fs) = combination (firstn k ns) fs.
Proof. induction k as [|k IH]; intros [|n ns] [|f fs]; cbn [firstn combination]; try reflexivity. now rewrite IH. Qed.

(** The complement of the equation of the equinoxes is the series of its table
    with all fourteen arguments, for every table and time. *)
Theorem C76_complement : forall c e0 e1,
  eqeq_complement c (e0, e1) = clock_unit c * conventions (rows e0) (rows e1) (clock_T c).
Proof.
  intros c e0 e1. unfold eqeq_complement; cbv zeta. f_equal.
  rewrite (series_conventions (e0, e1) _ _ (fun r => r)); [|reflexivity|reflexivity|].
  - cbn [fst snd]. now rewrite !map_id.
  - intros t. cbn [row_of row_multipliers]. apply dot_same, complement_fundamental.
Qed.
Print Assumptions C76_complement.

(** The angles of nutation are the series of their tables with the planetary
    multipliers left out. *)
Theorem C76_angles : forall c a0 a1 b0 b1,
  clock_T c = (clock_tt c - 2451545) / 36525 ->
  nutation_angles c (a0, a1) (b0, b1)
  = (clock_unit c * conventions (map without_planets (rows a0)) (map without_planets (rows a1)) (clock_T c),
     clock_unit c * conventions (map without_planets (rows b0)) (map without_planets (rows b1)) (clock_T c)).
Proof.
  intros c a0 a1 b0 b1 HT. unfold nutation_angles; cbv zeta.
  assert (K : forall tb, series tb (fun t => dot_int (firstn 5 (multipliers t)) (delaunay_arguments (clock_tt c - jd_mjd))) (clock_T c)
    = conventions (map without_planets (rows (fst tb))) (map without_planets (rows (snd tb))) (clock_T c)).
  { intros tb. apply series_conventions; [reflexivity|reflexivity|]. intros t.
    cbn [without_planets row_of row_multipliers]. rewrite <- (combination_firstn 5 (multipliers t) (fundamental (clock_T c))). apply dot_same.
    rewrite HT. replace (clock_tt c - 2451545) with (clock_tt c - jd_mjd - 51544.5) by (unfold jd_mjd; lra).
    apply delaunay_fundamental. }
  rewrite !K; reflexivity.
Qed.
Print Assumptions C76_angles.

Lemma combination_zero ns : forall fs, Forall (eq 0%Z) ns -> combination ns fs = 0.
Proof. induction ns as [|n ns IH]; intros [|f fs] H; cbn [combination]; try reflexivity. inversion H; subst. rewrite IH by assumption; ring. Qed.
Lemma combination_split k : forall ns fs, (k <= List.length fs)%nat ->
  combination ns fs = combination (firstn k ns) fs + combination (skipn k ns) (skipn k fs).
Proof.
  induction k as [|k IH]; intros ns fs H; [cbn [firstn skipn]; destruct ns; cbn [combination]; ring|].
  destruct ns as [|n ns]; [cbn [firstn skipn combination]; ring|]. destruct fs as [|f fs]; [cbn in H; lia|].
  cbn [firstn skipn combination]. rewrite (IH ns fs) by (cbn [List.length] in H; lia). ring.
Qed.
Lemma lunisolar_same T r : lunisolar r -> term_value (fundamental T) (without_planets r) = term_value (fundamental T) r.
Proof.
  intros H. unfold term_value; cbn [without_planets row_sine row_cosine row_multipliers].
  rewrite (combination_split 5 (row_multipliers r)) by (cbn; lia). rewrite (combination_zero (skipn 5 (row_multipliers r))) by exact H.
  rewrite Rplus_0_r; reflexivity.
Qed.
Lemma lunisolar_total T rs : Forall lunisolar rs -> total (term_value (fundamental T)) (map without_planets rs) = total (term_value (fundamental T)) rs.
Proof. induction 1 as [|r rs H _ IH]; [reflexivity|]. cbn [map total]. rewrite IH, lunisolar_same by assumption; reflexivity. Qed.

(** So for tables without planetary terms they are the angles of the
    Conventions. *)
Theorem C76_lunisolar : forall c a0 a1 b0 b1,
  clock_T c = (clock_tt c - 2451545) / 36525 ->
  Forall lunisolar (rows a0) -> Forall lunisolar (rows a1) -> Forall lunisolar (rows b0) -> Forall lunisolar (rows b1) ->
  nutation_angles c (a0, a1) (b0, b1)
  = (clock_unit c * conventions (rows a0) (rows a1) (clock_T c), clock_unit c * conventions (rows b0) (rows b1) (clock_T c)).
Proof.
  intros c a0 a1 b0 b1 HT H1 H2 H3 H4. rewrite C76_angles by assumption.
  unfold conventions; rewrite !lunisolar_total by assumption; reflexivity.
Qed.
Print Assumptions C76_lunisolar.

(** Finding: with planetary terms they are not, as the multipliers of the
    planets are not used. *)
Theorem C76_planets_refuted : forall unit st, unit <> 0 ->
  exists t, term_of_line "1 0.00 1.00 0 0 0 0 0 0 0 0 0 1 0 0 0 0" = Ok t /\
    nutation_angles (Clock 2451545 0 st unit) ([t], []) ([t], [])
    <> (unit * conventions (rows [t]) [] 0, unit * conventions (rows [t]) [] 0).
Proof.
  intros unit st Hu. exists (Term 1 (0, 0)%Z (8388608, -23)%Z [0; 0; 0; 0; 0; 0; 0; 0; 0; 1; 0; 0; 0; 0]%Z).
  split; [vm_compute; reflexivity|].
  rewrite C76_angles by (cbn [clock_tt clock_T]; lra). cbn [clock_unit clock_T]. intros E.
  apply (f_equal fst) in E; cbn [fst] in E. apply Rmult_eq_reg_l in E; [|exact Hu].
  unfold conventions in E. cbn [rows map total row_of without_planets number multipliers sine cosine firstn] in E.
  unfold term_value in E; cbn [row_sine row_cosine row_multipliers combination fundamental without_planets row_of number sine cosine multipliers firstn] in E.
  assert (S0 : single_value (0, 0)%Z = 0) by (unfold single_value; cbn [fst snd]; ring).
  assert (S1 : single_value (8388608, -23)%Z = 1) by (unfold single_value; cbn [fst snd]; change (powerRZ 2 (-23)) with (/ 2 ^ 23); field).
  rewrite S0, S1 in E.
  assert (C : cos (0.599546497 + 52.9690962641 * 0) < cos 0).
  { pose proof PI2_1. apply cos_decreasing_1; lra. }
  rewrite cos_0 in C.
  match type of E with context [cos ?x] => replace x with 0 in E by ring end. rewrite cos_0 in E.
  match type of E with _ = 0 * _ + 1 * cos ?y + 0 + _ => replace y with (0.599546497 + 52.9690962641 * 0) in E by ring end.
  lra.
Qed.
Print Assumptions C76_planets_refuted.

(** ** The tables that are part of the package *)
Definition from_ok (r : res table) : table := match r with Ok t => t | Err _ => ([], []) end.
Definition table_5_3a : table := from_ok (parse_table_5_3a tab5_3a).
Definition table_5_3b : table := from_ok (parse_table_5_3b tab5_3b).
Definition table_5_2e : table := from_ok (parse_table_5_2e tab5_2e).
Lemma ok_table (r : res table) : is_ok r = true -> r = Ok (from_ok r).
Proof. destruct r; [reflexivity|discriminate]. Qed.
Lemma ok_5_3a : parse_table_5_3a tab5_3a = Ok table_5_3a.
Proof. apply ok_table; vm_compute; reflexivity. Qed.
Lemma ok_5_3b : parse_table_5_3b tab5_3b = Ok table_5_3b.
Proof. apply ok_table; vm_compute; reflexivity. Qed.
Lemma ok_5_2e : parse_table_5_2e tab5_2e = Ok table_5_2e.
Proof. apply ok_table; vm_compute; reflexivity. Qed.

(** All terms of the tables of the package are read: they are numbered one
    after another, and no other line of the files lists a term. *)
Fixpoint term_lines (lines : list string) (k : nat) : list nat :=
  match lines with [] => [] | l :: ls => (if is_ok (term_of_line l) then [k] else []) ++ term_lines ls (S k) end.
Lemma term_lines_complete lines : forall k j l, nth_error lines j = Some l -> (exists r, lists l r) -> In (k + j)%nat (term_lines lines k).
Proof.
  induction lines as [|x ls IH]; intros k [|j] l; cbn [nth_error]; try discriminate.
  - intros E [r H]. assert (x = l) by congruence; subst x. destruct (C76_line l r H) as (t & Et & _).
    cbn [term_lines]. rewrite Et; cbn [is_ok]. left; lia.
  - intros E H. cbn [term_lines]. apply in_or_app; right. replace (k + S j)%nat with (S k + j)%nat by lia. eapply IH; eassumption.
Qed.
Theorem C76_files : exists a0 a1 b0 b1 e0 e1,
  parse_table_5_3a tab5_3a = Ok (a0, a1) /\ parse_table_5_3b tab5_3b = Ok (b0, b1) /\ parse_table_5_2e tab5_2e = Ok (e0, e1)
  /\ map (fun t => Z.to_nat (number t)) (a0 ++ a1)%list = seq 1 1358
  /\ map (fun t => Z.to_nat (number t)) (b0 ++ b1)%list = seq 1 1056
  /\ map (fun t => Z.to_nat (number t)) (e0 ++ e1)%list = seq 1 34
  /\ Forall (fun t => List.length (multipliers t) = 14%nat) (a0 ++ a1 ++ b0 ++ b1 ++ e0 ++ e1)%list
  /\ (forall j l, nth_error tab5_3a j = Some l -> (exists r, lists l r) -> (22 <= j < 1342 \/ 1348 <= j < 1386)%nat)
  /\ (forall j l, nth_error tab5_3b j = Some l -> (exists r, lists l r) -> (22 <= j < 1059 \/ 1065 <= j < 1084)%nat)
  /\ (forall j l, nth_error tab5_2e j = Some l -> (exists r, lists l r) -> (53 <= j < 86 \/ j = 90)%nat).
Proof.
  exists (fst table_5_3a), (snd table_5_3a), (fst table_5_3b), (snd table_5_3b), (fst table_5_2e), (snd table_5_2e).
  rewrite <- !surjective_pairing. split; [exact ok_5_3a|]. split; [exact ok_5_3b|]. split; [exact ok_5_2e|].
  split; [vm_compute; reflexivity|]. split; [vm_compute; reflexivity|]. split; [vm_compute; reflexivity|].
  split.
  { assert (K : forallb (fun t => (List.length (multipliers t) =? 14)%nat)
      (fst table_5_3a ++ snd table_5_3a ++ fst table_5_3b ++ snd table_5_3b ++ fst table_5_2e ++ snd table_5_2e)%list = true) by (vm_compute; reflexivity).
    apply Forall_forall. intros t Ht. rewrite forallb_forall in K. apply Nat.eqb_eq, (K t Ht). }
  assert (G : forall lines (p : nat -> bool), forallb p (term_lines lines 0) = true -> forall j l, nth_error lines j = Some l -> (exists r, lists l r) -> p j = true).
  { intros lines p K j l E H. rewrite forallb_forall in K. apply K. apply (term_lines_complete lines 0 j l E H). }
  split; [|split].
  - intros j l E H. pose proof (G tab5_3a (fun j => ((22 <=? j) && (j <? 1342) || (1348 <=? j) && (j <? 1386))%nat) ltac:(vm_compute; reflexivity) j l E H) as B.
    apply orb_true_iff in B; rewrite !andb_true_iff, !Nat.leb_le, !Nat.ltb_lt in B; lia.
  - intros j l E H. pose proof (G tab5_3b (fun j => ((22 <=? j) && (j <? 1059) || (1065 <=? j) && (j <? 1084))%nat) ltac:(vm_compute; reflexivity) j l E H) as B.
    apply orb_true_iff in B; rewrite !andb_true_iff, !Nat.leb_le, !Nat.ltb_lt in B; lia.
  - intros j l E H. pose proof (G tab5_2e (fun j => ((53 <=? j) && (j <? 86) || (j =? 90))%nat) ltac:(vm_compute; reflexivity) j l E H) as B.
    apply orb_true_iff in B; rewrite !andb_true_iff, !Nat.leb_le, !Nat.ltb_lt, Nat.eqb_eq in B; lia.
Qed.
Print Assumptions C76_files.

(** A line of a table lists a term. *)
Example C76_case_line : exists r, lists "   34          -0.87          0.00    0    0    0    0    1    0    0    0    0    0    0    0    0    0" r.
Proof.
  destruct (term_of_line "   34          -0.87          0.00    0    0    0    0    1    0    0    0    0    0    0    0    0    0") as [t|e] eqn:E.
  - destruct (proj1 (C76_line_only _) t E) as (r & H & _). exists r; exact H.
  - exfalso. assert (K : is_ok (term_of_line "   34          -0.87          0.00    0    0    0    0    1    0    0    0    0    0    0    0    0    0") = true) by (vm_compute; reflexivity).
    rewrite E in K; discriminate.
Qed.
(** The clock of the epoch meets the relation between its times. *)
Example C76_case_clock : clock_T (Clock 2451545 0 0 1) = (clock_tt (Clock 2451545 0 0 1) - 2451545) / 36525.
Proof. cbn [clock_T clock_tt]; lra. Qed.
