(** C77: which terms of the potential the long-period equilibrium tide is made of,
    and the amplitudes of the constituents. *)
From Coq Require Import String Ascii List Reals ZArith Bool Lia Lra Psatz.
From Verif Require Import PyBase StrBase RBase PiBounds MathModel NutationModel NutationSpec NutationProps DoodsonModel DoodsonData ArgModel LpeSpec
  PotentialData PotentialModel PotentialSpec PotentialProps PotentialProps2.
Import ListNotations.
Open Scope R_scope.
Open Scope list_scope.

(** ** Comparisons with decimals, in integers *)
Definition between (x : Z * Z) (lo hi : Z) : bool := (fits x && (lo * 2 ^ 60 <=? fixed x * 10 ^ 8) && (fixed x * 10 ^ 8 <=? hi * 2 ^ 60))%Z.
Lemma between_value x lo hi : between x lo hi = true -> IZR lo / 10 ^ 8 <= single_value x <= IZR hi / 10 ^ 8.
Proof.
  unfold between. rewrite !andb_true_iff. intros ((F & A) & B). apply Z.leb_le in A, B. apply IZR_le in A, B. rewrite !mult_IZR in A, B.
  rewrite (fixed_value _ F). replace (IZR (10 ^ 8)) with (10 ^ 8) in A, B by (rewrite pow_IZR; reflexivity).
  set (b := IZR (2 ^ 60)) in *. assert (Pb : 0 < b) by (apply IZR_lt; reflexivity). clearbody b. set (X := IZR (fixed x)) in *. clearbody X.
  split; apply Rmult_le_reg_r with (b * 10 ^ 8); try (apply Rmult_lt_0_compat; lra).
  - replace (IZR lo / 10 ^ 8 * (b * 10 ^ 8)) with (IZR lo * b) by field. replace (X / b * (b * 10 ^ 8)) with (X * 10 ^ 8) by (field; lra). exact A.
  - replace (IZR hi / 10 ^ 8 * (b * 10 ^ 8)) with (IZR hi * b) by field. replace (X / b * (b * 10 ^ 8)) with (X * 10 ^ 8) by (field; lra). exact B.
Qed.
Definition key_of (w : line) : list Z := let '(_, _, (a, b, c, d, e)) := w in [0; a; b; c; d; e]%Z.
Definition same_key (ks : list Z) (v : wave) : bool := if list_eq_dec Z.eq_dec ks (cartwright v) then true else false.
Lemma same_key_eq ks v : same_key ks v = true -> cartwright v = ks.
Proof. unfold same_key. destruct (list_eq_dec _ _ _); congruence. Qed.

(** Every line of the equilibrium tide is a term of the table of 1973 and its
    amplitude is that of the years 1951 to 1969, to less than 0.03 mm. *)
Theorem C77_lines : exists vs, parse_potential ce1973_tab1 = Ok vs /\
  forall name amp a b c d e, In (name, amp, (a, b, c, d, e)) lines ->
    exists v, In v vs /\ cartwright v = [0; a; b; c; d; e]%Z /\ Rabs (IZR amp / 10 ^ 6 - single_value (hs3 v)) <= 0.00003.
Proof.
  exists waves_1973. split; [exact read_1973|]. intros name amp a b c d e I.
  assert (K : forallb (fun w : line => existsb (fun v => same_key (key_of w) v && between (hs3 v) (snd (fst w) * 100 - 3000) (snd (fst w) * 100 + 3000)) waves_1973) lines = true) by (vm_compute; reflexivity).
  rewrite forallb_forall in K. specialize (K _ I). apply existsb_exists in K as (v & Iv & K). apply andb_true_iff in K as [K1 K2].
  exists v. split; [exact Iv|]. split; [apply same_key_eq, K1|]. cbn [fst snd] in K2. apply between_value in K2. rewrite minus_IZR, plus_IZR, mult_IZR in K2.
  apply Rabs_le. lra.
Qed.
Print Assumptions C77_lines.

(** Every term of long period that is larger than 2.1 mm, but the constant one, is a
    line of the equilibrium tide. *)
Theorem C77_largest : exists vs, parse_potential ce1973_tab1 = Ok vs /\
  forall v a b c d e, In v vs -> cartwright v = [0; a; b; c; d; e]%Z -> (a, b, c, d, e) <> (0, 0, 0, 0, 0)%Z ->
    0.0021 < Rabs (single_value (hs3 v)) -> exists name amp, In (name, amp, (a, b, c, d, e)) lines.
Proof.
  exists waves_1973. split; [exact read_1973|]. intros v a b c d e I E N H.
  assert (K : forallb (fun v => match five (cartwright v) with
    | Some k => between (hs3 v) (-210000) 210000 || existsb (fun w => if list_eq_dec Z.eq_dec (key_of w) (cartwright v) then true else false) lines
    | None => true end) waves_1973 = true) by (vm_compute; reflexivity).
  rewrite forallb_forall in K. specialize (K _ I). rewrite E in K. unfold five in K.
  destruct ((a =? 0) && (b =? 0) && (c =? 0) && (d =? 0) && (e =? 0))%Z eqn:Z0.
  { rewrite !andb_true_iff, !Z.eqb_eq in Z0. destruct Z0 as ((((-> & ->) & ->) & ->) & ->). congruence. }
  apply orb_true_iff in K as [K|K].
  - apply between_value in K. exfalso. apply (Rlt_not_le _ _ H). apply Rabs_le. lra.
  - apply existsb_exists in K as ([[nm z] [[[[a' b'] c'] d'] e']] & Iw & K). destruct (list_eq_dec _ _ _) as [Q|]; [|discriminate].
    cbn [key_of] in Q. injection Q as -> -> -> -> ->. eauto.
Qed.
Print Assumptions C77_largest.

(** The comment of the code says terms greater than 1 mm (predict.py:978): there are
    others in the table, the largest of them more than 2 mm. *)
Theorem C77_one_millimetre_refuted : exists vs v,
  parse_potential ce1973_tab1 = Ok vs /\ In v vs /\ cartwright v = [0; 4; -2; 0; 0; 0]%Z /\ 0.002 < Rabs (single_value (hs3 v)) /\
  ~ exists name amp, In (name, amp, (4, -2, 0, 0, 0)%Z) lines.
Proof.
  assert (K : existsb (fun v => same_key [0; 4; -2; 0; 0; 0]%Z v && between (hs3 v) (-205000) (-203000)) waves_1973 = true) by (vm_compute; reflexivity).
  apply existsb_exists in K as (v & I & K). apply andb_true_iff in K as [K1 K2]. exists waves_1973, v.
  split; [exact read_1973|]. split; [exact I|]. split; [apply same_key_eq, K1|]. apply between_value in K2. split.
  - rewrite Rabs_left; lra.
  - intros (nm & z & Q). unfold lines in Q. cbn [In] in Q. repeat (destruct Q as [Q|Q]; [discriminate|]). exact Q.
Qed.
Print Assumptions C77_one_millimetre_refuted.

(** ** Amplitudes of the constituents *)
(** metres of equilibrium tide for a normalised potential of one metre: long
    period at 90 degrees, diurnal at 45 degrees, semi-diurnal at the equator *)
Definition factor (species : Z) : R := if Z.eqb species 0 then sqrt (5 / (4 * PI)) else 3 * sqrt (5 / (96 * PI)).
Lemma factor_long : 0.63078 <= sqrt (5 / (4 * PI)) <= 0.63079.
Proof.
  pose proof PI_bounds as PB. assert (Pp : 0 < 4 * PI) by lra. split.
  - replace 0.63078 with (sqrt (0.63078 ^ 2)) by (apply sqrt_pow2; lra). apply sqrt_le_1_alt.
    apply Rmult_le_reg_r with (4 * PI); [lra|]. unfold Rdiv. rewrite (Rmult_assoc 5), Rinv_l by lra. nra.
  - replace 0.63079 with (sqrt (0.63079 ^ 2)) by (apply sqrt_pow2; lra). apply sqrt_le_1_alt.
    apply Rmult_le_reg_r with (4 * PI); [lra|]. unfold Rdiv. rewrite (Rmult_assoc 5), Rinv_l by lra. nra.
Qed.
Lemma factor_short : 0.38627 <= 3 * sqrt (5 / (96 * PI)) <= 0.38628.
Proof.
  pose proof PI_bounds as PB. assert (Pp : 0 < 96 * PI) by lra. split.
  - apply Rmult_le_reg_l with (/ 3); [lra|]. rewrite <- Rmult_assoc, Rinv_l, Rmult_1_l by lra.
    replace (/ 3 * 0.38627) with (sqrt ((/ 3 * 0.38627) ^ 2)) by (apply sqrt_pow2; lra). apply sqrt_le_1_alt.
    apply Rmult_le_reg_r with (96 * PI); [lra|]. unfold Rdiv. rewrite (Rmult_assoc 5), Rinv_l by lra. nra.
  - apply Rmult_le_reg_l with (/ 3); [lra|]. rewrite <- Rmult_assoc, Rinv_l, Rmult_1_l by lra.
    replace (/ 3 * 0.38628) with (sqrt ((/ 3 * 0.38628) ^ 2)) by (apply sqrt_pow2; lra). apply sqrt_le_1_alt.
    apply Rmult_le_reg_r with (96 * PI); [lra|]. unfold Rdiv. rewrite (Rmult_assoc 5), Rinv_l by lra. nra.
Qed.

(** a term with these multiples and an amplitude of either sign between these bounds *)
Definition term_near (ks : list Z) (lo hi : Z) (v : wave) : bool :=
  same_key ks v && (between (hs3 v) lo hi || between (hs3 v) (- hi) (- lo)).
Lemma term_near_abs ks lo hi v : (0 <= lo)%Z -> term_near ks lo hi v = true -> cartwright v = ks /\ IZR lo / 10 ^ 8 <= Rabs (single_value (hs3 v)) <= IZR hi / 10 ^ 8.
Proof.
  unfold term_near. intros L H. apply IZR_le in L. apply andb_true_iff in H as [H1 H2]. split; [apply same_key_eq, H1|].
  apply orb_true_iff in H2 as [H2|H2]; apply between_value in H2.
  - rewrite Rabs_pos_eq; lra.
  - rewrite !opp_IZR in H2. rewrite Rabs_left1; lra.
Qed.
Lemma find_term ks lo hi : (0 <= lo)%Z -> existsb (term_near ks lo hi) waves_1973 = true ->
  exists v, In v waves_1973 /\ cartwright v = ks /\ IZR lo / 10 ^ 8 <= Rabs (single_value (hs3 v)) <= IZR hi / 10 ^ 8.
Proof. intros L H. apply existsb_exists in H as (v & I & H). exists v. split; [exact I|]. apply term_near_abs; assumption. Qed.

(** The equilibrium amplitudes of the constituents are those of the table of 1973
    for the multiples of the constituent, to 0.8 per cent; M1 apart. *)
Theorem C77_amplitudes : exists vs, parse_potential ce1973_tab1 = Ok vs /\
  forall c q, In (c, q) parameters -> 0 < p_amp q -> c <> "m1"%string ->
    exists ks v, In (c, ks) doodson_table /\ In v vs /\ cartwright v = firstn 6 ks
      /\ Rabs (p_amp q - factor (p_species q) * Rabs (single_value (hs3 v))) <= 0.008 * p_amp q.
Proof.
  exists waves_1973. split; [exact read_1973|]. intros c q I P N.
  pose proof factor_long as FL. pose proof factor_short as FS. set (fl := sqrt (5 / (4 * PI))) in *. set (fs := 3 * sqrt (5 / (96 * PI))) in *.
  assert (F0 : factor 0 = fl) by reflexivity. assert (F1 : factor 1 = fs) by reflexivity. assert (F2 : factor 2 = fs) by reflexivity.
  assert (DT : forall c ks, existsb (fun e => String.eqb (fst e) c && (if list_eq_dec Z.eq_dec (snd e) ks then true else false)) doodson_table = true -> In (c, ks) doodson_table).
  { intros c' ks H. apply existsb_exists in H as ([c'' ks'] & Ie & H). apply andb_true_iff in H as [H1 H2]. apply String.eqb_eq in H1.
    destruct (list_eq_dec _ _ _) in H2; [|discriminate]. cbn [fst snd] in *. subst. exact Ie. }
  clearbody fl fs. unfold parameters in I. cbn [In] in I.
  destruct I as [I|I].
  { injection I as <- <-. cbn [p_amp p_species]. destruct (find_term [2; 0; 0; 0; 0; 0]%Z 63191990 63192010) as (v & Iv & Ev & Bv); [lia|vm_compute; reflexivity|].
    exists [2; 0; 0; 0; 0; 0; 0]%Z, v. split; [apply DT; vm_compute; reflexivity|]. split; [exact Iv|]. split; [exact Ev|]. rewrite F2. set (y := Rabs (single_value (hs3 v))) in *. clearbody y. apply Rabs_le. nra. }
  destruct I as [I|I].
  { injection I as <- <-. cbn [p_amp p_species]. destruct (find_term [2; 2; (-2); 0; 0; 0]%Z 29399990 29400010) as (v & Iv & Ev & Bv); [lia|vm_compute; reflexivity|].
    exists [2; 2; (-2); 0; 0; 0; 0]%Z, v. split; [apply DT; vm_compute; reflexivity|]. split; [exact Iv|]. split; [exact Ev|]. rewrite F2. set (y := Rabs (single_value (hs3 v))) in *. clearbody y. apply Rabs_le. nra. }
  destruct I as [I|I].
  { injection I as <- <-. cbn [p_amp p_species]. destruct (find_term [1; 1; 0; 0; 0; 0]%Z 36877990 36878010) as (v & Iv & Ev & Bv); [lia|vm_compute; reflexivity|].
    exists [1; 1; 0; 0; 0; 0; 1]%Z, v. split; [apply DT; vm_compute; reflexivity|]. split; [exact Iv|]. split; [exact Ev|]. rewrite F1. set (y := Rabs (single_value (hs3 v))) in *. clearbody y. apply Rabs_le. nra. }
  destruct I as [I|I].
  { injection I as <- <-. cbn [p_amp p_species]. destruct (find_term [1; (-1); 0; 0; 0; 0]%Z 26220990 26221010) as (v & Iv & Ev & Bv); [lia|vm_compute; reflexivity|].
    exists [1; (-1); 0; 0; 0; 0; (-1)]%Z, v. split; [apply DT; vm_compute; reflexivity|]. split; [exact Iv|]. split; [exact Ev|]. rewrite F1. set (y := Rabs (single_value (hs3 v))) in *. clearbody y. apply Rabs_le. nra. }
  destruct I as [I|I].
  { injection I as <- <-. cbn [p_amp p_species]. destruct (find_term [2; (-1); 0; 1; 0; 0]%Z 12098990 12099010) as (v & Iv & Ev & Bv); [lia|vm_compute; reflexivity|].
    exists [2; (-1); 0; 1; 0; 0; 0]%Z, v. split; [apply DT; vm_compute; reflexivity|]. split; [exact Iv|]. split; [exact Ev|]. rewrite F2. set (y := Rabs (single_value (hs3 v))) in *. clearbody y. apply Rabs_le. nra. }
  destruct I as [I|I].
  { injection I as <- <-. cbn [p_amp p_species]. destruct (find_term [1; 1; (-2); 0; 0; 0]%Z 12202990 12203010) as (v & Iv & Ev & Bv); [lia|vm_compute; reflexivity|].
    exists [1; 1; (-2); 0; 0; 0; (-1)]%Z, v. split; [apply DT; vm_compute; reflexivity|]. split; [exact Iv|]. split; [exact Ev|]. rewrite F1. set (y := Rabs (single_value (hs3 v))) in *. clearbody y. apply Rabs_le. nra. }
  destruct I as [I|I].
  { injection I as <- <-. cbn [p_amp p_species]. destruct (find_term [2; 2; 0; 0; 0; 0]%Z 7995990 7996010) as (v & Iv & Ev & Bv); [lia|vm_compute; reflexivity|].
    exists [2; 2; 0; 0; 0; 0; 0]%Z, v. split; [apply DT; vm_compute; reflexivity|]. split; [exact Iv|]. split; [exact Ev|]. rewrite F2. set (y := Rabs (single_value (hs3 v))) in *. clearbody y. apply Rabs_le. nra. }
  destruct I as [I|I].
  { injection I as <- <-. cbn [p_amp p_species]. destruct (find_term [1; (-2); 0; 1; 0; 0]%Z 5019990 5020010) as (v & Iv & Ev & Bv); [lia|vm_compute; reflexivity|].
    exists [1; (-2); 0; 1; 0; 0; (-1)]%Z, v. split; [apply DT; vm_compute; reflexivity|]. split; [exact Iv|]. split; [exact Ev|]. rewrite F1. set (y := Rabs (single_value (hs3 v))) in *. clearbody y. apply Rabs_le. nra. }
  destruct I as [I|I].
  { injection I as <- <-. cbn [p_amp p_species]. destruct (find_term [2; (-2); 0; 2; 0; 0]%Z 1600990 1601010) as (v & Iv & Ev & Bv); [lia|vm_compute; reflexivity|].
    exists [2; (-2); 0; 2; 0; 0; 0]%Z, v. split; [apply DT; vm_compute; reflexivity|]. split; [exact Iv|]. split; [exact Ev|]. rewrite F2. set (y := Rabs (single_value (hs3 v))) in *. clearbody y. apply Rabs_le. nra. }
  destruct I as [I|I].
  { injection I as <- <-. cbn [p_amp p_species]. destruct (find_term [2; (-2); 2; 0; 0; 0]%Z 1931990 1932010) as (v & Iv & Ev & Bv); [lia|vm_compute; reflexivity|].
    exists [2; (-2); 2; 0; 0; 0; 0]%Z, v. split; [apply DT; vm_compute; reflexivity|]. split; [exact Iv|]. split; [exact Ev|]. rewrite F2. set (y := Rabs (single_value (hs3 v))) in *. clearbody y. apply Rabs_le. nra. }
  destruct I as [I|I].
  { injection I as <- <-. cbn [p_amp p_species]. destruct (find_term [2; (-1); 2; (-1); 0; 0]%Z 2297990 2298010) as (v & Iv & Ev & Bv); [lia|vm_compute; reflexivity|].
    exists [2; (-1); 2; (-1); 0; 0; 0]%Z, v. split; [apply DT; vm_compute; reflexivity|]. split; [exact Iv|]. split; [exact Ev|]. rewrite F2. set (y := Rabs (single_value (hs3 v))) in *. clearbody y. apply Rabs_le. nra. }
  destruct I as [I|I].
  { injection I as <- <-. cbn [p_amp p_species]. destruct (find_term [2; 1; 0; (-1); 0; 0]%Z 1785990 1786010) as (v & Iv & Ev & Bv); [lia|vm_compute; reflexivity|].
    exists [2; 1; 0; (-1); 0; 0; 2]%Z, v. split; [apply DT; vm_compute; reflexivity|]. split; [exact Iv|]. split; [exact Ev|]. rewrite F2. set (y := Rabs (single_value (hs3 v))) in *. clearbody y. apply Rabs_le. nra. }
  destruct I as [I|I].
  { injection I as <- <-. cbn [p_amp p_species]. destruct (find_term [2; 2; (-3); 0; 0; 1]%Z 1719990 1720010) as (v & Iv & Ev & Bv); [lia|vm_compute; reflexivity|].
    exists [2; 2; (-3); 0; 0; 1; 0]%Z, v. split; [apply DT; vm_compute; reflexivity|]. split; [exact Iv|]. split; [exact Ev|]. rewrite F2. set (y := Rabs (single_value (hs3 v))) in *. clearbody y. apply Rabs_le. nra. }
  destruct I as [I|I].
  { injection I as <- <-. cbn [p_amp p_species]. destruct (find_term [1; 2; 0; (-1); 0; 0]%Z 2061990 2062010) as (v & Iv & Ev & Bv); [lia|vm_compute; reflexivity|].
    exists [1; 2; 0; (-1); 0; 0; 1]%Z, v. split; [apply DT; vm_compute; reflexivity|]. split; [exact Iv|]. split; [exact Ev|]. rewrite F1. set (y := Rabs (single_value (hs3 v))) in *. clearbody y. apply Rabs_le. nra. }
  destruct I as [I|I]; [exfalso; injection I as <- _; apply N; reflexivity|].
  destruct I as [I|I].
  { injection I as <- <-. cbn [p_amp p_species]. destruct (find_term [1; 3; 0; 0; 0; 0]%Z 1128990 1129010) as (v & Iv & Ev & Bv); [lia|vm_compute; reflexivity|].
    exists [1; 3; 0; 0; 0; 0; 1]%Z, v. split; [apply DT; vm_compute; reflexivity|]. split; [exact Iv|]. split; [exact Ev|]. rewrite F1. set (y := Rabs (single_value (hs3 v))) in *. clearbody y. apply Rabs_le. nra. }
  destruct I as [I|I].
  { injection I as <- <-. cbn [p_amp p_species]. destruct (find_term [1; (-2); 2; (-1); 0; 0]%Z 953990 954010) as (v & Iv & Ev & Bv); [lia|vm_compute; reflexivity|].
    exists [1; (-2); 2; (-1); 0; 0; (-1)]%Z, v. split; [apply DT; vm_compute; reflexivity|]. split; [exact Iv|]. split; [exact Ev|]. rewrite F1. set (y := Rabs (single_value (hs3 v))) in *. clearbody y. apply Rabs_le. nra. }
  destruct I as [I|I].
  { injection I as <- <-. cbn [p_amp p_species]. destruct (find_term [0; 2; 0; 0; 0; 0]%Z 6662990 6663010) as (v & Iv & Ev & Bv); [lia|vm_compute; reflexivity|].
    exists [0; 2; 0; 0; 0; 0; 0]%Z, v. split; [apply DT; vm_compute; reflexivity|]. split; [exact Iv|]. split; [exact Ev|]. rewrite F0. set (y := Rabs (single_value (hs3 v))) in *. clearbody y. apply Rabs_le. nra. }
  destruct I as [I|I].
  { injection I as <- <-. cbn [p_amp p_species]. destruct (find_term [0; 1; 0; (-1); 0; 0]%Z 3517990 3518010) as (v & Iv & Ev & Bv); [lia|vm_compute; reflexivity|].
    exists [0; 1; 0; (-1); 0; 0; 0]%Z, v. split; [apply DT; vm_compute; reflexivity|]. split; [exact Iv|]. split; [exact Ev|]. rewrite F0. set (y := Rabs (single_value (hs3 v))) in *. clearbody y. apply Rabs_le. nra. }
  destruct I as [I|I].
  { injection I as <- <-. cbn [p_amp p_species]. destruct (find_term [0; 0; 2; 0; 0; 0]%Z 3099990 3100010) as (v & Iv & Ev & Bv); [lia|vm_compute; reflexivity|].
    exists [0; 0; 2; 0; 0; 0; 0]%Z, v. split; [apply DT; vm_compute; reflexivity|]. split; [exact Iv|]. split; [exact Ev|]. rewrite F0. set (y := Rabs (single_value (hs3 v))) in *. clearbody y. apply Rabs_le. nra. }
  destruct I as [I|I]; [exfalso; injection I as <- <-; cbn [p_amp] in P; lra|].
  destruct I as [I|I]; [exfalso; injection I as <- <-; cbn [p_amp] in P; lra|].
  destruct I as [I|I]; [exfalso; injection I as <- <-; cbn [p_amp] in P; lra|].
  destruct I as [I|I]; [exfalso; injection I as <- <-; cbn [p_amp] in P; lra|].
  destruct I as [I|I]; [exfalso; injection I as <- <-; cbn [p_amp] in P; lra|].
  destruct I as [I|I]; [exfalso; injection I as <- <-; cbn [p_amp] in P; lra|].
  destruct I as [I|I]; [exfalso; injection I as <- <-; cbn [p_amp] in P; lra|].
  destruct I as [I|I]; [exfalso; injection I as <- <-; cbn [p_amp] in P; lra|].
  destruct I as [I|I]; [exfalso; injection I as <- <-; cbn [p_amp] in P; lra|].
  destruct I as [I|I].
  { injection I as <- <-. cbn [p_amp p_species]. destruct (find_term [0; 2; (-2); 0; 0; 0]%Z 582990 583010) as (v & Iv & Ev & Bv); [lia|vm_compute; reflexivity|].
    exists [0; 2; (-2); 0; 0; 0; 0]%Z, v. split; [apply DT; vm_compute; reflexivity|]. split; [exact Iv|]. split; [exact Ev|]. rewrite F0. set (y := Rabs (single_value (hs3 v))) in *. clearbody y. apply Rabs_le. nra. }
  destruct I as [I|I].
  { injection I as <- <-. cbn [p_amp p_species]. destruct (find_term [0; 0; 1; 0; 0; (-1)]%Z 491990 492010) as (v & Iv & Ev & Bv); [lia|vm_compute; reflexivity|].
    exists [0; 0; 1; 0; 0; (-1); 0]%Z, v. split; [apply DT; vm_compute; reflexivity|]. split; [exact Iv|]. split; [exact Ev|]. rewrite F0. set (y := Rabs (single_value (hs3 v))) in *. clearbody y. apply Rabs_le. nra. }
  destruct I as [I|I].
  { injection I as <- <-. cbn [p_amp p_species]. destruct (find_term [0; 3; 0; (-1); 0; 0]%Z 1275990 1276010) as (v & Iv & Ev & Bv); [lia|vm_compute; reflexivity|].
    exists [0; 3; 0; (-1); 0; 0; 0]%Z, v. split; [apply DT; vm_compute; reflexivity|]. split; [exact Iv|]. split; [exact Ev|]. rewrite F0. set (y := Rabs (single_value (hs3 v))) in *. clearbody y. apply Rabs_le. nra. }
  destruct I as [I|I].
  { injection I as <- <-. cbn [p_amp p_species]. destruct (find_term [1; (-3); 0; 2; 0; 0]%Z 663990 664010) as (v & Iv & Ev & Bv); [lia|vm_compute; reflexivity|].
    exists [1; (-3); 0; 2; 0; 0; (-1)]%Z, v. split; [apply DT; vm_compute; reflexivity|]. split; [exact Iv|]. split; [exact Ev|]. rewrite F1. set (y := Rabs (single_value (hs3 v))) in *. clearbody y. apply Rabs_le. nra. }
  destruct I.
Qed.
Print Assumptions C77_amplitudes.

(** M1: the multiples of the constituent are those of the term of third degree,
    which is not in the table of 1973; in the table of 1971 its amplitude is a fifth
    of the one that is used. *)
Theorem C77_m1_refuted : exists q ks vs v,
  constituent_parameters "m1" true = Ok q /\ In ("m1"%string, ks) doodson_table /\ parse_potential ct1971_tab5 = Ok vs
  /\ In v vs /\ cartwright v = firstn 6 ks /\ 5 * (factor (p_species q) * Rabs (single_value (hs3 v))) < p_amp q
  /\ forall vs', parse_potential ce1973_tab1 = Ok vs' -> forall v', In v' vs' -> cartwright v' <> firstn 6 ks.
Proof.
  assert (K : existsb (term_near [1; 0; 0; 0; 0; 0]%Z 398990 399010) waves_1971 = true) by (vm_compute; reflexivity).
  apply existsb_exists in K as (v & I & K). apply term_near_abs in K as [E B]; [|lia].
  eexists _, [1; 0; 0; 0; 0; 0; 1]%Z, waves_1971, v. split; [reflexivity|].
  split. { assert (H : existsb (fun e => String.eqb (fst e) "m1" && (if list_eq_dec Z.eq_dec (snd e) [1; 0; 0; 0; 0; 0; 1]%Z then true else false)) doodson_table = true) by (vm_compute; reflexivity).
    apply existsb_exists in H as ([c'' ks'] & Ie & H). apply andb_true_iff in H as [H1 H2]. apply String.eqb_eq in H1.
    destruct (list_eq_dec _ _ _) in H2; [|discriminate]. cbn [fst snd] in *. subst. exact Ie. }
  split; [exact read_1971|]. split; [exact I|]. split; [exact E|]. split.
  - cbn [p_species p_amp snd]. change (factor 1) with (3 * sqrt (5 / (96 * PI))). pose proof factor_short as FS. set (fs := 3 * sqrt (5 / (96 * PI))) in *. set (y := Rabs (single_value (hs3 v))) in *. clearbody y fs. assert (0 <= y) by lra. assert (fs * y <= 0.38628 * y) by (apply Rmult_le_compat_r; lra). lra.
  - intros vs' R v' I' E'. rewrite read_1973 in R. apply Ok_inj in R as <-.
    assert (Q : forallb (fun v => negb (same_key [1; 0; 0; 0; 0; 0]%Z v)) waves_1973 = true) by (vm_compute; reflexivity).
    rewrite forallb_forall in Q. specialize (Q v' I'). unfold same_key in Q. destruct (list_eq_dec _ _ _) as [|Hn]; [discriminate|]. apply Hn. rewrite E'. reflexivity.
Qed.
Print Assumptions C77_m1_refuted.
