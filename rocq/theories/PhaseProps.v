(** C12: phases and nodal corrections only depend on longitudes modulo full turns.
    C58: Doodson coefficients of compound tides. *)
From Coq Require Import Reals Lra Lia String List Bool ZArith.
From Verif Require Import PyBase RBase StrBase DoodsonData DoodsonModel MathModel AstroModel AstroProps.
From Verif Require Import PredictModel NodalBase NodalData ArgModel CompoundSpec NodalProofs ArgProps.
Import ListNotations.
Open Scope R_scope.

(** Longitudes that agree up to full turns *)
Definition same_longitudes (l l' : longitudes) : Prop :=
  same_mod 360 (lS l') (lS l) /\ same_mod 360 (lH l') (lH l) /\ same_mod 360 (lP l') (lP l) /\
  same_mod 360 (lN l') (lN l) /\ same_mod 360 (lPP l') (lPP l).

Lemma same_mod_refl c x : same_mod c x x.
Proof. exists 0%Z. ring. Qed.

Lemma dot_nil l : dot [] l = 0.
Proof. reflexivity. Qed.
Lemma dot_nil_r v : dot v [] = 0.
Proof. destruct v; reflexivity. Qed.
Lemma dot_cons k v x l : dot (k :: v) (x :: l) = IZR k * x + dot v l.
Proof. reflexivity. Qed.

Lemma dot_turns : forall v l l', Forall2 (same_mod 360) l' l -> same_mod 360 (dot v l') (dot v l).
Proof.
  induction v as [|k v IH]; intros l l' H; [apply same_mod_refl|].
  destruct H as [|x' x l' l [j J] H]; [apply same_mod_refl|].
  destruct (IH _ _ H) as [i I]. rewrite !dot_cons, I, J.
  exists (k * j + i)%Z. rewrite plus_IZR, mult_IZR. ring.
Qed.

Lemma fargs_turns l l' h h' : same_longitudes l l' -> same_mod 24 h' h ->
  Forall2 (same_mod 360) (fargs l' h') (fargs l h).
Proof.
  intros [[a A] [[b B] [[c C] [[d D] [e E]]]]] [i I]. unfold fargs.
  repeat apply Forall2_cons; [|exists a|exists b|exists c|exists d|exists e|apply same_mod_refl|apply Forall2_nil];
    try assumption.
  exists (i - a + b)%Z. rewrite A, B, I, plus_IZR, minus_IZR. ring.
Qed.

(** Full turns of any longitude and of the hour angle only add full turns to the
    phase of every constituent, and leave the nodal corrections alone.
    Missing for the FES scheme: the constituents built on L2 (refuted in C13). *)
Theorem C12_arguments : forall corr m1 l l' h h' c u f G,
  same_longitudes l l' -> same_mod 24 h' h -> corr <> "FES"%string \/ ~ In c l2_family ->
  arguments_from corr m1 l h c = Ok (u, f, G) ->
  exists G', arguments_from corr m1 l' h' c = Ok (u, f, G') /\ same_mod 360 G' G.
Proof.
  intros corr m1 l l' h h' c u f G L H F. unfold arguments_from.
  destruct (coefficients corr c) as [v|x]; [|discriminate]. cbn [bind].
  intros E. apply Ok_inj in E. injection E as <- <- <-.
  exists (dot v (fargs l' h')). split.
  - destruct L as (_ & _ & [p ->] & [n ->] & _).
    rewrite C13_node, C13_perigee_partial; [reflexivity|].
    destruct F as [F|F]; [left|right; exact F]. unfold options; cbn [fes].
    apply String.eqb_neq. exact F.
  - apply dot_turns, fargs_turns; assumption.
Qed.
Print Assumptions C12_arguments.

(** The phase alone, in every scheme. *)
Theorem C12_phase : forall corr m1 l l' h h' c u f G,
  same_longitudes l l' -> same_mod 24 h' h ->
  arguments_from corr m1 l h c = Ok (u, f, G) ->
  exists u' f' G', arguments_from corr m1 l' h' c = Ok (u', f', G') /\ same_mod 360 G' G.
Proof.
  intros corr m1 l l' h h' c u f G L H. unfold arguments_from.
  destruct (coefficients corr c) as [v|x]; [|discriminate]. cbn [bind].
  intros E. apply Ok_inj in E. injection E as <- <- <-.
  do 3 eexists. split; [reflexivity|]. apply dot_turns, fargs_turns; assumption.
Qed.
Print Assumptions C12_phase.

(** So the contribution to the tide is the same. *)
Theorem C12_tide : forall corr m1 l l' h h' c u f G u' f' G' z,
  same_longitudes l l' -> same_mod 24 h' h -> corr <> "FES"%string \/ ~ In c l2_family ->
  arguments_from corr m1 l h c = Ok (u, f, G) -> arguments_from corr m1 l' h' c = Ok (u', f', G') ->
  component f' (G' * PI / 180 + u') z = component f (G * PI / 180 + u) z.
Proof.
  intros corr m1 l l' h h' c u f G u' f' G' z L H F E E'.
  destruct (C12_arguments _ _ _ _ _ _ _ _ _ _ L H F E) as [G'' [E'' [k K]]].
  rewrite E' in E''. apply Ok_inj in E''. injection E'' as -> -> ->. subst G''.
  unfold component.
  replace ((G + 360 * IZR k) * PI / 180 + u) with (G * PI / 180 + u + 2 * IZR k * PI) by field.
  rewrite cos_turns, sin_turns. reflexivity.
Qed.
Print Assumptions C12_tide.

(** The phase of [arguments] is, up to full turns, the Doodson combination of the
    unreduced longitudes and of the unreduced time: neither the reduction of the
    longitudes nor that of the date to a time of day matters. *)
Theorem C12_unreduced : forall corr m1 MJD deltat c u f G,
  arguments corr m1 MJD deltat c = Ok (u, f, G) ->
  exists v, coefficients corr c = Ok v /\
  let T := MJD + deltat in
  match spec_raw T false (negb (otis_corr corr)) with
  | [moon; sun; perigee; node] =>
      same_mod 360 G (dot v [360 * MJD - moon + sun; moon; sun; perigee; node;
                             (if otis_corr corr then 282.8 else 282.94 + 1.7192 * ((T - 51544.5) / 36525)); 90])
  | _ => False
  end.
Proof.
  intros corr m1 MJD deltat c u f G. unfold arguments, arguments_from.
  destruct (coefficients corr c) as [v|x]; [|discriminate]. cbn [bind].
  intros E. apply Ok_inj in E. injection E as _ _ <-.
  exists v. split; [reflexivity|]. cbv zeta.
  rewrite <- raw_spec. apply dot_turns. unfold fargs, hour_of.
  pose proof (C52_perigee_value (MJD + deltat) false (negb (otis_corr corr))) as Q.
  unfold mean_longitudes in *. cbn [lS lH lP lN lPP] in *. unfold normalize_angle.
  set (r := raw_longitudes (MJD + deltat) false (negb (otis_corr corr))) in *.
  destruct (rmod_cong (lS r) 360) as [a A], (rmod_cong (lH r) 360) as [b B].
  destruct (rmod_cong MJD 1) as [i I].
  repeat apply Forall2_cons; try apply Forall2_nil; try apply rmod_cong.
  - exists (i - a + b)%Z. rewrite A, B, I, plus_IZR, minus_IZR. ring.
  - rewrite Q. destruct (otis_corr corr); apply same_mod_refl.
  - apply same_mod_refl.
Qed.
Print Assumptions C12_unreduced.

Example C12_case : exists u f G,
  arguments_from "OTIS" "perth5" (Lon 10 20 30 40 282.8) 3 "m2" = Ok (u, f, G) /\ G = 110 /\
  same_longitudes (Lon 10 20 30 40 282.8) (Lon 370 (-340) 750 40 642.8).
Proof.
  do 3 eexists. split; [reflexivity|]. split.
  - lazy beta iota zeta delta [dot fargs lS lH lP lN lPP combine map fold_right fst snd]. lra.
  - unfold same_longitudes; cbn [lS lH lP lN lPP].
    repeat split; [exists 1%Z|exists (-1)%Z|exists 2%Z|exists 0%Z|exists 1%Z]; lra.
Qed.

(** ** C58 *)
(** Signed sum of the coefficient vectors of the parts *)
Fixpoint zadd (a b : list Z) : list Z :=
  match a, b with x :: a', y :: b' => (x + y)%Z :: zadd a' b' | _, _ => [] end.
Fixpoint part_sum (tab : string -> res (list Z)) (l : parts) : res (list Z) :=
  match l with
  | [] => Ok (repeat 0%Z 7)
  | (x, k) :: l' => do v <- tab x ;; do w <- part_sum tab l' ;; Ok (zadd (map (Z.mul k) v) w)
  end.

(** Equal in the six frequency coefficients, and up to full turns in the last,
    which counts quarter turns *)
Definition same_coefficients (v w : list Z) : Prop :=
  firstn 6 v = firstn 6 w /\ (nth 6 v 0 mod 4 = nth 6 w 0 mod 4)%Z /\ List.length v = 7%nat /\ List.length w = 7%nat.
Definition compounds : list (string * parts) :=
  compound_handled ++ compound_as_linear ++ compound_wrong_sign ++ compound_unhandled ++ compound_solar ++ compound_other.

Definition raw_table (c : string) : res (list Z) :=
  match assoc c doodson_table with Some v => Ok v | None => Err ValueError end.
Fixpoint eq_list (a b : list Z) : bool :=
  match a, b with [], [] => true | x :: a', y :: b' => (x =? y)%Z && eq_list a' b' | _, _ => false end.
Lemma eq_list_ok a : forall b, eq_list a b = true -> a = b.
Proof.
  induction a as [|x a IH]; intros [|y b]; cbn; try discriminate; [reflexivity|].
  intros E. apply andb_prop in E as [E1 E2]. apply Z.eqb_eq in E1. rewrite (IH _ E2), E1. reflexivity.
Qed.
Definition same_b (v w : list Z) : bool :=
  eq_list (firstn 6 v) (firstn 6 w) && (nth 6 v 0 mod 4 =? nth 6 w 0 mod 4)%Z &&
  (List.length v =? 7)%nat && (List.length w =? 7)%nat.
Lemma same_b_ok v w : same_b v w = true -> same_coefficients v w.
Proof.
  unfold same_b. intros E. repeat (apply andb_prop in E as [E ?]).
  repeat split; [apply eq_list_ok; assumption|apply Z.eqb_eq; assumption|apply Nat.eqb_eq; assumption|apply Nat.eqb_eq; assumption].
Qed.
Definition row_ok (p : string * parts) : bool :=
  mem_str (fst p) (map fst compound_bad_coefficients) ||
  (negb (String.eqb (fst p) "s1") &&
   match raw_table (fst p), part_sum raw_table (snd p) with Ok v, Ok w => same_b v w | _, _ => false end).

Lemma coefficients_raw corr c : otis_corr corr = true /\ c = "s1"%string \/ coefficients corr c = raw_table c.
Proof.
  unfold coefficients, raw_table. destruct (otis_corr corr); [|right; reflexivity]. cbn [andb].
  destruct (c =? "s1")%string eqn:E; [left|right; reflexivity]. apply String.eqb_eq in E. auto.
Qed.
Lemma part_sum_raw corr l : (otis_corr corr = true -> ~ In "s1"%string (map fst l)) ->
  part_sum (coefficients corr) l = part_sum raw_table l.
Proof.
  induction l as [|[x k] l IH]; intros H; [reflexivity|]. cbn [part_sum]. cbn [map fst In] in H.
  destruct (coefficients_raw corr x) as [[O ->]| ->].
  - exfalso. apply (H O). left. reflexivity.
  - rewrite IH; [reflexivity|]. intros O I. exact (H O (or_intror I)).
Qed.

(** The coefficients of a compound tide are the signed sums of those of its parts.
    (In the OTIS-type corrections S1 has a different phase convention.)
    Missing: the eleven rows refuted below. *)
Theorem C58_coefficients_partial : forall corr c l, In (c, l) compounds ->
  ~ In c (map fst compound_bad_coefficients) -> (otis_corr corr = true -> ~ In "s1"%string (map fst l)) ->
  exists v w, coefficients corr c = Ok v /\ part_sum (coefficients corr) l = Ok w /\ same_coefficients v w.
Proof.
  intros corr c l I B S1. rewrite part_sum_raw by exact S1.
  assert (T : forallb row_ok compounds = true) by (vm_compute; reflexivity).
  rewrite forallb_forall in T. specialize (T _ I). unfold row_ok in T. cbn [fst snd] in T.
  apply orb_prop in T as [T|T].
  - exfalso. apply B. revert T. unfold mem_str. rewrite existsb_exists.
    intros [x [Ix E]]. apply String.eqb_eq in E. subst x. exact Ix.
  - apply andb_prop in T as [N T]. destruct (coefficients_raw corr c) as [[_ ->]| ->].
    + discriminate N.
    + destruct (raw_table c) as [v|], (part_sum raw_table l) as [w|]; try discriminate.
      exists v, w. repeat split; apply same_b_ok in T; apply T.
Qed.
Print Assumptions C58_coefficients_partial.

(** Eleven rows of the table are not the sums of their parts: their frequencies
    (six coefficients) or phases are those of another tide. *)
Theorem C58_coefficients_refuted : forall corr c l, In (c, l) compound_bad_coefficients ->
  otis_corr corr = false \/ ~ In "s1"%string (map fst l) ->
  exists v w, coefficients corr c = Ok v /\ part_sum (coefficients corr) l = Ok w /\ ~ same_coefficients v w.
Proof.
  intros corr c l I S1. rewrite part_sum_raw by (intros O; destruct S1 as [S1|S1]; [rewrite O in S1; discriminate|exact S1]).
  assert (T : forallb (fun p => negb (String.eqb (fst p) "s1") &&
    match raw_table (fst p), part_sum raw_table (snd p) with Ok v, Ok w => negb (eq_list (firstn 6 v) (firstn 6 w)) || negb (nth 6 v 0 mod 4 =? nth 6 w 0 mod 4)%Z | _, _ => false end)
    compound_bad_coefficients = true) by (vm_compute; reflexivity).
  rewrite forallb_forall in T. specialize (T _ I). cbn [fst snd] in T.
  apply andb_prop in T as [N T]. destruct (coefficients_raw corr c) as [[_ ->]| ->]; [discriminate N|].
  destruct (raw_table c) as [v|], (part_sum raw_table l) as [w|]; try discriminate.
  exists v, w. repeat split. intros [A [C _]]. apply orb_prop in T as [T|T].
  - rewrite A in T. revert T. generalize (firstn 6 w). intros q Q.
    assert (X : eq_list q q = true) by (clear; induction q as [|x q IH]; [reflexivity|]; cbn; rewrite Z.eqb_refl; exact IH).
    rewrite X in Q. discriminate.
  - rewrite C, Z.eqb_refl in T. discriminate.
Qed.
Print Assumptions C58_coefficients_refuted.

(** In particular 2MN6 (2 M2 + N2) has the coefficients of 2MNU6 (2 M2 + NU2), and
    3MN8 those of 3MNU8: two different tides cannot be told apart. *)
Theorem C58_duplicates_refuted : forall corr,
  coefficients corr "2mn6" = coefficients corr "2mnu6" /\ coefficients corr "3mn8" = coefficients corr "3mnu8" /\
  coefficients corr "n2" <> coefficients corr "nu2".
Proof.
  intros corr. unfold coefficients. rewrite !andb_false_r by reflexivity.
  repeat split; try (vm_compute; reflexivity). vm_compute; discriminate.
Qed.
Print Assumptions C58_duplicates_refuted.

(** Consequence: at every time the phase of the compound is the signed sum of the
    phases of its parts, up to full turns. *)
Fixpoint phase_sum (G : string -> R) (l : parts) : R :=
  match l with [] => 0 | (x, k) :: l' => IZR k * G x + phase_sum G l' end.

Lemma dot_zadd : forall a b l, List.length a = List.length b -> List.length a = List.length l ->
  dot (zadd a b) l = dot a l + dot b l.
Proof.
  induction a as [|x a IH]; intros [|y b] [|z l] H1 H2; try discriminate; cbn [zadd]; rewrite ?dot_nil; [ring|].
  rewrite !dot_cons, IH, plus_IZR by (cbn in *; congruence). ring.
Qed.
Lemma dot_scale : forall k a l, dot (map (Z.mul k) a) l = IZR k * dot a l.
Proof.
  induction a as [|x a IH]; intros l; [cbn [map]; unfold dot; cbn [combine map fold_right]; ring|].
  destruct l as [|y l]; [rewrite !dot_nil_r; ring|]. cbn [map]. rewrite !dot_cons, IH, mult_IZR. ring.
Qed.
Lemma table_length corr c v : coefficients corr c = Ok v -> List.length v = 7%nat.
Proof.
  intros E. apply Nat.eqb_eq.
  assert (T : forallb (fun p => (List.length (snd p) =? 7)%nat) doodson_table = true) by (vm_compute; reflexivity).
  revert E. unfold coefficients. destruct (otis_corr corr && (c =? "s1")%string); [intros <-%Ok_inj; reflexivity|].
  unfold assoc; destruct (find _ doodson_table) as [[k w]|] eqn:F; [|discriminate].
  apply find_some in F as [F _]; rewrite forallb_forall in T. intros <-%Ok_inj. exact (T _ F).
Qed.
Lemma zadd_length : forall a b, List.length a = List.length b -> List.length (zadd a b) = List.length a.
Proof. induction a as [|x a IH]; intros [|y b] E; try discriminate; [reflexivity|]. cbn in *. rewrite IH; congruence. Qed.
Lemma part_sum_dot corr (G : string -> R) fa : List.length fa = 7%nat ->
  forall l, (forall x k v, In (x, k) l -> coefficients corr x = Ok v -> G x = dot v fa) ->
  forall w, part_sum (coefficients corr) l = Ok w -> List.length w = 7%nat /\ phase_sum G l = dot w fa.
Proof.
  intros L l. induction l as [|[x k] l IH]; intros H w.
  - cbn [part_sum]. intros <-%Ok_inj. split; [reflexivity|]. cbn [phase_sum repeat].
    do 7 (destruct fa as [|? fa]; [discriminate|]). rewrite !dot_cons, dot_nil. ring.
  - cbn [part_sum]. destruct (coefficients corr x) as [v|] eqn:E; [|discriminate]. cbn [bind].
    destruct (part_sum (coefficients corr) l) as [w'|]; [|discriminate]. cbn [bind]. intros <-%Ok_inj.
    destruct (IH (fun y j u I => H y j u (or_intror I)) _ eq_refl) as [L' P].
    pose proof (table_length _ _ _ E) as LV.
    split; [rewrite zadd_length; rewrite map_length; congruence|].
    cbn [phase_sum]. rewrite P, dot_zadd, dot_scale by (rewrite map_length; congruence).
    rewrite (H x k v (or_introl eq_refl) E). reflexivity.
Qed.

Lemma dot_same fa v w : nth 6 fa 0 = 90 -> List.length fa = 7%nat -> same_coefficients v w -> same_mod 360 (dot v fa) (dot w fa).
Proof.
  intros N L (F & Q & L1 & L2).
  do 7 (destruct fa as [|? fa]; [discriminate|]). destruct fa; [|discriminate].
  do 7 (destruct v as [|? v]; [discriminate|]). destruct v; [|discriminate].
  do 7 (destruct w as [|? w]; [discriminate|]). destruct w; [|discriminate].
  cbn [firstn nth] in *. injection F as -> -> -> -> -> ->. subst.
  rewrite !dot_cons, !dot_nil.
  match type of Q with (?a mod 4 = ?b mod 4)%Z =>
    exists (a / 4 - b / 4)%Z; rewrite minus_IZR;
    pose proof (Z.div_mod a 4 ltac:(lia)) as A; pose proof (Z.div_mod b 4 ltac:(lia)) as B;
    apply (f_equal IZR) in A; apply (f_equal IZR) in B; rewrite plus_IZR, mult_IZR in A, B; rewrite Q in A end.
  lra.
Qed.

Theorem C58_phase_partial : forall corr m1 MJD deltat c l, In (c, l) compounds ->
  ~ In c (map fst compound_bad_coefficients) -> (otis_corr corr = true -> ~ In "s1"%string (map fst l)) ->
  exists G, pG_of (arguments corr m1 MJD deltat c) = G /\ is_ok (arguments corr m1 MJD deltat c) = true /\
    (forall x, In x (map fst l) -> is_ok (arguments corr m1 MJD deltat x) = true) /\
    same_mod 360 G (phase_sum (fun x => pG_of (arguments corr m1 MJD deltat x)) l).
Proof.
  intros corr m1 MJD deltat c l I B S1.
  destruct (C58_coefficients_partial _ _ _ I B S1) as (v & w & E & P & Q).
  eexists. split; [reflexivity|]. unfold arguments, arguments_from.
  set (lon := mean_longitudes _ _ _). set (h := hour_of MJD). clearbody lon h.
  split; [rewrite E; reflexivity|]. split.
  - clear - P. intros x Ix. revert w P. induction l as [|[y k] l IH]; [contradiction|].
    intros w. cbn [part_sum]. destruct (coefficients corr y) as [a|] eqn:Y; [|discriminate]. cbn [bind].
    destruct (part_sum (coefficients corr) l) as [b|] eqn:W; [|discriminate]. intros _.
    cbn [map fst In] in Ix. destruct Ix as [<-|Ix]; [rewrite Y; reflexivity|exact (IH Ix _ eq_refl)].
  - rewrite E. cbn [bind pG_of].
    destruct (part_sum_dot corr (fun x => pG_of (do coef <- coefficients corr x ;; Ok (fst (nodal (options corr m1) (lN lon) (lP lon) x), snd (nodal (options corr m1) (lN lon) (lP lon) x), dot coef (fargs lon h))))
       (fargs lon h) eq_refl l) with (w := w) as [_ S].
    + intros x k u _ X. rewrite X. reflexivity.
    + exact P.
    + cbv zeta. rewrite S. apply dot_same; [reflexivity|reflexivity|exact Q].
Qed.
Print Assumptions C58_phase_partial.

Example C58_case : In ("2mk3", [("m2", 2); ("k1", -1)])%string%Z compounds /\
  ~ In "2mk3"%string (map fst compound_bad_coefficients) /\
  coefficients "GOT" "2mk3" = Ok [3; -1; 0; 0; 0; 0; -1]%Z.
Proof.
  split; [|split].
  - unfold compounds. apply in_or_app. left. unfold compound_handled; cbn [In]; repeat (first [left; reflexivity | right]).
  - cbn. intuition discriminate.
  - vm_compute. reflexivity.
Qed.
