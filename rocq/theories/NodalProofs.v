(** Lemmas about the nodal corrections: recursion depth, periodicity, positivity. *)
From Coq Require Import Reals String List Bool ZArith Lra Lia.
From Verif Require Import PyBase RBase StrBase DoodsonData DoodsonModel MathModel AstroModel.
From Verif Require Import NodalBase NodalData ArgModel CompoundSpec PiBounds.
Import ListNotations.
Open Scope R_scope.

(** ** Recursion depth *)
Definition is_compound (r : rule) : bool := match r with Compound _ => true | _ => false end.
Definition parent_names : list string := ["o1"; "k1"; "oo1"; "q1"; "j1"; "m2"; "k2"; "l2"]%string.

Lemma first_rule_forall (P : rule -> Prop) bs o e c :
  P default_rule ->
  Forall (fun b : branch => holds (fst (fst b)) c = true -> P (snd b e)) bs ->
  P (first_rule bs o e c).
Proof.
  intros D F; induction F as [|[[t g] b] bs H F IH]; [exact D|].
  cbn [first_rule]; cbn [fst snd] in H.
  destruct (holds t c); cbn [andb]; [|exact IH].
  destruct (g o); [apply H; reflexivity | exact IH].
Qed.

(** Only the branches whose name test holds matter *)
Fixpoint pick_rule (bs : list branch) (o : opts) (e : env) : rule :=
  match bs with
  | [] => default_rule
  | (_, g, b) :: bs' => if g o then b e else pick_rule bs' o e
  end.
Lemma rule_filter o e c :
  nodal_rule o e c = pick_rule (filter (fun b : branch => holds (fst (fst b)) c) branches) o e.
Proof.
  unfold nodal_rule. generalize branches as bs.
  induction bs as [|[[t g] b] bs IH]; [reflexivity|].
  cbn [first_rule filter fst]. destruct (holds t c); cbn [andb pick_rule]; [|exact IH].
  destruct (g o); [reflexivity | exact IH].
Qed.

(** Compute the rule of a literal name, leaving the guards *)
Ltac rule_of :=
  rewrite ?rule_filter;
  lazy beta iota zeta delta [pick_rule filter holds existsb String.eqb Ascii.eqb Bool.eqb substr starts
    branches fst snd orb andb default_rule].

Lemma parents_linear : forall o e c, In c parent_names -> is_compound (nodal_rule o e c) = false.
Proof.
  intros o e c I.
  unfold parent_names in I; cbn [In] in I.
  repeat (destruct I as [<-|I];
    [rule_of; repeat match goal with |- context [if ?g then _ else _] => destruct g end; reflexivity|]).
  destruct I.
Qed.

Lemma branches_parents : forall o e c l, nodal_rule o e c = Compound l ->
  Forall (fun x => In (fst (fst x)) parent_names) l.
Proof.
  intros o e c. unfold nodal_rule.
  apply (first_rule_forall (fun r => forall l, r = Compound l -> Forall (fun x => In (fst (fst x)) parent_names) l));
    [discriminate|].
  unfold branches; repeat (apply Forall_cons;
    [cbn [fst snd]; intros _ l Hl;
     (discriminate Hl || (injection Hl as <-; repeat (apply Forall_cons; [cbn [fst]; apply in_compute; reflexivity|]); apply Forall_nil)) |]);
  apply Forall_nil.
Qed.

Lemma combine_ext v1 v2 l : Forall (fun x => v1 (fst (fst x)) = v2 (fst (fst x))) l ->
  combine_parents v1 l = combine_parents v2 l.
Proof.
  induction 1 as [|[[c a] b] l H _ IH]; [reflexivity|].
  cbn [combine_parents]; cbn [fst] in H. rewrite IH, H; reflexivity.
Qed.

Lemma rec_linear k o e c : is_compound (nodal_rule o e c) = false ->
  nodal_rec (S k) o e c = nodal_rec 1 o e c.
Proof. cbn [nodal_rec]; destruct (nodal_rule o e c); (reflexivity || discriminate). Qed.

Lemma rec_depth k o e c : nodal_rec (S (S k)) o e c = nodal_rec 2 o e c.
Proof.
  change (rule_value (nodal_rec (S k) o e) (nodal_rule o e c) = rule_value (nodal_rec 1 o e) (nodal_rule o e c)).
  destruct (nodal_rule o e c) as [|?|l] eqn:E; try reflexivity.
  apply combine_ext. generalize (branches_parents _ _ _ _ E).
  apply Forall_impl. intros x I. apply rec_linear, parents_linear, I.
Qed.

(** The corrections satisfy the recursive equation of the code *)
Lemma nodal_unfold o n p c :
  nodal o n p c = rule_value (nodal o n p) (nodal_rule o (mk_env n p) c).
Proof. unfold nodal. rewrite <- (rec_depth 1). reflexivity. Qed.

(** ** Periodicity *)
Lemma dtr_turns x k : (x + 360 * IZR k) * dtr = x * dtr + 2 * IZR k * PI.
Proof. unfold dtr; field. Qed.


Lemma tan_half_turn x k : tan (x + IZR k * PI) = tan x.
Proof.
  assert (P : forall y, tan (y + PI) = tan y).
  { intro y. unfold tan. rewrite neg_sin, neg_cos. unfold Rdiv.
    rewrite Rinv_opp. ring. }
  assert (N : forall m y, tan (y + IZR (Z.of_nat m) * PI) = tan y).
  { induction m as [|m IH]; intro y; [f_equal; cbn; ring|].
    rewrite Nat2Z.inj_succ, succ_IZR, Rmult_plus_distr_r, Rmult_1_l, <- Rplus_assoc, P. apply IH. }
  destruct (Z_le_dec 0 k) as [K|K].
  - rewrite <- (Z2Nat.id k K). apply N.
  - rewrite <- (N (Z.to_nat (- k)) (x + IZR k * PI)). f_equal.
    rewrite Z2Nat.id, opp_IZR by lia. ring.
Qed.

Lemma sin_k x k j : sin (IZR j * (x + 360 * IZR k) * dtr) = sin (IZR j * x * dtr).
Proof.
  rewrite <- (sin_turns (IZR j * x * dtr) (j * k)). f_equal. rewrite mult_IZR. unfold dtr; field.
Qed.
Lemma cos_k x k j : cos (IZR j * (x + 360 * IZR k) * dtr) = cos (IZR j * x * dtr).
Proof.
  rewrite <- (cos_turns (IZR j * x * dtr) (j * k)). f_equal. rewrite mult_IZR. unfold dtr; field.
Qed.
Lemma sin_comb a b k : (exists j, a = b + 360 * IZR (k * j)) -> sin (a * dtr) = sin (b * dtr).
Proof. intros [j ->]. rewrite dtr_turns. apply sin_turns. Qed.
Lemma cos_comb a b k : (exists j, a = b + 360 * IZR (k * j)) -> cos (a * dtr) = cos (b * dtr).
Proof. intros [j ->]. rewrite dtr_turns. apply cos_turns. Qed.

Lemma half_turns n k : (n + 360 * IZR k) * dtr / 2 = n * dtr / 2 + IZR k * PI.
Proof. unfold dtr; field. Qed.

Lemma fes_II_turns n k : fes_II (n + 360 * IZR k) = fes_II n.
Proof. unfold fes_II. rewrite dtr_turns, cos_turns. reflexivity. Qed.
Lemma fes_at1_turns n k : fes_at1 (n + 360 * IZR k) = fes_at1 n.
Proof. unfold fes_at1. rewrite half_turns, tan_half_turn. reflexivity. Qed.
Lemma fes_at2_turns n k : fes_at2 (n + 360 * IZR k) = fes_at2 n.
Proof. unfold fes_at2. rewrite half_turns, tan_half_turn. reflexivity. Qed.
Lemma fes_xi_turns n k : fes_xi (n + 360 * IZR k) = fes_xi n.
Proof.
  unfold fes_xi. rewrite fes_at1_turns, fes_at2_turns, dtr_turns, <- Rplus_assoc, sin_turns, cos_turns.
  reflexivity.
Qed.
Lemma fes_nu_turns n k : fes_nu (n + 360 * IZR k) = fes_nu n.
Proof. unfold fes_nu. rewrite fes_at1_turns, fes_at2_turns. reflexivity. Qed.

Lemma env_node n p k : mk_env (n + 360 * IZR k) p = mk_env n p.
Proof.
  unfold mk_env, fes_nu_prime, fes_nu_sec, fes_Ra1, fes_R, fes_I2.
  rewrite !fes_II_turns, !fes_xi_turns, !fes_nu_turns.
  rewrite !sin_k, !cos_k.
  rewrite (sin_comb (n + 360 * IZR k) n k) by (exists 1%Z; rewrite Z.mul_1_r; ring).
  rewrite (cos_comb (n + 360 * IZR k) n k) by (exists 1%Z; rewrite Z.mul_1_r; ring).
  rewrite (sin_comb (2 * p - (n + 360 * IZR k)) (2 * p - n) k) by (exists (-1)%Z; rewrite mult_IZR; ring).
  rewrite (cos_comb (2 * p - (n + 360 * IZR k)) (2 * p - n) k) by (exists (-1)%Z; rewrite mult_IZR; ring).
  rewrite (sin_comb (p - (n + 360 * IZR k)) (p - n) k) by (exists (-1)%Z; rewrite mult_IZR; ring).
  rewrite (cos_comb (p - (n + 360 * IZR k)) (p - n) k) by (exists (-1)%Z; rewrite mult_IZR; ring).
  rewrite (sin_comb (2 * (n + 360 * IZR k - p)) (2 * (n - p)) k) by (exists 2%Z; rewrite mult_IZR; ring).
  rewrite (cos_comb (2 * (n + 360 * IZR k - p)) (2 * (n - p)) k) by (exists 2%Z; rewrite mult_IZR; ring).
  reflexivity.
Qed.

(** [e] with other values of the two FES perigee terms *)
Definition set_fes (e : env) (a b : R) : env :=
  {| sinn := sinn e; cosn := cosn e; sin2n := sin2n e; cos2n := cos2n e; sin3n := sin3n e;
     sinp := sinp e; cosp := cosp e; sin2p := sin2p e; cos2p := cos2p e;
     s2pn := s2pn e; c2pn := c2pn e; spn := spn e; cpn := cpn e; s2np := s2np e; c2np := c2np e;
     incl := incl e; xi := xi e; nu := nu e; nu_prime := nu_prime e; nu_sec := nu_sec e;
     ra1 := a; rr := b |}.

Lemma env_perigee n p k :
  mk_env n (p + 360 * IZR k) = set_fes (mk_env n p) (fes_Ra1 n (p + 360 * IZR k)) (fes_R n (p + 360 * IZR k)).
Proof.
  unfold mk_env, set_fes. cbn [sinn cosn sin2n cos2n sin3n sinp cosp sin2p cos2p s2pn c2pn spn cpn s2np c2np
    incl xi nu nu_prime nu_sec ra1 rr].
  rewrite !sin_k, !cos_k.
  rewrite (sin_comb (p + 360 * IZR k) p k) by (exists 1%Z; rewrite Z.mul_1_r; ring).
  rewrite (cos_comb (p + 360 * IZR k) p k) by (exists 1%Z; rewrite Z.mul_1_r; ring).
  rewrite (sin_comb (2 * (p + 360 * IZR k) - n) (2 * p - n) k) by (exists 2%Z; rewrite mult_IZR; ring).
  rewrite (cos_comb (2 * (p + 360 * IZR k) - n) (2 * p - n) k) by (exists 2%Z; rewrite mult_IZR; ring).
  rewrite (sin_comb (p + 360 * IZR k - n) (p - n) k) by (exists 1%Z; rewrite mult_IZR; ring).
  rewrite (cos_comb (p + 360 * IZR k - n) (p - n) k) by (exists 1%Z; rewrite mult_IZR; ring).
  rewrite (sin_comb (2 * (n - (p + 360 * IZR k))) (2 * (n - p)) k) by (exists (-2)%Z; rewrite mult_IZR; ring).
  rewrite (cos_comb (2 * (n - (p + 360 * IZR k))) (2 * (n - p)) k) by (exists (-2)%Z; rewrite mult_IZR; ring).
  reflexivity.
Qed.

Lemma first_rule_ext bs o e e' c :
  Forall (fun b : branch => holds (fst (fst b)) c && snd (fst b) o = true -> snd b e = snd b e') bs ->
  first_rule bs o e c = first_rule bs o e' c.
Proof.
  induction 1 as [|[[t g] b] bs H _ IH]; [reflexivity|].
  cbn [first_rule]; cbn [fst snd] in H.
  destruct (holds t c && g o); [apply H; reflexivity | exact IH].
Qed.

(** Only the FES branch of l2 and sl4 looks at the two FES perigee terms *)
Lemma rule_set_fes o e a b c :
  fes o = false \/ ~ In c ["l2"; "sl4"]%string ->
  nodal_rule o (set_fes e a b) c = nodal_rule o e c.
Proof.
  intro H. unfold nodal_rule. apply first_rule_ext.
  unfold branches; repeat (apply Forall_cons;
    [cbn [fst snd]; intro Q; try reflexivity |]); [|apply Forall_nil].
  exfalso. apply andb_true_iff in Q. destruct Q as [Q1 Q2]. cbn beta in Q2.
  destruct H as [H|H]; [congruence|]. apply H.
  cbn [holds existsb] in Q1. rewrite orb_false_r in Q1. apply orb_true_iff in Q1.
  cbn [In]. destruct Q1 as [Q1|Q1]; apply String.eqb_eq in Q1; auto.
Qed.

(** ** Positivity *)
Lemma fes_cos n : 0.878 <= cos (fes_II n) <= 0.9494.
Proof.
  unfold fes_II. pose proof (COS_bound (n * dtr)) as B.
  rewrite cos_acos; lra.
Qed.
Lemma fes_sin n : 0 < sin (fes_II n).
Proof.
  pose proof (fes_cos n) as B. pose proof (sin2_cos2' (fes_II n)) as E.
  assert (0 <= sin (fes_II n)).
  { apply sin_ge_0; unfold fes_II; apply acos_bound. }
  destruct (Req_dec (sin (fes_II n)) 0) as [Z|]; [|lra].
  rewrite Z in E. nra.
Qed.
Lemma fes_half n : 0 < cos (fes_II n / 2) /\ 0 < sin (fes_II n / 2).
Proof.
  pose proof (fes_cos n) as B. pose proof (acos_bound (0.913694997 - 0.035692561 * cos (n * dtr))) as A.
  fold (fes_II n) in A.
  pose proof (cos_2a_cos (fes_II n / 2)) as C. pose proof (cos_2a_sin (fes_II n / 2)) as D.
  replace (2 * (fes_II n / 2)) with (fes_II n) in C, D by field.
  assert (0 <= cos (fes_II n / 2)) by (apply cos_ge_0; lra).
  assert (0 <= sin (fes_II n / 2)) by (apply sin_ge_0; lra).
  split; nra.
Qed.
Lemma fes_tan n : 0 < (fes_I2 n) ^ 2 < 1 / 7.
Proof.
  destruct (fes_half n) as [C D].
  pose proof (fes_cos n) as B.
  pose proof (cos_2a_cos (fes_II n / 2)) as E. pose proof (sin2_cos2' (fes_II n / 2)) as F.
  replace (2 * (fes_II n / 2)) with (fes_II n) in E by field.
  unfold fes_I2, tan.
  replace ((sin (fes_II n / 2) / cos (fes_II n / 2)) ^ 2)
    with ((sin (fes_II n / 2) * sin (fes_II n / 2)) / (cos (fes_II n / 2) * cos (fes_II n / 2)))
    by (field; lra).
  assert (0 < cos (fes_II n / 2) * cos (fes_II n / 2)) by nra.
  assert (0 < sin (fes_II n / 2) * sin (fes_II n / 2)) by nra.
  split.
  - apply Rdiv_lt_0_compat; assumption.
  - apply Rmult_lt_reg_r with (cos (fes_II n / 2) * cos (fes_II n / 2)); [assumption|].
    unfold Rdiv at 1. rewrite Rmult_assoc, Rinv_l by lra. lra.
Qed.
Lemma fes_Ra1_pos n p : 0 < fes_Ra1 n p.
Proof.
  unfold fes_Ra1. apply sqrt_lt_R0.
  pose proof (fes_tan n) as T. pose proof (COS_bound (2 * (p - fes_xi n))) as B.
  replace (fes_I2 n ^ 4) with (fes_I2 n ^ 2 * fes_I2 n ^ 2) by ring.
  set (t := fes_I2 n ^ 2) in *. set (x := cos _) in *. nra.
Qed.
Lemma atan_diff_cos a b x : 0 < a -> 0 < b -> 0 < cos (atan (a * x) - atan (b * x)).
Proof.
  intros A B. destruct (atan_bound (a * x)) as [L1 U1]. destruct (atan_bound (b * x)) as [L2 U2].
  destruct (Rtotal_order x 0) as [H|[H|H]].
  - assert (atan (a * x) < 0) by (rewrite <- atan_0; apply atan_increasing; nra).
    assert (atan (b * x) < 0) by (rewrite <- atan_0; apply atan_increasing; nra).
    apply cos_gt_0; lra.
  - subst x. rewrite !Rmult_0_r, Rminus_diag_eq, cos_0 by reflexivity. lra.
  - assert (0 < atan (a * x)) by (rewrite <- atan_0 at 1; apply atan_increasing; nra).
    assert (0 < atan (b * x)) by (rewrite <- atan_0 at 1; apply atan_increasing; nra).
    apply cos_gt_0; lra.
Qed.
Lemma fes_cos_nu n : 0 < cos (fes_nu n).
Proof. unfold fes_nu, fes_at1, fes_at2. apply atan_diff_cos; lra. Qed.

(** What the branches need to know about the environment *)
Record good_env (e : env) : Prop := Good {
  g_cosn : -1 <= cosn e <= 1; g_sinn : -1 <= sinn e <= 1;
  g_cos2n : -1 <= cos2n e <= 1; g_cos2p : -1 <= cos2p e <= 1; g_sin2p : -1 <= sin2p e <= 1;
  g_c2pn : -1 <= c2pn e <= 1; g_c2np : -1 <= c2np e <= 1;
  g_n : sinn e * sinn e + cosn e * cosn e = 1;
  g_2n : cos2n e = 2 * (cosn e * cosn e) - 1; g_s2n : sin2n e = 2 * sinn e * cosn e;
  g_2p : sin2p e * sin2p e + cos2p e * cos2p e = 1;
  g_p : sinp e * sinp e + cosp e * cosp e = 1;
  g_pn : spn e * spn e + cpn e * cpn e = 1;
  g_ci : 0.878 <= cos (incl e) <= 0.9494; g_si : 0 < sin (incl e);
  g_ch : 0 < cos (incl e / 2); g_sh : 0 < sin (incl e / 2);
  g_cnu : 0 < cos (nu e); g_ra : 0 < ra1 e }.

Lemma mk_env_good n p : good_env (mk_env n p).
Proof.
  constructor; unfold mk_env;
  cbn [sinn cosn sin2n cos2n sin3n sinp cosp sin2p cos2p s2pn c2pn spn cpn s2np c2np incl xi nu nu_prime nu_sec ra1 rr];
  try apply COS_bound; try apply SIN_bound; try apply sin2_cos2'.
  - rewrite Rmult_assoc, cos_2a_cos. ring.
  - rewrite Rmult_assoc, sin_2a. ring.
  - apply fes_cos.
  - apply fes_sin.
  - apply fes_half.
  - apply fes_half.
  - apply fes_cos_nu.
  - apply fes_Ra1_pos.
Qed.

Lemma amp_pos a b : a <> 0 \/ b <> 0 -> 0 < sqrt (a ^ 2 + b ^ 2).
Proof.
  intro B. apply sqrt_lt_R0. pose proof (pow2_ge_0 a). pose proof (pow2_ge_0 b).
  destruct B as [B|B]; pose proof (Rsqr_pos_lt _ B) as Q; unfold Rsqr in Q; nra.
Qed.
Lemma amp_pos' a b : 0 < b -> 0 < sqrt (a ^ 2 + b ^ 2).
Proof. intro B. apply amp_pos. lra. Qed.

(** M1 in the Doodson and Ray conventions stays away from 0 *)
Lemma m1_pos a b a' b' s c x y : 0 < a <= a' -> 0 <= b <= b' -> b' < a ->
  s * s + c * c = 1 -> x * x + y * y = 1 ->
  0 < sqrt ((a * s + b * x) ^ 2 + (a' * c + b' * y) ^ 2).
Proof.
  intros A B L E F. apply amp_pos.
  destruct (Req_dec (a * s + b * x) 0) as [Z1|]; [|left; assumption].
  destruct (Req_dec (a' * c + b' * y) 0) as [Z2|]; [|right; assumption].
  exfalso.
  assert (S1 : (a * s) * (a * s) = (b * x) * (b * x)) by (replace (a * s) with (- (b * x)) by lra; ring).
  assert (S2 : (a' * c) * (a' * c) = (b' * y) * (b' * y)) by (replace (a' * c) with (- (b' * y)) by lra; ring).
  pose proof (Rle_0_sqr s) as P1. pose proof (Rle_0_sqr c) as P2.
  pose proof (Rle_0_sqr x) as P3. pose proof (Rle_0_sqr y) as P4. unfold Rsqr in *.
  assert (a * a <= a' * a') by nra. assert (b * b <= b' * b') by nra. assert (b' * b' < a * a) by nra.
  assert (Q1 : a * a * (c * c) <= a' * a' * (c * c)) by (apply Rmult_le_compat_r; assumption).
  assert (Q2 : b * b * (x * x) <= b' * b' * (x * x)) by (apply Rmult_le_compat_r; assumption).
  assert (a * a * (s * s + c * c) <= b' * b' * (x * x + y * y)) by lra.
  rewrite E, F in *. lra.
Qed.

Lemma delta2_pos sn cn sp cp : sn * sn + cn * cn = 1 -> sp * sp + cp * cp = 1 ->
  0 < sqrt ((0.505 * sp + 0.505 * sn - 0.165 * (2 * sn * cn)) ^ 2 +
            (1 - 0.505 * cp - 0.505 * cn + 0.165 * (2 * (cn * cn) - 1)) ^ 2).
Proof.
  intros E F. apply amp_pos.
  destruct (Req_dec (0.505 * sp + 0.505 * sn - 0.165 * (2 * sn * cn)) 0) as [Z1|]; [|left; assumption].
  destruct (Req_dec (1 - 0.505 * cp - 0.505 * cn + 0.165 * (2 * (cn * cn) - 1)) 0) as [Z2|]; [|right; assumption].
  exfalso.
  assert (S1 : (0.505 * sp) * (0.505 * sp) = (0.505 - 0.33 * cn) * (0.505 - 0.33 * cn) * (sn * sn)).
  { replace (0.505 * sp) with (- ((0.505 - 0.33 * cn) * sn)) by lra. ring. }
  assert (S2 : (0.505 * cp) * (0.505 * cp) = (0.835 - 0.505 * cn + 0.33 * (cn * cn)) * (0.835 - 0.505 * cn + 0.33 * (cn * cn))).
  { replace (0.505 * cp) with (0.835 - 0.505 * cn + 0.33 * (cn * cn)) by lra. ring. }
  replace (sn * sn) with (1 - cn * cn) in S1 by lra.
  nra.
Qed.

(** The factor of every linear rule is positive *)
Lemma linear_positive : forall o e c val, good_env e -> is_compound (nodal_rule o e c) = false ->
  0 < snd (rule_value val (nodal_rule o e c)).
Proof.
  intros o e c val [H1 H2 H3 H4 H5 H6 H7 E1 E2 E3 E4 E5 E6 C1 S1 C2 S2 C3 RA]. unfold nodal_rule.
  apply (first_rule_forall (fun r => is_compound r = false -> 0 < snd (rule_value val r))).
  { intros _. cbn. apply amp_pos'. lra. }
  assert (SQ : sin (incl e) ^ 2 = 1 - cos (incl e) * cos (incl e)).
  { pose proof (sin2_cos2' (incl e)). lra. }
  assert (SB : 0.0986 <= sin (incl e) ^ 2 <= 0.23) by (rewrite SQ; split; nra).
  assert (DI : 0 < sin (2 * incl e)).
  { rewrite sin_2a. apply Rmult_lt_0_compat; lra. }
  assert (PW : forall k, 0 < cos (incl e / 2) ^ k) by (intro k; apply pow_lt; assumption).
  pose proof (COS_bound (2 * nu e)) as N2.
  unfold branches; repeat (apply Forall_cons;
    [cbn [fst snd]; intros _; first [discriminate | intros _; cbn [rule_value snd];
      first [ apply amp_pos'; lra | lra | idtac ] ] |]); try apply Forall_nil.
  - apply Rdiv_lt_0_compat; [apply Rmult_lt_0_compat; [assumption | apply PW] | lra].
  - rewrite Rplus_comm. apply amp_pos'. lra.
  - rewrite <- (Rmult_1_l (sinp e)). apply m1_pos; lra.
  - apply m1_pos; lra.
  - apply sqrt_lt_R0. pose proof (pow2_ge_0 (sin (2 * incl e))).
    assert (0 < 0.6001 * sin (2 * incl e) * cos (nu e)) by (apply Rmult_lt_0_compat; lra). lra.
  - apply Rdiv_lt_0_compat; [apply Rmult_lt_0_compat; [assumption | apply pow_lt; assumption] | lra].
  - apply Rdiv_lt_0_compat; [apply PW | lra].
  - apply Rdiv_lt_0_compat; [apply Rmult_lt_0_compat; [assumption | apply PW] | lra].
  - apply sqrt_lt_R0. replace (sin (incl e) ^ 4) with (sin (incl e) ^ 2 * sin (incl e) ^ 2) by ring.
    clear SQ. set (x := sin (incl e) ^ 2) in *. set (y := cos (2 * nu e)) in *. nra.
  - rewrite E2, E3. apply delta2_pos; assumption.
  - apply Rdiv_lt_0_compat; [apply PW | lra].
Qed.

Lemma product_positive val l : Forall (fun x => 0 < snd (val (fst (fst x)))) l ->
  0 < snd (combine_parents val l).
Proof.
  induction 1 as [|[[c a] b] l H _ IH]; cbn [combine_parents snd]; [lra|].
  destruct (combine_parents val l) as [u f]. cbn [snd] in *. cbn [fst] in H.
  apply Rmult_lt_0_compat; [apply pow_lt, H | exact IH].
Qed.

Lemma nodal_positive o n p c : 0 < snd (nodal o n p c).
Proof.
  assert (L : forall c, is_compound (nodal_rule o (mk_env n p) c) = false -> 0 < snd (nodal o n p c)).
  { intros c' H. rewrite nodal_unfold. apply linear_positive; [apply mk_env_good | exact H]. }
  destruct (is_compound (nodal_rule o (mk_env n p) c)) eqn:E; [|apply L, E].
  rewrite nodal_unfold. destruct (nodal_rule o (mk_env n p) c) as [| |l] eqn:Rl; try discriminate.
  cbn [rule_value]. apply product_positive. generalize (branches_parents _ _ _ _ Rl).
  apply Forall_impl. intros x I. apply L, parents_linear, I.
Qed.
