(** C76: what is read from the tables of nutation and sidereal time. *)
From Coq Require Import String Ascii List Reals ZArith Bool Lia Lra Psatz.
From Verif Require Import PyBase RBase NutationModel NutationSpec.
Import ListNotations.
Open Scope R_scope.

(** ** Words *)
Lemma blank_space a : blank a = true <-> space a.
Proof.
  unfold blank, space; cbv zeta; generalize (nat_of_ascii a); intros n.
  rewrite orb_true_iff, andb_true_iff, Nat.eqb_eq, !Nat.leb_le; cbn [In]; lia.
Qed.
Lemma blank_not a : blank a = false <-> ~ space a.
Proof. rewrite <- blank_space; destruct (blank a); split; congruence. Qed.

Lemma words_spaces s r : spaces s -> words (s ++ r) = words r.
Proof.
  induction s as [|a s IH]; [reflexivity|]. intros [Ha Hs].
  change (String a s ++ r)%string with (String a (s ++ r)); cbn [words].
  apply blank_space in Ha; rewrite Ha; auto.
Qed.
Lemma words_blank s : spaces s -> words s = [].
Proof.
  intros H; pose proof (words_spaces s EmptyString H) as E; cbn [words] in E.
  assert (K : forall x, (x ++ EmptyString)%string = x) by (induction x as [|? ? IHx]; cbn [append]; [|rewrite IHx]; reflexivity).
  now rewrite K in E.
Qed.
Lemma words_one w : word w -> words w = [w].
Proof.
  intros [Hn Hw]; induction w as [|a w IH]; [congruence|]. destruct Hw as [Ha Hw].
  cbn [words]. apply blank_not in Ha; rewrite Ha. destruct w as [|b w]; [reflexivity|].
  rewrite IH by (auto; discriminate). destruct Hw as [Hb _]; apply blank_not in Hb; rewrite Hb; reflexivity.
Qed.
Lemma words_next w b r : word w -> space b -> words (w ++ String b r) = w :: words r.
Proof.
  intros [Hn Hw] Hb; apply blank_space in Hb. induction w as [|a w IH]; [congruence|]. destruct Hw as [Ha Hw].
  apply blank_not in Ha. destruct w as [|c w].
  - change (String a EmptyString ++ String b r)%string with (String a (String b r)); cbn [words]; rewrite Ha, Hb; reflexivity.
  - change (String a (String c w) ++ String b r)%string with (String a (String c w ++ String b r)).
    specialize (IH ltac:(discriminate) Hw). destruct Hw as [Hc _]; apply blank_not in Hc.
    change (String c w ++ String b r)%string with (String c (w ++ String b r)) in *.
    change (words (String a (String c (w ++ String b r)))) with
      (if blank a then words (String c (w ++ String b r)) else
       if blank c then String a EmptyString :: words (String c (w ++ String b r))
       else match words (String c (w ++ String b r)) with w0 :: ws => String a w0 :: ws | [] => [String a EmptyString] end).
    rewrite Ha, Hc, IH; reflexivity.
Qed.
Lemma laid_words s ws : laid s ws -> words s = ws.
Proof.
  induction 1 as [s H|s w H Hw|s w b r ws H Hw Hb _ IH].
  - now apply words_blank.
  - rewrite words_spaces by assumption; now apply words_one.
  - rewrite words_spaces by assumption; rewrite words_next by assumption; now rewrite IH.
Qed.
Lemma laid_space a s ws : space a -> laid s ws -> laid (String a s) ws.
Proof.
  intros Ha H; destruct H as [s H|s w H Hw|s w b r ws H Hw Hb K].
  - apply laid_end; split; assumption.
  - apply (laid_last (String a s)); [split|]; assumption.
  - apply (laid_word (String a s)); [split| | |]; assumption.
Qed.
Lemma words_laid_len n : forall s, (String.length s <= n)%nat -> laid s (words s).
Proof.
  induction n as [|n IH]; intros s Hn.
  - destruct s; [apply laid_end; exact I|cbn [String.length] in Hn; lia].
  - destruct s as [|a s]; [apply laid_end; exact I|]. cbn [String.length] in Hn.
    assert (W : laid s (words s)) by (apply IH; lia).
    cbn [words]. destruct (blank a) eqn:Ea.
    + apply laid_space; [now apply blank_space|exact W].
    + apply blank_not in Ea. destruct s as [|b s].
      { apply (laid_last EmptyString); [exact I|]. split; [discriminate|]; cbn [every]; auto. }
      destruct (blank b) eqn:Eb.
      * replace (words (String b s)) with (words s) by (cbn [words]; now rewrite Eb).
        apply (laid_word EmptyString (String a EmptyString) b s).
        -- exact I.
        -- split; [discriminate|]; cbn [every]; auto.
        -- now apply blank_space.
        -- apply IH; cbn [String.length] in Hn; lia.
      * apply blank_not in Eb.
        remember (String b s) as t eqn:Et. remember (words t) as ws eqn:Ew.
        destruct W as [s0 H|s0 w H Hw|s0 w c r ws H Hw Hc K].
        -- rewrite Et in H; destruct H as [H _]; contradiction.
        -- destruct s0 as [|d s0]; [|change (String d s0 ++ w)%string with (String d (s0 ++ w)) in Et; injection Et; intros _ ->; destruct H; contradiction].
           apply (laid_last EmptyString); [exact I|]. destruct Hw as [_ Hw]. split; [discriminate|]. split; assumption.
        -- destruct s0 as [|d s0]; [|change (String d s0 ++ w ++ String c r)%string with (String d (s0 ++ w ++ String c r)) in Et; injection Et; intros _ ->; destruct H; contradiction].
           apply (laid_word EmptyString (String a w)); [exact I| |exact Hc|exact K]. destruct Hw as [_ Hw]. split; [discriminate|]. split; assumption.
Qed.
Lemma words_laid s : laid s (words s).
Proof. now apply (words_laid_len (String.length s)). Qed.
Lemma words_iff s ws : words s = ws <-> laid s ws.
Proof. split; [intros <-; apply words_laid|apply laid_words]. Qed.

(** ** Numbers *)
Lemma digits_app s : forall t acc, digits (s ++ t) acc = match digits s acc with Some n => digits t n | None => None end.
Proof.
  induction s as [|a s IH]; intros t acc; [reflexivity|].
  change (String a s ++ t)%string with (String a (s ++ t)); cbn [digits]. destruct (digit a); auto.
Qed.
Lemma digit_of d : (d < 10)%nat -> digit (ascii_of_nat (48 + d)) = Some (Z.of_nat d).
Proof. intros H. do 10 (destruct d as [|d]; [reflexivity|]). lia. Qed.
Lemma digit_is a z : digit a = Some z -> exists d, (d < 10)%nat /\ a = ascii_of_nat (48 + d) /\ z = Z.of_nat d.
Proof.
  unfold digit; cbv zeta. destruct ((48 <=? nat_of_ascii a)%nat && (nat_of_ascii a <=? 57)%nat) eqn:E; [|discriminate].
  apply andb_true_iff in E as [E1 E2]; apply Nat.leb_le in E1, E2.
  intros H; apply (f_equal (fun o => match o with Some x => x | None => 0%Z end)) in H; subst z.
  exists (nat_of_ascii a - 48)%nat; split; [lia|split; [|lia]].
  replace (48 + (nat_of_ascii a - 48))%nat with (nat_of_ascii a) by lia. symmetry; apply ascii_nat_embedding.
Qed.
Lemma spells_nonempty s n : spells s n -> s <> EmptyString.
Proof. destruct 1 as [d H|s n d H Hd]; [discriminate|]. destruct s; discriminate. Qed.
Lemma spells_digits s n : spells s n -> digits s 0 = Some n.
Proof.
  induction 1 as [d H|s n d H IH Hd].
  - cbn [digits]; rewrite digit_of by assumption; f_equal; lia.
  - rewrite digits_app, IH; cbn [digits]; rewrite digit_of by assumption; reflexivity.
Qed.
Lemma snoc s : s <> EmptyString -> exists t a, s = (t ++ String a EmptyString)%string /\ (String.length t < String.length s)%nat.
Proof.
  induction s as [|a s IH]; [congruence|]. intros _. destruct s as [|b s].
  - exists EmptyString, a; split; [reflexivity|cbn; lia].
  - destruct (IH ltac:(discriminate)) as (t & c & E & L). exists (String a t), c.
    split; [rewrite E; reflexivity|cbn [String.length] in *; lia].
Qed.
Lemma digits_spells_len k : forall s n, (String.length s <= k)%nat -> s <> EmptyString -> digits s 0 = Some n -> spells s n.
Proof.
  induction k as [|k IH]; intros s n L N E; [destruct s; [congruence|cbn in L; lia]|].
  destruct (snoc s N) as (t & a & -> & Lt). rewrite digits_app in E.
  destruct (digits t 0) as [m|] eqn:Em; [|discriminate]. cbn [digits] in E.
  destruct (digit a) as [z|] eqn:Ea; [|discriminate]. destruct (digit_is a z Ea) as (d & Hd & -> & ->).
  assert (En : n = (10 * m + Z.of_nat d)%Z) by congruence. subst n.
  destruct t as [|b t].
  - cbn [digits] in Em. assert (m = 0%Z) by congruence; subst m. apply (spells_digit d Hd).
  - apply spells_more; [|exact Hd]. apply IH; [lia|discriminate|exact Em].
Qed.
Lemma natural_iff s n : natural s = Some n <-> spells s n.
Proof.
  split.
  - unfold natural; destruct s as [|a s]; [discriminate|]. intros E.
    apply (digits_spells_len (String.length (String a s))); [lia|discriminate|exact E].
  - intros H. pose proof (spells_nonempty s n H). unfold natural; destruct s; [congruence|]. now apply spells_digits.
Qed.
Lemma spells_head s n : spells s n -> exists d t, (d < 10)%nat /\ s = String (ascii_of_nat (48 + d)) t.
Proof.
  induction 1 as [d H|s n d H IH Hd]; [exists d, EmptyString; auto|].
  destruct IH as (e & t & He & ->). exists e, (t ++ String (ascii_of_nat (48 + d)) EmptyString)%string; auto.
Qed.
Lemma signed_none {A} neg (f : string -> option A) d t : (d < 10)%nat ->
  signed neg f (String (ascii_of_nat (48 + d)) t) = f (String (ascii_of_nat (48 + d)) t).
Proof. intros H. do 10 (destruct d as [|d]; [reflexivity|]). lia. Qed.
Lemma signed_cases {A} neg (f : string -> option A) s : 
  (exists r, s = String "-" r /\ signed neg f s = option_map neg (f r)) \/
  (exists r, s = String "+" r /\ signed neg f s = f r) \/
  signed neg f s = f s.
Proof.
  destruct s as [|a r]; [right; right; reflexivity|].
  destruct (ascii_dec a "-") as [->|N1]; [left; eauto|].
  destruct (ascii_dec a "+") as [->|N2]; [right; left; eauto|].
  right; right. destruct a as [[] [] [] [] [] [] [] []]; try reflexivity; congruence.
Qed.
Lemma integer_iff s z : integer s = Some z <-> whole s z.
Proof.
  unfold integer; split.
  - destruct (signed_cases Z.opp natural s) as [(r & -> & ->)|[(r & -> & ->)| ->]].
    + destruct (natural r) as [n|] eqn:E; [|discriminate]. intros H; assert (z = (- n)%Z) by (cbn [option_map] in H; congruence); subst z.
      apply whole_minus; now apply natural_iff.
    + intros H; apply whole_plus; now apply natural_iff.
    + intros H; apply whole_plain; now apply natural_iff.
  - destruct 1 as [s n H|s n H|s n H].
    + destruct (spells_head s n H) as (d & t & Hd & ->). rewrite signed_none by assumption; now apply natural_iff.
    + cbn [signed]; now apply natural_iff.
    + cbn [signed]; apply natural_iff in H; rewrite H; reflexivity.
Qed.

Definition no_point (s : string) : Prop := every (fun a => a <> "."%char) s.
Lemma cut_point_no s : no_point s -> cut_point s = (s, EmptyString).
Proof.
  induction s as [|a s IH]; [reflexivity|]. intros [Ha Hs]. cbn [cut_point]; rewrite (IH Hs).
  destruct a as [[] [] [] [] [] [] [] []]; try reflexivity; congruence.
Qed.
Lemma cut_point_at i f : no_point i -> cut_point (i ++ String "." f) = (i, f).
Proof.
  induction i as [|a i IH]; [reflexivity|]. intros [Ha Hs].
  change (String a i ++ String "." f)%string with (String a (i ++ String "." f)); cbn [cut_point]; rewrite (IH Hs).
  destruct a as [[] [] [] [] [] [] [] []]; try reflexivity; congruence.
Qed.
Lemma cut_point_cases s : (no_point s /\ cut_point s = (s, EmptyString)) \/
  exists i f, s = (i ++ String "." f)%string /\ cut_point s = (i, f).
Proof.
  induction s as [|a s IH]; [left; split; [exact I|reflexivity]|].
  destruct (ascii_dec a ".") as [->|N].
  - right; exists EmptyString, s; split; reflexivity.
  - destruct IH as [[H E]|(i & f & -> & E)].
    + left; split; [split; assumption|]. apply cut_point_no; split; assumption.
    + right; exists (String a i), f; split; [reflexivity|]. 
      change (cut_point (String a (i ++ String "." f)) = (String a i, f)). cbn [cut_point]. rewrite E.
      destruct a as [[] [] [] [] [] [] [] []]; try reflexivity; congruence.
Qed.
Lemma every_app P s t : every P (s ++ t) <-> every P s /\ every P t.
Proof. induction s as [|a s IH]; cbn [append every]; [tauto|]. rewrite IH; tauto. Qed.
Lemma spells_no_point s n : spells s n -> no_point s.
Proof.
  unfold no_point. assert (K : forall d, (d < 10)%nat -> ascii_of_nat (48 + d) <> "."%char) by (intros d H; do 10 (destruct d as [|d]; [discriminate|]); lia).
  induction 1 as [d H|s n d H IH Hd]; [cbn [every]; auto|]. apply every_app; split; [exact IH|cbn [every]; auto].
Qed.
Definition value (p : Z * nat) : R := IZR (fst p) / 10 ^ snd p.
Lemma app_nil_r_s s : (s ++ EmptyString)%string = s.
Proof. induction s as [|a s IH]; cbn [append]; [|rewrite IH]; reflexivity. Qed.
Lemma unsigned_decimal_iff s x : (exists p, unsigned_decimal s = Some p /\ value p = x) <-> pointed s x.
Proof.
  unfold unsigned_decimal; split.
  - intros (p & E & <-). destruct (cut_point_cases s) as [[H C]|(i & f & -> & C)]; rewrite C in E.
    + rewrite app_nil_r_s in E. destruct (natural s) as [n|] eqn:En; [|discriminate]. cbn [option_map] in E.
      assert (p = (n, String.length EmptyString)) by congruence; subst p; clear E. apply natural_iff in En. unfold value; cbn [fst snd String.length pow].
      replace (IZR n / 1) with (IZR n) by field. now apply pointed_none.
    + destruct (natural (i ++ f)) as [n|] eqn:En; [|discriminate]. cbn [option_map] in E.
      assert (p = (n, String.length f)) by congruence; subst p. unfold value; cbn [fst snd]. apply pointed_point; now apply natural_iff.
  - destruct 1 as [i f n H|s n H].
    + pose proof (proj1 (proj1 (every_app _ i f) (spells_no_point _ _ H))) as Hi.
      rewrite (cut_point_at i f Hi). apply natural_iff in H; rewrite H. eexists; split; [reflexivity|]. reflexivity.
    + rewrite (cut_point_no s (spells_no_point _ _ H)). rewrite app_nil_r_s. apply natural_iff in H; rewrite H.
      eexists; split; [reflexivity|]. unfold value; cbn [fst snd String.length pow]; field.
Qed.
Lemma pointed_head s x : pointed s x -> (exists d t, (d < 10)%nat /\ s = String (ascii_of_nat (48 + d)) t) \/ exists t, s = String "." t.
Proof.
  destruct 1 as [i f n H|s n H].
  - destruct i as [|a i]; [right; eexists; reflexivity|]. left.
    destruct (spells_head _ _ H) as (d & t & Hd & E). exists d, (i ++ String "." f)%string. split; [exact Hd|].
    change (String a i ++ f)%string with (String a (i ++ f)) in E. injection E; intros _ ->. reflexivity.
  - left; exact (spells_head _ _ H).
Qed.
Lemma decimal_iff s x : (exists p, decimal s = Some p /\ value p = x) <-> real s x.
Proof.
  unfold decimal; split.
  - intros (p & E & <-).
    destruct (signed_cases (fun p => ((- fst p)%Z, snd p)) unsigned_decimal s) as [(r & -> & K)|[(r & -> & K)|K]]; rewrite K in E.
    + destruct (unsigned_decimal r) as [q|] eqn:Eq; [|discriminate]. cbn [option_map] in E.
      assert (p = ((- fst q)%Z, snd q)) by congruence; subst p.
      replace (value ((- fst q)%Z, snd q)) with (- value q) by (unfold value; cbn [fst snd]; rewrite opp_IZR; unfold Rdiv; ring).
      apply real_minus; apply unsigned_decimal_iff; eauto.
    + apply real_plus; apply unsigned_decimal_iff; eauto.
    + apply real_plain; apply unsigned_decimal_iff; eauto.
  - destruct 1 as [s x H|s x H|s x H].
    + destruct (pointed_head s x H) as [(d & t & Hd & ->)|(t & ->)]; [rewrite signed_none by assumption|cbn [signed]]; now apply unsigned_decimal_iff.
    + cbn [signed]; now apply unsigned_decimal_iff.
    + apply unsigned_decimal_iff in H as (p & E & <-). cbn [signed]; rewrite E; cbn [option_map]. eexists; split; [reflexivity|].
      unfold value; cbn [fst snd]; rewrite opp_IZR; unfold Rdiv; ring.
Qed.

(** ** Single precision *)
Lemma half_even_bound a b : (0 < b)%Z -> Rabs (IZR (half_even a b) - IZR a / IZR b) <= / 2.
Proof.
  intros Hb. assert (Hr : 0 < IZR b) by (now apply IZR_lt).
  unfold half_even; cbv zeta. pose proof (Z.div_mod a b ltac:(lia)) as E. pose proof (Z.mod_pos_bound a b Hb) as B.
  set (q := (a / b)%Z) in *; set (r := (a mod b)%Z) in *.
  assert (Eq : IZR a / IZR b = IZR q + IZR r / IZR b) by (rewrite E, plus_IZR, mult_IZR; field; lra).
  assert (B1 : 0 <= IZR r) by (apply IZR_le; lia).
  assert (X : IZR b * (IZR r / IZR b) = IZR r) by (field; lra).
  rewrite Eq. set (f := IZR r / IZR b) in *. clearbody f.
  assert (F0 : 0 <= f) by nra.
  assert (G1 : (2 * r <= b)%Z -> f <= / 2).
  { intros H. apply IZR_le in H; rewrite mult_IZR in H. nra. }
  assert (G2 : (b <= 2 * r)%Z -> / 2 <= f).
  { intros H. apply IZR_le in H; rewrite mult_IZR in H. nra. }
  assert (F1 : f <= 1).
  { assert (IZR r <= IZR b) by (apply IZR_le; lia). nra. }
  destruct (Z.compare_spec (2 * r) b) as [H|H|H].
  - specialize (G1 ltac:(lia)); specialize (G2 ltac:(lia)). destruct (Z.even q); rewrite ?plus_IZR; apply Rabs_le; lra.
  - specialize (G1 ltac:(lia)). apply Rabs_le; lra.
  - specialize (G2 ltac:(lia)). rewrite plus_IZR; apply Rabs_le; lra.
Qed.
Lemma half_even_top a b n : (0 < b)%Z -> (a < b * n)%Z -> (half_even a b <= n)%Z.
Proof.
  intros Hb H. assert (K : (a / b < n)%Z) by (apply Z.div_lt_upper_bound; lia).
  unfold half_even; cbv zeta; destruct (Z.compare (2 * (a mod b)) b); [destruct (Z.even (a / b))| |]; lia.
Qed.
Lemma half_even_pos a b : (0 < b)%Z -> (0 <= a)%Z -> (0 <= half_even a b)%Z.
Proof.
  intros Hb H. assert (K : (0 <= a / b)%Z) by (apply Z.div_pos; lia).
  unfold half_even; cbv zeta; destruct (Z.compare (2 * (a mod b)) b); [destruct (Z.even (a / b))| |]; lia.
Qed.
Lemma pow_Z e : (0 <= e)%Z -> powerRZ 2 e = IZR (2 ^ e).
Proof.
  intros H. destruct e as [|p|p]; [reflexivity| |lia]. cbn [powerRZ].
  change 2 with (IZR 2). rewrite pow_IZR, positive_nat_Z. reflexivity.
Qed.
Lemma pow_pos e : 0 < powerRZ 2 e.
Proof. apply powerRZ_lt; lra. Qed.
Lemma pow_opp e : powerRZ 2 (- e) * powerRZ 2 e = 1.
Proof. rewrite <- powerRZ_add by lra. replace (- e + e)%Z with 0%Z by lia. reflexivity. Qed.

Lemma single_positive_near a b : (0 < a)%Z -> (0 < b)%Z ->
  Rabs (single_value (single_positive a b) - IZR a / IZR b) <= (IZR a / IZR b) / 2 ^ 24
  /\ (0 <= fst (single_positive a b) <= 2 ^ 24)%Z.
Proof.
  intros Ha Hb. assert (Ra : 0 < IZR a) by (now apply IZR_lt). assert (Rb : 0 < IZR b) by (now apply IZR_lt).
  pose proof (Z.log2_spec a Ha) as [A1 A2]. pose proof (Z.log2_spec b Hb) as [B1 B2].
  assert (La : (0 <= Z.log2 a)%Z) by apply Z.log2_nonneg. assert (Lb : (0 <= Z.log2 b)%Z) by apply Z.log2_nonneg.
  unfold single_positive; cbv zeta. set (e0 := (Z.log2 a - Z.log2 b)%Z).
  set (below := if (0 <=? e0)%Z then (a <? b * 2 ^ e0)%Z else (a * 2 ^ (- e0) <? b)%Z).
  set (x := IZR a / IZR b).
  assert (Xb : IZR b * x = IZR a) by (unfold x; field; lra).
  assert (Hx : 0 < x) by (unfold x; apply Rdiv_lt_0_compat; assumption).
  (* the two comparisons *)
  assert (Bt : below = true -> x < powerRZ 2 e0).
  { unfold below; destruct (Z.leb_spec 0 e0) as [G|G]; intros K; apply Z.ltb_lt, IZR_lt in K; rewrite mult_IZR in K.
    - rewrite pow_Z by assumption. nra.
    - rewrite <- pow_Z in K by lia. pose proof (pow_opp e0). pose proof (pow_pos e0). pose proof (pow_pos (- e0)).
      apply Rmult_lt_reg_l with (powerRZ 2 (- e0) * IZR b); [nra|]. nra. }
  assert (Bf : below = false -> powerRZ 2 e0 <= x).
  { unfold below; destruct (Z.leb_spec 0 e0) as [G|G]; intros K; apply Z.ltb_ge, IZR_le in K; rewrite mult_IZR in K.
    - rewrite pow_Z by assumption. nra.
    - rewrite <- pow_Z in K by lia. pose proof (pow_opp e0). pose proof (pow_pos e0). pose proof (pow_pos (- e0)).
      apply Rmult_le_reg_l with (powerRZ 2 (- e0) * IZR b); [nra|]. nra. }
  assert (P1 : powerRZ 2 (e0 - 1) <= x).
  { apply IZR_le in A1. apply IZR_lt in B2. rewrite <- pow_Z in A1, B2 by lia.
    replace (Z.succ (Z.log2 b)) with (Z.log2 b + 1)%Z in B2 by lia.
    assert (E : powerRZ 2 (e0 - 1) * powerRZ 2 (Z.log2 b + 1) = powerRZ 2 (Z.log2 a))
      by (rewrite <- powerRZ_add by lra; f_equal; unfold e0; lia).
    pose proof (pow_pos (e0 - 1)). apply Rmult_le_reg_l with (IZR b); [lra|]. nra. }
  assert (P2 : x < powerRZ 2 (e0 + 1)).
  { apply IZR_lt in A2. apply IZR_le in B1. rewrite <- pow_Z in A2, B1 by lia.
    replace (Z.succ (Z.log2 a)) with (Z.log2 a + 1)%Z in A2 by lia.
    assert (E : powerRZ 2 (e0 + 1) * powerRZ 2 (Z.log2 b) = powerRZ 2 (Z.log2 a + 1))
      by (rewrite <- powerRZ_add by lra; f_equal; unfold e0; lia).
    pose proof (pow_pos (e0 + 1)). apply Rmult_lt_reg_l with (IZR b); [lra|]. nra. }
  set (e := if below then (e0 - 24)%Z else (e0 - 23)%Z).
  assert (Q1 : powerRZ 2 (e + 23) <= x).
  { unfold e; destruct below.
    - replace (e0 - 24 + 23)%Z with (e0 - 1)%Z by lia; exact P1.
    - replace (e0 - 23 + 23)%Z with e0 by lia; auto. }
  assert (Q2 : x < powerRZ 2 (e + 24)).
  { unfold e; destruct below.
    - replace (e0 - 24 + 24)%Z with e0 by lia; auto.
    - replace (e0 - 23 + 24)%Z with (e0 + 1)%Z by lia; exact P2. }
  clearbody e. clear Bt Bf P1 P2 A1 A2 B1 B2.
  pose proof (pow_pos e) as Pe. pose proof (pow_opp e) as Po. pose proof (pow_pos (- e)) as Pn.
  set (m := if (0 <=? e)%Z then half_even a (b * 2 ^ e) else half_even (a * 2 ^ (- e)) b).
  assert (M : Rabs (IZR m - x * powerRZ 2 (- e)) <= / 2).
  { unfold m; destruct (Z.leb_spec 0 e) as [G|G].
    - replace (x * powerRZ 2 (- e)) with (IZR a / IZR (b * 2 ^ e)).
      + apply half_even_bound. pose proof (Z.pow_pos_nonneg 2 e ltac:(lia) G); nia.
      + rewrite mult_IZR, <- pow_Z by assumption. unfold x. 
        apply Rmult_eq_reg_r with (IZR b * powerRZ 2 e); [|nra].
        replace (IZR a / (IZR b * powerRZ 2 e) * (IZR b * powerRZ 2 e)) with (IZR a) by (field; lra).
        replace (IZR a / IZR b * powerRZ 2 (- e) * (IZR b * powerRZ 2 e)) with (IZR a * (powerRZ 2 (- e) * powerRZ 2 e)) by (field; lra).
        rewrite Po; ring.
    - replace (x * powerRZ 2 (- e)) with (IZR (a * 2 ^ (- e)) / IZR b).
      + now apply half_even_bound.
      + rewrite mult_IZR, <- pow_Z by lia. unfold x; field; lra. }
  assert (Mt : (0 <= m <= 2 ^ 24)%Z).
  { assert (T : x * powerRZ 2 (- e) < IZR (2 ^ 24)).
    { rewrite powerRZ_add in Q2 by lra. rewrite <- (pow_Z 24) by lia.
      apply Rmult_lt_reg_r with (powerRZ 2 e); [exact Pe|]. rewrite Rmult_assoc, Po. lra. }
    unfold m; destruct (Z.leb_spec 0 e) as [G|G].
    - assert (0 < 2 ^ e)%Z by (apply Z.pow_pos_nonneg; lia). split; [apply half_even_pos; nia|].
      apply half_even_top; [nia|]. apply lt_IZR. rewrite !mult_IZR, <- (pow_Z e) by assumption.
      rewrite <- Xb. apply Rmult_lt_reg_r with (powerRZ 2 (- e)); [exact Pn|].
      replace (IZR b * powerRZ 2 e * IZR (2 ^ 24) * powerRZ 2 (- e)) with (IZR b * IZR (2 ^ 24) * (powerRZ 2 (- e) * powerRZ 2 e)) by ring.
      rewrite Po. nra.
    - assert (0 < 2 ^ (- e))%Z by (apply Z.pow_pos_nonneg; lia). split; [apply half_even_pos; nia|].
      apply half_even_top; [lia|]. apply lt_IZR. rewrite !mult_IZR, <- (pow_Z (- e)) by lia. nra. }
  split; [|exact Mt]. unfold single_value; cbn [fst snd].
  replace (IZR m * powerRZ 2 e - x) with (powerRZ 2 e * (IZR m - x * powerRZ 2 (- e))) by (rewrite Rmult_minus_distr_l; replace (powerRZ 2 e * (x * powerRZ 2 (- e))) with (x * (powerRZ 2 (- e) * powerRZ 2 e)) by ring; rewrite Po; ring).
  rewrite Rabs_mult, (Rabs_pos_eq (powerRZ 2 e)) by lra.
  apply Rle_trans with (powerRZ 2 e * / 2); [apply Rmult_le_compat_l; lra|].
  rewrite powerRZ_add in Q1 by lra. change (powerRZ 2 23) with (2 ^ 23) in Q1. 
  apply Rmult_le_reg_r with (2 ^ 24); [apply pow_lt; lra|].
  replace (x / 2 ^ 24 * 2 ^ 24) with x by (field; apply pow_nonzero; lra). 
  replace (2 ^ 24) with (2 * 2 ^ 23) by reflexivity. lra.
Qed.
Lemma single_near a b : (0 < b)%Z -> nearly (IZR a / IZR b) (single_value (single a b)).
Proof.
  intros Hb. assert (Rb : 0 < IZR b) by (now apply IZR_lt). unfold nearly. destruct a as [|p|p].
  - unfold single, single_value; cbn [fst snd]. split.
    + replace (0 * powerRZ 2 0 - 0 / IZR b) with 0 by (unfold Rdiv; ring). replace (0 / IZR b) with 0 by (unfold Rdiv; ring).
      rewrite Rabs_R0; unfold Rdiv; lra.
    + exists 0%Z, 0%Z; split; [cbn; lia|reflexivity].
  - destruct (single_positive_near (Z.pos p) b ltac:(lia) Hb) as [H1 H2]. cbn [single].
    assert (0 < IZR (Z.pos p) / IZR b) by (apply Rdiv_lt_0_compat; [apply IZR_lt; lia|assumption]).
    rewrite (Rabs_pos_eq (IZR (Z.pos p) / IZR b)) by lra. split; [exact H1|].
    exists (fst (single_positive (Z.pos p) b)), (snd (single_positive (Z.pos p) b)). split; [lia|reflexivity].
  - destruct (single_positive_near (Z.pos p) b ltac:(lia) Hb) as [H1 H2]. cbn [single].
    assert (0 < IZR (Z.pos p) / IZR b) by (apply Rdiv_lt_0_compat; [apply IZR_lt; lia|assumption]).
    destruct (single_positive (Z.pos p) b) as [m e]. unfold single_value in *; cbn [fst snd] in *.
    change (Z.neg p) with (- Z.pos p)%Z. rewrite !opp_IZR.
    replace (- IZR (Z.pos p) / IZR b) with (- (IZR (Z.pos p) / IZR b)) by (unfold Rdiv; ring).
    rewrite Rabs_Ropp, (Rabs_pos_eq (IZR (Z.pos p) / IZR b)) by lra. split.
    + replace (- IZR m * powerRZ 2 e - - (IZR (Z.pos p) / IZR b)) with (- (IZR m * powerRZ 2 e - IZR (Z.pos p) / IZR b)) by ring.
      now rewrite Rabs_Ropp.
    + exists (- m)%Z, e. rewrite opp_IZR. split; [lia|reflexivity].
Qed.

(** ** Lines *)
(** what is kept of a term *)
Definition stands_for (r : row) (t : term) : Prop :=
  number t = row_number r /\ multipliers t = row_multipliers r
  /\ nearly (row_sine r) (single_value (sine t)) /\ nearly (row_cosine r) (single_value (cosine t)).

Lemma whole_list ns : forall zs, mapM (fun n => opt_res ValueError (integer n)) ns = Ok zs <-> Forall2 whole ns zs.
Proof.
  induction ns as [|n ns IH]; intros zs; cbn [mapM].
  - split; [intros E; apply Ok_inj in E as <-; constructor|]. intros H; inversion H; reflexivity.
  - split.
    + destruct (integer n) as [z|] eqn:E; [|discriminate]. cbn [opt_res bind].
      destruct (mapM _ ns) as [l|] eqn:El; [|discriminate]. cbn [bind]. intros H; apply Ok_inj in H as <-.
      constructor; [now apply integer_iff|now apply IH].
    + intros H; inversion H as [|? z ? l Hz Hl E1 E2]; subst. apply integer_iff in Hz; rewrite Hz. cbn [opt_res bind].
      apply IH in Hl; rewrite Hl; reflexivity.
Qed.
Lemma whole_list_err ns e : mapM (fun n => opt_res ValueError (integer n)) ns = Err e -> e = ValueError.
Proof.
  induction ns as [|n ns IH]; cbn [mapM]; [discriminate|]. destruct (integer n); cbn [opt_res bind]; [|congruence].
  destruct (mapM _ ns); cbn [bind]; [discriminate|]. intros H; apply IH; congruence.
Qed.
Lemma value_single p : nearly (value p) (single_value (single (fst p) (10 ^ Z.of_nat (snd p)))).
Proof.
  unfold value. replace (10 ^ snd p) with (IZR (10 ^ Z.of_nat (snd p))).
  - apply single_near; apply Z.pow_pos_nonneg; lia.
  - rewrite <- pow_IZR; reflexivity.
Qed.

(** A line that lists a term is read as that term, its coefficients rounded to
    single precision. *)
Theorem C76_line : forall line r, lists line r ->
  exists t, term_of_line line = Ok t /\ stands_for r t.
Proof.
  intros line r (i & s & c & ns & L & Hi & Hs & Hc & Hn & Hl). apply words_iff in L.
  unfold term_of_line; rewrite L, Hl; cbn [Nat.eqb].
  apply integer_iff in Hi; rewrite Hi. apply decimal_iff in Hs as (ps & Es & Vs). rewrite Es.
  apply decimal_iff in Hc as (pc & Ec & Vc). rewrite Ec. apply whole_list in Hn; rewrite Hn. cbn [opt_res bind].
  eexists; split; [reflexivity|]. unfold stands_for; cbn [number sine cosine multipliers]. rewrite <- Vs, <- Vc.
  repeat split; try reflexivity; apply value_single.
Qed.
Print Assumptions C76_line.

(** Nothing else is read: a line that is accepted lists a term, and any other
    line is a ValueError. *)
Theorem C76_line_only : forall line,
  (forall t, term_of_line line = Ok t -> exists r, lists line r /\ stands_for r t)
  /\ ((~ exists r, lists line r) -> term_of_line line = Err ValueError).
Proof.
  intros line.
  assert (A : forall t, term_of_line line = Ok t -> exists r, lists line r /\ stands_for r t).
  { intros t. unfold term_of_line. destruct (words line) as [|i [|s [|c ns]]] eqn:L; try discriminate.
    destruct (Nat.eqb_spec (List.length ns) 14) as [Hl|]; [|discriminate].
    destruct (integer i) as [zi|] eqn:Ei; [|discriminate]. destruct (decimal s) as [ps|] eqn:Es; [|discriminate].
    destruct (decimal c) as [pc|] eqn:Ec; [|discriminate]. cbn [opt_res bind].
    destruct (mapM _ ns) as [zs|] eqn:En; [|discriminate]. cbn [bind]. intros E; apply Ok_inj in E as <-.
    exists (Row zi (value ps) (value pc) zs). split.
    - exists i, s, c, ns; cbn [row_number row_sine row_cosine row_multipliers]. repeat split.
      + now apply words_iff.
      + now apply integer_iff.
      + apply decimal_iff; eauto.
      + apply decimal_iff; eauto.
      + now apply whole_list.
      + exact Hl.
    - unfold stands_for; cbn [number sine cosine multipliers row_number row_sine row_cosine row_multipliers].
      repeat split; try reflexivity; apply value_single. }
  split; [exact A|]. intros N. destruct (term_of_line line) as [t|e] eqn:E.
  - destruct (A t eq_refl) as (r & H & _). exfalso; apply N; eauto.
  - f_equal. revert E. unfold term_of_line. destruct (words line) as [|i [|s [|c ns]]]; try congruence.
    destruct (Nat.eqb (List.length ns) 14); [|congruence].
    destruct (integer i); cbn [opt_res bind]; [|congruence]. destruct (decimal s); cbn [opt_res bind]; [|congruence].
    destruct (decimal c); cbn [opt_res bind]; [|congruence].
    destruct (mapM _ ns) as [zs|e'] eqn:En; cbn [bind]; [discriminate|]. intros H.
    pose proof (whole_list_err ns e' En). congruence.
Qed.
Print Assumptions C76_line_only.

Lemma forall2_len {A B} (P : A -> B -> Prop) a b : Forall2 P a b -> List.length a = List.length b.
Proof. induction 1; cbn [List.length]; congruence. Qed.
Lemma terms_listed lines start rs : listed lines start rs ->
  exists ts, terms_at lines start (List.length rs) = Ok ts /\ Forall2 stands_for rs ts.
Proof.
  intros H. unfold terms_at.
  assert (K : exists ts, mapM term_of_line (firstn (List.length rs) (skipn start lines)) = Ok ts /\ Forall2 stands_for rs ts).
  { revert start H; induction rs as [|r rs IH]; intros start H.
    - exists []; split; [reflexivity|constructor].
    - destruct (H 0%nat r eq_refl) as (line & E & L). rewrite Nat.add_0_r in E.
      assert (Sk : skipn start lines = line :: skipn (S start) lines).
      { clear - E. revert start E. induction lines as [|x l IHl]; intros [|s]; cbn [nth_error skipn]; try discriminate.
        - congruence.
        - intros E. rewrite (IHl s E). destruct l; reflexivity. }
      rewrite Sk. cbn [List.length firstn mapM].
      destruct (C76_line line r L) as (t & Et & St). rewrite Et; cbn [bind].
      destruct (IH (S start)) as (ts & Ets & Fts).
      { intros k q Hk. destruct (H (S k) q Hk) as (l' & E' & L'). exists l'; split; [|exact L']. rewrite <- E'; f_equal; lia. }
      rewrite Ets; cbn [bind]. exists (t :: ts); split; [reflexivity|constructor; assumption]. }
  destruct K as (ts & E & F). rewrite E; cbn [bind]. exists ts; split; [|exact F].
  rewrite <- (forall2_len _ _ _ F), Nat.sub_diag. cbn [repeat]. now rewrite app_nil_r.
Qed.

(** The three tables: the terms that are listed at the places of the tables,
    all of them and in their order. *)
Theorem C76_tables : forall lines r0 r1,
  (listed lines 53 r0 -> List.length r0 = 33%nat -> listed lines 90 r1 -> List.length r1 = 1%nat ->
    exists t0 t1, parse_table_5_2e lines = Ok (t0, t1) /\ Forall2 stands_for r0 t0 /\ Forall2 stands_for r1 t1)
  /\ (listed lines 22 r0 -> List.length r0 = 1320%nat -> listed lines 1348 r1 -> List.length r1 = 38%nat ->
    exists t0 t1, parse_table_5_3a lines = Ok (t0, t1) /\ Forall2 stands_for r0 t0 /\ Forall2 stands_for r1 t1)
  /\ (listed lines 22 r0 -> List.length r0 = 1037%nat -> listed lines 1065 r1 -> List.length r1 = 19%nat ->
    exists t0 t1, parse_table_5_3b lines = Ok (t0, t1) /\ Forall2 stands_for r0 t0 /\ Forall2 stands_for r1 t1).
Proof.
  intros lines r0 r1.
  assert (K : forall s0 n0 s1 n1, listed lines s0 r0 -> List.length r0 = n0 -> listed lines s1 r1 -> List.length r1 = n1 ->
    exists t0 t1, parse_table lines s0 n0 s1 n1 = Ok (t0, t1) /\ Forall2 stands_for r0 t0 /\ Forall2 stands_for r1 t1).
  { intros s0 n0 s1 n1 H0 E0 H1 E1. destruct (terms_listed lines s0 r0 H0) as (t0 & P0 & F0).
    destruct (terms_listed lines s1 r1 H1) as (t1 & P1 & F1). exists t0, t1.
    unfold parse_table; rewrite <- E0, <- E1, P0, P1; cbn [bind]; auto. }
  split; [|split]; intros; unfold parse_table_5_2e, parse_table_5_3a, parse_table_5_3b; apply K; assumption.
Qed.
Print Assumptions C76_tables.

Lemma terms_missing lines start n : (List.length lines <= start)%nat -> terms_at lines start n = Ok (repeat zero_term n).
Proof. intros H; unfold terms_at; rewrite skipn_all2 by assumption. destruct n; reflexivity. Qed.
(** A file that ends before the tables is no error: all terms are zero. *)
Theorem C76_short_refuted : forall lines, (List.length lines <= 22)%nat ->
  exists t0 t1, parse_table_5_3a lines = Ok (t0, t1)
    /\ Forall (fun t => single_value (sine t) = 0 /\ single_value (cosine t) = 0) (t0 ++ t1)%list.
Proof.
  intros lines H. unfold parse_table_5_3a, parse_table. rewrite !terms_missing by lia. cbn [bind].
  eexists _, _; split; [reflexivity|]. rewrite <- repeat_app. apply Forall_forall. intros t Ht.
  apply repeat_spec in Ht; subst t. unfold zero_term, single_value; cbn [sine cosine fst snd]; split; ring.
Qed.
Print Assumptions C76_short_refuted.
