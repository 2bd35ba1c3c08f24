(** Lemmas on the model of the downloads. *)
From Coq Require Import String Ascii Reals List ZArith Bool Lia Lra.
From Verif Require Import PyBase RBase StrBase UtilModel DownModel DownSpec.
Import ListNotations.
Open Scope string_scope.

Lemma teqb_true a b : teqb a b = true <-> a = b.
Proof. unfold teqb. destruct (text_dec a b); split; congruence. Qed.

Lemma slash_true c : slash c = true <-> c = "/"%char.
Proof. apply Ascii.eqb_eq. Qed.
Lemma dot_true c : dot c = true <-> c = "."%char.
Proof. apply Ascii.eqb_eq. Qed.

Lemma pieces_nonempty t : pieces t <> [].
Proof.
  destruct t as [|c t]; cbn; [discriminate|].
  destruct (slash c); [discriminate|]. destruct (pieces t); discriminate.
Qed.

Lemma pieces_plain t : ~ In "/"%char t -> pieces t = [t].
Proof.
  induction t as [|c t IH]; cbn; intros H; [reflexivity|].
  destruct (slash c) eqn:E; [apply slash_true in E; subst; tauto|].
  rewrite IH by tauto. reflexivity.
Qed.

Lemma pieces_app a b : ~ In "/"%char a -> pieces (a ++ "/"%char :: b)%list = a :: pieces b.
Proof.
  induction a as [|c a IH]; intros H; [reflexivity|].
  cbn in H. cbn [pieces app].
  destruct (slash c) eqn:E; [apply slash_true in E; subst; tauto|].
  rewrite IH by tauto. reflexivity.
Qed.

Lemma pieces_joined cs : cs <> [] -> Forall plain cs -> pieces (joined cs) = cs.
Proof.
  induction cs as [|c cs IH]; intros Hn Hf; [congruence|].
  inversion Hf as [|? ? (_ & _ & _ & Hc) Hcs]; subst.
  destruct cs as [|c' cs]; [apply pieces_plain, Hc|].
  change (joined (c :: c' :: cs)) with (c ++ "/"%char :: joined (c' :: cs))%list.
  rewrite pieces_app by exact Hc. rewrite IH by (congruence || assumption). reflexivity.
Qed.

Lemma pieces_split q b : pieces (q ++ "/"%char :: b)%list = (pieces q ++ pieces b)%list.
Proof.
  induction q as [|c q IH]; [reflexivity|].
  cbn [app pieces]. rewrite IH. destruct (slash c); [reflexivity|].
  destruct (pieces q) as [|w ws] eqn:P; [exfalso; apply (pieces_nonempty q), P|].
  reflexivity.
Qed.

Lemma last_slash t :
  ~ In "/"%char t \/ exists q b, t = (q ++ "/"%char :: b)%list /\ ~ In "/"%char b.
Proof.
  induction t as [|c t [H|(q & b & -> & H)]]; [left; cbn; tauto| |].
  - destruct (slash c) eqn:S.
    + apply slash_true in S. subst. right. now exists [], t.
    + left. cbn. intros [->|K]; [|tauto]. now rewrite (proj2 (slash_true _)) in S.
  - right. now exists (c :: q), b.
Qed.

Lemma basename_spec t : last_component t (basename t).
Proof.
  unfold basename. destruct (last_slash t) as [H|(q & b & -> & H)].
  - rewrite pieces_plain by exact H. exists []. repeat split; auto. now left.
  - rewrite pieces_split, (pieces_plain b) by exact H. rewrite last_last.
    exists (q ++ ["/"%char])%list. rewrite <- app_assoc. repeat split; auto.
    right. now exists q.
Qed.

Lemma suffix_unique (a b a' b' : list ascii) :
  (a ++ b)%list = (a' ++ b')%list -> (length a <= length a')%nat ->
  exists u, a' = (a ++ u)%list /\ b = (u ++ b')%list.
Proof.
  revert a'. induction a as [|x a IH]; intros a' E L.
  - exists a'. split; [reflexivity|exact E].
  - destruct a' as [|x' a']; [cbn in L; lia|].
    cbn in E. inversion E; subst.
    destruct (IH a') as (u & -> & ->); [assumption|cbn in L; lia|].
    now exists u.
Qed.

Lemma last_component_unique t b b' : last_component t b -> last_component t b' -> b = b'.
Proof.
  assert (W : forall pre pre' b b', folder pre' ->
    (pre ++ b)%list = (pre' ++ b')%list -> ~ In "/"%char b ->
    (length pre <= length pre')%nat -> b = b').
  { intros pre pre' c c' F' E N L.
    destruct (suffix_unique _ _ _ _ E L) as (u & -> & ->).
    destruct u as [|x u]; [reflexivity|].
    exfalso. destruct F' as [Hq|(q & Hq)].
    - destruct pre; discriminate.
    - destruct (exists_last (l := x :: u)) as (u' & z & Hu); [discriminate|].
      rewrite Hu in *. rewrite app_assoc in Hq. apply app_inj_tail in Hq as (_ & ->).
      apply N. apply in_or_app. left. apply in_or_app. right. now left. }
  intros (pre & E & F & N) (pre' & E' & F' & N').
  destruct (Nat.le_ge_cases (length pre) (length pre')).
  - apply (W pre pre'); auto. congruence.
  - symmetry. apply (W pre' pre); auto. congruence.
Qed.

Lemma last_component_iff t b : last_component t b <-> basename t = b.
Proof.
  split.
  - intros H. eapply last_component_unique; [apply basename_spec|exact H].
  - intros <-. apply basename_spec.
Qed.

Lemma last_dot_None t : last_dot t = None <-> ~ In "."%char t.
Proof.
  induction t as [|c t IH]; cbn; [split; auto|].
  destruct (last_dot t) as [[a b]|].
  - split; [discriminate|]. intros H. exfalso.
    assert (E : Some (a, b) = None) by (apply IH; tauto). discriminate.
  - destruct (dot c) eqn:D.
    + apply dot_true in D. split; [discriminate|]. intros H. exfalso. auto.
    + split; [|auto]. intros _ [->|H]; [now rewrite (proj2 (dot_true _)) in D|].
      now apply (proj1 IH).
Qed.

Lemma last_dot_Some t a b :
  last_dot t = Some (a, b) <-> t = (a ++ b)%list /\ exists w, b = "."%char :: w /\ ~ In "."%char w.
Proof.
  revert a b. induction t as [|c t IH]; intros a b; cbn.
  - split; [discriminate|]. intros (E & w & -> & _). destruct a; discriminate.
  - destruct (last_dot t) as [[a' b']|] eqn:L.
    + split.
      * intros H. inversion H; subst. destruct (proj1 (IH _ _) eq_refl) as (-> & w & -> & Hw).
        split; [reflexivity|eauto].
      * intros (E & w & -> & Hw). destruct a as [|x a].
        -- exfalso. cbn in E. inversion E; subst.
           apply (proj2 (last_dot_None w)) in Hw. congruence.
        -- cbn in E. inversion E; subst.
           assert (X : Some (a', b') = Some (a, "."%char :: w)) by (apply IH; eauto).
           inversion X. reflexivity.
    + apply last_dot_None in L. destruct (dot c) eqn:D.
      * apply dot_true in D. subst c. split.
        -- intros H. inversion H; subst. split; [reflexivity|eauto].
        -- intros (E & w & -> & Hw). destruct a as [|x a]; [cbn in E; inversion E; reflexivity|].
           exfalso. cbn in E. inversion E; subst. apply L. apply in_or_app. right. now left.
      * split; [discriminate|]. intros (E & w & -> & Hw). exfalso.
        destruct a as [|x a]; cbn in E; inversion E; subst.
        -- now rewrite (proj2 (dot_true _)) in D.
        -- apply L. apply in_or_app. right. now left.
Qed.

Lemma suffix_iff t e : e <> [] -> (suffix t = e <-> extension t e).
Proof.
  intros He. unfold suffix, extension. split.
  - destruct (last_dot (basename t)) as [[stem ext]|] eqn:L; [|congruence].
    destruct (forallb dot stem) eqn:A; [congruence|]. intros <-.
    apply last_dot_Some in L as (E & w & Hw & Hn).
    exists stem, w. split; [apply last_component_iff, E|]. repeat split; auto.
    assert (X : exists c, In c stem /\ dot c = false).
    { clear -A. induction stem as [|c stem IH]; [discriminate|]. cbn in A.
      destruct (dot c) eqn:D; [|exists c; cbn; auto].
      destruct (IH A) as (x & Hx & Dx). exists x. cbn. auto. }
    destruct X as (c & Hc & Dc). exists c. split; auto. intros ->.
    now rewrite (proj2 (dot_true _)) in Dc.
  - intros (stem & w & H & -> & Hn & c & Hc & Dc).
    apply last_component_iff in H. rewrite H.
    rewrite (proj2 (last_dot_Some _ stem ("."%char :: w))) by eauto.
    destruct (forallb dot stem) eqn:A; [|reflexivity].
    exfalso. rewrite forallb_forall in A. apply Dc, dot_true, A, Hc.
Qed.

Lemma suffix_b t e : e <> [] -> teqb (suffix t) e = true <-> extension t e.
Proof. intros He. rewrite teqb_true. now apply suffix_iff. Qed.

Lemma suffix_bf t e : e <> [] -> teqb (suffix t) e = false <-> ~ extension t e.
Proof.
  intros He. rewrite <- (suffix_b t e He). destruct (teqb _ _); split; congruence.
Qed.

(** * times *)
Lemma even_bounds t : (IZR (even t) <= t < IZR (even t) + 2)%R.
Proof.
  unfold even. destruct (rfloor_bounds (t / 2)) as (A & B).
  rewrite mult_IZR. lra.
Qed.

Lemma stale_iff t0 t : stale t0 t <-> (even t0 < even t)%Z.
Proof.
  unfold stale. destruct (even_bounds t0) as (A0 & B0). destruct (even_bounds t) as (A & B).
  assert (E0 : exists k, even t0 = (2 * k)%Z) by (unfold even; eauto).
  assert (E : exists k, even t = (2 * k)%Z) by (unfold even; eauto).
  destruct E0 as (k0 & K0), E as (k & K). rewrite K0, K in *. split.
  - intros (n & H1 & H2).
    assert (k0 < n)%Z.
    { apply Z.lt_nge. intros C. assert (IZR (2 * n) <= IZR (2 * k0))%R by (apply IZR_le; lia). lra. }
    assert (n <= k)%Z.
    { apply Z.le_ngt. intros C. assert (IZR (2 * (k + 1)) <= IZR (2 * n))%R by (apply IZR_le; lia).
      replace (2 * (k + 1))%Z with (2 * k + 2)%Z in * by lia. rewrite plus_IZR in *. lra. }
    lia.
  - intros H. exists k. split; [|exact A].
    assert (IZR (2 * k0 + 2) <= IZR (2 * k))%R by (apply IZR_le; lia).
    rewrite plus_IZR in *. lra.
Qed.

Lemma newer_false t t0 : newer t t0 = false <-> stale t0 t.
Proof. rewrite stale_iff. unfold newer. rewrite Z.leb_gt. reflexivity. Qed.
Lemma newer_true t t0 : newer t t0 = true <-> ~ stale t0 t.
Proof. rewrite <- newer_false. destruct (newer t t0); split; congruence. Qed.
