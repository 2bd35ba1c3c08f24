(** Lemmas about the crs class. *)
From Coq Require Import String Ascii List Bool ZArith.
From Verif Require Import StrBase CrsModel CrsSpec.
Import ListNotations.
Open Scope string_scope.

Lemma upper_way a :
  (if Ascii.eqb (upper_ascii (upper_ascii a)) "F" then Forward
   else if Ascii.eqb (upper_ascii (upper_ascii a)) "B" then Inverse else NoDirection) = way a.
Proof. destruct a as [[] [] [] [] [] [] [] []]; reflexivity. Qed.

Section P.
  Context {D C P : Type} (lib : pyproj D C P).

  Lemma caught_refused {A} e : caught e = true <-> refused (Bad e : out A).
  Proof.
    unfold refused. split.
    - destruct e; cbn; intros H; try discriminate H; auto.
    - intros [H|H]; inversion H; reflexivity.
  Qed.
  Lemma refused_dec {A} (r : out A) : {refused r} + {~ refused r}.
  Proof.
    destruct r as [a|e]. { right. intros [H|H]; discriminate H. }
    destruct e; try (left; unfold refused; auto; fail); right; intros [H|H]; discriminate H.
  Qed.
  Lemma settles_fun (l : list (out C)) r r' : settles l r -> settles l r' -> r = r'.
  Proof.
    assert (G : forall (l : list (out C)) b1 (r1 : out C) l1 b2 r2 l2, l = (b1 ++ r1 :: l1)%list -> l = (b2 ++ r2 :: l2)%list ->
      Forall refused b1 -> Forall refused b2 -> ~ refused r1 -> ~ refused r2 -> r1 = r2).
    { clear. intros l b1. revert l. induction b1 as [|x b1 IH]; intros l r1 l1 [|y b2] r2 l2 E1 E2 F1 F2 N1 N2; cbn in *; subst l.
      - now inversion E2.
      - inversion E2; subst. inversion F2; subst. contradiction.
      - inversion E2; subst. inversion F1; subst. contradiction.
      - inversion E2; subst. inversion F1; subst. inversion F2; subst. eapply (IH _ _ _ b2); eauto. }
    intros [(b & la & E & F & N)|(F & E)] [(b' & la' & E' & F' & N')|(F' & E')].
    - eapply G; [exact E|exact E'|..]; assumption.
    - exfalso. rewrite E in F'. apply Forall_app in F' as [_ F']. inversion F'; contradiction.
    - exfalso. rewrite E' in F. apply Forall_app in F as [_ F]. inversion F; contradiction.
    - congruence.
  Qed.
  Lemma from_input_settles g : settles (attempts lib g) (from_input lib g).
  Proof.
    unfold from_input, attempts, to_int.
    set (b := match g with GInt z => epsg_code lib z
      | GStr s => match int_of lib s with Some z => epsg_code lib z | None => Bad ValueFault end | GDict _ => Bad TypeFault end).
    replace (match match g with GInt z => Good z | GStr s => match int_of lib s with Some z => Good z | None => Bad ValueFault end
      | GDict _ => Bad TypeFault end with Good z => epsg_code lib z | Bad e => Bad e end) with b
      by (subst b; destruct g as [z|s|d]; try reflexivity; destruct (int_of lib s); reflexivity).
    set (a := user_input lib g). set (c := crs_string lib g).
    assert (O : forall r k, (refused r -> otherwise r k = k tt) /\ (~ refused r -> otherwise (A := C) r k = r)).
    { intros [x|e] k; cbn; split; intros H; try reflexivity; try (destruct H as [H|H]; discriminate H).
      - apply (caught_refused (A := C)) in H. now rewrite H.
      - destruct (caught e) eqn:K; [|reflexivity]. apply (caught_refused (A := C)) in K. contradiction. }
    destruct (refused_dec a) as [Ha|Ha].
    - rewrite (proj1 (O a _) Ha). destruct (refused_dec b) as [Hb|Hb].
      + rewrite (proj1 (O b _) Hb). destruct (refused_dec c) as [Hc|Hc].
        * rewrite (proj1 (O c _) Hc). right. split; auto.
        * rewrite (proj2 (O c _) Hc). left. exists [a; b], []. auto.
      + rewrite (proj2 (O b _) Hb). left. exists [a], [c]. auto.
    - rewrite (proj2 (O a _) Ha). left. exists [], [b; c]. auto.
  Qed.
  Lemma from_input_iff g r : from_input lib g = r <-> settles (attempts lib g) r.
  Proof. split; [intros <-; apply from_input_settles|intros H; apply (settles_fun _ _ _ (from_input_settles g) H)]. Qed.
  Lemma resolves_iff g c : from_input lib g = Good c <-> resolves lib g c.
  Proof. apply from_input_iff. Qed.

  Lemma transform_keeps s (p : P) e d :
    crs (fst (transform lib s p e d)) = crs s /\ letter (fst (transform lib s p e d)) = letter s
    /\ name (fst (transform lib s p e d)) = name s.
  Proof.
    unfold transform. destruct (from_input lib e) as [src|x]; [|auto]. destruct (crs s) as [dst|] eqn:K; [|auto].
    destruct (pair_up lib src dst); cbn; auto.
  Qed.
  Lemma call_crs s k : 
    (forall c, adopts lib k c -> crs (after_call lib s k) = Some c) /\ ((forall c, ~ adopts lib k c) -> crs (after_call lib s k) = crs s).
  Proof.
    assert (G : forall s' g, (forall c, resolves lib g c -> crs (fst (get lib s' g)) = Some c)
      /\ ((forall c, ~ resolves lib g c) -> crs (fst (get lib s' g)) = crs s')).
    { intros s' g. unfold get. destruct (from_input lib g) as [c0|e0] eqn:E; split; intros; cbn; auto.
      - apply resolves_iff in H. congruence.
      - exfalso. apply (H c0). now apply resolves_iff.
      - apply resolves_iff in H. congruence. }
    destruct k as [p g bf e|g|p e d]; cbn [after_call].
    - assert (E : crs (fst (convert lib s p g bf e)) = crs (fst (get lib (Instance (Asked g) (crs s) (letter s) (transformer s)) g))).
      { unfold convert. unfold get. destruct (from_input lib g) as [c0|e0]; cbn; [|reflexivity].
        destruct bf as [|a t]; [reflexivity|]. now rewrite (proj1 (transform_keeps _ _ _ _)). }
      rewrite E. destruct (G (Instance (Asked g) (crs s) (letter s) (transformer s)) g) as [G1 G2]. cbn [crs] in G2. split.
      + intros c (g' & A & R). cbn in A. subst g'. now apply G1.
      + intros H. apply G2. intros c R. apply (H c). exists g. split; [reflexivity|exact R].
    - destruct (G s g) as [G1 G2]. split.
      + intros c (g' & A & R). cbn in A. subst g'. now apply G1.
      + intros H. apply G2. intros c R. apply (H c). exists g. split; [reflexivity|exact R].
    - split; [intros c (g' & A & _); destruct A|]. intros _. apply transform_keeps.
  Qed.
  Lemma call_way s k :
    (forall d, turns lib k d -> direction (after_call lib s k) = d) /\ ((forall d, ~ turns lib k d) -> direction (after_call lib s k) = direction s).
  Proof.
    assert (L : forall s1 s2 : instance (D := D) (C := C), letter s1 = letter s2 -> direction s1 = direction s2)
      by (intros s1 s2 H; unfold direction; now rewrite H).
    destruct k as [p g bf e|g|p e d]; cbn [after_call turns].
    - destruct bf as [|a t].
      + split; [intros d []|]. intros _. apply L. unfold convert, get. destruct (from_input lib g); reflexivity.
      + unfold convert, get. destruct (from_input lib g) as [c0|e0] eqn:E; cbn [fst].
        * split.
          -- intros d [_ ->]. rewrite <- upper_way.
             match goal with |- direction (fst (transform _ ?s' _ _ _)) = _ => rewrite (L _ s' (proj1 (proj2 (transform_keeps s' p e None)))) end.
             reflexivity.
          -- intros H. exfalso. apply (H (way a)). split; [|reflexivity]. exists c0. now apply resolves_iff.
        * split; [|reflexivity]. intros d [(c & R) _]. apply resolves_iff in R. congruence.
    - split; [intros d []|]. intros _. apply L. unfold get. destruct (from_input lib g); reflexivity.
    - split; [intros d' []|]. intros _. apply L. apply transform_keeps.
  Qed.
  Lemma after_snoc calls k s : after lib (calls ++ [k]) s = after_call lib (after lib calls s) k.
  Proof. unfold after. now rewrite fold_left_app. Qed.

  Lemma adopts_dec k : (exists c, adopts lib k c) \/ (forall c, ~ adopts lib k c).
  Proof.
    destruct k as [p g bf e|g|p e d]; [| |right; intros c (g' & [] & _)];
    (destruct (from_input lib g) as [c|x] eqn:E;
     [left; exists c, g; split; [reflexivity|now apply resolves_iff]
     |right; intros c (g' & A & R); cbn in A; subst g'; apply resolves_iff in R; congruence]).
  Qed.
  Lemma turns_dec k : (exists d, turns lib k d) \/ (forall d, ~ turns lib k d).
  Proof.
    destruct k as [p g bf e|g|p e d]; cbn; try (right; intros; tauto). destruct bf as [|a t]; [right; intros; tauto|].
    destruct (from_input lib g) as [c|x] eqn:E.
    - left. exists (way a). split; [|reflexivity]. exists c. now apply resolves_iff.
    - right. intros d [(c & R) _]. apply resolves_iff in R. congruence.
  Qed.
  Lemma latest_snoc {X} (does : call -> X -> Prop) calls k x :
    latest (D := D) (P := P) does (calls ++ [k])%list x <-> does k x \/ ((forall y, ~ does k y) /\ latest does calls x).
  Proof.
    split.
    - intros (b & k' & l & E & H & F). destruct (exists_last (l := k' :: l)) as (l' & z & El); [discriminate|].
      destruct l as [|y l0] using rev_ind.
      + apply app_inj_tail in E as [-> ->]. now left.
      + clear IHl0. right. rewrite app_comm_cons, app_assoc in E. apply app_inj_tail in E as [-> ->].
        apply Forall_app in F as [F1 F2]. inversion F2; subst. split; [assumption|]. exists b, k', l0. auto.
    - intros [H|[N (b & k' & l & -> & H & F)]].
      + exists calls, k, []. auto.
      + exists b, k', (l ++ [k])%list. split; [now rewrite <- app_assoc|]. split; [exact H|]. apply Forall_app. auto.
  Qed.
  Lemma crs_after calls s :
    (exists c, latest (adopts lib) calls c /\ crs (after lib calls s) = Some c)
    \/ (never (adopts lib) calls /\ crs (after lib calls s) = crs s).
  Proof.
    induction calls as [|k calls IH] using rev_ind. { right. split; [constructor|reflexivity]. }
    rewrite after_snoc. destruct (call_crs (after lib calls s) k) as [K1 K2].
    destruct (adopts_dec k) as [(c & A)|N].
    - left. exists c. split; [apply latest_snoc; now left|]. now apply K1.
    - rewrite (K2 N). destruct IH as [(c & L & E)|(V & E)].
      + left. exists c. split; [|exact E]. apply latest_snoc. now right.
      + right. split; [|exact E]. apply Forall_app. auto.
  Qed.
  Lemma way_after calls s :
    (exists d, latest (turns lib) calls d /\ direction (after lib calls s) = d)
    \/ (never (turns lib) calls /\ direction (after lib calls s) = direction s).
  Proof.
    induction calls as [|k calls IH] using rev_ind. { right. split; [constructor|reflexivity]. }
    rewrite after_snoc. destruct (call_way (after lib calls s) k) as [K1 K2].
    destruct (turns_dec k) as [(c & A)|N].
    - left. exists c. split; [apply latest_snoc; now left|]. now apply K1.
    - rewrite (K2 N). destruct IH as [(c & L & E)|(V & E)].
      + left. exists c. split; [|exact E]. apply latest_snoc. now right.
      + right. split; [|exact E]. apply Forall_app. auto.
  Qed.
  Lemma adopts_fun k c c' : adopts lib k c -> adopts lib k c' -> c = c'.
  Proof.
    intros (g & A & R) (g' & A' & R'). assert (g = g') as -> by (destruct k; cbn in *; try tauto; congruence).
    apply resolves_iff in R, R'. congruence.
  Qed.
  Lemma turns_fun k d d' : turns lib k d -> turns lib k d' -> d = d'.
  Proof. destruct k as [p g bf e|g|p e x]; cbn; try tauto. destruct bf; [tauto|]. intros [_ ->] [_ ->]. reflexivity. Qed.
  Lemma labels_fun k l l' : labels lib k l -> labels lib k l' -> l = l'.
  Proof.
    intros [(c & A & ->)|(N & H)] [(c' & A' & ->)|(N' & H')].
    - now rewrite (adopts_fun k c c' A A').
    - exfalso. eapply N'; eauto.
    - exfalso. eapply N; eauto.
    - destruct k; cbn in *; try tauto. congruence.
  Qed.
  Lemma labels_dec k : (exists l, labels lib k l) \/ (forall l, ~ labels lib k l).
  Proof.
    destruct (adopts_dec k) as [(c & A)|N].
    - left. exists (Named (title lib c)). left. eauto.
    - destruct k as [p g bf e|g|p e d].
      + left. exists (Asked g). right. auto.
      + right. intros l [(c & A & _)|(_ & [])]. eapply N; eauto.
      + right. intros l [(c & A & _)|(_ & [])]. eapply N; eauto.
  Qed.
  Lemma call_name s k :
    (forall l, labels lib k l -> name (after_call lib s k) = l) /\ ((forall l, ~ labels lib k l) -> name (after_call lib s k) = name s).
  Proof.
    assert (K : forall s' p e d, name (fst (transform lib s' p e d)) = name s') by (intros; apply transform_keeps).
    destruct (adopts_dec k) as [(c & A)|N].
    - split; [|intros H; exfalso; apply (H (Named (title lib c))); left; eauto].
      intros l [(c' & A' & ->)|(N & _)]; [|exfalso; eapply N; eauto].
      destruct A' as (g' & E & R). apply resolves_iff in R.
      destruct k as [p g bf e|g|p e d]; cbn in E; [subst g'|subst g'|destruct E]; cbn [after_call].
      + unfold convert, get. rewrite R. destruct bf; cbn; [reflexivity|]. now rewrite K.
      + unfold get. now rewrite R.
    - destruct k as [p g bf e|g|p e d]; cbn [after_call].
      + assert (E : exists x, from_input lib g = Bad x).
        { destruct (from_input lib g) as [c|x] eqn:E; [|eauto]. exfalso. apply (N c). exists g. split; [reflexivity|now apply resolves_iff]. }
        destruct E as (x & E). split; [|intros H; exfalso; apply (H (Asked g)); right; auto].
        intros l [(c & A & _)|(_ & ->)]; [exfalso; eapply N; eauto|]. unfold convert, get. rewrite E. reflexivity.
      + split; [intros l [(c & A & _)|(_ & [])]; exfalso; eapply N; eauto|]. intros _.
        unfold get. destruct (from_input lib g) as [c|x] eqn:E; [|reflexivity]. exfalso. apply (N c). exists g. split; [reflexivity|now apply resolves_iff].
      + split; [intros l [(c & A & _)|(_ & [])]; exfalso; eapply N; eauto|]. intros _. apply K.
  Qed.
  Lemma name_after calls s :
    (exists l, latest (labels lib) calls l /\ name (after lib calls s) = l)
    \/ (never (labels lib) calls /\ name (after lib calls s) = name s).
  Proof.
    induction calls as [|k calls IH] using rev_ind. { right. split; [constructor|reflexivity]. }
    rewrite after_snoc. destruct (call_name (after lib calls s) k) as [K1 K2].
    destruct (labels_dec k) as [(c & A)|N].
    - left. exists c. split; [apply latest_snoc; now left|]. now apply K1.
    - rewrite (K2 N). destruct IH as [(c & L & E)|(V & E)].
      + left. exists c. split; [|exact E]. apply latest_snoc. now right.
      + right. split; [|exact E]. apply Forall_app. auto.
  Qed.
  Lemma latest_fun {X} (does : call -> X -> Prop) (F : forall k x y, does k x -> does k y -> x = y) calls x y :
    latest (D := D) (P := P) does calls x -> latest does calls y -> x = y.
  Proof.
    induction calls as [|k calls IH] using rev_ind.
    - intros (b & k & l & E & _). destruct b; discriminate E.
    - intros L1 L2. apply latest_snoc in L1, L2. destruct L1 as [H1|[N1 L1]], L2 as [H2|[N2 L2]]; eauto.
      + exfalso. eapply N2; eauto.
      + exfalso. eapply N1; eauto.
  Qed.
  Lemma latest_never {X} (does : call -> X -> Prop) calls x : latest (D := D) (P := P) does calls x -> never does calls -> False.
  Proof. intros (b & k & l & -> & H & _) V. apply Forall_app in V as [_ V]. inversion V; subst. eapply H2; eauto. Qed.
End P.
