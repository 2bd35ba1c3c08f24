(** Lemmas about the reduction of OTIS grids. *)
From Coq Require Import String Ascii Reals ZArith List Bool Lra Lia Sorted.
From Verif Require Import PyBase RBase GeoModel OtisModel OtisProofs OtisProps ExtractModel NodeProps OtisFilesModel ReduceModel ReduceSpec.
Import ListNotations.
Open Scope list_scope.

(** ** Axes *)
Open Scope R_scope.
Definition affine (u d : R) (i : nat) : R := u + INR i * d.
Lemma centres_affine a b n : (1 <= n)%nat ->
  centres (a, b) n = map (affine (a + (b - a) / INR n / 2) ((b - a) / INR n)) (seq 0 n).
Proof.
  intros Hn. unfold centres. cbn [fst snd]. set (d := (b - a) / INR n).
  destruct n as [|[|n]]; [lia| |].
  - cbn [linspace seq map]. unfold affine. cbn [INR]. f_equal. ring.
  - unfold linspace. apply map_ext_in. intros i Hi. unfold affine. f_equal. f_equal.
    assert (P : INR (S (S n)) <> 0) by (apply not_0_INR; lia).
    assert (Q : INR (S n) <> 0) by (apply not_0_INR; lia).
    assert (E : b - a = d * INR (S (S n))) by (unfold d; field; exact P).
    rewrite (S_INR (S n)) in E. apply Rmult_eq_reg_r with (INR (S n)); [|exact Q]. unfold Rdiv at 1.
    rewrite Rmult_assoc, Rinv_l, Rmult_1_r by exact Q. lra.
Qed.
Lemma filter_seq (p : nat -> bool) n : (forall i j k, (i < j < k)%nat -> p i = true -> p k = true -> p j = true) ->
  exists k m, filter p (seq 0 n) = seq k m /\ (k + m <= n)%nat.
Proof.
  intros C. induction n as [|n IH]. { exists 0%nat, 0%nat. split; [reflexivity|lia]. }
  destruct IH as (k & m & E & L). rewrite seq_S, filter_app, E. cbn [filter Nat.add]. destruct (p n) eqn:Pn.
  - destruct m as [|m].
    + exists n, 1%nat. split; [reflexivity|lia].
    + exists k, (S (S m)). assert (Kn : (k + S m = n)%nat).
      { destruct (Nat.eq_dec (k + S m) n) as [H|H]; [exact H|exfalso].
        assert (Pk : p k = true) by (assert (I : In k (filter p (seq 0 n))) by (rewrite E; apply in_seq; lia); now apply filter_In in I).
        assert (I : In (k + S m)%nat (filter p (seq 0 n))).
        { apply filter_In. split; [apply in_seq; lia|]. apply (C k _ n); auto; lia. }
        rewrite E in I. apply in_seq in I. lia. }
      split; [|lia]. rewrite (seq_S (S m)), Kn. reflexivity.
  - exists k, m. rewrite app_nil_r. split; [reflexivity|lia].
Qed.
Lemma filter_map_comm {A B} (f : A -> B) p l : filter p (map f l) = map f (filter (fun x => p (f x)) l).
Proof. induction l as [|x l IH]; cbn; auto. destruct (p (f x)); cbn; now rewrite IH. Qed.
Lemma in_box_true lo hi x : in_box lo hi x = true <-> lo <= x <= hi.
Proof. unfold in_box. destruct (Rle_dec lo x); [destruct (Rle_dec x hi)|]; split; intros; try lra; try discriminate; auto. Qed.
Lemma inside_in_box s x : inside s x = in_box (fst s) (snd s) x.
Proof. unfold inside, in_box, rle. destruct (Rle_dec (fst s) x); [destruct (Rle_dec x (snd s))|]; reflexivity. Qed.
Lemma affine_kept u d n lo hi : 0 < d ->
  exists k m, filter (in_box lo hi) (map (affine u d) (seq 0 n)) = map (affine u d) (seq k m) /\ (k + m <= n)%nat.
Proof.
  intros Hd. destruct (filter_seq (fun i => in_box lo hi (affine u d i)) n) as (k & m & E & L).
  - intros i j k [H1 H2] Hi Hk. apply in_box_true in Hi, Hk. apply in_box_true. unfold affine in *.
    apply lt_INR in H1, H2. split; nra.
  - exists k, m. split; [|exact L]. now rewrite filter_map_comm, E.
Qed.
Lemma affine_edges u d k m : (1 <= m)%nat ->
  centres (affine u d k - d / 2, affine u d (k + (m - 1)) + d / 2) m = map (affine u d) (seq k m).
Proof.
  intros Hm. rewrite centres_affine by exact Hm.
  assert (P : INR m <> 0) by (apply not_0_INR; lia).
  assert (E : (affine u d (k + (m - 1)) + d / 2 - (affine u d k - d / 2)) / INR m = d).
  { unfold affine. rewrite plus_INR, minus_INR by lia. cbn [INR]. field. exact P. }
  rewrite E. rewrite <- (Nat.add_0_r k) at 2.
  assert (G : forall m s, map (affine (affine u d k - d / 2 + d / 2) d) (seq s m) = map (affine u d) (seq (k + s) m)).
  { clear. induction m as [|m IH]; intros s; [reflexivity|]. cbn [seq map]. rewrite IH, Nat.add_succ_r. f_equal.
    unfold affine. rewrite plus_INR. ring. }
  apply G.
Qed.
Lemma affine_last u d k m x : (1 <= m)%nat -> last (map (affine u d) (seq k m)) x = affine u d (k + (m - 1)).
Proof.
  intros H. destruct m as [|m]; [lia|]. rewrite seq_S, map_app. cbn [map]. rewrite last_last. f_equal. lia.
Qed.
Lemma sorted_pitch u d n : (2 <= n)%nat -> StronglySorted Rlt (map (affine u d) (seq 0 n)) -> 0 < d.
Proof.
  intros H S. destruct n as [|[|n]]; try lia. cbn [seq map] in S. inversion S; subst. inversion H3; subst. unfold affine in *. cbn [INR] in *. lra.
Qed.
(** a part of an axis within limits is an axis of its own between the outer edges of its cells *)
Lemma axis_part lim n lo hi : (2 <= n)%nat -> StronglySorted Rlt (centres lim n) ->
  let X := filter (in_box lo hi) (centres lim n) in X <> [] ->
  let d := pitch (centres lim n) in
  0 < d /\ centres (hd 0 X - d / 2, last X 0 + d / 2) (List.length X) = X /\ hd 0 X - d / 2 < last X 0 + d / 2.
Proof.
  intros Hn So X HX d. subst X d. destruct lim as [a b].
  set (u := a + (b - a) / INR n / 2). set (e := (b - a) / INR n).
  assert (EA : centres (a, b) n = map (affine u e) (seq 0 n)) by (apply centres_affine; lia).
  rewrite EA in *. pose proof (sorted_pitch u e n Hn So) as Pe.
  assert (D : pitch (map (affine u e) (seq 0 n)) = e).
  { unfold pitch. destruct n as [|[|n]]; try lia. cbn [seq map nth]. unfold affine. cbn [INR]. ring. }
  rewrite D. destruct (affine_kept u e n lo hi Pe) as (k & m & E & L). rewrite E in *.
  destruct m as [|m]; [now elim HX|]. rewrite affine_last by lia. rewrite map_length, seq_length.
  change (hd 0 (map (affine u e) (seq k (S m)))) with (affine u e k).
  split; [exact Pe|]. split; [apply (affine_edges u e k (S m)); lia|]. unfold affine. rewrite plus_INR.
  pose proof (Rmult_le_pos _ _ (pos_INR (S m - 1)) (Rlt_le _ _ Pe)) as Q. rewrite Rmult_plus_distr_r. lra.
Qed.
Lemma centres_length lim n : List.length (centres lim n) = n.
Proof. unfold centres. apply linspace_length. Qed.
Lemma centres_shift a b n o : (1 <= n)%nat -> centres (a + o, b + o) n = map (fun x => x + o) (centres (a, b) n).
Proof.
  intros H. rewrite !centres_affine by exact H. rewrite map_map. apply map_ext. intros i. unfold affine. replace (b + o - (a + o)) with (b - a) by ring. ring.
Qed.

(** ** Bounds *)
Lemma least_le l : forall x, least x l <= x /\ Forall (fun y => least x l <= y) l /\ (least x l = x \/ In (least x l) l).
Proof.
  unfold least. induction l as [|y l IH]; intros x; cbn [fold_left]; [split; [lra|split; [constructor|now left]]|].
  destruct (IH (Rmin x y)) as (A & B & C). pose proof (Rmin_l x y). pose proof (Rmin_r x y). split; [lra|]. split; [constructor; [lra|exact B]|].
  destruct C as [C|C]; [|right; now right]. rewrite C. unfold Rmin. destruct (Rle_dec x y); [now left|right; now left].
Qed.
Lemma greatest_ge l : forall x, x <= greatest x l /\ Forall (fun y => y <= greatest x l) l /\ (greatest x l = x \/ In (greatest x l) l).
Proof.
  unfold greatest. induction l as [|y l IH]; intros x; cbn [fold_left]; [split; [lra|split; [constructor|now left]]|].
  destruct (IH (Rmax x y)) as (A & B & C). pose proof (Rmax_l x y). pose proof (Rmax_r x y). split; [lra|]. split; [constructor; [lra|exact B]|].
  destruct C as [C|C]; [|right; now right]. rewrite C. unfold Rmax. destruct (Rle_dec x y); [right; now left|now left].
Qed.
Lemma spread_bounds x l : bounds_of (x :: l) (fst (spread (x :: l))) (snd (spread (x :: l))).
Proof.
  cbn [spread fst snd]. destruct (least_le l x) as (A & B & C), (greatest_ge l x) as (A' & B' & C').
  split; [destruct C as [->|C]; [now left|now right]|]. split; [destruct C' as [->|C']; [now left|now right]|].
  constructor; [lra|]. rewrite Forall_forall in *. auto.
Qed.
Lemma bounds_unique l l' lo hi lo' hi' : (forall x, In x l <-> In x l') -> bounds_of l lo hi -> bounds_of l' lo' hi' -> lo = lo' /\ hi = hi'.
Proof.
  intros S (A & B & C) (A' & B' & C'). rewrite Forall_forall in C, C'.
  pose proof (C lo' (proj2 (S _) A')). pose proof (C hi' (proj2 (S _) B')). pose proof (C' lo (proj1 (S _) A)). pose proof (C' hi (proj1 (S _) B)). lra.
Qed.

(** ** Nodes *)
Open Scope nat_scope.
Lemma filter_prod {A B} (p : A -> bool) (q : B -> bool) l l' :
  filter (fun z => q (snd z) && p (fst z)) (list_prod l l') = list_prod (filter p l) (filter q l').
Proof.
  induction l as [|x l IH]; [reflexivity|]. cbn [list_prod]. rewrite filter_app, IH, filter_map_comm. cbn [filter snd fst]. destruct (p x).
  - cbn [list_prod]. f_equal. f_equal. apply filter_ext. intros y. apply andb_true_r.
  - assert (E : filter (fun y => q y && false) l' = []) by (clear; induction l'; cbn; [reflexivity|now rewrite andb_false_r]). now rewrite E.
Qed.
Definition places (lo hi : R) (axis : list R) : list nat := filter (fun i => in_box lo hi (nth i axis 0%R)) (seq 0 (List.length axis)).
Lemma nodes_prod sx sy xi yi : nodes_inside sx sy xi yi = list_prod (places (fst sy) (snd sy) yi) (places (fst sx) (snd sx) xi).
Proof.
  unfold nodes_inside, places. rewrite <- filter_prod. apply filter_ext. intros p. now rewrite !inside_in_box.
Qed.
Lemma gather_prod m J I : gather m (list_prod J I) = concat (map (fun j => map (fun i => nth i (nth j m []) 0%Z) I) J).
Proof.
  unfold gather. induction J as [|j J IH]; [reflexivity|]. cbn [list_prod map concat]. rewrite map_app, IH, map_map. reflexivity.
Qed.
Lemma places_kept {A} (d : A) lo hi : forall axis l, List.length l = List.length axis ->
  map (fun i => nth i l d) (places lo hi axis) = kept lo hi axis l.
Proof.
  unfold places, kept. induction axis as [|x axis IH]; intros [|y l] L; try discriminate L; [reflexivity|].
  cbn [List.length seq filter combine fst]. change (nth 0 (x :: axis) 0%R) with x. injection L as L.
  assert (E : map (fun i => nth i (y :: l) d) (filter (fun i => in_box lo hi (nth i (x :: axis) 0%R)) (seq 1 (List.length axis)))
    = map snd (filter (fun p => in_box lo hi (fst p)) (combine axis l))).
  { rewrite <- seq_shift, filter_map_comm, map_map. cbn [nth]. now apply IH. }
  destruct (in_box lo hi x); cbn [map snd]; [change (nth 0 (y :: l) d) with y; f_equal|]; exact E.
Qed.
Lemma kept_self lo hi axis : kept lo hi axis axis = filter (in_box lo hi) axis.
Proof. unfold kept. induction axis as [|x axis IH]; [reflexivity|]. cbn [combine filter fst]. destruct (in_box lo hi x); cbn; now rewrite IH. Qed.
Lemma kept_length {A} lo hi axis (l : list A) : List.length l = List.length axis -> List.length (kept lo hi axis l) = List.length (filter (in_box lo hi) axis).
Proof.
  unfold kept. revert l. induction axis as [|x axis IH]; intros [|y l] L; try discriminate L; [reflexivity|].
  cbn [combine filter fst]. injection L as L. destruct (in_box lo hi x); cbn; now rewrite (IH l L).
Qed.
Lemma kept_in {A} lo hi axis (l : list A) x : In x (kept lo hi axis l) -> In x l.
Proof.
  unfold kept. intros H. apply in_map_iff in H as ((a & b) & <- & H). apply filter_In in H as [H _]. now apply in_combine_r in H.
Qed.
Lemma last_prod {A B} (l : list A) (l' : list B) a b : l <> [] -> l' <> [] -> forall p, last (list_prod l l') p = (last l a, last l' b).
Proof.
  intros Hl Hl'. induction l as [|x l IH]; [now elim Hl|]. intros p. cbn [list_prod].
  assert (Lm : forall p, last (map (fun y => (x, y)) l') p = (x, last l' b)).
  { clear - Hl'. induction l' as [|y l' IH]; [now elim Hl'|]. intros p. destruct l' as [|z l']; [reflexivity|]. cbn [map]. change (last ((x, y) :: map (fun y => (x, y)) (z :: l')) p = (x, last (z :: l') b)).
    rewrite <- (IH ltac:(discriminate) p). reflexivity. }
  destruct l as [|x' l].
  - cbn [list_prod]. rewrite app_nil_r. apply Lm.
  - assert (N : list_prod (x' :: l) l' <> []) by (destruct l'; [now elim Hl'|discriminate]).
    change (last (x :: x' :: l) a) with (last (x' :: l) a). rewrite <- (IH ltac:(discriminate) p). destruct (exists_last N) as (t & z & E). rewrite E, app_assoc, !last_last. reflexivity.
Qed.
Lemma last_map {A B} (f : A -> B) l x y : l <> [] -> last (map f l) y = f (last l x).
Proof. intros N. destruct (exists_last N) as (t & z & ->). rewrite map_app. cbn [map]. now rewrite !last_last. Qed.

(** ** Arrays *)
Lemma map_nth_seq {A} (l : list A) d : map (fun i => nth i l d) (seq 0 (List.length l)) = l.
Proof. induction l as [|x l IH]; [reflexivity|]. cbn [List.length seq map nth]. f_equal. rewrite <- seq_shift, map_map. exact IH. Qed.
Lemma array_rows rows ny nx : List.length rows = ny -> Forall (fun r => List.length r = nx) rows -> rows_of (array rows ny nx) = rows.
Proof.
  intros <- F. unfold rows_of, array. cbn [nx2 ny2 at2].
  transitivity (map (fun m => nth m rows []) (seq 0 (List.length rows))); [|apply map_nth_seq].
  apply map_ext_in. intros m Hm. apply in_seq in Hm. rewrite Forall_forall in F.
  rewrite <- (F (nth m rows [])) by (apply nth_In; lia). apply map_nth_seq.
Qed.
Lemma array_patterns rows ny nx : Forall (Forall pattern) rows -> patterns (array rows ny nx).
Proof.
  intros F m i. cbn [array at2]. assert (Z0 : pattern 0) by (unfold pattern; lia). rewrite Forall_forall in F.
  destruct (nth_in_or_default i (nth m rows []) 0%Z) as [H|H]; [|rewrite H; exact Z0].
  destruct (nth_in_or_default m rows []) as [H'|H']; [|rewrite H' in H; destruct H]. specialize (F _ H'). rewrite Forall_forall in F. auto.
Qed.

(** ** mapM over a part *)
Lemma mapM_kept {A B} (f : A -> res B) lo hi : forall axis l l', mapM f l = Ok l' -> mapM f (kept lo hi axis l) = Ok (kept lo hi axis l').
Proof.
  unfold kept. intros axis l. revert axis. induction l as [|x l IH]; intros axis l' H; cbn [mapM] in H.
  - apply Ok_inj in H as <-. destruct axis; reflexivity.
  - destruct (f x) as [y|] eqn:E; [|discriminate H]. cbn [bind] in H. destruct (mapM f l) as [t|] eqn:El; [|discriminate H]. cbn [bind] in H. apply Ok_inj in H as <-.
    destruct axis as [|a axis]; [reflexivity|]. cbn [combine filter fst]. specialize (IH axis t eq_refl).
    destruct (in_box lo hi a); [|exact IH]. cbn [map snd mapM]. rewrite E. cbn [bind]. rewrite IH. reflexivity.
Qed.
Lemma mapM_map_kept {A B} (f : A -> res B) lo hi axis : forall l l', mapM (mapM f) l = Ok l' ->
  mapM (mapM f) (map (kept lo hi axis) l) = Ok (map (kept lo hi axis) l').
Proof.
  induction l as [|x l IH]; intros l' H; cbn [mapM] in H.
  - apply Ok_inj in H as <-. reflexivity.
  - destruct (mapM f x) as [y|] eqn:E; [|discriminate H]. cbn [bind] in H. destruct (mapM (mapM f) l) as [t|] eqn:El; [|discriminate H]. cbn [bind] in H. apply Ok_inj in H as <-.
    cbn [map mapM]. rewrite (mapM_kept f lo hi axis x y E). cbn [bind]. rewrite (IH t eq_refl). reflexivity.
Qed.
