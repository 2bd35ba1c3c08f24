(** C65 and C67: the axes of OTIS grids, and the masks and depths at the edges of
    their cells. *)
From Coq Require Import Reals List Bool Arith ZArith Lra Lia.
From Verif Require Import PyBase RBase MathModel GeoModel ConvertProps GridModel InterpModel ExtractModel ExtractSpec.
Import ListNotations.
Open Scope R_scope.

(** ** Arrays *)
Lemma zip2_length {A B C} (f : A -> B -> C) a b : length (zip2 f a b) = Nat.min (length a) (length b).
Proof. unfold zip2. now rewrite map_length, combine_length. Qed.
Lemma zip2_nth {A B C} (f : A -> B -> C) a b da db dc i :
  (i < length a)%nat -> (i < length b)%nat -> nth i (zip2 f a b) dc = f (nth i a da) (nth i b db).
Proof.
  revert b i. induction a as [|x a IH]; intros [|y b] i H1 H2; cbn in *; try lia. destruct i; auto. apply IH; lia.
Qed.
Lemma rect_row {A} ny nx (m : list (list A)) j : rect ny nx m -> (j < ny)%nat -> length (nth j m []) = nx.
Proof. intros [L H] Hj. apply H, nth_In. lia. Qed.
Lemma rect_intro {A} ny nx (m : list (list A)) : length m = ny -> (forall j, (j < ny)%nat -> length (nth j m []) = nx) -> rect ny nx m.
Proof. intros L H. split; auto. intros r Hr. apply (In_nth _ _ []) in Hr as (k & Hk & <-). apply H. lia. Qed.
Lemma zip22_rect {A B C} (f : A -> B -> C) ny nx a b : rect ny nx a -> rect ny nx b -> rect ny nx (zip22 f a b).
Proof.
  intros Ha Hb. pose proof (proj1 Ha). pose proof (proj1 Hb). apply rect_intro; unfold zip22.
  - rewrite zip2_length. lia.
  - intros j Hj. rewrite (zip2_nth _ _ _ [] []) by lia. rewrite zip2_length, (rect_row _ _ _ _ Ha Hj), (rect_row _ _ _ _ Hb Hj). lia.
Qed.
Lemma zip22_entry {A B C} (f : A -> B -> C) ny nx a b da db dc j i : rect ny nx a -> rect ny nx b -> (j < ny)%nat -> (i < nx)%nat ->
  entry dc (zip22 f a b) j i = f (entry da a j i) (entry db b j i).
Proof.
  intros Ha Hb Hj Hi. pose proof (proj1 Ha). pose proof (proj1 Hb). unfold entry, zip22.
  rewrite (zip2_nth _ _ _ [] []) by lia. apply zip2_nth; [rewrite (rect_row _ _ _ _ Ha Hj) | rewrite (rect_row _ _ _ _ Hb Hj)]; lia.
Qed.
Lemma map_rect {A B} (f : A -> B) ny nx m : rect ny nx m -> rect ny nx (map (map f) m).
Proof.
  intros [L H]. split; [now rewrite map_length|]. intros r Hr. apply in_map_iff in Hr as (r' & <- & Hr'). rewrite map_length. auto.
Qed.
Lemma map_entry {A B} (f : A -> B) ny nx m d d' j i : rect ny nx m -> (j < ny)%nat -> (i < nx)%nat ->
  entry d' (map (map f) m) j i = f (entry d m j i).
Proof.
  intros Hm Hj Hi. unfold entry. change (@nil B) with (map f (@nil A)). rewrite map_nth.
  rewrite (nth_indep _ d' (f d)) by (rewrite map_length, (rect_row _ _ _ _ Hm Hj); lia). apply map_nth.
Qed.
Lemma mapM_all {A B} (f : A -> res B) (g : A -> B) l : (forall a, In a l -> f a = Ok (g a)) -> mapM f l = Ok (map g l).
Proof. induction l as [|a l IH]; intros H; cbn; auto. rewrite (H a) by now left. cbn. rewrite IH; auto. intros; apply H; now right. Qed.
Lemma mapM_none {A B} (f : A -> res B) l a e : In a l -> f a = Err e -> exists e', mapM f l = Err e'.
Proof.
  induction l as [|b l IH]; intros Hin He; [contradiction|]. cbn. destruct Hin as [->|Hin].
  - rewrite He. cbn. eauto.
  - destruct (f b); cbn; eauto. destruct (IH Hin He) as [e' ->]. cbn. eauto.
Qed.
Lemma nth_removelast {A} (l : list A) d i : (S i < length l)%nat -> nth i (removelast l) d = nth i l d.
Proof.
  revert i. induction l as [|a l IH]; intros i H; [cbn in H; lia|]. destruct l as [|b l]; [cbn in H; lia|].
  change (removelast (a :: b :: l)) with (a :: removelast (b :: l)). destruct i; auto. cbn [nth]. apply IH. cbn in *. lia.
Qed.
Lemma last_nth' {A} (l : list A) d : l <> [] -> last l d = nth (length l - 1) l d.
Proof.
  induction l as [|a l IH]; intros H; [congruence|]. destruct l as [|b l]; auto.
  change (last (a :: b :: l) d) with (last (b :: l) d). rewrite IH by congruence.
  cbn [length nth]. replace (S (S (length l)) - 1)%nat with (S (length l)) by lia. cbn [nth].
  replace (S (length l) - 1)%nat with (length l) by lia. reflexivity.
Qed.
Lemma removelast_length {A} (l : list A) : length (removelast l) = (length l - 1)%nat.
Proof.
  induction l as [|a l IH]; auto. destruct l as [|b l]; auto.
  change (removelast (a :: b :: l)) with (a :: removelast (b :: l)). cbn [length]. rewrite IH. cbn [length]. lia.
Qed.

Lemma nth_map_seq {A} (f : nat -> A) n i d : (i < n)%nat -> nth i (map f (seq 0 n)) d = f i.
Proof. intros H. rewrite (nth_indep _ d (f 0%nat)) by (rewrite map_length, seq_length; lia). now rewrite map_nth, seq_nth. Qed.
Definition west_of {A} (d : A) (around : bool) (row : list A) : list A := map (fun i => nth (west around (length row) i) row d) (seq 0 (length row)).
Lemma west_row_eq {A} (d : A) around row : row <> [] -> west_row around row = Ok (west_of d around row).
Proof.
  intros H. destruct row as [|r0 row]; [congruence|]. unfold west_row. f_equal. apply (nth_ext _ _ d d).
  - unfold west_of. rewrite map_length, seq_length. cbn [length]. rewrite removelast_length. cbn [length]. lia.
  - cbn [length]. rewrite removelast_length. cbn [length]. intros i Hi. unfold west_of.
    rewrite nth_map_seq by (cbn [length]; lia).
    destruct i as [|i].
    + change (nth 0 ((if around then last (r0 :: row) r0 else r0) :: removelast (r0 :: row)) d) with (if around then last (r0 :: row) r0 else r0).
      destruct around; [|reflexivity]. unfold west. rewrite last_nth' by congruence. apply nth_indep. cbn [length]. lia.
    + cbn [west]. apply (nth_removelast (r0 :: row)). cbn [length]. lia.
Qed.
Lemma west_rows {A} (d : A) around ny nx m : rect ny nx m -> (0 < nx)%nat ->
  exists w, mapM (west_row around) m = Ok w /\ rect ny nx w /\
    forall j i, (j < ny)%nat -> (i < nx)%nat -> entry d w j i = entry d m j (west around nx i).
Proof.
  intros Hm Hx. exists (map (west_of d around) m). repeat split.
  - apply mapM_all. intros r Hr. apply west_row_eq. intros ->. apply (proj2 Hm) in Hr. cbn in Hr. lia.
  - rewrite map_length. apply Hm.
  - intros r Hr. apply in_map_iff in Hr as (r' & <- & Hr'). unfold west_of. rewrite map_length, seq_length. now apply Hm.
  - intros j i Hj Hi. pose proof (proj1 Hm). unfold entry. rewrite (nth_indep _ [] (west_of d around [])) by (rewrite map_length; lia). rewrite map_nth.
    unfold west_of. rewrite (rect_row _ _ _ _ Hm Hj).
    now rewrite nth_map_seq.
Qed.
Lemma south_rows_eq {A} (d : A) ny nx (m : list (list A)) : rect ny nx m -> (0 < ny)%nat ->
  exists s, south_rows m = Ok s /\ rect ny nx s /\
    forall j i, (j < ny)%nat -> (i < nx)%nat -> entry d s j i = entry d m (south j) i.
Proof.
  intros Hm Hy. pose proof (proj1 Hm) as L. destruct m as [|r0 m]; [cbn in L; lia|]. exists (r0 :: removelast (r0 :: m)).
  assert (E : forall j, (j < ny)%nat -> nth j (r0 :: removelast (r0 :: m)) [] = nth (south j) (r0 :: m) []).
  { intros [|j] Hj; [reflexivity|]. apply (nth_removelast (r0 :: m)). rewrite L. exact Hj. }
  split; [reflexivity|]. split.
  - apply rect_intro; [cbn [length]; rewrite removelast_length; cbn [length] in *; lia|].
    intros j Hj. rewrite E by auto. apply (rect_row ny); auto. unfold south. lia.
  - intros j i Hj Hi. unfold entry. now rewrite E.
Qed.

(** ** C65: a node between two cells is open exactly when both cells are *)
Definition open_cell (h : R) : Z := if rlt 0 h then 1%Z else 0%Z.
Lemma open_cell_pos h : 0 < h -> open_cell h = 1%Z.
Proof. intros H. unfold open_cell. now rewrite rlt_t. Qed.
Lemma open_cell_neg h : h <= 0 -> open_cell h = 0%Z.
Proof. intros H. unfold open_cell. now rewrite rlt_f. Qed.

Lemma mask_nodes_entries hz ny nx around : rect ny nx hz -> (0 < ny)%nat -> (0 < nx)%nat ->
  exists mu mv, mask_nodes hz around = Ok (mu, mv) /\ rect ny nx mu /\ rect ny nx mv /\
    forall j i, (j < ny)%nat -> (i < nx)%nat ->
      entry 0%Z mu j i = Z.mul (open_cell (entry 0 hz j (west around nx i))) (open_cell (entry 0 hz j i)) /\
      entry 0%Z mv j i = Z.mul (open_cell (entry 0 hz (south j) i)) (open_cell (entry 0 hz j i)).
Proof.
  intros H Hy Hx. set (mz := map (map open_cell) hz). assert (Hm : rect ny nx mz) by now apply map_rect.
  destruct (west_rows 0%Z around ny nx mz Hm Hx) as (w & E1 & R1 & W). destruct (south_rows_eq 0%Z ny nx mz Hm Hy) as (s & E2 & R2 & Sq).
  exists (zip22 Z.mul w mz), (zip22 Z.mul s mz). change (mask_nodes hz around) with (interpolate_mask mz around).
  unfold interpolate_mask. rewrite E1, E2. cbn [bind].
  split; [reflexivity|]. split; [now apply zip22_rect|]. split; [now apply zip22_rect|].
  intros j i Hj Hi. assert (Hw : (west around nx i < nx)%nat) by (unfold west; destruct i; destruct around; lia).
  assert (Hs : (south j < ny)%nat) by (unfold south; lia). unfold mz in *.
  rewrite !(zip22_entry Z.mul ny nx _ _ 0%Z 0%Z) by auto. rewrite W, Sq by auto.
  rewrite !(map_entry open_cell ny nx hz 0) by auto. auto.
Qed.

Theorem C65_masks : forall hz ny nx around, rect ny nx hz -> (0 < ny)%nat -> (0 < nx)%nat ->
  exists mu mv, mask_nodes hz around = Ok (mu, mv) /\ rect ny nx mu /\ rect ny nx mv /\
    forall j i, (j < ny)%nat -> (i < nx)%nat ->
      (entry 0%Z mu j i = 1%Z /\ 0 < entry 0 hz j i /\ 0 < entry 0 hz j (west around nx i) \/
       entry 0%Z mu j i = 0%Z /\ (entry 0 hz j i <= 0 \/ entry 0 hz j (west around nx i) <= 0)) /\
      (entry 0%Z mv j i = 1%Z /\ 0 < entry 0 hz j i /\ 0 < entry 0 hz (south j) i \/
       entry 0%Z mv j i = 0%Z /\ (entry 0 hz j i <= 0 \/ entry 0 hz (south j) i <= 0)).
Proof.
  intros hz ny nx around H Hy Hx. destruct (mask_nodes_entries hz ny nx around H Hy Hx) as (mu & mv & E & R1 & R2 & V).
  exists mu, mv. split; [exact E|]. split; [exact R1|]. split; [exact R2|]. intros j i Hj Hi. destruct (V j i Hj Hi) as [-> ->].
  split.
  - destruct (Rlt_le_dec 0 (entry 0 hz j i)) as [A|A].
    + rewrite (open_cell_pos (entry 0 hz j i)) by auto. destruct (Rlt_le_dec 0 (entry 0 hz j (west around nx i))) as [B|B].
      * rewrite open_cell_pos by auto. left. auto.
      * rewrite open_cell_neg by auto. right. auto.
    + rewrite (open_cell_neg (entry 0 hz j i)) by auto. right. split; [lia|auto].
  - destruct (Rlt_le_dec 0 (entry 0 hz j i)) as [A|A].
    + rewrite (open_cell_pos (entry 0 hz j i)) by auto. destruct (Rlt_le_dec 0 (entry 0 hz (south j) i)) as [B|B].
      * rewrite open_cell_pos by auto. left. auto.
      * rewrite open_cell_neg by auto. right. auto.
    + rewrite (open_cell_neg (entry 0 hz j i)) by auto. right. split; [lia|auto].
Qed.
Print Assumptions C65_masks.

(** the depth of a node between two cells: the mean of the two if both are open,
    otherwise nothing *)
Lemma interpolate_zeta_entries hz ny nx around : rect ny nx hz -> (0 < ny)%nat -> (0 < nx)%nat ->
  exists hu hv, interpolate_zeta hz around = Ok (hu, hv) /\ rect ny nx hu /\ rect ny nx hv /\
    forall j i, (j < ny)%nat -> (i < nx)%nat ->
      entry 0 hu j i = 0.5 * IZR (Z.mul (open_cell (entry 0 hz j (west true nx i))) (open_cell (entry 0 hz j i))) * (entry 0 hz j (west around nx i) + entry 0 hz j i) /\
      entry 0 hv j i = 0.5 * IZR (Z.mul (open_cell (entry 0 hz (south j) i)) (open_cell (entry 0 hz j i))) * (entry 0 hz (south j) i + entry 0 hz j i).
Proof.
  intros H Hy Hx. destruct (mask_nodes_entries hz ny nx true H Hy Hx) as (mu & mv & E & R1 & R2 & V).
  destruct (west_rows 0 around ny nx hz H Hx) as (w & E1 & R3 & W). destruct (south_rows_eq 0 ny nx hz H Hy) as (s & E2 & R4 & Sq).
  eexists _, _. unfold interpolate_zeta. rewrite E, E1, E2. cbn [bind fst snd].
  split; [reflexivity|]. split; [now repeat apply zip22_rect|]. split; [now repeat apply zip22_rect|].
  intros j i Hj Hi. destruct (V j i Hj Hi) as [V1 V2].
  rewrite (zip22_entry _ ny nx mu _ 0%Z 0) by (auto; now apply zip22_rect). rewrite (zip22_entry _ ny nx mv _ 0%Z 0) by (auto; now apply zip22_rect).
  rewrite (zip22_entry Rplus ny nx w hz 0 0), (zip22_entry Rplus ny nx s hz 0 0) by auto.
  rewrite V1, V2, W, Sq by auto. auto.
Qed.

Theorem C65_depths_partial : forall hz ny nx around, rect ny nx hz -> (0 < ny)%nat -> (0 < nx)%nat ->
  exists hu hv, interpolate_zeta hz around = Ok (hu, hv) /\ rect ny nx hu /\ rect ny nx hv /\
    forall j i, (j < ny)%nat -> (i < nx)%nat ->
      (around = true \/ (0 < i)%nat ->
         entry 0 hu j i = if Rlt_dec 0 (entry 0 hz j i) then
                            if Rlt_dec 0 (entry 0 hz j (west around nx i)) then (entry 0 hz j i + entry 0 hz j (west around nx i)) / 2 else 0
                          else 0) /\
      entry 0 hv j i = if Rlt_dec 0 (entry 0 hz j i) then
                         if Rlt_dec 0 (entry 0 hz (south j) i) then (entry 0 hz j i + entry 0 hz (south j) i) / 2 else 0
                       else 0.
Proof.
  intros hz ny nx around H Hy Hx. destruct (interpolate_zeta_entries hz ny nx around H Hy Hx) as (hu & hv & E & R1 & R2 & V).
  exists hu, hv. split; [exact E|]. split; [exact R1|]. split; [exact R2|]. intros j i Hj Hi. destruct (V j i Hj Hi) as [-> ->].
  assert (K : forall a b, 0.5 * IZR (Z.mul (open_cell a) (open_cell b)) * (a + b) = if Rlt_dec 0 b then if Rlt_dec 0 a then (b + a) / 2 else 0 else 0).
  { intros a b. destruct (Rlt_dec 0 b); [rewrite (open_cell_pos b) by auto|rewrite (open_cell_neg b) by lra; rewrite Z.mul_0_r; lra].
    destruct (Rlt_dec 0 a); [rewrite (open_cell_pos a) by auto; change (IZR (1 * 1)) with 1; lra|rewrite (open_cell_neg a) by lra; change (IZR (0 * 1)) with 0; lra]. }
  split; [|apply K]. intros Hw. replace (west true nx i) with (west around nx i); [apply K|].
  destruct Hw as [->|Hw]; auto. destruct i; [lia|reflexivity].
Qed.
Print Assumptions C65_depths_partial.

(** Regional grids: the depth of the western edge is lost wherever the eastern end of
    the row is dry (the masks of the depths are always those of a global grid). *)
Theorem C65_western_edge_refuted : forall hz ny nx j, rect ny nx hz -> (0 < nx)%nat -> (j < ny)%nat ->
  0 < entry 0 hz j 0 ->
  exists mu mv hu hv, mask_nodes hz false = Ok (mu, mv) /\ interpolate_zeta hz false = Ok (hu, hv) /\
    entry 0%Z mu j 0 = 1%Z /\
    (entry 0 hz j (nx - 1) <= 0 -> entry 0 hu j 0 = 0) /\
    (0 < entry 0 hz j (nx - 1) -> entry 0 hu j 0 = entry 0 hz j 0).
Proof.
  intros hz ny nx j H Hx Hj Hh. assert (Hy : (0 < ny)%nat) by lia.
  destruct (mask_nodes_entries hz ny nx false H Hy Hx) as (mu & mv & E1 & _ & _ & V1).
  destruct (interpolate_zeta_entries hz ny nx false H Hy Hx) as (hu & hv & E2 & _ & _ & V2).
  exists mu, mv, hu, hv. destruct (V1 j 0%nat Hj Hx) as [M _]. destruct (V2 j 0%nat Hj Hx) as [U _]. cbn [west] in M, U.
  repeat split; auto.
  - rewrite M, open_cell_pos by auto. reflexivity.
  - intros L. rewrite U, (open_cell_neg (entry 0 hz j (nx - 1))), (open_cell_pos (entry 0 hz j 0)) by auto. change (IZR (0 * 1)) with 0. lra.
  - intros L. rewrite U, (open_cell_pos (entry 0 hz j (nx - 1))), (open_cell_pos (entry 0 hz j 0)) by auto. change (IZR (1 * 1)) with 1. lra.
Qed.
Print Assumptions C65_western_edge_refuted.

(** a concrete regional row: open in the west, dry in the east *)
Example C65_case : rect 1 3 [[30; 20; 0]] /\ 0 < entry 0 [[30; 20; 0]] 0 0 /\ entry 0 [[30; 20; 0]] 0 (3 - 1) <= 0.
Proof. unfold entry. cbn. repeat split; try lra. intros r [<-|[]]. reflexivity. Qed.
(** an empty grid is refused *)
Theorem C65_empty : forall around, mask_nodes [] around = Err ValueError /\ (forall m, mask_nodes ([] :: m) around = Err ValueError).
Proof. intros around. split; [reflexivity|]. intros m. reflexivity. Qed.
Print Assumptions C65_empty.

(** ** C67: axes *)
Lemma linspace_length a b n : length (linspace a b n) = n.
Proof. destruct n as [|[|n]]; auto. unfold linspace. now rewrite map_length, seq_length. Qed.
Lemma linspace_nth a b n i : (2 <= n)%nat -> (i < n)%nat -> nth i (linspace a b n) 0 = a + INR i * ((b - a) / (INR n - 1)).
Proof.
  intros Hn Hi. destruct n as [|[|n]]; try lia. unfold linspace. set (f := fun i => a + INR i * ((b - a) / INR (S n))).
  rewrite (nth_indep _ 0 (f 0%nat)) by (rewrite map_length, seq_length; lia). rewrite (map_nth f), seq_nth by lia.
  unfold f. cbn [Nat.add]. rewrite (S_INR (S n)). replace (INR (S n) + 1 - 1) with (INR (S n)) by ring. reflexivity.
Qed.
Theorem C67_centres : forall lim n, (0 < n)%nat -> fst lim < snd lim ->
  let d := (snd lim - fst lim) / INR n in
  evenly (fst lim + d / 2) d n (centres lim n) /\
  (forall i, (i < n)%nat -> fst lim < nth i (centres lim n) 0 < snd lim) /\
  (* the cells fill the limits *)
  nth 0 (centres lim n) 0 - d / 2 = fst lim /\ nth (n - 1) (centres lim n) 0 + d / 2 = snd lim.
Proof.
  intros lim n Hn Hl. cbv zeta. set (d := (snd lim - fst lim) / INR n).
  assert (Pn : 0 < INR n) by (apply lt_0_INR; lia).
  assert (Hd : 0 < d) by (apply Rdiv_lt_0_compat; lra).
  assert (Et : snd lim = fst lim + INR n * d) by (unfold d; field; lra).
  assert (E : forall i, (i < n)%nat -> nth i (centres lim n) 0 = fst lim + d / 2 + INR i * d).
  { intros i Hi. unfold centres. fold d. destruct (Nat.eq_dec n 1) as [->|N1].
    - assert (i = 0%nat) by lia. subst i. cbn. lra.
    - rewrite linspace_nth by lia. assert (INR n <> 1) by (change 1 with (INR 1); apply not_INR; lia).
      replace ((snd lim - d / 2 - (fst lim + d / 2)) / (INR n - 1)) with d by (rewrite Et; field; lra). reflexivity. }
  split; [|split; [|split]].
  - split; [auto|]. split; [apply linspace_length|]. auto.
  - intros i Hi. rewrite E by auto. pose proof (pos_INR i). assert (INR i + 1 <= INR n) by (rewrite <- S_INR; apply le_INR; lia).
    assert (0 <= INR i * d) by (apply Rmult_le_pos; lra). assert ((INR i + 1) * d <= INR n * d) by (apply Rmult_le_compat_r; lra).
    rewrite Et. lra.
  - rewrite E by lia. cbn. lra.
  - rewrite E by lia. rewrite minus_INR by lia. rewrite Et. cbn [INR]. lra.
Qed.
Print Assumptions C67_centres.

(** limits both west of Greenwich are moved by one turn; all others are kept *)
Theorem C67_limits : forall xlim dt,
  snd (grid_limits xlim dt) - fst (grid_limits xlim dt) = snd xlim - fst xlim /\
  same_longitude (fst (grid_limits xlim dt)) (fst xlim) /\
  (0 < dt -> -360 <= fst xlim < snd xlim -> snd xlim < 0 -> 0 <= fst (grid_limits xlim dt) < snd (grid_limits xlim dt) /\ snd (grid_limits xlim dt) < 360) /\
  (dt <= 0 \/ 0 <= fst xlim \/ 0 <= snd xlim -> grid_limits xlim dt = xlim).
Proof.
  intros [a b] dt. unfold grid_limits. cbn [fst snd].
  destruct (rlt a 0) eqn:A; [destruct (rlt b 0) eqn:B; [destruct (rlt 0 dt) eqn:C|]|]; cbn [andb fst snd];
    unfold rlt in *; try destruct (Rlt_dec a 0); try destruct (Rlt_dec b 0); try destruct (Rlt_dec 0 dt); try discriminate;
    (split; [lra|]); (split; [first [exists 1%Z; lra | exists 0%Z; lra]|]); (split; [lra|]); intros; try reflexivity; lra.
Qed.
Print Assumptions C67_limits.

(** an axis around the globe: one cell less than a turn between the first and last
    nodes, the test used to extend it *)
Theorem C67_global : forall lim n, (0 < n)%nat -> fst lim < snd lim ->
  let d := (snd lim - fst lim) / INR n in
  (nth (n - 1) (centres lim n) 0 - nth 0 (centres lim n) 0 = 360 - d <-> snd lim - fst lim = 360).
Proof.
  intros lim n Hn Hl. cbv zeta. destruct (C67_centres lim n Hn Hl) as (_ & _ & E0 & E1). cbv zeta in *. lra.
Qed.
Print Assumptions C67_global.
Example C67_case : otis_axes (-90, -30) (-80, 80) 12 2 4 = ([285; 315], [-60; -20; 20; 60]).
Proof.
  unfold otis_axes, grid_limits. cbn [fst snd]. rewrite !rlt_t by lra. cbn [andb]. unfold centres. cbn [fst snd linspace seq map INR].
  apply f_equal2; repeat (apply f_equal2; [lra|]); reflexivity.
Qed.
