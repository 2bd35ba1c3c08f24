(** C66: the combination of global and local ATLAS solutions. *)
From Coq Require Import Reals List Bool Arith ZArith Lra Lia.
From Verif Require Import PyBase RBase MathModel GeoModel ConvertProps GridModel InterpModel InterpProps ExtractModel ExtractSpec NodeProps ExtractProofs ExtractProps SplineProps ReadProps ReturnProps MergeModel MergeSpec.
Import ListNotations.
Open Scope R_scope.

(** ** Assignment of single cells *)
Definition wrap_index (z : Z) (n : nat) : nat := Z.to_nat (if Z.ltb z 0 then z + Z.of_nat n else z).
Lemma set_nth_ok {A} (l : list A) z f x y d : (- Z.of_nat (length l) <= z < Z.of_nat (length l))%Z ->
  nth (wrap_index z (length l)) l d = x -> f x = Ok y ->
  exists l', set_nth l z f = Ok l' /\ length l' = length l /\ (forall r, In r l' -> In r l \/ r = y) /\
    forall k d', (k < length l)%nat -> nth k l' d' = if Nat.eqb k (wrap_index z (length l)) then y else nth k l d'.
Proof.
  intros Hz Hx Hf. unfold set_nth. rewrite (proj2 (Z.leb_le _ _)), (proj2 (Z.ltb_lt _ _)) by lia. cbn [andb].
  change (Z.to_nat (if (z <? 0)%Z then z + Z.of_nat (length l) else z)%Z) with (wrap_index z (length l)). set (k := wrap_index z (length l)) in *.
  assert (Hk : (k < length l)%nat) by (unfold k, wrap_index; destruct (Z.ltb_spec z 0); lia).
  rewrite (get1_nth l d) by auto. cbn [bind]. rewrite Hx, Hf. cbn [bind]. eexists. split; [reflexivity|].
  assert (L1 : length (firstn k l) = k) by (rewrite firstn_length; lia).
  split; [rewrite app_length, L1; cbn [length]; rewrite skipn_length; lia|]. split.
  - intros r Hr. apply in_app_iff in Hr as [Hr|[Hr|Hr]]; [left|right|left]; auto.
    + rewrite <- (firstn_skipn k l). apply in_app_iff. auto.
    + rewrite <- (firstn_skipn (S k) l). apply in_app_iff. auto.
  - intros m d' Hm. destruct (Nat.eqb_spec m k) as [->|N].
    + rewrite app_nth2 by lia. rewrite L1, Nat.sub_diag. reflexivity.
    + destruct (Nat.lt_ge_cases m k) as [C|C].
      * rewrite app_nth1 by lia. rewrite <- (firstn_skipn k l) at 2. now rewrite app_nth1 by lia.
      * rewrite app_nth2 by lia. rewrite L1. destruct (m - k)%nat as [|n] eqn:E; [lia|]. cbn [nth]. rewrite <- (firstn_skipn (S k) l) at 2.
        assert (L2 : length (firstn (S k) l) = S k) by (rewrite firstn_length; lia). rewrite app_nth2 by lia. rewrite L2. f_equal. lia.
Qed.
Lemma assign_ok {A} ny nx (m : list (list A)) j i v : rect ny nx m -> (- Z.of_nat ny <= j < Z.of_nat ny)%Z -> (- Z.of_nat nx <= i < Z.of_nat nx)%Z ->
  exists m', assign m j i v = Ok m' /\ rect ny nx m' /\
    forall b a d, (b < ny)%nat -> (a < nx)%nat -> entry d m' b a = if Nat.eqb b (wrap_index j ny) && Nat.eqb a (wrap_index i nx) then v else entry d m b a.
Proof.
  intros R Hj Hi. unfold assign.
  assert (Hk : (wrap_index j ny < ny)%nat) by (unfold wrap_index; destruct (Z.ltb_spec j 0); lia).
  set (row := nth (wrap_index j ny) m []). assert (Lr : length row = nx) by (apply (rect_row ny nx); auto).
  assert (Hi' : (wrap_index i nx < nx)%nat) by (unfold wrap_index; destruct (Z.ltb_spec i 0); lia).
  destruct nx as [|nx']; [lia|]. set (nx := S nx') in *.
  destruct row as [|d0 row'] eqn:Er; [discriminate|].
  destruct (set_nth_ok (d0 :: row') i (fun _ => Ok v) _ v d0 ltac:(rewrite Lr; lia) eq_refl eq_refl) as (row2 & E2 & L2 & _ & N2).
  destruct R as [Lm Rm].
  destruct (set_nth_ok m j (fun row => set_nth row i (fun _ => Ok v)) (d0 :: row') row2 [] ltac:(rewrite Lm; lia)) as (m' & E & L & I & N).
  { now rewrite Lm. } { exact E2. }
  exists m'. split; [exact E|]. split.
  - split; [congruence|]. intros r Hr. destruct (I r Hr) as [K|K]; [now apply Rm|]. subst r. congruence.
  - intros b a d Hb Ha. unfold entry. rewrite N by lia. rewrite Lm. destruct (Nat.eqb_spec b (wrap_index j ny)) as [->|]; cbn [andb]; [|reflexivity].
    rewrite N2 by (rewrite Lr; auto). rewrite Lr. destruct (Nat.eqb a _); auto. fold row in Er. now rewrite <- Er.
Qed.
(** the last write of a cell *)
Definition hits {A} ny nx (w : Z * Z * A) (b a : nat) : bool := Nat.eqb b (wrap_index (fst (fst w)) ny) && Nat.eqb a (wrap_index (snd (fst w)) nx).
Lemma assign_all_ok {A} ny nx (l : list (Z * Z * A)) : forall m, rect ny nx m ->
  (forall j i v, In (j, i, v) l -> (- Z.of_nat ny <= j < Z.of_nat ny)%Z /\ (- Z.of_nat nx <= i < Z.of_nat nx)%Z) ->
  exists m', assign_all m l = Ok m' /\ rect ny nx m' /\
    (forall b a d, (b < ny)%nat -> (a < nx)%nat -> (forall w, In w l -> hits ny nx w b a = false) -> entry d m' b a = entry d m b a) /\
    (forall b a d, (b < ny)%nat -> (a < nx)%nat -> (exists w, In w l /\ hits ny nx w b a = true) -> exists w, In w l /\ hits ny nx w b a = true /\ entry d m' b a = snd w).
Proof.
  induction l as [|[[j i] v] l IH]; intros m R H; cbn [assign_all].
  - exists m. split; auto. split; auto. split; auto. intros b a d _ _ (w & [] & _).
  - destruct (H j i v (or_introl eq_refl)) as [Hj Hi]. destruct (assign_ok ny nx m j i v R Hj Hi) as (m1 & E1 & R1 & N1). rewrite E1. cbn [bind].
    destruct (IH m1 R1) as (m' & E & R' & U & W); [intros; apply (H j0 i0 v0); now right|]. exists m'. split; auto. split; auto. split.
    + intros b a d Hb Ha K. rewrite U, N1; auto; [|intros w Hw; apply K; now right]. specialize (K _ (or_introl eq_refl)). unfold hits in K. cbn [fst snd] in K. now rewrite K.
    + intros b a d Hb Ha (w & Hw & K).
      destruct (existsb (fun w => hits ny nx w b a) l) eqn:Ex.
      * apply existsb_exists in Ex as (w' & Hw' & K'). destruct (W b a d Hb Ha) as (w2 & I2 & K2 & E2); [eauto|]. exists w2. split; [now right|auto].
      * assert (Nn : forall w, In w l -> hits ny nx w b a = false).
        { intros w' Hw'. destruct (hits ny nx w' b a) eqn:Eh; auto. exfalso. assert (existsb (fun w => hits ny nx w b a) l = true) by (apply existsb_exists; eauto). congruence. }
        destruct Hw as [<-|Hw]; [|rewrite Nn in K by auto; discriminate]. exists (j, i, v). split; [now left|]. split; auto.
        rewrite U, N1; auto. unfold hits in K. cbn [fst snd] in K |- *. now rewrite K.
Qed.

(** ** Where the cells of a local solution go *)
Lemma d30_pos : 0 < d30. Proof. unfold d30. lra. Qed.
Lemma spacings_floor x a : spacings x a -> rfloor (x / d30) = a.
Proof. intros [H1 H2]. apply rfloor_unique. unfold arc2, d30 in *. split; lra. Qed.
Lemma half_floor m : rfloor ((IZR m * d30 - d30 / 2) / d30) = (m - 1)%Z.
Proof. apply rfloor_unique. rewrite minus_IZR. unfold d30. split; lra. Qed.
Lemma column_eq {V} (l : local V) k a : spacings (llon l) a ->
  column_of l k = ((if Z.leb (a + Z.of_nat k) 0 then a + Z.of_nat k + 10800 else a + Z.of_nat k) - 1)%Z.
Proof.
  intros H. unfold column_of, local_start. rewrite (spacings_floor _ _ H).
  replace (IZR a * d30 + INR k * d30) with (IZR (a + Z.of_nat k) * d30) by (rewrite plus_IZR, <- INR_IZR_INZ; ring).
  set (m := (a + Z.of_nat k)%Z). pose proof d30_pos. destruct (Z.leb_spec m 0) as [C|C].
  - apply IZR_le in C. rewrite rle_t by nra. replace (IZR m * d30 + 360) with (IZR (m + 10800) * d30) by (rewrite plus_IZR; unfold d30; lra). apply half_floor.
  - apply IZR_lt in C. rewrite rle_f by nra. apply half_floor.
Qed.
Lemma row_eq {V} (l : local V) r b : spacings (llat l) b -> row_of l r = (b + Z.of_nat r + 2700 - 1)%Z.
Proof.
  intros H. unfold row_of, local_start. rewrite (spacings_floor _ _ H).
  replace (IZR b * d30 + INR r * d30 - (-90 + d30 / 2)) with (IZR (b + Z.of_nat r + 2700) * d30 - d30 / 2) by (rewrite !plus_IZR, <- INR_IZR_INZ; unfold d30; lra).
  apply half_floor.
Qed.
Lemma number_cells_in {A} (m : list (list A)) r k c : In (r, k, c) (number_cells m) <-> exists row, nth_error m r = Some row /\ nth_error row k = Some c.
Proof.
  assert (G : forall B (l : list B) s n x, In (n, x) (combine (seq s (length l)) l) <-> (s <= n)%nat /\ nth_error l (n - s) = Some x).
  { intros B l. induction l as [|y l IH]; intros s n x; cbn [length seq combine In].
    - split; [tauto|]. intros [_ H]. destruct (n - s)%nat; discriminate.
    - rewrite IH. split.
      + intros [H|[H1 H2]]; [injection H as -> ->; rewrite Nat.sub_diag; auto|]. split; [lia|]. replace (n - s)%nat with (S (n - S s)) by lia. exact H2.
      + intros [H1 H2]. destruct (Nat.eq_dec s n) as [->|N]; [left; rewrite Nat.sub_diag in H2; cbn in H2; congruence|]. right. split; [lia|].
        replace (n - s)%nat with (S (n - S s)) in H2 by lia. exact H2. }
  unfold number_cells. rewrite in_concat. split.
  - intros (l & Hl & Hc). apply in_map_iff in Hl as ([r' row] & <- & Hr). cbn [fst snd] in Hc. apply in_map_iff in Hc as ([k' c'] & E & Hk). cbn [fst snd] in E. injection E as -> -> ->.
    apply G in Hr as [_ Hr]. apply G in Hk as [_ Hk]. rewrite Nat.sub_0_r in Hr, Hk. eauto.
  - intros (row & Hr & Hk). exists (map (fun q => (r, fst q, snd q)) (combine (seq 0 (length row)) row)). split.
    + apply in_map_iff. exists (r, row). split; [reflexivity|]. apply G. rewrite Nat.sub_0_r. split; [lia|auto].
    + apply in_map_iff. exists (k, c). split; [reflexivity|]. apply G. rewrite Nat.sub_0_r. split; [lia|auto].
Qed.
Lemma nth_error_entry {A} ny nx (m : list (list A)) r k c d : rect ny nx m ->
  ((exists row, nth_error m r = Some row /\ nth_error row k = Some c) <-> (r < ny)%nat /\ (k < nx)%nat /\ entry d m r k = c).
Proof.
  intros [L Rm]. unfold entry. split.
  - intros (row & H1 & H2). assert (length row = nx) by (apply Rm; eapply nth_error_In; eauto).
    assert (r < length m)%nat by (apply nth_error_Some; congruence). assert (k < length row)%nat by (apply nth_error_Some; congruence).
    split; [lia|]. split; [lia|]. rewrite (nth_error_nth _ _ _ H1). now apply nth_error_nth.
  - intros (H1 & H2 & <-). exists (nth r m []). assert (length (nth r m []) = nx) by (apply Rm, nth_In; lia). split; apply nth_error_nth'; lia.
Qed.
Definition local_rect {V} (l : local V) ny nx := rect ny nx (lvar l) /\ on_globe (llon l) (llat l) ny nx.
(** a valid cell of the local solution lies at (j, i) *)
Definition has {V} (l : local V) (j i : nat) (v : option V) : Prop :=
  exists ny nx r k, rect ny nx (lvar l) /\ (r < ny)%nat /\ (k < nx)%nat /\ entry (None, true) (lvar l) r k = (v, false) /\ lies (llon l) (llat l) r k j i.

Lemma spacings_unique x a a' : spacings x a -> spacings x a' -> a = a'.
Proof. intros H H'. now rewrite <- (spacings_floor _ _ H), <- (spacings_floor _ _ H'). Qed.
(** the writes of a local solution *)
Lemma writes_range {V A} (f : gcell V -> A) (l : local V) ny nx : local_rect l ny nx ->
  forall j i v, In (j, i, v) (map (fun c => (row_of l (fst (fst c)), column_of l (snd (fst c)), f (snd c))) (valid_cells l)) ->
  exists r k c, (r < ny)%nat /\ (k < nx)%nat /\ entry (None, true) (lvar l) r k = (c, false) /\ v = f (c, false) /\
    (0 <= j < Z.of_nat rows)%Z /\ (0 <= i < Z.of_nat cols)%Z /\ lies (llon l) (llat l) r k (Z.to_nat j) (Z.to_nat i).
Proof.
  intros [Rl (a & b & Ha & Hb & Hn & A1 & A2 & B1 & B2)] j i v H. apply in_map_iff in H as ([[r k] [c m]] & E & H). cbn [fst snd] in E.
  unfold valid_cells in H. apply filter_In in H as [H Hm]. cbn [snd] in Hm. destruct m; [discriminate|].
  apply number_cells_in, (nth_error_entry ny nx _ r k _ (None, true) Rl) in H as (H1 & H2 & H3).
  rewrite (row_eq l r b Hb), (column_eq l k a Ha) in E. injection E as <- <- <-. exists r, k, c. split; auto. split; auto. split; auto. split; auto.
  change (Z.of_nat rows) with 5400%Z. change (Z.of_nat cols) with 10800%Z. split; [lia|]. split; [destruct (Z.leb_spec (a + Z.of_nat k) 0); lia|].
  exists a, b. destruct (Z.leb_spec (a + Z.of_nat k) 0); [exists 1%Z|exists 0%Z]; (split; [exact Ha|]; split; [exact Hb|]; lia).
Qed.
Lemma writes_all {V A} (f : gcell V -> A) (l : local V) ny nx r k c j i : local_rect l ny nx -> (r < ny)%nat -> (k < nx)%nat -> entry (None, true) (lvar l) r k = (c, false) ->
  lies (llon l) (llat l) r k j i -> (j < rows)%nat -> (i < cols)%nat ->
  In (Z.of_nat j, Z.of_nat i, f (c, false)) (map (fun c => (row_of l (fst (fst c)), column_of l (snd (fst c)), f (snd c))) (valid_cells l)).
Proof.
  intros [Rl (a & b & Ha & Hb & Hn & A1 & A2 & B1 & B2)] Hr Hk Hc (a' & b' & cc & Ha' & Hb' & Ei & Ej) Hj Hi.
  rewrite (spacings_unique _ _ _ Ha' Ha) in Ei. rewrite (spacings_unique _ _ _ Hb' Hb) in Ej. clear a' b' Ha' Hb'.
  apply in_map_iff. exists (r, k, (c, false)). cbn [fst snd]. split.
  - rewrite (row_eq l r b Hb), (column_eq l k a Ha). assert (Z.of_nat cols = 10800%Z) by reflexivity. f_equal. f_equal; [lia|].
    destruct (Z.leb_spec (a + Z.of_nat k) 0); [assert (cc = 1%Z) by lia|assert (cc = 0%Z) by lia]; lia.
  - unfold valid_cells. apply filter_In. split; [|reflexivity]. apply number_cells_in, (nth_error_entry ny nx _ r k _ (None, true) Rl). auto.
Qed.
Lemma lies_unique lon lat ny nx r k r' k' j i : on_globe lon lat ny nx -> (r < ny)%nat -> (k < nx)%nat -> (r' < ny)%nat -> (k' < nx)%nat ->
  lies lon lat r k j i -> lies lon lat r' k' j i -> r = r' /\ k = k'.
Proof.
  intros (a & b & Ha & Hb & Hn & _) Hr Hk Hr' Hk' (a1 & b1 & c1 & Ha1 & Hb1 & Ei & Ej) (a2 & b2 & c2 & Ha2 & Hb2 & Ei' & Ej').
  rewrite (spacings_unique _ _ _ Ha1 Ha) in Ei. rewrite (spacings_unique _ _ _ Hb1 Hb) in Ej. rewrite (spacings_unique _ _ _ Ha2 Ha) in Ei'. rewrite (spacings_unique _ _ _ Hb2 Hb) in Ej'.
  split; [lia|]. assert (c1 = c2) by lia. lia.
Qed.
(** filling with local solutions: each cell has the value of the last that is valid there *)
Lemma fill_ok {V A} (f : gcell V -> A) (writes : local V -> list (Z * Z * A)) (ls : list (local V)) :
  (forall l, writes l = map (fun c => (row_of l (fst (fst c)), column_of l (snd (fst c)), f (snd c))) (valid_cells l)) ->
  (forall l, In l ls -> exists ny nx, local_rect l ny nx) -> forall m, rect rows cols m ->
  exists m', fill writes m ls = Ok m' /\ rect rows cols m' /\
    (forall j i d, (j < rows)%nat -> (i < cols)%nat -> (forall l v, In l ls -> ~ has l j i v) -> entry d m' j i = entry d m j i) /\
    (forall j i d n l v, (j < rows)%nat -> (i < cols)%nat -> nth_error ls n = Some l -> has l j i v ->
       (forall n' l' v', (n < n')%nat -> nth_error ls n' = Some l' -> ~ has l' j i v') -> entry d m' j i = f (v, false)).
Proof.
  intros Hw. induction ls as [|l ls IH]; intros Hl m Rm; cbn [fill].
  - exists m. split; auto. split; auto. split; auto. intros j i d [|n] l v _ _ K; discriminate.
  - destruct (Hl l (or_introl eq_refl)) as (ny & nx & Lr).
    assert (Wr : forall j i v, In (j, i, v) (writes l) -> exists r k c, (r < ny)%nat /\ (k < nx)%nat /\ entry (None, true) (lvar l) r k = (c, false) /\ v = f (c, false) /\
      (0 <= j < Z.of_nat rows)%Z /\ (0 <= i < Z.of_nat cols)%Z /\ lies (llon l) (llat l) r k (Z.to_nat j) (Z.to_nat i)) by (rewrite Hw; now apply writes_range).
    destruct (assign_all_ok rows cols (writes l) m Rm) as (m1 & E1 & R1 & U1 & W1).
    { intros j i v Hin. destruct (Wr j i v Hin) as (_ & _ & _ & _ & _ & _ & _ & J & I & _). lia. }
    assert (Hit : forall j i v b a, In (j, i, v) (writes l) -> hits rows cols (j, i, v) b a = true -> Z.to_nat j = b /\ Z.to_nat i = a).
    { intros j i v b a Hin Hh. destruct (Wr j i v Hin) as (_ & _ & _ & _ & _ & _ & _ & J & I & _). unfold hits, wrap_index in Hh. cbn [fst snd] in Hh.
      destruct (Z.ltb_spec j 0); [lia|]. destruct (Z.ltb_spec i 0); [lia|]. apply andb_true_iff in Hh as [H1 H2]. apply Nat.eqb_eq in H1. apply Nat.eqb_eq in H2. auto. }
    rewrite E1. cbn [bind]. destruct (IH (fun l' H => Hl l' (or_intror H)) m1 R1) as (m' & E & Rm' & U & W). exists m'. split; auto. split; auto. split.
    + intros j i d Hj Hi K. rewrite U; auto; [|intros l' v H'; apply K; now right]. apply U1; auto. intros [[j' i'] v'] Hin. destruct (hits _ _ _ _ _) eqn:Eh; auto. exfalso.
      destruct (Hit _ _ _ _ _ Hin Eh) as [<- <-]. destruct (Wr _ _ _ Hin) as (r & k & c & P1 & P2 & P3 & _ & _ & _ & P4).
      apply (K l c (or_introl eq_refl)). exists ny, nx, r, k. destruct Lr. auto.
    + intros j i d [|n] l' v Hj Hi Hn Hh Hlast; cbn [nth_error] in Hn.
      * injection Hn as <-. rewrite U; auto.
        2:{ intros l' v' H' K. apply In_nth_error in H' as (n' & H'). apply (Hlast (S n') l' v'); auto. lia. }
        destruct Hh as (ny' & nx' & r & k & R' & Hr & Hk & Hc & Hli). destruct Lr as [R2 OG]. assert (ny' = ny) as -> by (destruct R', R2; lia).
        assert (nx' = nx) as -> by (destruct R' as [L3 R3], R2 as [L4 R4]; rewrite <- (R3 (nth 0 (lvar l) [])), <- (R4 (nth 0 (lvar l) [])) by (apply nth_In; lia); reflexivity).
        destruct (W1 j i d Hj Hi) as ([[j2 i2] v2] & H2 & K2 & E2).
        { exists (Z.of_nat j, Z.of_nat i, f (v, false)). split; [rewrite Hw; eapply (writes_all f l ny nx r k v); eauto; split; auto|]. unfold hits, wrap_index. cbn [fst snd].
          destruct (Z.ltb_spec (Z.of_nat j) 0); [lia|]. destruct (Z.ltb_spec (Z.of_nat i) 0); [lia|]. rewrite !Nat2Z.id, !Nat.eqb_refl. reflexivity. }
        destruct (Hit _ _ _ _ _ H2 K2) as [Q1 Q2]. destruct (Wr _ _ _ H2) as (r2 & k2 & c2 & P1 & P2 & P3 & P4 & _ & _ & P5). rewrite Q1, Q2 in P5.
        destruct (lies_unique _ _ _ _ _ _ _ _ _ _ OG Hr Hk P1 P2 Hli P5) as [<- <-]. rewrite E2. cbn [snd]. rewrite P4. congruence.
      * apply (W j i d n l' v); auto. intros n' l2 v2 Hlt Hn'. apply (Hlast (S n')); auto. lia.
Qed.

(** ** The resampled global solution *)
Lemma arange_length s n : length (arange30 s n) = n.
Proof. unfold arange30. now rewrite map_length, seq_length. Qed.
Lemma arange_nth s n i : (i < n)%nat -> nth i (arange30 s n) 0 = s + INR i * d30.
Proof. intros H. unfold arange30. rewrite (nth_indep _ 0 (s + INR 0 * d30)) by (rewrite map_length, seq_length; auto). rewrite (map_nth (fun i => s + INR i * d30)), seq_nth by auto. reflexivity. Qed.
(** the centre of a cell of the combined grid *)
Definition east (i : nat) : R := arc2 / 2 + INR i * arc2.
Definition north (j : nat) : R := -90 + arc2 / 2 + INR j * arc2.
Lemma x30_nth i : (i < cols)%nat -> nth i x30 0 = east i.
Proof. intros H. unfold x30. rewrite arange_nth by auto. reflexivity. Qed.
Lemma y30_nth j : (j < rows)%nat -> nth j y30 0 = north j.
Proof. intros H. unfold y30. rewrite arange_nth by auto. reflexivity. Qed.
Lemma x30_length : length x30 = cols. Proof. apply arange_length. Qed.
Lemma y30_length : length y30 = rows. Proof. apply arange_length. Qed.
Lemma table_ok {A} (f : R -> R -> res A) (g : R -> R -> A) : (forall y x, f y x = Ok (g y x)) ->
  exists m, mapM (fun y => mapM (fun x => f y x) x30) y30 = Ok m /\ rect rows cols m /\ forall j i d, (j < rows)%nat -> (i < cols)%nat -> entry d m j i = g (north j) (east i).
Proof.
  intros H. exists (map (fun y => map (g y) x30) y30). split; [|split].
  - apply mapM_all. intros y _. apply mapM_all. auto.
  - split; [rewrite map_length; apply y30_length|]. intros r Hr. apply in_map_iff in Hr as (y & <- & _). rewrite map_length. apply x30_length.
  - intros j i d Hj Hi. unfold entry. rewrite (nth_indep _ [] (map (g 0) x30)) by (rewrite map_length, y30_length; auto). rewrite (map_nth (fun y => map (g y) x30)), y30_nth by auto.
    rewrite (nth_indep _ d (g (north j) 0)) by (rewrite map_length, x30_length; auto). rewrite map_nth, x30_nth by auto. reflexivity.
Qed.
Lemma clamp_twice lo hi x : lo <= hi -> clamp lo hi (clamp lo hi x) = clamp lo hi x.
Proof. intros H. unfold clamp, Rmax, Rmin. repeat (destruct (Rle_dec _ _)); lra. Qed.
Lemma clamp_within lo hi x : lo <= hi -> lo <= clamp lo hi x <= hi.
Proof. intros H. unfold clamp, Rmax, Rmin. repeat (destruct (Rle_dec _ _)); lra. Qed.
Lemma spline_clamped {V} (z : V) a s xi yi g x y : axis xi -> axis yi ->
  gspline_point z a s xi yi g (x, y) = gspline_point z a s xi yi g (clamp (nth 0 xi 0) (nth (length xi - 1) xi 0) x, clamp (nth 0 yi 0) (nth (length yi - 1) yi 0) y).
Proof.
  intros A1 A2. unfold gspline_point. rewrite (axis_increasing _ A1), (axis_increasing _ A2), (axis_min _ A1), (axis_max _ A1), (axis_min _ A2), (axis_max _ A2). cbn [andb negb bind fst snd].
  rewrite !clamp_twice; [reflexivity| |]; apply Rlt_le; [apply A2; destruct A2|apply A1; destruct A1]; lia.
Qed.

(** the values of a real component are given at the nodes *)
Definition values (z : nat -> nat -> R) ny nx (g : list (list (gcell R))) : Prop :=
  rect ny nx g /\ forall j i, (j < ny)%nat -> (i < nx)%nat -> fst (entry (None, true) g j i) = Some (z j i).
(** x, kept within the nodes, lies between nodes I and I + 1 *)
Definition between (xi : list R) (x : R) (I : nat) : Prop :=
  (S I < length xi)%nat /\ bracket (S (S I) = length xi) (nth I xi 0) (nth (S I) xi 0) (nearest_within (nth 0 xi 0) (nth (length xi - 1) xi 0) x).
Definition fraction (xi : list R) (x : R) (I : nat) : R :=
  (nearest_within (nth 0 xi 0) (nth (length xi - 1) xi 0) x - nth I xi 0) / (nth (S I) xi 0 - nth I xi 0).

Lemma spline_at xi yi g z x y I J : axis xi -> axis yi -> values z (length yi) (length xi) g -> between xi x I -> between yi y J ->
  exists m, rspline xi yi g (x, y) = Ok (Some (bilinear4 (fraction xi x I) (fraction yi y J) (z J I) (z J (S I)) (z (S J) I) (z (S J) (S I))), m).
Proof.
  intros A1 A2 [Rg Vg] [HI BI] [HJ BJ]. unfold rspline. rewrite spline_clamped by auto.
  assert (H1 : nth 0 xi 0 <= nth (length xi - 1) xi 0) by (apply Rlt_le, A1; destruct A1; lia).
  assert (H2 : nth 0 yi 0 <= nth (length yi - 1) yi 0) by (apply Rlt_le, A2; destruct A2; lia).
  pose proof (clamp_within _ _ x H1) as W1. pose proof (clamp_within _ _ y H2) as W2.
  change (nearest_within ?a ?b ?c) with (clamp a b c) in BI, BJ.
  pose proof (spline_eq (V := R) 0 Rplus Rmult xi yi g _ _ I J A1 A2 Rg (proj1 W1) (proj1 W2) HI HJ) as E. cbv zeta in E.
  rewrite !(Rmin_right (nth (length _ - 1) _ 0)) in E by (apply W1 || apply W2). specialize (E BI BJ). rewrite E. clear E.
  cbn [forallb map fold_right fst snd]. rewrite !Vg by lia. cbn [andb]. eexists. f_equal. f_equal. f_equal.
  unfold gnumber. rewrite !Vg by lia. unfold bilinear4, fraction. change (nearest_within ?a ?b ?c) with (clamp a b c). ring.
Qed.
Lemma between_exists xi x : axis xi -> exists I, between xi x I.
Proof.
  intros A. assert (H : nth 0 xi 0 <= nth (length xi - 1) xi 0) by (apply Rlt_le, A; destruct A; lia).
  pose proof (clamp_within _ _ x H) as W. change (clamp ?a ?b ?c) with (nearest_within a b c) in W. unfold between.
  set (u := nearest_within _ _ x) in *. destruct (Rlt_le_dec u (nth (length xi - 1) xi 0)) as [C|C].
  - destruct (find_cell xi u A ltac:(lra)) as (I & HI & B). exists I. split; auto. left. lra.
  - assert (Hl : (2 <= length xi)%nat) by apply A. exists (length xi - 2)%nat. split; [lia|]. replace (S (length xi - 2)) with (length xi - 1)%nat by lia.
    assert (nth (length xi - 2) xi 0 < nth (length xi - 1) xi 0) by (apply A; lia). right. split; [lia|]. split; lra.
Qed.

(** *** C66: the resampled global solution is, at the centre of every cell, the bilinear
    interpolant of the four nodes around it (kept within the first and last nodes). *)
Theorem C66_resample : forall xi yi g z, axis xi -> axis yi -> values z (length yi) (length xi) g ->
  exists m, interpolate_atlas xi yi g = Ok m /\ rect nlat nlon m /\
    forall j i, (j < nlat)%nat -> (i < nlon)%nat ->
      (exists I J, between xi (east i) I /\ between yi (north j) J) /\
      forall I J, between xi (east i) I -> between yi (north j) J ->
        entry None m j i = Some (bilinear4 (fraction xi (east i) I) (fraction yi (north j) J) (z J I) (z J (S I)) (z (S J) I) (z (S J) (S I))).
Proof.
  intros xi yi g z A1 A2 Vg. change nlat with rows. change nlon with cols.
  destruct (table_ok (fun y x => do c <- rspline xi yi g (x, y) ;; Ok (fst c)) (fun y x => match rspline xi yi g (x, y) with Ok c => fst c | Err _ => None end)) as (m & E & R & N).
  { intros y x. destruct (spline_total 0 Rplus Rmult xi yi g (x, y) A1 A2 (proj1 Vg)) as (c & Ec). change (gspline_point 0 Rplus Rmult) with rspline in Ec. rewrite Ec. reflexivity. }
  exists m. split; [exact E|]. split; [exact R|]. intros j i Hj Hi. split.
  - destruct (between_exists xi (east i) A1) as (I & HI). destruct (between_exists yi (north j) A2) as (J & HJ). eauto.
  - intros I J HI HJ. rewrite N by auto. destruct (spline_at xi yi g z _ _ I J A1 A2 Vg HI HJ) as (k & ->). reflexivity.
Qed.
Print Assumptions C66_resample.

(** *** C66: in the combined solution every cell has the value of the last local solution
    valid there, and elsewhere the resampled global value. *)
Theorem C66_combine : forall xi yi g z ls, axis xi -> axis yi -> values z (length yi) (length xi) g ->
  (forall l, In l ls -> exists ny nx, local_rect l ny nx) ->
  exists m, combine_atlas_model xi yi g ls = Ok m /\ rect nlat nlon m /\
    forall j i, (j < nlat)%nat -> (i < nlon)%nat ->
      (forall n l v, nth_error ls n = Some l -> has l j i v -> (forall n' l' v', (n < n')%nat -> nth_error ls n' = Some l' -> ~ has l' j i v') -> entry None m j i = v) /\
      ((forall l v, In l ls -> ~ has l j i v) -> forall I J, between xi (east i) I -> between yi (north j) J ->
        entry None m j i = Some (bilinear4 (fraction xi (east i) I) (fraction yi (north j) J) (z J I) (z J (S I)) (z (S J) I) (z (S J) (S I)))).
Proof.
  intros xi yi g z ls A1 A2 Vg Hl. unfold combine_atlas_model. destruct (C66_resample xi yi g z A1 A2 Vg) as (b & -> & Rb & Nb). cbn [bind].
  destruct (fill_ok (fun c : gcell R => fst c) value_writes ls (fun l => eq_refl) Hl b Rb) as (m & E & R & U & W). exists m. split; [exact E|]. split; [exact R|].
  intros j i Hj Hi. split.
  - intros n l v Hn Hh Hlast. exact (W j i None n l v Hj Hi Hn Hh Hlast).
  - intros Hno I J HI HJ. rewrite U by auto. now apply (Nb j i Hj Hi).
Qed.
Print Assumptions C66_combine.

(** ** Nearest nodes *)
Lemma around_near x k : Rabs (x - IZR (around x)) <= Rabs (x - IZR k) /\ (Rabs (x - IZR (around x)) = Rabs (x - IZR k) -> k = around x \/ Z.even (around x) = true).
Proof.
  unfold around. pose proof (rfloor_bounds x) as [B1 B2]. set (f := rfloor x) in *.
  assert (D : (k <= f)%Z \/ (f + 1 <= k)%Z) by lia.
  destruct D as [D|D]; pose proof (IZR_le _ _ D) as D'; rewrite ?plus_IZR in D'.
  - rewrite (Rabs_pos_eq (x - IZR k)) by lra. destruct (Rlt_le_dec (x - IZR f) (1 / 2)) as [C|C]; [rewrite rlt_t by lra|rewrite rlt_f by lra].
    + rewrite Rabs_pos_eq by lra. split; [lra|]. intros E. left. apply eq_IZR. lra.
    + destruct (Rlt_le_dec (1 / 2) (x - IZR f)) as [C2|C2]; [rewrite rlt_t by lra|rewrite rlt_f by lra].
      * rewrite plus_IZR, Rabs_left1 by lra. split; lra.
      * destruct (Z.even f) eqn:Ev; [rewrite Rabs_pos_eq by lra; split; [lra|]; intros; auto|].
        rewrite plus_IZR, Rabs_left1 by lra. split; [lra|]. intros _. right. rewrite Z.add_1_r, Z.even_succ, <- Z.negb_even, Ev. reflexivity.
  - rewrite (Rabs_left1 (x - IZR k)) by lra. destruct (Rlt_le_dec (x - IZR f) (1 / 2)) as [C|C]; [rewrite rlt_t by lra|rewrite rlt_f by lra].
    + rewrite Rabs_pos_eq by lra. split; lra.
    + destruct (Rlt_le_dec (1 / 2) (x - IZR f)) as [C2|C2]; [rewrite rlt_t by lra|rewrite rlt_f by lra].
      * rewrite plus_IZR, Rabs_left1 by lra. split; [lra|]. intros E. left. apply eq_IZR. rewrite plus_IZR. lra.
      * destruct (Z.even f) eqn:Ev; [rewrite Rabs_pos_eq by lra; split; [lra|]; intros; auto|].
        rewrite plus_IZR, Rabs_left1 by lra. split; [lra|]. intros _. right. rewrite Z.add_1_r, Z.even_succ, <- Z.negb_even, Ev. reflexivity.
Qed.
Lemma around_range x n : 0 <= x <= INR n -> (0 <= around x <= Z.of_nat n)%Z.
Proof.
  intros H. rewrite INR_IZR_INZ in H.
  destruct (around_near x 0) as [K1 _]. destruct (around_near x (Z.of_nat n)) as [K2 _]. rewrite Rminus_0_r, (Rabs_pos_eq x) in K1 by lra.
  rewrite (Rabs_left1 (x - IZR (Z.of_nat n))) in K2 by lra. split; apply Z.lt_succ_r || (apply Z.lt_succ_r); apply lt_IZR; rewrite succ_IZR.
  - unfold Rabs in *. destruct (Rcase_abs _); lra.
  - unfold Rabs in *. destruct (Rcase_abs _); lra.
Qed.
(** I is the position of the value nearest to x; of two equally near, the even one *)
Definition nearest_node (xs : list R) (x : R) (I : nat) : Prop :=
  (I < length xs)%nat /\ forall k, (k < length xs)%nat ->
    Rabs (x - nth I xs 0) <= Rabs (x - nth k xs 0) /\ (Rabs (x - nth I xs 0) = Rabs (x - nth k xs 0) -> k = I \/ Nat.even I = true).
Lemma even_Z n : Nat.even n = Z.even (Z.of_nat n).
Proof.
  destruct (Nat.even n) eqn:E; symmetry.
  - apply Nat.even_spec in E as (k & ->). apply Z.even_spec. exists (Z.of_nat k). lia.
  - assert (O : Nat.odd n = true) by (unfold Nat.odd; now rewrite E). apply Nat.odd_spec in O as (k & ->). rewrite <- Z.negb_odd. apply negb_false_iff, Z.odd_spec. exists (Z.of_nat k). lia.
Qed.
Lemma nearest_ok x0 step n xi x : evenly x0 step n xi -> (2 <= n)%nat -> nearest_node xi x (nearest xi x).
Proof.
  intros (S0 & L & N) Hn. unfold nearest. rewrite L.
  assert (H0 : hd 0 xi = x0) by (destruct xi as [|a t]; [cbn in L; lia|]; specialize (N 0%nat ltac:(lia)); cbn in N |- *; lra).
  assert (H1 : last xi 0 = x0 + INR (n - 1) * step).
  { rewrite <- (N (n - 1)%nat) by lia. rewrite <- L. clear. induction xi as [|a t IH]; auto. destruct t; auto. cbn [last length nth Nat.sub] in *. rewrite IH. now rewrite Nat.sub_0_r. }
  rewrite H0, H1. assert (P : 0 < INR (n - 1)) by (apply lt_0_INR; lia).
  set (u := INR (n - 1) * (x - x0) / (x0 + INR (n - 1) * step - x0)).
  assert (Eu : x = x0 + u * step) by (unfold u; field; nra).
  set (w := clamp 0 (INR (n - 1)) u). assert (Hw : 0 <= w <= INR (n - 1)) by (apply clamp_within; lra).
  destruct (around_range w (n - 1) Hw) as [R1 R2]. set (r := around w) in *. set (I := Z.to_nat r). assert (HI : INR I = IZR r) by (unfold I; rewrite INR_IZR_INZ, Z2Nat.id by lia; auto).
  split; [unfold I; lia|]. intros k Hk. rewrite L in Hk. rewrite !N by (unfold I; lia). rewrite Eu, HI.
  replace (x0 + u * step - (x0 + IZR r * step)) with ((u - IZR r) * step) by ring. replace (x0 + u * step - (x0 + INR k * step)) with ((u - INR k) * step) by ring.
  rewrite !Rabs_mult, (Rabs_pos_eq step) by lra.
  destruct (around_near w (Z.of_nat k)) as [K1 K2]. fold r in K1, K2. rewrite <- INR_IZR_INZ in K1, K2.
  assert (G : Rabs (u - IZR r) <= Rabs (u - INR k) /\ (Rabs (u - IZR r) = Rabs (u - INR k) -> k = I \/ Nat.even I = true)).
  { assert (Ev : Nat.even I = Z.even r) by (unfold I; rewrite even_Z, Z2Nat.id by lia; auto). rewrite Ev.
    assert (KI : Z.of_nat k = r -> k = I) by (unfold I; lia).
    assert (Hk0 : 0 <= INR k <= INR (n - 1)) by (split; [apply pos_INR|apply le_INR; lia]).
    destruct (Rlt_le_dec u 0) as [C|C]; [|destruct (Rlt_le_dec (INR (n - 1)) u) as [C2|C2]].
    - assert (w = 0) by (unfold w, clamp, Rmax, Rmin; repeat destruct (Rle_dec _ _); lra). assert (R0 : r = 0%Z) by (unfold r; rewrite H; unfold around; change 0 with (IZR 0); rewrite rfloor_IZR, rlt_t by lra; auto).
      rewrite R0 in *. rewrite !Rabs_left1 by lra. split; [lra|]. intros E. left. apply KI. apply eq_IZR. rewrite <- INR_IZR_INZ. lra.
    - assert (w = INR (n - 1)) by (unfold w, clamp, Rmax, Rmin; repeat destruct (Rle_dec _ _); lra).
      assert (R0 : r = Z.of_nat (n - 1)) by (unfold r; rewrite H, INR_IZR_INZ; unfold around; rewrite rfloor_IZR, rlt_t by lra; auto).
      assert (R3 : IZR r = INR (n - 1)) by (rewrite R0, <- INR_IZR_INZ; auto). rewrite R3 in *. rewrite !Rabs_pos_eq by lra. split; [lra|]. intros E. left. apply KI. rewrite R0. apply eq_IZR. rewrite <- !INR_IZR_INZ. lra.
    - assert (Ew : w = u) by (unfold w, clamp, Rmax, Rmin; repeat destruct (Rle_dec _ _); lra). rewrite Ew in *. split; auto. intros E. destruct (K2 E); auto. }
  destruct G as [G1 G2]. split; [apply Rmult_le_compat_r; lra|]. intros E. apply G2. apply Rmult_eq_reg_r with step; lra.
Qed.

(** *** C66: a cell of the combined mask is open (1) where a local solution is valid, and
    elsewhere has the value of the nearest node of the global mask; it is masked where zero. *)
Theorem C66_mask : forall (V : Type) (ls : list (local V)) xi yi mz x0 dx y0 dy, evenly x0 dx (length xi) xi -> evenly y0 dy (length yi) yi ->
  (2 <= length xi)%nat -> (2 <= length yi)%nat -> rect (length yi) (length xi) mz ->
  (forall l, In l ls -> exists ny nx, local_rect l ny nx) ->
  exists m, create_atlas_mask xi yi mz ls = Ok m /\ rect nlat nlon m /\
    forall j i, (j < nlat)%nat -> (i < nlon)%nat -> let c := entry (0%Z, true) m j i in
      (snd c = true <-> fst c = 0%Z) /\
      (forall l v, In l ls -> has l j i v -> fst c = 1%Z) /\
      ((forall l v, In l ls -> ~ has l j i v) -> exists J I, nearest_node yi (north j) J /\ nearest_node xi (east i) I /\ fst c = entry 0%Z mz J I).
Proof.
  intros V ls xi yi mz x0 dx y0 dy Ex Ey Hx Hy Rz Hl. change nlat with rows. change nlon with cols. unfold create_atlas_mask.
  destruct (table_ok (fun y x => do row <- get1 mz (nearest yi y) ;; get1 row (nearest xi x)) (fun y x => entry 0%Z mz (nearest yi y) (nearest xi x))) as (b & -> & Rb & Nb).
  { intros y x. destruct (nearest_ok _ _ _ _ x Ex Hx) as [H1 _]. destruct (nearest_ok _ _ _ _ y Ey Hy) as [H2 _].
    rewrite (get1_nth mz []) by (destruct Rz; lia). cbn [bind]. assert (length (nth (nearest yi y) mz []) = length xi) by (eapply rect_row; eauto). rewrite (get1_nth _ 0%Z) by lia. reflexivity. }
  cbn [bind]. destruct (fill_ok (fun _ : gcell V => 1%Z) mask_writes ls (fun l => eq_refl) Hl b Rb) as (m & -> & R & U & W). cbn [bind]. eexists. split; [reflexivity|].
  split; [now apply map_rect|]. intros j i Hj Hi.
  assert (Ec : entry (0%Z, true) (map (map (fun z => (z, Z.eqb z 0))) m) j i = (entry 0%Z m j i, Z.eqb (entry 0%Z m j i) 0)) by (apply (map_entry (fun z => (z, Z.eqb z 0)) rows cols m 0%Z); auto).
  rewrite Ec. cbv zeta. cbn [fst snd]. split; [apply Z.eqb_eq|]. split.
  - intros l v Hin Hh. apply In_nth_error in Hin as (n & Hn).
    assert (Last : forall N n l v, (length ls - n <= N)%nat -> nth_error ls n = Some l -> has l j i v -> exists n l v, nth_error ls n = Some l /\ has l j i v /\ forall n' l' v', (n < n')%nat -> nth_error ls n' = Some l' -> ~ has l' j i v').
    { clear. intros N. induction N as [|N IH]; intros n l v HN Hn Hh.
      - assert (n < length ls)%nat by (apply nth_error_Some; congruence). lia.
      - destruct (Classical_Prop.classic (exists n' l' v', (n < n')%nat /\ nth_error ls n' = Some l' /\ has l' j i v')) as [(n' & l' & v' & L' & H1 & H2)|No].
        + apply (IH n' l' v'); auto. lia.
        + exists n, l, v. split; auto. split; auto. intros n' l' v' L' H1 H2. apply No. eauto 10. }
    destruct (Last _ n l v (le_n _) Hn Hh) as (n1 & l1 & v1 & H1 & H2 & H3). exact (W j i 0%Z n1 l1 v1 Hj Hi H1 H2 H3).
  - intros No. rewrite U by auto. rewrite Nb by auto. exists (nearest yi (north j)), (nearest xi (east i)). split; [eapply nearest_ok; eauto|]. split; [eapply nearest_ok; eauto|]. reflexivity.
Qed.
Print Assumptions C66_mask.

(** *** C66: the resampling does not go around the globe: cells west of the first node (and
    east of the last) have the value of that node's column, whatever is on the other side
    of the seam. *)
Theorem C66_greenwich_refuted : forall xi yi g z, axis xi -> axis yi -> values z (length yi) (length xi) g ->
  exists m, interpolate_atlas xi yi g = Ok m /\ forall j i J, (j < nlat)%nat -> (i < nlon)%nat -> between yi (north j) J ->
    let s := fraction yi (north j) J in
    (east i <= nth 0 xi 0 -> entry None m j i = Some ((1 - s) * z J 0%nat + s * z (S J) 0%nat)) /\
    (nth (length xi - 1) xi 0 <= east i -> entry None m j i = Some ((1 - s) * z J (length xi - 1)%nat + s * z (S J) (length xi - 1)%nat)).
Proof.
  intros xi yi g z A1 A2 Vg. destruct (C66_resample xi yi g z A1 A2 Vg) as (m & E & _ & N). exists m. split; [exact E|]. intros j i J Hj Hi HJ s.
  destruct (N j i Hj Hi) as [_ N']. assert (L2 : (2 <= length xi)%nat) by apply A1.
  assert (H : nth 0 xi 0 < nth (length xi - 1) xi 0) by (apply A1; lia). split; intros C.
  - assert (W : nearest_within (nth 0 xi 0) (nth (length xi - 1) xi 0) (east i) = nth 0 xi 0) by (unfold nearest_within, Rmax, Rmin; repeat destruct (Rle_dec _ _); lra).
    assert (H1 : nth 0 xi 0 < nth 1 xi 0) by (apply A1; lia).
    assert (B : between xi (east i) 0) by (split; [lia|]; rewrite W; left; lra). rewrite (N' 0%nat J B HJ). unfold bilinear4. fold s.
    unfold fraction at 1 2 3 4. rewrite W, Rminus_eq_0. unfold Rdiv. rewrite Rmult_0_l. f_equal. ring.
  - assert (W : nearest_within (nth 0 xi 0) (nth (length xi - 1) xi 0) (east i) = nth (length xi - 1) xi 0) by (unfold nearest_within, Rmax, Rmin; repeat destruct (Rle_dec _ _); lra).
    assert (E2 : S (length xi - 2) = (length xi - 1)%nat) by lia. assert (H1 : nth (length xi - 2) xi 0 < nth (length xi - 1) xi 0) by (apply A1; lia).
    assert (B : between xi (east i) (length xi - 2)) by (split; [lia|]; rewrite W, E2; right; repeat split; auto; lia). rewrite (N' _ J B HJ). unfold bilinear4. fold s.
    unfold fraction at 1 2 3 4. rewrite W, E2. unfold Rdiv. rewrite Rinv_r by lra. f_equal. ring.
Qed.
Print Assumptions C66_greenwich_refuted.

Lemma lies_exists lon lat ny nx r k : on_globe lon lat ny nx -> (r < ny)%nat -> (k < nx)%nat -> exists j i, (j < nlat)%nat /\ (i < nlon)%nat /\ lies lon lat r k j i.
Proof.
  intros (a & b & Ha & Hb & Hn & A1 & A2 & B1 & B2) Hr Hk. change nlat with rows. change nlon with cols. assert (Er : Z.of_nat rows = 5400%Z) by reflexivity. assert (Ec : Z.of_nat cols = 10800%Z) by reflexivity.
  set (i := if Z.leb (a + Z.of_nat k) 0 then (a + Z.of_nat k + 10800 - 1)%Z else (a + Z.of_nat k - 1)%Z).
  exists (Z.to_nat (b + Z.of_nat r + 2700 - 1)), (Z.to_nat i). split; [lia|]. split; [unfold i; destruct (Z.leb_spec (a + Z.of_nat k) 0); lia|].
  exists a, b. unfold i. destruct (Z.leb_spec (a + Z.of_nat k) 0); [exists 1%Z|exists 0%Z]; (split; [exact Ha|]; split; [exact Hb|]; lia).
Qed.
(** *** C66: a local solution whose limits are the outer edges of its cells, as those of the
    global grid are, is put one whole cell west and south of its place. *)
Theorem C66_edges_refuted : forall xi yi g z l ny nx a b, axis xi -> axis yi -> values z (length yi) (length xi) g -> local_rect l ny nx ->
  llon l = IZR a * arc2 -> llat l = IZR b * arc2 ->
  exists m, combine_atlas_model xi yi g [l] = Ok m /\ forall r k v, (r < ny)%nat -> (k < nx)%nat -> entry (None, true) (lvar l) r k = (v, false) ->
    exists j i, entry None m j i = v /\ same_longitude (east i + arc2) (llon l + (INR k + 1 / 2) * arc2) /\ north j + arc2 = llat l + (INR r + 1 / 2) * arc2.
Proof.
  intros xi yi g z l ny nx a b A1 A2 Vg Lr Ea Eb. destruct (C66_combine xi yi g z [l] A1 A2 Vg) as (m & E & _ & N); [intros l' [<-|[]]; eauto|].
  exists m. split; [exact E|]. intros r k v Hr Hk Hc. destruct (lies_exists _ _ _ _ r k (proj2 Lr) Hr Hk) as (j & i & Hj & Hi & Hl). exists j, i. destruct (N j i Hj Hi) as [N1 _]. split.
  - apply (N1 0%nat l v eq_refl); [exists ny, nx, r, k; destruct Lr; auto|]. intros [|[|n']] l' v' Hn H'; [lia|discriminate|discriminate].
  - destruct Hl as (a' & b' & c & Ha & Hb & Ei & Ej).
    assert (a' = a) as -> by (apply (spacings_unique (llon l)); auto; split; rewrite Ea; unfold arc2; lra).
    assert (b' = b) as -> by (apply (spacings_unique (llat l)); auto; split; rewrite Eb; unfold arc2; lra).
    apply (f_equal IZR) in Ei, Ej. rewrite !plus_IZR, <- !INR_IZR_INZ in Ei, Ej. rewrite mult_IZR in Ei. split.
    + exists c. unfold east. rewrite Ea. unfold arc2. lra.
    + unfold north. rewrite Eb. unfold arc2. lra.
Qed.
Print Assumptions C66_edges_refuted.

Lemma set_nth_err {A} (l : list A) z f : (z < - Z.of_nat (length l) \/ Z.of_nat (length l) <= z)%Z -> set_nth l z f = Err IndexError.
Proof. intros H. unfold set_nth. destruct (Z.leb_spec (- Z.of_nat (length l)) z); cbn [andb]; auto. rewrite (proj2 (Z.ltb_ge _ _)) by lia. reflexivity. Qed.
(** *** C66: a valid cell south of the first latitude of the grid is put at the other end: one
    whose latitude is -90 in the northernmost row. *)
Theorem C66_south_refuted : forall xi yi g z (l : local R) v a, axis xi -> axis yi -> values z (length yi) (length xi) g ->
  lvar l = [[(Some v, false)]] -> spacings (llat l) (-2700) -> spacings (llon l) a -> (-10800 < a <= 10800)%Z ->
  exists m i, combine_atlas_model xi yi g [l] = Ok m /\ entry None m (nlat - 1) i = Some v /\ same_longitude (east i + arc2 / 2) (IZR a * arc2).
Proof.
  intros xi yi g z l v a A1 A2 Vg El Hb Ha Hr. unfold combine_atlas_model. destruct (C66_resample xi yi g z A1 A2 Vg) as (b & -> & Rb & _). cbn [bind fill].
  change nlat with rows in *. change nlon with cols in *.
  assert (Er : Z.of_nat rows = 5400%Z) by reflexivity. assert (Ec : Z.of_nat cols = 10800%Z) by reflexivity.
  unfold value_writes, valid_cells. rewrite El. cbn [number_cells map concat combine seq length app fst snd filter negb assign_all].
  rewrite (row_eq l 0 _ Hb), (column_eq l 0 a Ha). set (jj := (-2700 + Z.of_nat 0 + 2700 - 1)%Z). set (ii := ((if Z.leb (a + Z.of_nat 0) 0 then _ else _) - 1)%Z).
  assert (Hii : (0 <= ii < Z.of_nat cols)%Z) by (unfold ii; destruct (Z.leb_spec (a + Z.of_nat 0) 0); lia).
  destruct (assign_ok rows cols b jj ii (Some v) Rb) as (m & -> & R & N); [unfold jj; lia|lia|]. cbn [bind]. exists m, (Z.to_nat ii). split; [reflexivity|]. split.
  - rewrite N by lia. unfold wrap_index. destruct (Z.ltb_spec ii 0); [lia|]. rewrite Nat.eqb_refl. destruct (Z.ltb_spec jj 0); [|unfold jj in *; lia].
    replace (Z.to_nat (jj + Z.of_nat rows)) with (rows - 1)%nat by (unfold jj; lia). rewrite Nat.eqb_refl. reflexivity.
  - unfold east. rewrite INR_IZR_INZ, Z2Nat.id by lia. unfold ii. destruct (Z.leb_spec (a + Z.of_nat 0) 0); [exists 1%Z|exists 0%Z]; rewrite ?minus_IZR, ?plus_IZR; cbn [Z.of_nat]; unfold arc2; lra.
Qed.
Print Assumptions C66_south_refuted.

(** *** C66: a valid cell north of the last latitude raises IndexError. *)
Theorem C66_north : forall xi yi g z ls l ny nx r k v b, axis xi -> axis yi -> values z (length yi) (length xi) g ->
  In l ls -> rect ny nx (lvar l) -> (r < ny)%nat -> (k < nx)%nat -> entry (None, true) (lvar l) r k = (v, false) ->
  spacings (llat l) b -> (2700 < b + Z.of_nat r)%Z -> combine_atlas_model xi yi g ls = Err IndexError.
Proof.
  intros xi yi g z ls l ny nx r k v b A1 A2 Vg Hin Rl Hr Hk Hc Hb Hbr. unfold combine_atlas_model. destruct (C66_resample xi yi g z A1 A2 Vg) as (m & -> & Rm & _). cbn [bind].
  change nlat with rows in *. change nlon with cols in *.
  assert (As : forall (m : list (list (option R))) j i v, rect rows cols m -> assign m j i v = Err IndexError \/ exists m', assign m j i v = Ok m' /\ rect rows cols m').
  { clear. intros m j i v R. destruct (Z_lt_le_dec j (- Z.of_nat rows)); [left; apply set_nth_err; destruct R; lia|]. destruct (Z_lt_le_dec j (Z.of_nat rows)); [|left; apply set_nth_err; destruct R; lia].
    destruct (Z_lt_le_dec i (- Z.of_nat cols)) as [C|C]; [|destruct (Z_lt_le_dec i (Z.of_nat cols)) as [C2|C2]].
    - left. unfold assign, set_nth at 1. rewrite (proj1 R). rewrite (proj2 (Z.leb_le _ _)), (proj2 (Z.ltb_lt _ _)) by lia. cbn [andb].
      set (q := Z.to_nat _). assert (q < rows)%nat by (unfold q; destruct (Z.ltb_spec j 0); lia). rewrite (get1_nth m []) by (destruct R; lia). cbn [bind]. rewrite set_nth_err; [reflexivity|]. rewrite (rect_row rows cols m q R) by auto. lia.
    - right. destruct (assign_ok rows cols m j i v R) as (m' & E & R' & _); [lia|lia|]. eauto.
    - left. unfold assign, set_nth at 1. rewrite (proj1 R). rewrite (proj2 (Z.leb_le _ _)), (proj2 (Z.ltb_lt _ _)) by lia. cbn [andb].
      set (q := Z.to_nat _). assert (q < rows)%nat by (unfold q; destruct (Z.ltb_spec j 0); lia). rewrite (get1_nth m []) by (destruct R; lia). cbn [bind]. rewrite set_nth_err; [reflexivity|]. rewrite (rect_row rows cols m q R) by auto. lia. }
  assert (Aa : forall (w : list (Z * Z * option R)) m, rect rows cols m -> assign_all m w = Err IndexError \/ (exists m', assign_all m w = Ok m' /\ rect rows cols m') /\ forall j i v, In (j, i, v) w -> (j < Z.of_nat rows)%Z).
  { clear - As. induction w as [|[[j i] v] w IH]; intros m R; cbn [assign_all]; [right; split; [eauto|]; intros ? ? ? []|].
    destruct (As m j i v R) as [->|(m' & E & R')]; [now left|]. rewrite E. cbn [bind]. destruct (IH m' R') as [->|[Q1 Q2]]; [now left|]. right. split; auto.
    intros j' i' v' [K|K]; [|eauto]. injection K as <- <- <-. destruct (Z_lt_le_dec j (Z.of_nat rows)); auto. unfold assign in E. rewrite set_nth_err in E by (destruct R; lia). discriminate. }
  clear Vg g z A1 A2 xi yi. revert m Rm. induction ls as [|l0 ls IH]; intros m Rm; [destruct Hin|]. cbn [fill].
  destruct (Aa (value_writes l0) m Rm) as [->|[(m' & -> & R') Q]]; [reflexivity|]. cbn [bind]. destruct Hin as [->|Hin]; [|now apply IH]. exfalso.
  assert (K : In (row_of l r, column_of l k, v) (value_writes l)).
  { unfold value_writes. apply in_map_iff. exists (r, k, (v, false)). split; [reflexivity|]. unfold valid_cells. apply filter_In. split; [|reflexivity]. apply number_cells_in, (nth_error_entry ny nx _ r k _ (None, true) Rl). auto. }
  apply Q in K. rewrite (row_eq l r b Hb) in K. change (Z.of_nat rows) with 5400%Z in K. lia.
Qed.
Print Assumptions C66_north.

(** a global grid of two by two nodes and a local solution at 6 to 8 arc minutes east of Greenwich *)
Definition coarse_x : list R := [90; 270].
Definition coarse_y : list R := [-45; 45].
Definition coarse_z : list (list (gcell R)) := [[(Some 1, false); (Some 2, false)]; [(Some 3, false); (Some 4, false)]].
Definition patch : local R := Local (1 / 10) 0 [[(Some 7, false); (None, true)]].
Lemma coarse_ok : axis coarse_x /\ axis coarse_y /\ values (fun j i => INR (2 * j + i + 1)) 2 2 coarse_z.
Proof.
  split; [split; [cbn; lia|intros [|[|i]] [|[|j]] H; cbn in *; try lia; lra]|]. split; [split; [cbn; lia|intros [|[|i]] [|[|j]] H; cbn in *; try lia; lra]|].
  split; [split; [reflexivity|]; intros r [<-|[<-|[]]]; reflexivity|]. intros [|[|j]] [|[|i]] Hj Hi; try lia; cbn -[INR]; f_equal; rewrite INR_IZR_INZ; reflexivity.
Qed.
Lemma patch_ok : local_rect patch 1 2.
Proof.
  split; [split; [reflexivity|]; intros r [<-|[]]; reflexivity|]. exists 3%Z, 0%Z. unfold spacings, arc2. cbn [patch llon llat Z.of_nat]. repeat split; try lra; lia.
Qed.
Example C66_case : exists m, combine_atlas_model coarse_x coarse_y coarse_z [patch] = Ok m /\ entry None m 2699 2 = Some 7 /\
  entry None m 2699 3 = Some (1 + 2 * (1 / 2 - 1 / 5400)).
Proof.
  destruct coarse_ok as (A1 & A2 & Vg). pose proof patch_ok as P.
  destruct (C66_combine coarse_x coarse_y coarse_z _ [patch] A1 A2 Vg) as (m & E & _ & N); [intros l [<-|[]]; eauto|].
  assert (Er : Z.of_nat rows = 5400%Z) by reflexivity. assert (Ec : Z.of_nat cols = 10800%Z) by reflexivity. change nlat with rows in *. change nlon with cols in *.
  exists m. split; [exact E|]. split.
  - apply (proj1 (N 2699%nat 2%nat ltac:(lia) ltac:(lia)) 0%nat patch (Some 7) eq_refl).
    + exists 1%nat, 2%nat, 0%nat, 0%nat. split; [apply P|]. split; [lia|]. split; [lia|]. split; [reflexivity|]. exists 3%Z, 0%Z, 0%Z. unfold spacings, arc2. cbn [patch llon llat]. repeat split; try lra; lia.
    + intros [|[|n']] l' v' Hn H'; [lia|discriminate|discriminate].
  - destruct (N 2699%nat 3%nat ltac:(lia) ltac:(lia)) as [_ N2]. rewrite (N2) with (I := 0%nat) (J := 0%nat).
    + f_equal. unfold bilinear4, fraction, nearest_within, east, north. cbn [coarse_x coarse_y length Nat.sub nth]. unfold arc2.
      rewrite (Rmin_right 270), (Rmax_left 90), (Rmin_right 45), (Rmax_right (-45)) by (rewrite ?INR_IZR_INZ; cbn [Z.of_nat Pos.of_succ_nat Pos.succ]; try lra; change (Z.of_nat 2699) with 2699%Z; lra).
      rewrite ?INR_IZR_INZ. change (Z.of_nat 2699) with 2699%Z. cbn [Z.of_nat Nat.mul Nat.add Pos.of_succ_nat Pos.succ]. lra.
    + intros l v [<-|[]] (ny & nx & r & k & Rp & Hr & Hk & Hc & Hl). destruct Hl as (a & b & c & Ha & Hb & Ei & Ej).
      assert (a = 3%Z) as -> by (apply (spacings_unique _ _ _ Ha); unfold spacings, arc2; cbn [patch llon]; lra).
      destruct Rp as [L1 L2]. cbn in L1. specialize (L2 _ (or_introl eq_refl)). cbn in L2. assert (k = 1%nat) as -> by lia. assert (r = 0%nat) as -> by lia. discriminate Hc.
    + split; [cbn; lia|]. unfold nearest_within, east. cbn [coarse_x length Nat.sub nth]. left. unfold arc2, Rmax, Rmin. rewrite INR_IZR_INZ. cbn [Z.of_nat Pos.of_succ_nat Pos.succ]. repeat destruct (Rle_dec _ _); lra.
    + split; [cbn; lia|]. unfold nearest_within, north. cbn [coarse_y length Nat.sub nth]. left. unfold arc2, Rmax, Rmin. rewrite INR_IZR_INZ. change (Z.of_nat 2699) with 2699%Z. repeat destruct (Rle_dec _ _); lra.
Qed.
