(** C38: compact ATLAS files are read record by record. *)
From Coq Require Import ZArith List Bool Lia.
From Verif Require Import PyBase OtisModel OtisProofs OtisProps AtlasSpec.
Import ListNotations.
Open Scope Z_scope.

(** ** Well-formed contents *)
Definition points_ok (nx ny : nat) (pts : list (Z * Z)) : Prop :=
  NoDup pts /\ forall i j, In (i, j) pts -> 1 <= i <= Z.of_nat nx /\ 1 <= j <= Z.of_nat ny.
Definition small (n : nat) : Prop := int32 (16 * Z.of_nat n).
Definition zlocal_ok (L : zlocal) : Prop :=
  small (z_nx L) /\ small (z_ny L) /\ small (length (z_cons L)) /\ small (length (z_pts L)) /\ pat2 (z_lat L) /\ pat2 (z_lon L)
  /\ separable (z_cons L) /\ NoDup (z_cons L) /\ length (z_name L) = 20%nat /\ points_ok (z_nx L) (z_ny L) (z_pts L)
  /\ length (z_data L) = length (z_cons L) /\ forall d, In d (z_data L) -> length d = length (z_pts L) /\ Forall pat2 d.

(** ** Lemmas *)
Lemma frec_length b : length (frec b) = (length b + 8)%nat.
Proof. unfold frec. rewrite !app_length, !be_length. lia. Qed.
Lemma nums_length l : length (nums l) = (4 * length l)%nat.
Proof. apply flat_be_length. Qed.
Lemma pairs_length l : length (pairs l) = (8 * length l)%nat.
Proof. unfold pairs. rewrite nums_length, (flat_const_length _ 2) by reflexivity. lia. Qed.
Lemma lstrip_split b : forall t, split_go [] (lstrip b ++ t) = split_go [] (b ++ t).
Proof. induction b as [|c b IH]; intros t; cbn [lstrip app]; auto. destruct (blank c) eqn:E; auto. rewrite IH. cbn [split_go]. now rewrite E. Qed.
Lemma lstrip_spec b : exists t, b = t ++ lstrip b /\ forall x, In x t -> blank x = true.
Proof.
  induction b as [|c b (t & E & H)]; cbn [lstrip]; [exists []; now split|]. destruct (blank c) eqn:B.
  - exists (c :: t). split; [cbn; now f_equal|]. intros x [<-|Hx]; auto.
  - exists []. now split.
Qed.
Lemma split_trailing t : (forall x, In x t -> blank x = true) -> forall b cur, split_go cur (b ++ t) = split_go cur b.
Proof.
  intros H. induction b as [|c b IH]; intros cur; cbn [app].
  - clear - H. assert (N : split_go [] t = []).
    { revert H. induction t as [|c t IH]; intros H; cbn [split_go]; auto. rewrite (H c) by (now left). apply IH. intros; apply H; now right. }
    destruct t as [|c t]; auto. cbn [split_go]. rewrite (H c) by (now left). cbn [split_go] in N. rewrite (H c) in N by (now left). rewrite N. destruct cur; reflexivity.
  - cbn [split_go]. destruct (blank c); [destruct cur|]; now rewrite !IH.
Qed.
Lemma split_strip b : split (strip b) = split b.
Proof.
  unfold split, strip. rewrite <- (app_nil_r b) at 2. rewrite <- lstrip_split, app_nil_r.
  destruct (lstrip_spec (rev (lstrip b))) as (t & E & H). set (y := lstrip b) in *. set (z := lstrip (rev y)) in *.
  apply (f_equal (@rev Z)) in E. rewrite rev_involutive, rev_app_distr in E. rewrite E. symmetry. apply split_trailing.
  intros x Hx. apply H. now apply in_rev.
Qed.
Lemma bytes_eqb_iff a b : bytes_eqb a b = true <-> a = b.
Proof. unfold bytes_eqb. destruct (list_eq_dec _ _ _); split; auto; discriminate. Qed.
Lemma indices_gen c l : forall s, NoDup l ->
  (In c l -> exists k, nth_error l k = Some c /\ map fst (filter (fun p => bytes_eqb (snd p) c) (combine (seq s (length l)) l)) = [(s + k)%nat])
  /\ (~ In c l -> map fst (filter (fun p => bytes_eqb (snd p) c) (combine (seq s (length l)) l)) = []).
Proof.
  induction l as [|x l IH]; intros s N; cbn [length seq combine filter snd]; [split; [contradiction | reflexivity]|].
  inversion N as [|? ? N1 N2]. subst. destruct (IH (S s) N2) as [I1 I2]. destruct (bytes_eqb x c) eqn:E.
  - apply bytes_eqb_iff in E. subst x. split; [|intros H; destruct H; now left]. intros _. exists 0%nat. split; auto. cbn [map fst]. rewrite (I2 N1). f_equal. lia.
  - assert (x <> c) by (intros ->; rewrite (proj2 (bytes_eqb_iff c c) eq_refl) in E; discriminate). split.
    + intros [H1|H1]; [contradiction|]. destruct (I1 H1) as (k & K1 & K2). exists (S k). split; auto. rewrite K2. f_equal. lia.
    + intros H1. apply I2. intros H2. apply H1. now right.
Qed.
Lemma indices_found c l : NoDup l -> In c l -> exists k, nth_error l k = Some c /\ indices_of c l = [k].
Proof. intros N H. apply (indices_gen c l 0 N). exact H. Qed.
Lemma indices_none c l : NoDup l -> ~ In c l -> indices_of c l = [].
Proof. intros N H. apply (indices_gen c l 0 N). exact H. Qed.

Lemma norm_ok n i : 0 <= i < n -> norm_index n i = Ok i.
Proof. intros H. unfold norm_index. replace (0 <=? i) with true by (symmetry; apply Z.leb_le; lia). replace (i <? n) with true by (symmetry; apply Z.ltb_lt; lia). reflexivity. Qed.
Lemma scatter_ok {A} nx ny pts : forall (xs : list A) a, points_ok nx ny pts -> length xs = length pts ->
  exists a', scatter (Z.of_nat ny) (Z.of_nat nx) (map snd pts) (map fst pts) xs a = Ok a'
  /\ (forall n i j, nth_error pts n = Some (i, j) -> a' (j - 1) (i - 1) = nth_error xs n)
  /\ (forall j i, ~ In (i + 1, j + 1) pts -> a' j i = a j i).
Proof.
  induction pts as [|[i j] pts IH]; intros xs a [N R] L.
  - destruct xs; [|discriminate]. exists a. split; [reflexivity|]. split; [intros [|n] ? ?; discriminate | auto].
  - destruct xs as [|x xs]; [discriminate|]. inversion N as [|? ? N1 N2]. subst. destruct (R i j (or_introl eq_refl)) as [Ri Rj].
    cbn [map fst snd scatter]. rewrite !norm_ok by lia. cbn [bind].
    destruct (IH xs (set_at (j - 1) (i - 1) x a)) as (a' & E & H1 & H2); [split; auto; intros; apply R; now right | cbn in L; lia|].
    exists a'. split; [exact E|]. split.
    + intros [|n] i' j' Hn; cbn [nth_error] in *.
      * injection Hn as <- <-. rewrite H2 by (replace (i - 1 + 1) with i by lia; replace (j - 1 + 1) with j by lia; auto).
        unfold set_at. now rewrite !Z.eqb_refl.
      * now apply H1.
    + intros j' i' Hn. rewrite H2 by (intros H; apply Hn; now right). unfold set_at.
      destruct ((j' =? j - 1) && (i' =? i - 1)) eqn:B; auto. apply andb_true_iff in B as [B1 B2]. apply Z.eqb_eq in B1, B2. subst. exfalso. apply Hn. left. f_equal; lia.
Qed.

Lemma dict_set_new {A} k (x : A) : forall d, ~ In k (map fst d) -> dict_set d k x = d ++ [(k, x)].
Proof.
  induction d as [|[k' y] d IH]; intros H; cbn [dict_set app]; auto. destruct (bytes_eqb k k') eqn:E.
  - apply bytes_eqb_iff in E. subst. exfalso. apply H. now left.
  - f_equal. apply IH. intros X. apply H. now right.
Qed.

(** ** The loop over the local solutions *)
Lemma suf_nonempty f p l : suf f p l -> (p < size f <-> l <> []).
Proof.
  intros [Hp E]. unfold rest in E. unfold size. split.
  - intros H ->. assert (L : length (skipn (Z.to_nat p) f) = 0%nat) by now rewrite E. rewrite skipn_length in L. lia.
  - intros H. destruct (Z_lt_le_dec p (Z.of_nat (length f))) as [B|B]; auto. exfalso. apply H. rewrite <- E. apply skipn_all2. lia.
Qed.
Lemma while_gets {D X} (body : D -> reader D) (enc : X -> bytes) (Inv : list X -> D -> Prop) (all : list X) :
  (forall x, enc x <> []) ->
  (forall past x todo d, all = past ++ x :: todo -> Inv past d -> forall l, exists d', gets (body d) (enc x ++ l) d' l /\ Inv (past ++ [x]) d') ->
  forall todo past d fuel, all = past ++ todo -> Inv past d -> (length todo < fuel)%nat ->
  exists d', gets (while_more fuel body d) (flat_map enc todo) d' [] /\ Inv all d'.
Proof.
  intros Ne Step. induction todo as [|x todo IH]; intros past d fuel E HI Hf.
  - rewrite app_nil_r in E. subst past. exists d. split; auto. destruct fuel as [|fuel]; [lia|]. cbn [while_more flat_map].
    intros f p Hs. unfold rbind, tell, fsize. cbn. pose proof (suf_nonempty f p [] Hs) as B.
    destruct (p <? size f) eqn:C; [apply Z.ltb_lt in C; apply B in C; congruence|]. exists p. auto.
  - destruct fuel as [|fuel]; [cbn in Hf; lia|]. cbn [flat_map].
    destruct (Step past x todo d E HI (flat_map enc todo)) as (d1 & G1 & I1).
    destruct (IH (past ++ [x]) d1 fuel) as (d2 & G2 & I2); [now rewrite <- app_assoc | auto | cbn in Hf; lia|].
    exists d2. split; auto. cbn [while_more]. intros f p Hs. unfold rbind at 1, tell. cbn match. unfold rbind at 1, fsize. cbn match.
    pose proof (suf_nonempty f p _ Hs) as B. destruct (p <? size f) eqn:C.
    + eapply gets_bind; [exact G1 | exact G2 | exact Hs].
    + apply Z.ltb_ge in C. exfalso. assert (p < size f); [|lia]. apply B. intros Q. apply app_eq_nil in Q as [Q _]. now apply (Ne x).
Qed.
Lemma fuel_enough {X} (enc : X -> bytes) l pre : (forall x, enc x <> []) -> (length l < S (Z.to_nat (size (pre ++ flat_map enc l))))%nat.
Proof.
  intros Ne. unfold size. rewrite Nat2Z.id, app_length. assert (length l <= length (flat_map enc l))%nat; [|lia].
  induction l as [|x l IH]; cbn [length flat_map]; auto. rewrite app_length. specialize (Ne x). destruct (enc x); [congruence|]. cbn [length]. lia.
Qed.

Lemma gets_fsize_then {A} (k : Z -> reader A) f0 l a l' : (forall f p, suf f p l -> length f = length f0) -> gets (k (size f0)) l a l' -> gets (rbind fsize k) l a l'.
Proof. intros H G f p Hs. unfold rbind, fsize. replace (size f) with (size f0) by (unfold size; now rewrite (H f p Hs)). now apply G. Qed.

Lemma gets_two p l : pat2 p -> gets (f4s 2) (two p ++ l) [fst p; snd p] l.
Proof. intros [H1 H2]. unfold two, nums. cbn [flat_map]. rewrite app_nil_r, <- app_assoc. now apply gets_f4s2. Qed.
Lemma int32_nat n : small n -> int32 (Z.of_nat n).
Proof. unfold small, int32. lia. Qed.
Lemma pts_ints nx ny pts : small nx -> small ny -> points_ok nx ny pts -> Forall int32 (map fst pts) /\ Forall int32 (map snd pts).
Proof.
  intros Hx Hy [_ R]. apply int32_nat in Hx, Hy. unfold int32 in *. split; apply Forall_map, Forall_forall; intros [i j] H; apply R in H; cbn [fst snd]; lia.
Qed.
Lemma gets_pairs n d l : Z.of_nat (length d) = n -> Forall pat2 d -> gets (f4s (2 * n)) (pairs d ++ l) (flat_map (fun p => [fst p; snd p]) d) l.
Proof.
  intros E F. unfold pairs, nums. apply gets_f4s.
  - rewrite <- E. clear. induction d as [|p d IH]; cbn [flat_map app length]; lia.
  - clear E. induction F as [|p d [P1 P2] _ IH]; cbn [flat_map app]; auto.
Qed.

Lemma split_at {A} (l : list A) k x : nth_error l k = Some x -> l = firstn k l ++ x :: skipn (S k) l.
Proof.
  revert k. induction l as [|y l IH]; intros [|k] H; try discriminate; cbn [firstn skipn app] in *; [now injection H as ->|]. f_equal. now apply IH.
Qed.

(** One local elevation solution. *)
Definition has (con : bytes) (L : zlocal) : bool := existsb (bytes_eqb con) (z_cons L).
Lemma has_iff con L : has con L = true <-> In con (z_cons L).
Proof.
  unfold has. rewrite existsb_exists. split; [intros (x & Hx & E); apply bytes_eqb_iff in E; now subst | intros H; exists con; split; auto; now apply bytes_eqb_iff].
Qed.
Definition z_entry (con : bytes) (L : zlocal) (e : bytes * local (Z * Z)) : Prop :=
  fst e = strip (z_name L) /\ exists k, nth_error (z_cons L) k = Some con /\ holds (snd e) (z_nx L) (z_ny L) (z_lon L) (z_lat L) (z_pts L) (nth k (z_data L) []).

Lemma zbody con d L l : zlocal_ok L ->
  (has con L = false -> gets (atlas_z_body con d) (zlocal_bytes L ++ l) d l)
  /\ (has con L = true -> exists e, z_entry con L e /\ gets (atlas_z_body con d) (zlocal_bytes L ++ l) (dict_set d (fst e) (snd e)) l).
Proof.
  intros (S1 & S2 & S3 & S4 & Lt & Ln & Sep & Nd & Nm & Pts & Ld & Hd).
  destruct (pts_ints _ _ _ S1 S2 Pts) as [Pi Pj].
  pose proof (int32_nat _ S1) as I1. pose proof (int32_nat _ S2) as I2. pose proof (int32_nat _ S3) as I3. pose proof (int32_nat _ S4) as I4.
  set (nz := length (z_pts L)) in *.
  assert (Lrec : forall dd, In dd (z_data L) -> length (frec (pairs dd)) = (8 * nz + 8)%nat).
  { intros dd Hdd. rewrite frec_length, pairs_length. destruct (Hd dd Hdd) as [-> _]. lia. }
  assert (Lnames : length (flat_map ljust4 (z_cons L)) = (4 * length (z_cons L))%nat).
  { apply names_length. intros c Hc. now apply Sep. }
  (* common prefix *)
  assert (Pre : forall A (a : A) (k : Z -> Z -> Z -> Z -> list Z -> list Z -> bytes -> reader A) l',
    (forall m, length m = 4%nat -> gets (k (Z.of_nat (z_nx L)) (Z.of_nat (z_ny L)) (Z.of_nat (length (z_cons L))) (Z.of_nat nz) [fst (z_lat L); snd (z_lat L)] [fst (z_lon L); snd (z_lon L)] (flat_map ljust4 (z_cons L)))
      (z_name L ++ m ++ frec (nums (map fst (z_pts L)) ++ nums (map snd (z_pts L))) ++ flat_map (fun d => frec (pairs d)) (z_data L) ++ l) a l') ->
    gets (seek 4 ;;; rd nx1 <- i4 ;; rd ny1 <- i4 ;; rd nc1 <- i4 ;; rd nz <- i4 ;; rd lt1 <- f4s 2 ;; rd ln1 <- f4s 2 ;; rd b <- read (nc1 * 4) ;; k nx1 ny1 nc1 nz lt1 ln1 b)
      (zlocal_bytes L ++ l) a l').
  { intros A a k l' H. unfold zlocal_bytes. set (r2 := frec (nums _ ++ nums _)). unfold frec at 1. rewrite <- !app_assoc.
    eapply gets_bind; [apply gets_seek; now rewrite be_length|]. unfold nums at 1. cbn [flat_map]. rewrite app_nil_r, <- !app_assoc.
    do 4 (eapply gets_bind; [apply gets_i4; auto|]). eapply gets_bind; [now apply gets_two|]. eapply gets_bind; [now apply gets_two|].
    eapply gets_bind; [apply gets_read; rewrite Lnames; lia|]. apply H. now rewrite be_length. }
  set (r2 := frec (nums (map fst (z_pts L)) ++ nums (map snd (z_pts L)))) in *.
  assert (Lr2 : length r2 = (8 * nz + 8)%nat) by (unfold r2; rewrite frec_length, app_length, !nums_length, !map_length; fold nz; lia).
  split.
  - intros Hh. assert (Hn : ~ In con (z_cons L)) by (rewrite <- has_iff, Hh; discriminate).
    unfold atlas_z_body. apply (Pre _ d (fun nx1 ny1 nc1 nz lt1 ln1 b => let cons := split (strip b) in _)). intros m Lm. cbv zeta.
    rewrite split_strip, (split_names _ Sep), (indices_none con _ Nd Hn).
    eapply gets_bind; [|apply gets_ret]. rewrite !app_assoc. rewrite <- !(app_assoc (((z_name L ++ m) ++ r2))). rewrite app_assoc. apply gets_seek.
    rewrite !app_length, Nm, Lm, Lr2, (flat_const_length _ (8 * nz + 8)) by (intros; now apply Lrec). rewrite Ld. lia.
  - intros Hh. apply has_iff in Hh. destruct (indices_found con _ Nd Hh) as (k & Kn & Ki).
    assert (Kl : (k < length (z_cons L))%nat) by (apply nth_error_Some; congruence).
    assert (Kd : nth_error (z_data L) k = Some (nth k (z_data L) [])) by (apply nth_error_nth'; lia).
    set (dk := nth k (z_data L) []) in *. destruct (Hd dk) as [Ldk Fdk]; [eapply nth_error_In; eauto|].
    destruct (scatter_ok (z_nx L) (z_ny L) (z_pts L) dk (fun _ _ => None) Pts Ldk) as (a & Ea & Ha1 & Ha2).
    exists (strip (z_name L), Local (Z.of_nat (z_ny L)) (Z.of_nat (z_nx L)) [fst (z_lon L); snd (z_lon L)] [fst (z_lat L); snd (z_lat L)] a). split.
    + split; [reflexivity|]. exists k. split; [exact Kn|]. unfold holds. cbn [snd l_nx l_ny l_lon l_lat l_at]. auto 10.
    + cbn [fst snd]. unfold atlas_z_body. apply (Pre _ _ (fun nx1 ny1 nc1 nz lt1 ln1 b => let cons := split (strip b) in _)). intros m Lm. cbv zeta.
      rewrite split_strip, (split_names _ Sep), Ki.
      eapply gets_bind; [apply gets_read; now rewrite Nm|].
      unfold r2, frec at 1. rewrite <- !app_assoc. rewrite app_assoc. eapply gets_bind; [apply gets_seek; now rewrite app_length, Lm, be_length|].
      eapply gets_bind; [apply gets_i4s; [now rewrite map_length | exact Pi]|]. eapply gets_bind; [apply gets_i4s; [now rewrite map_length | exact Pj]|].
      rewrite (split_at _ _ _ Kd) at 1. rewrite flat_map_app. cbn [flat_map]. unfold frec at 2. rewrite <- !app_assoc.
      rewrite (app_assoc (flat_map _ (firstn k (z_data L)))). rewrite (app_assoc (be 4 _) (flat_map _ (firstn k (z_data L)) ++ be 4 _)).
      eapply gets_bind.
      { apply gets_seek. rewrite !app_length, !be_length, (flat_const_length _ (8 * nz + 8)).
        - rewrite firstn_length, Ld, Nat.min_l by lia. lia.
        - intros x Hx. apply Lrec. rewrite <- (firstn_skipn k (z_data L)); apply in_or_app; now left. }
      eapply gets_bind; [apply gets_lift, shape_nat|].
      eapply gets_bind; [apply gets_pairs; [exact (f_equal Z.of_nat Ldk) | exact Fdk]|].
      destruct (every2 dk) as [Ev1 Ev2]. unfold interleave2 in Ev1, Ev2. rewrite Ev1, Ev2, combine_fst_snd.
      eapply gets_bind; [apply gets_lift; exact Ea|].
      eapply gets_bind; [|apply gets_ret]. rewrite app_assoc. apply gets_seek.
      rewrite !app_length, !be_length, (flat_const_length _ (8 * nz + 8)).
      * rewrite skipn_length, Ld. nia.
      * intros x Hx. apply Lrec. rewrite <- (firstn_skipn (S k) (z_data L)). apply in_or_app. now right.
Qed.

(** the loop over all local elevation solutions *)
Lemma Forall2_keys con past d : Forall2 (z_entry con) past d -> map fst d = map (fun L => strip (z_name L)) past.
Proof. induction 1 as [|L e past d [H _] _ IH]; cbn; congruence. Qed.
Lemma zloop con locals fuel : (length locals < fuel)%nat -> Forall zlocal_ok locals ->
  NoDup (map (fun L => strip (z_name L)) (filter (has con) locals)) ->
  exists d, gets (while_more fuel (atlas_z_body con) []) (flat_map zlocal_bytes locals) d [] /\ Forall2 (z_entry con) (filter (has con) locals) d.
Proof.
  intros Hf Ok_ Nd. apply (while_gets (atlas_z_body con) zlocal_bytes (fun past d => Forall2 (z_entry con) (filter (has con) past) d) locals) with (past := []); auto.
  - intros L E. apply (f_equal (@length Z)) in E. unfold zlocal_bytes in E. rewrite app_length, frec_length in E. cbn in E. lia.
  - intros past L todo d E HI l. assert (OL : zlocal_ok L) by (rewrite Forall_forall in Ok_; apply Ok_; rewrite E; apply in_or_app; right; now left).
    destruct (zbody con d L l OL) as [B1 B2]. rewrite filter_app. cbn [filter]. destruct (has con L) eqn:H.
    + destruct (B2 eq_refl) as (e & He & Ge). exists (dict_set d (fst e) (snd e)). split; auto.
      rewrite dict_set_new.
      * apply Forall2_app; auto.
      * rewrite (Forall2_keys _ _ _ HI). destruct He as [-> _]. rewrite E, filter_app in Nd. cbn [filter] in Nd. rewrite H, map_app in Nd. cbn [map] in Nd.
        apply NoDup_remove_2 in Nd. intros X. apply Nd. apply in_or_app. now left.
    + exists d. split; [now apply B1 | now rewrite app_nil_r].
  - constructor.
Qed.

(** ** C38 *)
(** Elevations: the global field ic (here over all entries, nan included), and for
    each local solution containing the constituent, in file order, its own field;
    solutions without the constituent are skipped without losing the position. *)
Theorem C38_elevation_partial h xlim ylim names locals ic con :
  fits3 h 8 -> field_patterns h -> short_names h names -> pat2 xlim -> pat2 ylim -> Forall zlocal_ok locals ->
  NoDup (map (fun L => strip (z_name L)) (filter (has con) locals)) -> (ic < nc3 h)%nat ->
  exists d, run (read_atlas_elevation ic con) (zfile h xlim ylim names locals)
    = Ok (map (fun m => map (fun i => at3 h m i ic) (seq 0 (nx3 h))) (seq 0 (ny3 h)), d)
    /\ Forall2 (z_entry con) (filter (has con) locals) d.
Proof.
  intros (F1 & F2 & F3 & F4) P [N1 N2] X Y Ok_ Nd Hic.
  set (file := zfile h xlim ylim names locals).
  destruct (zloop con locals (S (Z.to_nat (size file)))) as (d & Gd & Fd); auto.
  { unfold file, zfile. rewrite app_assoc. apply fuel_enough. intros L E. apply (f_equal (@length Z)) in E. unfold zlocal_bytes in E. rewrite app_length, frec_length in E. cbn in E. lia. }
  exists d. split; auto. set (row := fun c m => map (fun i => at3 h m i c) (seq 0 (nx3 h))).
  set (enc := fun c => frec (flat_map (fun m => pairs (row c m)) (seq 0 (ny3 h)))).
  assert (Le : forall c, length (enc c) = (8 * nx3 h * ny3 h + 8)%nat).
  { intros c. unfold enc. rewrite frec_length, (flat_const_length _ (8 * nx3 h)); [rewrite seq_length; nia|]. intros m _. rewrite pairs_length. unfold row. now rewrite map_length, seq_length. }
  assert (Ln : length (flat_map ljust4 names) = (4 * nc3 h)%nat) by (rewrite names_length by auto; lia).
  enough (G : forall f p, suf f p file -> length f = length file -> exists q, read_atlas_elevation ic con f p = Ok ((map (row ic) (seq 0 (ny3 h)), d), q)).
  { unfold run. destruct (G file 0) as (q & ->); auto. split; [lia | reflexivity]. }
  intros f p Hs Lf.
  assert (Sz : forall {B} (k : Z -> reader B) l b l', gets (k (size file)) l b l' -> forall q, suf f q l -> exists q', rbind fsize k f q = Ok (b, q')).
  { intros B k l b l' G q Hq. unfold rbind, fsize. replace (size f) with (size file) by (unfold size; now rewrite Lf). destruct (G f q Hq) as (q' & E & _). eauto. }
  unfold file, zfile in Hs. unfold frec at 1 in Hs. rewrite <- !app_assoc in Hs.
  change (flat_map _ (seq 0 (nc3 h))) with (flat_map enc (seq 0 (nc3 h))) in Hs.
  assert (Split : flat_map enc (seq 0 (nc3 h)) = flat_map enc (seq 0 ic) ++ enc ic ++ flat_map enc (seq (S ic) (nc3 h - S ic))).
  { replace (nc3 h) with (ic + S (nc3 h - S ic))%nat at 1 by lia. rewrite seq_app, flat_map_app. reflexivity. }
  rewrite Split in Hs. unfold enc at 2 in Hs. unfold frec at 1 in Hs. rewrite <- !app_assoc in Hs.
  unfold nums at 1 in Hs. cbn [flat_map] in Hs. rewrite app_nil_r, <- !app_assoc in Hs.
  set (mk := be 4 (Z.of_nat (length (flat_map (fun m => pairs (row ic m)) (seq 0 (ny3 h)))))) in *.
  match type of Hs with suf _ _ (be 4 ?ll ++ ?t) => set (hl := ll) in *; set (tl := t) in * end.
  (* header *)
  assert (Ihl : int32 hl).
  { unfold hl. rewrite !app_length, !be_length, Ln. cbn [two nums flat_map]. rewrite !app_length, !be_length. cbn [length]. unfold int32 in *. lia. }
  unfold read_atlas_elevation.
  assert (Go : gets (rd _ <- i4 ;; rd s <- i4x3 ;; f4s 2 ;;; f4s 2 ;;;
      seek (8 + snd s * 4 + Z.of_nat ic * (fst (fst s) * snd (fst s) * 8 + 8)) ;;;
      rlift (shape_ok (snd (fst s)) (fst (fst s))) ;;;
      rd rows <- rloop (Z.to_nat (snd (fst s))) (read_row2 (fst (fst s))) ;;
      seek ((snd s - Z.of_nat ic - 1) * (fst (fst s) * snd (fst s) * 8 + 8) + 4) ;;; rret rows)
      (be 4 hl ++ tl) (map (row ic) (seq 0 (ny3 h))) (flat_map zlocal_bytes locals)).
  { unfold tl. eapply gets_bind; [now apply gets_i4|]. eapply gets_bind; [apply gets_i4x3; auto; unfold int32 in *; lia|]. cbn [fst snd].
    eapply gets_bind; [now apply gets_two|]. eapply gets_bind; [now apply gets_two|].
    match goal with |- gets _ (flat_map ljust4 names ++ ?b ++ ?c ++ mk ++ ?t) _ _ => replace (flat_map ljust4 names ++ b ++ c ++ mk ++ t) with ((flat_map ljust4 names ++ b ++ c ++ mk) ++ t) by (now rewrite <- !app_assoc) end.
    eapply gets_bind.
    { apply gets_seek. unfold mk. rewrite !app_length, !be_length, Ln, (flat_const_length enc (8 * nx3 h * ny3 h + 8)), seq_length by auto. lia. }
    eapply gets_bind; [apply gets_lift, shape_nat|]. rewrite Nat2Z.id.
    eapply gets_bind.
    - pose proof (gets_rloop (read_row2 (Z.of_nat (nx3 h))) (fun r => flat_map (be 4) (interleave2 r)) (map (row ic) (seq 0 (ny3 h))) (mk ++ flat_map enc (seq (S ic) (nc3 h - S ic)) ++ flat_map zlocal_bytes locals)) as G.
      rewrite map_length, seq_length, flat_map_map in G. apply G.
      intros r l Hr. apply in_map_iff in Hr as (m & <- & _). apply gets_row2.
      + unfold row. now rewrite map_length, seq_length.
      + unfold row. apply Forall_map. apply Forall_forall. intros i _. apply P.
    - rewrite app_assoc. eapply gets_bind; [|apply gets_ret]. apply gets_seek. unfold mk. rewrite app_length, be_length, (flat_const_length enc (8 * nx3 h * ny3 h + 8)), seq_length by auto. nia. }
  destruct (Go f p Hs) as (q & Eq & Hq).
  assert (Last : exists q', (rd sz <- fsize ;; rd dd <- while_more (S (Z.to_nat sz)) (atlas_z_body con) [] ;; rret (map (row ic) (seq 0 (ny3 h)), dd)) f q = Ok ((map (row ic) (seq 0 (ny3 h)), d), q')).
  { eapply Sz; [|exact Hq]. eapply gets_bind; [exact Gd | apply gets_ret]. }
  destruct Last as (q' & E'). exists q'.
  (* run the prefix, then the loop *)
  revert Eq E'. clear. intros Eq E'. unfold rbind in *.
  repeat match type of Eq with context [match ?x with Ok _ => _ | Err _ => _ end] => destruct x as [[? ?]|]; [|discriminate Eq] end.
  unfold rret in Eq. injection Eq as -> ->. exact E'.
Qed.
Print Assumptions C38_elevation_partial.

(** A local solution whose constituent list has a four-character name followed by
    m2 does not provide m2: the names are read as one. *)
Definition loc_fused : zlocal := ZLocal 1 1 (0, 0) (0, 0) [[101; 112; 115; 50]; [109; 50]] (repeat 65 20) [(1, 1)] [[(1, 2)]; [(3, 4)]].
Theorem C38_fused_names_refuted : In [109; 50] (z_cons loc_fused)
  /\ run (read_atlas_elevation 0 [109; 50]) (zfile h11 (0, 0) (0, 0) [[109; 50]] [loc_fused]) = Ok ([[(1065353216, 1073741824)]], []).
Proof. split; [right; now left | vm_compute; reflexivity]. Qed.
Print Assumptions C38_fused_names_refuted.
(** a file with one local solution without the constituent followed by one with it *)
Definition loc_s2 : zlocal := ZLocal 2 2 (0, 0) (0, 0) [[115; 50]; [107; 49]] (repeat 65 20) [(1, 1); (2, 1)] [[(1, 2); (3, 4)]; [(5, 6); (7, 8)]].
Definition loc_m2 : zlocal := ZLocal 2 2 (0, 0) (0, 0) [[115; 50]; [109; 50]] (repeat 66 20) [(2, 2)] [[(11, 12)]; [(13, 14)]].
Example C38_case : match run (read_atlas_elevation 0 [109; 50]) (zfile h11 (0, 0) (0, 0) [[109; 50]] [loc_s2; loc_m2]) with
  | Ok (_, [(n, loc)]) => (n, l_at loc 1 1, l_at loc 0 0) | _ => ([], None, None) end = (repeat 66 20, Some (13, 14), None).
Proof. vm_compute. reflexivity. Qed.

(** ** Transports *)
Definition uvlocal_ok (L : uvlocal) : Prop :=
  small (t_nx L) /\ small (t_ny L) /\ small (length (t_cons L)) /\ small (length (t_upts L)) /\ small (length (t_vpts L)) /\ pat2 (t_lat L) /\ pat2 (t_lon L)
  /\ separable (t_cons L) /\ NoDup (t_cons L) /\ length (t_name L) = 20%nat /\ points_ok (t_nx L) (t_ny L) (t_upts L) /\ points_ok (t_nx L) (t_ny L) (t_vpts L)
  /\ length (t_data L) = length (t_cons L)
  /\ forall d, In d (t_data L) -> length (fst d) = length (t_upts L) /\ length (snd d) = length (t_vpts L) /\ Forall pat2 (fst d) /\ Forall pat2 (snd d).
Definition thas (con : bytes) (L : uvlocal) : bool := existsb (bytes_eqb con) (t_cons L).
Lemma thas_iff con L : thas con L = true <-> In con (t_cons L).
Proof.
  unfold thas. rewrite existsb_exists. split; [intros (x & Hx & E); apply bytes_eqb_iff in E; now subst | intros H; exists con; split; auto; now apply bytes_eqb_iff].
Qed.
Definition uv_entry (con : bytes) (L : uvlocal) (e : bytes * (local (Z * Z) * local (Z * Z))) : Prop :=
  fst e = strip (t_name L) /\ exists k, nth_error (t_cons L) k = Some con
    /\ holds (fst (snd e)) (t_nx L) (t_ny L) (t_lon L) (t_lat L) (t_upts L) (fst (nth k (t_data L) ([], [])))
    /\ holds (snd (snd e)) (t_nx L) (t_ny L) (t_lon L) (t_lat L) (t_vpts L) (snd (nth k (t_data L) ([], []))).

Lemma uvbody con d L l : uvlocal_ok L ->
  (thas con L = false -> gets (atlas_uv_body con d) (uvlocal_bytes L ++ l) d l)
  /\ (thas con L = true -> exists e, uv_entry con L e /\ gets (atlas_uv_body con d) (uvlocal_bytes L ++ l) (dict_set d (fst e) (snd e)) l).
Proof.
  intros (S1 & S2 & S3 & S4 & S5 & Lt & Ln & Sep & Nd & Nm & UPts & VPts & Ld & Hd).
  destruct (pts_ints _ _ _ S1 S2 UPts) as [UPi UPj]. destruct (pts_ints _ _ _ S1 S2 VPts) as [VPi VPj].
  pose proof (int32_nat _ S1) as I1. pose proof (int32_nat _ S2) as I2. pose proof (int32_nat _ S3) as I3. pose proof (int32_nat _ S4) as I4. pose proof (int32_nat _ S5) as I5.
  set (nu := length (t_upts L)) in *. set (nv := length (t_vpts L)) in *.
  set (enc := fun d : list (Z * Z) * list (Z * Z) => frec (pairs (fst d)) ++ frec (pairs (snd d))).
  assert (Lrec : forall dd, In dd (t_data L) -> length (enc dd) = (8 * nu + 8 * nv + 16)%nat).
  { intros dd Hdd. unfold enc. rewrite app_length, !frec_length, !pairs_length. destruct (Hd dd Hdd) as (-> & -> & _). lia. }
  assert (Lnames : length (flat_map ljust4 (t_cons L)) = (4 * length (t_cons L))%nat).
  { apply names_length. intros c Hc. now apply Sep. }
  set (r2 := frec (nums (map fst (t_upts L)) ++ nums (map snd (t_upts L)))). set (r3 := frec (nums (map fst (t_vpts L)) ++ nums (map snd (t_vpts L)))).
  assert (Pre : forall A (a : A) (k : Z -> Z -> Z -> Z -> Z -> list Z -> list Z -> bytes -> reader A) l',
    (forall m, length m = 4%nat -> gets (k (Z.of_nat (t_nx L)) (Z.of_nat (t_ny L)) (Z.of_nat (length (t_cons L))) (Z.of_nat nu) (Z.of_nat nv) [fst (t_lat L); snd (t_lat L)] [fst (t_lon L); snd (t_lon L)] (flat_map ljust4 (t_cons L)))
      (t_name L ++ m ++ r2 ++ r3 ++ flat_map enc (t_data L) ++ l) a l') ->
    gets (seek 4 ;;; rd nx1 <- i4 ;; rd ny1 <- i4 ;; rd nc1 <- i4 ;; rd nu <- i4 ;; rd nv <- i4 ;; rd lt1 <- f4s 2 ;; rd ln1 <- f4s 2 ;; rd b <- read (nc1 * 4) ;; k nx1 ny1 nc1 nu nv lt1 ln1 b)
      (uvlocal_bytes L ++ l) a l').
  { intros A a k l' H. unfold uvlocal_bytes. fold r2 r3 enc. unfold frec at 1. rewrite <- !app_assoc.
    eapply gets_bind; [apply gets_seek; now rewrite be_length|]. unfold nums at 1. cbn [flat_map]. rewrite app_nil_r, <- !app_assoc.
    do 5 (eapply gets_bind; [apply gets_i4; auto|]). eapply gets_bind; [now apply gets_two|]. eapply gets_bind; [now apply gets_two|].
    eapply gets_bind; [apply gets_read; rewrite Lnames; lia|]. apply H. now rewrite be_length. }
  assert (Lr2 : length r2 = (8 * nu + 8)%nat) by (unfold r2; rewrite frec_length, app_length, !nums_length, !map_length; fold nu; lia).
  assert (Lr3 : length r3 = (8 * nv + 8)%nat) by (unfold r3; rewrite frec_length, app_length, !nums_length, !map_length; fold nv; lia).
  split.
  - intros Hh. assert (Hn : ~ In con (t_cons L)) by (rewrite <- thas_iff, Hh; discriminate).
    unfold atlas_uv_body. apply (Pre _ d (fun nx1 ny1 nc1 nu nv lt1 ln1 b => let cons := split (strip b) in _)). intros m Lm. cbv zeta.
    rewrite split_strip, (split_names _ Sep), (indices_none con _ Nd Hn).
    eapply gets_bind; [|apply gets_ret].
    replace (t_name L ++ m ++ r2 ++ r3 ++ flat_map enc (t_data L) ++ l) with ((t_name L ++ m ++ r2 ++ r3 ++ flat_map enc (t_data L)) ++ l) by (now rewrite <- !app_assoc).
    apply gets_seek. rewrite !app_length, Nm, Lm, Lr2, Lr3, (flat_const_length enc (8 * nu + 8 * nv + 16)) by (intros; now apply Lrec). rewrite Ld. lia.
  - intros Hh. apply thas_iff in Hh. destruct (indices_found con _ Nd Hh) as (k & Kn & Ki).
    assert (Kl : (k < length (t_cons L))%nat) by (apply nth_error_Some; congruence).
    assert (Kd : nth_error (t_data L) k = Some (nth k (t_data L) ([], []))) by (apply nth_error_nth'; lia).
    set (dk := nth k (t_data L) ([], [])) in *. destruct (Hd dk) as (Lu & Lv & Fu & Fv); [eapply nth_error_In; eauto|].
    destruct (scatter_ok (t_nx L) (t_ny L) (t_upts L) (fst dk) (fun _ _ => None) UPts Lu) as (a & Ea & Ha1 & Ha2).
    destruct (scatter_ok (t_nx L) (t_ny L) (t_vpts L) (snd dk) (fun _ _ => None) VPts Lv) as (b & Eb & Hb1 & Hb2).
    exists (strip (t_name L), (Local (Z.of_nat (t_ny L)) (Z.of_nat (t_nx L)) [fst (t_lon L); snd (t_lon L)] [fst (t_lat L); snd (t_lat L)] a,
                               Local (Z.of_nat (t_ny L)) (Z.of_nat (t_nx L)) [fst (t_lon L); snd (t_lon L)] [fst (t_lat L); snd (t_lat L)] b)). split.
    + split; [reflexivity|]. exists k. split; [exact Kn|]. unfold holds. cbn [fst snd l_nx l_ny l_lon l_lat l_at]. fold dk. auto 14.
    + cbn [fst snd]. unfold atlas_uv_body. apply (Pre _ _ (fun nx1 ny1 nc1 nu nv lt1 ln1 b => let cons := split (strip b) in _)). intros m Lm. cbv zeta.
      rewrite split_strip, (split_names _ Sep), Ki.
      eapply gets_bind; [apply gets_read; now rewrite Nm|].
      unfold r2, frec at 1. rewrite <- !app_assoc. rewrite app_assoc. eapply gets_bind; [apply gets_seek; now rewrite app_length, Lm, be_length|].
      eapply gets_bind; [apply gets_i4s; [now rewrite map_length | exact UPi]|]. eapply gets_bind; [apply gets_i4s; [now rewrite map_length | exact UPj]|].
      unfold r3, frec at 1. rewrite <- !app_assoc. rewrite app_assoc. eapply gets_bind; [apply gets_seek; now rewrite app_length, !be_length|].
      eapply gets_bind; [apply gets_i4s; [now rewrite map_length | exact VPi]|]. eapply gets_bind; [apply gets_i4s; [now rewrite map_length | exact VPj]|].
      rewrite (split_at _ _ _ Kd) at 1. rewrite flat_map_app. cbn [flat_map]. change (enc dk) with (frec (pairs (fst dk)) ++ frec (pairs (snd dk))).
      unfold frec. rewrite <- !app_assoc.
      rewrite (app_assoc (flat_map _ (firstn k (t_data L)))). rewrite (app_assoc (be 4 _) (flat_map _ (firstn k (t_data L)) ++ be 4 _)).
      eapply gets_bind.
      { apply gets_seek. rewrite !app_length, !be_length, (flat_const_length _ (8 * nu + 8 * nv + 16)).
        - rewrite firstn_length, Ld, Nat.min_l by lia. lia.
        - intros x Hx. apply Lrec. rewrite <- (firstn_skipn k (t_data L)); apply in_or_app; now left. }
      eapply gets_bind; [apply gets_lift, shape_nat|].
      eapply gets_bind; [apply gets_pairs; [exact (f_equal Z.of_nat Lu) | exact Fu]|].
      destruct (every2 (fst dk)) as [Ev1 Ev2]. unfold interleave2 in Ev1, Ev2. rewrite Ev1, Ev2, combine_fst_snd.
      eapply gets_bind; [apply gets_lift; exact Ea|].
      rewrite (app_assoc (be 4 _) (be 4 _)). eapply gets_bind; [apply gets_seek; now rewrite app_length, !be_length|].
      eapply gets_bind; [apply gets_pairs; [exact (f_equal Z.of_nat Lv) | exact Fv]|].
      destruct (every2 (snd dk)) as [Ew1 Ew2]. unfold interleave2 in Ew1, Ew2. rewrite Ew1, Ew2, combine_fst_snd.
      eapply gets_bind; [apply gets_lift; exact Eb|].
      eapply gets_bind; [|apply gets_ret]. rewrite app_assoc. apply gets_seek.
      rewrite !app_length, !be_length, (flat_const_length _ (8 * nu + 8 * nv + 16)).
      * rewrite skipn_length, Ld. nia.
      * intros x Hx. apply Lrec. rewrite <- (firstn_skipn (S k) (t_data L)). apply in_or_app. now right.
Qed.
Lemma uv_keys con past d : Forall2 (uv_entry con) past d -> map fst d = map (fun L => strip (t_name L)) past.
Proof. induction 1 as [|L e past d [H _] _ IH]; cbn; congruence. Qed.
Lemma uvloop con locals fuel : (length locals < fuel)%nat -> Forall uvlocal_ok locals ->
  NoDup (map (fun L => strip (t_name L)) (filter (thas con) locals)) ->
  exists d, gets (while_more fuel (atlas_uv_body con) []) (flat_map uvlocal_bytes locals) d [] /\ Forall2 (uv_entry con) (filter (thas con) locals) d.
Proof.
  intros Hf Ok_ Nd. apply (while_gets (atlas_uv_body con) uvlocal_bytes (fun past d => Forall2 (uv_entry con) (filter (thas con) past) d) locals) with (past := []); auto.
  - intros L E. apply (f_equal (@length Z)) in E. unfold uvlocal_bytes in E. rewrite app_length, frec_length in E. cbn in E. lia.
  - intros past L todo d E HI l. assert (OL : uvlocal_ok L) by (rewrite Forall_forall in Ok_; apply Ok_; rewrite E; apply in_or_app; right; now left).
    destruct (uvbody con d L l OL) as [B1 B2]. rewrite filter_app. cbn [filter]. destruct (thas con L) eqn:H.
    + destruct (B2 eq_refl) as (e & He & Ge). exists (dict_set d (fst e) (snd e)). split; auto.
      rewrite dict_set_new.
      * apply Forall2_app; auto.
      * rewrite (uv_keys _ _ _ HI). destruct He as [-> _]. rewrite E, filter_app in Nd. cbn [filter] in Nd. rewrite H, map_app in Nd. cbn [map] in Nd.
        apply NoDup_remove_2 in Nd. intros X. apply Nd. apply in_or_app. now left.
    + exists d. split; [now apply B1 | now rewrite app_nil_r].
  - constructor.
Qed.

Theorem C38_transport_partial u v xlim ylim names locals ic con :
  nx3 v = nx3 u -> ny3 v = ny3 u -> nc3 v = nc3 u ->
  fits3 u 16 -> field_patterns u -> field_patterns v -> short_names u names -> pat2 xlim -> pat2 ylim -> Forall uvlocal_ok locals ->
  NoDup (map (fun L => strip (t_name L)) (filter (thas con) locals)) -> (ic < nc3 u)%nat ->
  exists d, run (read_atlas_transport ic con) (uvfile u v xlim ylim names locals)
    = Ok ((map (fun m => map (fun i => at3 u m i ic) (seq 0 (nx3 u))) (seq 0 (ny3 u)), map (fun m => map (fun i => at3 v m i ic) (seq 0 (nx3 u))) (seq 0 (ny3 u))), d)
    /\ Forall2 (uv_entry con) (filter (thas con) locals) d.
Proof.
  intros _ _ _ (F1 & F2 & F3 & F4) P Q [N1 N2] X Y Ok_ Nd Hic.
  set (file := uvfile u v xlim ylim names locals).
  destruct (uvloop con locals (S (Z.to_nat (size file)))) as (d & Gd & Fd); auto.
  { unfold file, uvfile. rewrite app_assoc. apply fuel_enough. intros L E. apply (f_equal (@length Z)) in E. unfold uvlocal_bytes in E. rewrite app_length, frec_length in E. cbn in E. lia. }
  exists d. split; auto. set (row := fun c m => map (fun i => (at3 u m i c, at3 v m i c)) (seq 0 (nx3 u))).
  set (enc := fun c => frec (flat_map (fun m => nums (flat_map quad (row c m))) (seq 0 (ny3 u)))).
  assert (Le : forall c, length (enc c) = (16 * nx3 u * ny3 u + 8)%nat).
  { intros c. unfold enc. rewrite frec_length, (flat_const_length _ (16 * nx3 u)); [rewrite seq_length; nia|]. intros m _. rewrite nums_length, (flat_const_length quad 4) by reflexivity. unfold row. rewrite map_length, seq_length. lia. }
  assert (Ln : length (flat_map ljust4 names) = (4 * nc3 u)%nat) by (rewrite names_length by auto; lia).
  replace (map (fun m => map (fun i => at3 u m i ic) (seq 0 (nx3 u))) (seq 0 (ny3 u))) with (map (map fst) (map (row ic) (seq 0 (ny3 u))))
    by (rewrite map_map; apply map_ext; intros m; unfold row; now rewrite map_map).
  replace (map (fun m => map (fun i => at3 v m i ic) (seq 0 (nx3 u))) (seq 0 (ny3 u))) with (map (map snd) (map (row ic) (seq 0 (ny3 u))))
    by (rewrite map_map; apply map_ext; intros m; unfold row; now rewrite map_map).
  enough (G : forall f p, suf f p file -> length f = length file -> exists q, read_atlas_transport ic con f p = Ok ((map (map fst) (map (row ic) (seq 0 (ny3 u))), map (map snd) (map (row ic) (seq 0 (ny3 u))), d), q)).
  { unfold run. destruct (G file 0) as (q & ->); auto. split; [lia | reflexivity]. }
  intros f p Hs Lf.
  assert (Sz : forall {B} (k : Z -> reader B) l b l', gets (k (size file)) l b l' -> forall q, suf f q l -> exists q', rbind fsize k f q = Ok (b, q')).
  { intros B k l b l' G q Hq. unfold rbind, fsize. replace (size f) with (size file) by (unfold size; now rewrite Lf). destruct (G f q Hq) as (q' & E & _). eauto. }
  unfold file, uvfile in Hs. unfold frec at 1 in Hs. rewrite <- !app_assoc in Hs.
  replace (flat_map _ (seq 0 (nc3 u))) with (flat_map enc (seq 0 (nc3 u))) in Hs.
  2: { apply flat_map_ext. intros c. unfold enc. f_equal. apply flat_map_ext. intros m. f_equal. unfold row. now rewrite flat_map_map. }
  assert (Split : flat_map enc (seq 0 (nc3 u)) = flat_map enc (seq 0 ic) ++ enc ic ++ flat_map enc (seq (S ic) (nc3 u - S ic))).
  { replace (nc3 u) with (ic + S (nc3 u - S ic))%nat at 1 by lia. rewrite seq_app, flat_map_app. reflexivity. }
  rewrite Split in Hs. unfold enc at 2 in Hs. unfold frec at 1 in Hs. rewrite <- !app_assoc in Hs.
  unfold nums at 1 in Hs. cbn [flat_map] in Hs. rewrite app_nil_r, <- !app_assoc in Hs.
  set (mk := be 4 (Z.of_nat (length (flat_map (fun m => nums (flat_map quad (row ic m))) (seq 0 (ny3 u)))))) in *.
  match type of Hs with suf _ _ (be 4 ?ll ++ ?t) => set (hl := ll) in *; set (tl := t) in * end.
  assert (Ihl : int32 hl).
  { unfold hl. rewrite !app_length, !be_length, Ln. cbn [two nums flat_map]. rewrite !app_length, !be_length. cbn [length]. unfold int32 in *. lia. }
  unfold read_atlas_transport.
  assert (Go : gets (rd _ <- i4 ;; rd s <- i4x3 ;; f4s 2 ;;; f4s 2 ;;;
      seek (8 + snd s * 4 + Z.of_nat ic * (fst (fst s) * snd (fst s) * 16 + 8)) ;;;
      rlift (shape_ok (snd (fst s)) (fst (fst s))) ;;;
      rd rows <- rloop (Z.to_nat (snd (fst s))) (read_row4 (fst (fst s))) ;;
      seek ((snd s - Z.of_nat ic - 1) * (fst (fst s) * snd (fst s) * 16 + 8) + 4) ;;; rret rows)
      (be 4 hl ++ tl) (map (row ic) (seq 0 (ny3 u))) (flat_map uvlocal_bytes locals)).
  { unfold tl. eapply gets_bind; [now apply gets_i4|]. eapply gets_bind; [apply gets_i4x3; auto; unfold int32 in *; lia|]. cbn [fst snd].
    eapply gets_bind; [now apply gets_two|]. eapply gets_bind; [now apply gets_two|].
    match goal with |- gets _ (flat_map ljust4 names ++ ?b ++ ?c ++ mk ++ ?t) _ _ => replace (flat_map ljust4 names ++ b ++ c ++ mk ++ t) with ((flat_map ljust4 names ++ b ++ c ++ mk) ++ t) by (now rewrite <- !app_assoc) end.
    eapply gets_bind.
    { apply gets_seek. unfold mk. rewrite !app_length, !be_length, Ln, (flat_const_length enc (16 * nx3 u * ny3 u + 8)), seq_length by auto. lia. }
    eapply gets_bind; [apply gets_lift, shape_nat|]. rewrite Nat2Z.id.
    eapply gets_bind.
    - pose proof (gets_rloop (read_row4 (Z.of_nat (nx3 u))) (fun r => flat_map (be 4) (flat_map quad r)) (map (row ic) (seq 0 (ny3 u))) (mk ++ flat_map enc (seq (S ic) (nc3 u - S ic)) ++ flat_map uvlocal_bytes locals)) as G.
      rewrite map_length, seq_length, flat_map_map in G. apply G.
      intros r l Hr. apply in_map_iff in Hr as (m & <- & _). apply gets_row4.
      + unfold row. now rewrite map_length, seq_length.
      + unfold row. apply Forall_map. apply Forall_forall. intros i _. split; [apply P | apply Q].
    - rewrite app_assoc. eapply gets_bind; [|apply gets_ret]. apply gets_seek. unfold mk. rewrite app_length, be_length, (flat_const_length enc (16 * nx3 u * ny3 u + 8)), seq_length by auto. nia. }
  destruct (Go f p Hs) as (q & Eq & Hq).
  set (rows0 := map (row ic) (seq 0 (ny3 u))) in *.
  assert (Last : exists q', (rd sz <- fsize ;; rd dd <- while_more (S (Z.to_nat sz)) (atlas_uv_body con) [] ;; rret ((map (map fst) rows0, map (map snd) rows0), dd)) f q = Ok ((map (map fst) rows0, map (map snd) rows0, d), q')).
  { eapply Sz; [|exact Hq]. eapply gets_bind; [exact Gd | apply gets_ret]. }
  destruct Last as (q' & E'). exists q'.
  revert Eq E'. clear. intros Eq E'. unfold rbind in *.
  repeat match type of Eq with context [match ?x with Ok _ => _ | Err _ => _ end] => destruct x as [[? ?]|]; [|discriminate Eq] end.
  unfold rret in Eq. injection Eq as -> ->. exact E'.
Qed.
Print Assumptions C38_transport_partial.

(** ** Bathymetry *)
Definition glocal_ok (L : glocal) : Prop :=
  small (b_nx L) /\ small (b_ny L) /\ small (length (b_pts L)) /\ pat2 (b_lat L) /\ pat2 (b_lon L) /\ length (b_name L) = 20%nat
  /\ points_ok (b_nx L) (b_ny L) (b_pts L) /\ length (b_depth L) = length (b_pts L) /\ Forall pattern (b_depth L).
Definition g_entry (L : glocal) (e : bytes * local Z) : Prop :=
  fst e = strip (b_name L) /\ holds (snd e) (b_nx L) (b_ny L) (b_lon L) (b_lat L) (b_pts L) (b_depth L).
Lemma gbody d L l : glocal_ok L -> exists e, g_entry L e /\ gets (atlas_grid_body d) (glocal_bytes L ++ l) (dict_set d (fst e) (snd e)) l.
Proof.
  intros (S1 & S2 & S3 & Lt & Ln & Nm & Pts & Ld & Hd).
  destruct (pts_ints _ _ _ S1 S2 Pts) as [Pi Pj].
  pose proof (int32_nat _ S1) as I1. pose proof (int32_nat _ S2) as I2. pose proof (int32_nat _ S3) as I3.
  destruct (scatter_ok (b_nx L) (b_ny L) (b_pts L) (b_depth L) (fun _ _ => None) Pts Ld) as (a & Ea & Ha1 & Ha2).
  exists (strip (b_name L), Local (Z.of_nat (b_ny L)) (Z.of_nat (b_nx L)) [fst (b_lon L); snd (b_lon L)] [fst (b_lat L); snd (b_lat L)] a). split.
  - split; [reflexivity|]. unfold holds. cbn [snd l_nx l_ny l_lon l_lat l_at]. auto 10.
  - cbn [fst snd]. unfold atlas_grid_body, glocal_bytes, frec. rewrite <- !app_assoc.
    eapply gets_bind; [apply gets_seek; now rewrite be_length|]. unfold nums at 1. cbn [flat_map]. rewrite app_nil_r, <- !app_assoc.
    do 3 (eapply gets_bind; [apply gets_i4; auto|]). eapply gets_bind; [now apply gets_two|]. eapply gets_bind; [now apply gets_two|].
    eapply gets_bind; [apply gets_read; now rewrite Nm|].
    rewrite (app_assoc (be 4 _) (be 4 _)). eapply gets_bind; [apply gets_seek; now rewrite app_length, !be_length|].
    eapply gets_bind; [apply gets_i4s; [now rewrite map_length | exact Pi]|]. eapply gets_bind; [apply gets_i4s; [now rewrite map_length | exact Pj]|].
    rewrite (app_assoc (be 4 _) (be 4 _)). eapply gets_bind; [apply gets_seek; now rewrite app_length, !be_length|].
    eapply gets_bind; [apply gets_lift, shape_nat|].
    eapply gets_bind; [apply gets_f4s; [exact (f_equal Z.of_nat Ld) | exact Hd]|].
    eapply gets_bind; [apply gets_lift; exact Ea|].
    eapply gets_bind; [|apply gets_ret]. apply gets_seek. now rewrite be_length.
Qed.
Lemma g_keys past d : Forall2 g_entry past d -> map fst d = map (fun L => strip (b_name L)) past.
Proof. induction 1 as [|L e past d [H _] _ IH]; cbn; congruence. Qed.
Lemma gloop locals fuel : (length locals < fuel)%nat -> Forall glocal_ok locals -> NoDup (map (fun L => strip (b_name L)) locals) ->
  exists d, gets (while_more fuel atlas_grid_body []) (flat_map glocal_bytes locals) d [] /\ Forall2 g_entry locals d.
Proof.
  intros Hf Ok_ Nd. apply (while_gets atlas_grid_body glocal_bytes (fun past d => Forall2 g_entry past d) locals) with (past := []); auto.
  - intros L E. apply (f_equal (@length Z)) in E. unfold glocal_bytes in E. rewrite app_length, frec_length in E. cbn in E. lia.
  - intros past L todo d E HI l. assert (OL : glocal_ok L) by (rewrite Forall_forall in Ok_; apply Ok_; rewrite E; apply in_or_app; right; now left).
    destruct (gbody d L l OL) as (e & He & Ge). exists (dict_set d (fst e) (snd e)). split; auto.
    rewrite dict_set_new; [apply Forall2_app; auto|].
    rewrite (g_keys _ _ HI). destruct He as [-> _]. rewrite E, map_app in Nd. cbn [map] in Nd. apply NoDup_remove_2 in Nd. intros X. apply Nd. apply in_or_app. now left.
Qed.
Lemma gets_plane_be (a : arr2) l : patterns a -> gets (read_plane (Z.of_nat (ny2 a)) (Z.of_nat (nx2 a)) false) (nums (all2 a) ++ l) (rows_of a) l.
Proof.
  intros P. unfold read_plane. eapply gets_bind.
  - apply gets_f4s; [rewrite all2_length; lia | now apply all2_in].
  - apply gets_lift. rewrite all2_concat. apply reshape_ok; [unfold rows_of; now rewrite map_length, seq_length | lia |].
    intros r H. unfold rows_of in H. apply in_map_iff in H as (m & <- & _). now rewrite map_length, seq_length.
Qed.
Lemma gets_plane_int (a : arr2) l : ints a -> gets (read_plane (Z.of_nat (ny2 a)) (Z.of_nat (nx2 a)) true) (nums (all2 a) ++ l) (rows_of a) l.
Proof.
  intros P. unfold read_plane. eapply gets_bind.
  - apply gets_i4s; [rewrite all2_length; lia | now apply all2_in].
  - apply gets_lift. rewrite all2_concat. apply reshape_ok; [unfold rows_of; now rewrite map_length, seq_length | lia |].
    intros r H. unfold rows_of in H. apply in_map_iff in H as (m & <- & _). now rewrite map_length, seq_length.
Qed.

Theorem C38_grid hz mz pm xlim ylim dt iob locals :
  ny2 mz = ny2 hz -> nx2 mz = nx2 hz -> ny2 pm = ny2 hz -> nx2 pm = nx2 hz -> fits (nx2 hz) (ny2 hz) (length iob) ->
  patterns hz -> ints mz -> ints pm -> pat2 xlim -> pat2 ylim -> pattern dt -> Forall (fun p => int32 (fst p) /\ int32 (snd p)) iob ->
  Forall glocal_ok locals -> NoDup (map (fun L => strip (b_name L)) locals) ->
  exists g d, run read_atlas_grid (gfile hz mz pm xlim ylim dt iob locals) = Ok (g, rows_of pm, d)
    /\ g_nx g = Z.of_nat (nx2 hz) /\ g_ny g = Z.of_nat (ny2 hz) /\ g_xlim g = [fst xlim; snd xlim] /\ g_ylim g = [fst ylim; snd ylim]
    /\ g_dt g = dt /\ g_iob g = map (fun p => [fst p; snd p]) iob /\ g_hz g = rows_of hz /\ g_mz g = rows_of mz
    /\ Forall2 g_entry locals d.
Proof.
  intros E1 E2 E3 E4 (F1 & F2 & F3 & F4) P Q R X Y D I Ok_ Nd.
  set (file := gfile hz mz pm xlim ylim dt iob locals).
  destruct (gloop locals (S (Z.to_nat (size file)))) as (d & Gd & Fd); auto.
  { unfold file, gfile. rewrite !app_assoc. apply fuel_enough. intros L E. apply (f_equal (@length Z)) in E. unfold glocal_bytes in E. rewrite app_length, frec_length in E. cbn in E. lia. }
  set (g := OtisGrid (Z.of_nat (nx2 hz)) (Z.of_nat (ny2 hz)) [fst ylim; snd ylim] [fst xlim; snd xlim] dt (map (fun p => [fst p; snd p]) iob) (rows_of hz) (rows_of mz)).
  exists g, d. split; [|now repeat (split; [reflexivity|])].
  enough (G : forall f p, suf f p file -> length f = length file -> exists q, read_atlas_grid f p = Ok ((g, rows_of pm, d), q)).
  { unfold run. destruct (G file 0) as (q & ->); auto. split; [lia | reflexivity]. }
  intros f p Hs Lf.
  assert (Sz : forall {B} (k : Z -> reader B) l b l', gets (k (size file)) l b l' -> forall q, suf f q l -> exists q', rbind fsize k f q = Ok (b, q')).
  { intros B k l b l' G q Hq. unfold rbind, fsize. replace (size f) with (size file) by (unfold size; now rewrite Lf). destruct (G f q Hq) as (q' & E & _). eauto. }
  assert (Go : gets (seek 4 ;;; rd nx <- i4 ;; rd ny <- i4 ;; rd ylim <- f4s 2 ;; rd xlim <- f4s 2 ;; rd dt <- f4 ;;
      rd iob <- read_iob ;; rd hz <- read_plane ny nx false ;; seek 8 ;;; rd mz <- read_plane ny nx true ;; seek 8 ;;;
      rd pm <- read_plane ny nx true ;; seek 4 ;;; rret (OtisGrid nx ny ylim xlim dt iob hz mz, pm)) file (g, rows_of pm) (flat_map glocal_bytes locals)).
  { unfold file, gfile. unfold frec at 1. rewrite <- !app_assoc.
    eapply gets_bind; [apply gets_seek; now rewrite be_length|]. unfold nums at 1. cbn [flat_map]. rewrite app_nil_r, <- !app_assoc.
    do 2 (eapply gets_bind; [apply gets_i4; auto|]). eapply gets_bind; [now apply gets_two|]. eapply gets_bind; [now apply gets_two|].
    unfold nums at 1. cbn [flat_map]. rewrite app_nil_r, <- !app_assoc. eapply gets_bind; [now apply gets_f4|].
    match goal with |- gets _ (be 4 ?n ++ be 4 ?b ++ frec ?c ++ frec (nums (all2 hz)) ++ ?t) _ _ =>
      set (T := nums (all2 hz) ++ be 4 (Z.of_nat (length (nums (all2 hz)))) ++ t);
      replace (be 4 n ++ be 4 b ++ frec c ++ frec (nums (all2 hz)) ++ t) with (be 4 n ++ be 4 b ++ frec c ++ be 4 (Z.of_nat (length (nums (all2 hz)))) ++ T)
        by (unfold T, frec; now rewrite <- !app_assoc) end.
    eapply gets_bind with (a := map (fun p => [fst p; snd p]) iob) (l' := T).
    { unfold read_iob. eapply gets_bind; [apply gets_i4; unfold int32 in *; lia|].
      destruct (Z.of_nat (length iob) =? 0) eqn:Z0.
      - apply Z.eqb_eq in Z0. destruct iob; [|cbn in Z0; lia]. eapply gets_bind; [|apply gets_ret]. unfold frec. rewrite <- !app_assoc.
        match goal with |- gets _ (?a ++ ?b ++ ?c ++ ?e ++ ?h ++ T) _ _ => replace (a ++ b ++ c ++ e ++ h ++ T) with ((a ++ b ++ c ++ e ++ h) ++ T) by (now rewrite <- !app_assoc) end.
        apply gets_seek. rewrite !app_length, !be_length. reflexivity.
      - unfold frec at 1. rewrite <- !app_assoc. destruct iob as [|p0 iob]; [discriminate|]. set (iob' := p0 :: iob) in *.
        change (match iob' with [] => be 4 0 | _ => pairs iob' end) with (pairs iob').
        rewrite (app_assoc (be 4 _) (be 4 _)). eapply gets_bind; [apply gets_seek; now rewrite app_length, !be_length|].
        unfold pairs at 2. eapply gets_bind.
        { apply gets_i4s; [rewrite (flat_const_length _ 2) by reflexivity; lia|].
          apply Forall_forall. intros x Hx. apply in_flat_map in Hx as (p1 & Hp & Hx). rewrite Forall_forall in I. destruct (I p1 Hp). cbn in Hx. destruct Hx as [<-|[<-|[]]]; auto. }
        eapply gets_bind.
        { apply gets_lift. rewrite flat_map_concat_map. apply reshape_ok; [now rewrite map_length | lia|]. intros r H. apply in_map_iff in H as (p1 & <- & _). reflexivity. }
        rewrite (app_assoc (be 4 _) (be 4 _)). eapply gets_bind; [apply gets_seek; now rewrite app_length, !be_length | apply gets_ret]. }
    unfold T. eapply gets_bind; [now apply gets_plane_be|].
    unfold frec. rewrite <- !app_assoc. rewrite (app_assoc (be 4 _) (be 4 _)). eapply gets_bind; [apply gets_seek; now rewrite app_length, !be_length|].
    rewrite <- E1, <- E2. eapply gets_bind; [now apply gets_plane_int|]. rewrite E1, E2.
    rewrite (app_assoc (be 4 _) (be 4 _)). eapply gets_bind; [apply gets_seek; now rewrite app_length, !be_length|].
    rewrite <- E3, <- E4. eapply gets_bind; [now apply gets_plane_int|]. rewrite E3, E4.
    eapply gets_bind; [apply gets_seek; now rewrite be_length | apply gets_ret]. }
  destruct (Go f p Hs) as (q & Eq & Hq).
  assert (Last : exists q', (rd sz <- fsize ;; rd dd <- while_more (S (Z.to_nat sz)) atlas_grid_body [] ;; rret (g, rows_of pm, dd)) f q = Ok ((g, rows_of pm, d), q')).
  { eapply Sz; [|exact Hq]. eapply gets_bind; [exact Gd | apply gets_ret]. }
  destruct Last as (q' & E'). exists q'. unfold read_atlas_grid.
  revert Eq E'. generalize g (rows_of pm). clear. intros g pm Eq E'. unfold rbind in *.
  repeat match type of Eq with context [match ?x with Ok _ => _ | Err _ => _ end] => destruct x as [[? ?]|]; [|discriminate Eq] end.
  unfold rret in Eq. injection Eq as <- <- <-. exact E'.
Qed.
Print Assumptions C38_grid.
Definition g12 : arr2 := Arr2 1 2 (DT 4 true) (fun _ i => Z.of_nat i + 7).
Example C38_grid_case : match run read_atlas_grid (gfile g12 g12 g12 (1, 2) (3, 4) 5 [(1, 1)] [GLocal 2 2 (0, 0) (0, 0) (repeat 67 20) [(2, 1)] [9]]) with
  | Ok (g, pm, [(n, loc)]) => (g_hz g, g_mz g, pm, n, l_at loc 0 1, l_at loc 1 0) | _ => ([], [], [], [], None, None) end
  = ([[7; 8]], [[7; 8]], [[7; 8]], repeat 67 20, Some 9, None).
Proof. vm_compute. reflexivity. Qed.
