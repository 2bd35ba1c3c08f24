(** Reading back what was written: suffix reasoning about readers. *)
From Coq Require Import ZArith List Bool Lia.
From Verif Require Import PyBase OtisModel.
Import ListNotations.
Open Scope Z_scope.

Definition pattern (x : Z) : Prop := 0 <= x < 2 ^ 32.
Definition int32 (x : Z) : Prop := - 2 ^ 31 <= x < 2 ^ 31.

Lemma be_length n w : length (be n w) = n.
Proof. induction n; cbn; auto. Qed.
Lemma un_be_be n w : un_be (be n w) = w mod 256 ^ Z.of_nat n.
Proof.
  induction n as [|n IH]; [cbn; now rewrite Z.mod_1_r|].
  cbn [be un_be]. rewrite be_length, IH. unfold byte_of.
  replace (Z.of_nat (S n)) with (Z.of_nat n + 1) by lia. rewrite Z.pow_add_r, Z.pow_1_r by lia.
  rewrite (Zmod_eq w (256 ^ Z.of_nat n * 256)) by lia. rewrite (Zmod_eq w (256 ^ Z.of_nat n)) by lia.
  rewrite (Zmod_eq _ 256) by lia. rewrite Z.div_div by lia. ring.
Qed.
Lemma un_be4 w : pattern w -> un_be (be 4 w) = w.
Proof. intros H. rewrite un_be_be. change (256 ^ Z.of_nat 4) with (2 ^ 32). now apply Z.mod_small. Qed.
Lemma signed_be4 w : int32 w -> signed32 (un_be (be 4 w)) = w.
Proof.
  intros H. rewrite un_be_be. change (256 ^ Z.of_nat 4) with (2 ^ 32). unfold signed32, int32 in *. destruct (Z_lt_le_dec w 0) as [B|B].
  - replace (w mod 2 ^ 32) with (w + 2 ^ 32) by (symmetry; rewrite <- (Z.mod_small (w + 2 ^ 32) (2 ^ 32)), <- Z.add_mod_idemp_r, Z.mod_same, Z.add_0_r by lia; reflexivity).
    replace (w + 2 ^ 32 <? 2 ^ 31) with false by (symmetry; apply Z.ltb_ge; lia). ring.
  - rewrite Z.mod_small by lia. replace (w <? 2 ^ 31) with true by (symmetry; apply Z.ltb_lt; lia). reflexivity.
Qed.
Lemma pack_ok n : int32 n -> pack_i n = Ok (be 4 n).
Proof. intros H. unfold pack_i, int32 in *. replace (_ && _) with true; auto. symmetry. apply andb_true_iff. split; [apply Z.leb_le | apply Z.ltb_lt]; lia. Qed.

(** what a big-endian reader sees of a 4-byte number stored in the given order *)
Definition swap32 (x : Z) : Z := un_be (rev (be 4 x)).
Definition as_read (d : dtype) (x : Z) : Z := if big d then x else swap32 x.
Definition bytes4 (b : bytes) : Prop := length b = 4%nat /\ Forall (fun x => 0 <= x < 256) b.
Lemma be_range n w : Forall (fun x => 0 <= x < 256) (be n w).
Proof. induction n; cbn; constructor; auto. unfold byte_of. apply Z.mod_pos_bound. lia. Qed.
Lemma be_un_be b : bytes4 b -> be 4 (un_be b) = b.
Proof.
  intros [L F]. destruct b as [|b3 [|b2 [|b1 [|b0 [|? ?]]]]]; try discriminate L.
  inversion F as [|? ? R3 F3]. inversion F3 as [|? ? R2 F2]. inversion F2 as [|? ? R1 F1]. inversion F1 as [|? ? R0 _]. subst.
  cbn [un_be length be]. unfold byte_of.
  set (w := b3 * 256 ^ Z.of_nat 3 + (b2 * 256 ^ Z.of_nat 2 + (b1 * 256 ^ Z.of_nat 1 + (b0 * 256 ^ Z.of_nat 0 + 0)))).
  change (256 ^ Z.of_nat 3) with 16777216 in *. change (256 ^ Z.of_nat 2) with 65536 in *. change (256 ^ Z.of_nat 1) with 256 in *. change (256 ^ Z.of_nat 0) with 1 in *.
  f_equal; [|f_equal; [|f_equal; [|f_equal]]].
  - replace (w / 16777216) with b3 by (apply Z.div_unique with (r := b2 * 65536 + b1 * 256 + b0); unfold w; lia). apply Z.mod_small; lia.
  - replace (w / 65536) with (b3 * 256 + b2) by (apply Z.div_unique with (r := b1 * 256 + b0); unfold w; lia). symmetry. apply Z.mod_unique with (q := b3); lia.
  - replace (w / 256) with (b3 * 65536 + b2 * 256 + b1) by (apply Z.div_unique with (r := b0); unfold w; lia). symmetry. apply Z.mod_unique with (q := b3 * 256 + b2); lia.
  - rewrite Z.div_1_r. symmetry. apply Z.mod_unique with (q := b3 * 65536 + b2 * 256 + b1); unfold w; lia.
Qed.
Lemma store4 d x : wide d = 4%nat -> store d x = be 4 (as_read d x).
Proof.
  intros W. unfold store, as_read. rewrite W. destruct (big d); auto. unfold swap32. symmetry. apply be_un_be. split.
  - now rewrite rev_length, be_length.
  - apply Forall_rev. apply be_range.
Qed.
Lemma un_be_bound b : Forall (fun x => 0 <= x < 256) b -> 0 <= un_be b < 256 ^ Z.of_nat (length b).
Proof.
  induction 1 as [|x t Hx _ IH]; cbn [un_be length]; [cbn; lia|].
  replace (Z.of_nat (S (length t))) with (Z.of_nat (length t) + 1) by lia. rewrite Z.pow_add_r, Z.pow_1_r by lia.
  assert (0 < 256 ^ Z.of_nat (length t)) by (apply Z.pow_pos_nonneg; lia). nia.
Qed.
Lemma as_read_pattern d x : pattern x -> pattern (as_read d x).
Proof.
  intros H. unfold as_read. destruct (big d); auto. unfold swap32. pose proof (un_be_bound (rev (be 4 x))) as B.
  rewrite rev_length, be_length in B. apply B. apply Forall_rev, be_range.
Qed.
Lemma tofile4 d l : wide d = 4%nat -> tofile d l = flat_map (be 4) (map (as_read d) l).
Proof. intros W. unfold tofile. induction l as [|x l IH]; cbn; auto. now rewrite (store4 d x W), IH. Qed.

(** ** Suffixes *)
Definition suf (f : bytes) (p : Z) (l : bytes) : Prop := 0 <= p /\ rest f p = l.
Definition gets {A} (m : reader A) (l : bytes) (a : A) (l' : bytes) : Prop :=
  forall f p, suf f p l -> exists q, m f p = Ok (a, q) /\ suf f q l'.
Definition fails {A} (m : reader A) (l : bytes) (e : exn) : Prop := forall f p, suf f p l -> m f p = Err e.

Lemma gets_bind {A B} (m : reader A) (k : A -> reader B) l a l' b l'' :
  gets m l a l' -> gets (k a) l' b l'' -> gets (rbind m k) l b l''.
Proof. intros H1 H2 f p Hs. destruct (H1 f p Hs) as (q & E & Hq). unfold rbind. rewrite E. now apply H2. Qed.
Lemma fails_bind {A B} (m : reader A) (k : A -> reader B) l e : fails m l e -> fails (rbind m k) l e.
Proof. intros H f p Hs. unfold rbind. now rewrite (H f p Hs). Qed.
Lemma gets_fails {A B} (m : reader A) (k : A -> reader B) l a l' e : gets m l a l' -> fails (k a) l' e -> fails (rbind m k) l e.
Proof. intros H1 H2 f p Hs. destruct (H1 f p Hs) as (q & E & Hq). unfold rbind. rewrite E. now apply H2. Qed.
Lemma gets_ret {A} (a : A) l : gets (rret a) l a l.
Proof. intros f p H. exists p. auto. Qed.
Lemma gets_lift {A} (r : res A) a l : r = Ok a -> gets (rlift r) l a l.
Proof. intros -> f p H. exists p. auto. Qed.
Lemma fails_lift {A} (r : res A) e l : r = Err e -> fails (rlift r) l e.
Proof. now intros -> f p H. Qed.
Lemma suf_skip f p l n : suf f p l -> suf f (p + Z.of_nat n) (skipn n l).
Proof.
  intros [H1 <-]. split; [lia|]. unfold rest. rewrite Z2Nat.inj_add, Nat2Z.id by lia. rewrite Nat.add_comm.
  revert f. generalize (Z.to_nat p) as a. induction a as [|a IH]; intros f; [now rewrite Nat.add_0_r|].
  rewrite Nat.add_succ_r. destruct f; cbn; [now rewrite skipn_nil | apply IH].
Qed.
Lemma suf_app f p b l : suf f p (b ++ l) -> suf f (p + Z.of_nat (length b)) l.
Proof. intros H. apply (suf_skip _ _ _ (length b)) in H. now rewrite skipn_app, skipn_all, Nat.sub_diag in H. Qed.
Lemma gets_seek n b l : Z.of_nat (length b) = n -> gets (seek n) (b ++ l) tt l.
Proof.
  intros <- f p H. unfold seek. assert (0 <= p) by apply H. destruct (p + _ <? 0) eqn:E; [apply Z.ltb_lt in E; lia|].
  eexists. split; [reflexivity|]. now apply suf_app.
Qed.
Lemma gets_seek_skip n l : 0 <= n -> gets (seek n) l tt (skipn (Z.to_nat n) l).
Proof.
  intros Hn f p H. unfold seek. assert (0 <= p) by apply H. destruct (p + _ <? 0) eqn:E; [apply Z.ltb_lt in E; lia|].
  eexists. split; [reflexivity|]. apply (suf_skip _ _ _ (Z.to_nat n)) in H. now rewrite Z2Nat.id in H.
Qed.
Lemma gets_read n b l : Z.of_nat (length b) = n -> gets (read n) (b ++ l) b l.
Proof.
  intros <- f p H. unfold read. pose proof H as [_ E]. rewrite E, Nat2Z.id, firstn_app, Nat.sub_diag, firstn_all, firstn_O, app_nil_r.
  eexists. split; [reflexivity|]. now apply suf_app.
Qed.
Lemma words_app ws l : words (length ws) (flat_map (be 4) ws ++ l) = map (be 4) ws.
Proof. induction ws as [|w ws IH]; cbn [length flat_map map]; auto. rewrite <- app_assoc, <- IH. reflexivity. Qed.
Lemma flat_be_length ws : length (flat_map (be 4) ws) = (4 * length ws)%nat.
Proof. induction ws as [|w ws IH]; cbn [flat_map]; auto. rewrite app_length, be_length, IH. cbn [length]. lia. Qed.
Lemma gets_fromfile n ws l : Z.of_nat (length ws) = n -> gets (fromfile n) (flat_map (be 4) ws ++ l) (map (fun w => un_be (be 4 w)) ws) l.
Proof.
  intros <- f p H. unfold fromfile. cbv zeta. pose proof H as [_ E]. rewrite E. rewrite Nat2Z.id. rewrite words_app, map_map, map_length.
  eexists. split; [reflexivity|]. apply suf_app in H. rewrite flat_be_length in H. replace (4 * Z.of_nat (length ws)) with (Z.of_nat (4 * length ws)) by lia. exact H.
Qed.
Lemma gets_f4s n ws l : Z.of_nat (length ws) = n -> Forall pattern ws -> gets (f4s n) (flat_map (be 4) ws ++ l) ws l.
Proof.
  intros E F. unfold f4s. replace ws with (map (fun w => un_be (be 4 w)) ws) at 2; [now apply gets_fromfile|].
  rewrite <- (map_id ws) at 2. apply map_ext_in. intros x Hx. apply un_be4. rewrite Forall_forall in F. auto.
Qed.
Lemma gets_i4s_gen n ws l : Z.of_nat (length ws) = n -> gets (i4s n) (flat_map (be 4) ws ++ l) (map (fun w => signed32 (un_be (be 4 w))) ws) l.
Proof.
  intros E. unfold i4s. eapply gets_bind; [now apply gets_fromfile|]. rewrite map_map. apply gets_ret.
Qed.
Lemma gets_i4s n ws l : Z.of_nat (length ws) = n -> Forall int32 ws -> gets (i4s n) (flat_map (be 4) ws ++ l) ws l.
Proof.
  intros E F. replace ws with (map (fun w => signed32 (un_be (be 4 w))) ws) at 2; [now apply gets_i4s_gen|].
  rewrite <- (map_id ws) at 2. apply map_ext_in. intros x Hx. apply signed_be4. rewrite Forall_forall in F. auto.
Qed.
Lemma gets_i4 w l : int32 w -> gets i4 (be 4 w ++ l) w l.
Proof.
  intros H. unfold i4. 
  pose proof (gets_i4s 1 [w] l eq_refl ltac:(auto)) as G. cbn [flat_map] in G. rewrite app_nil_r in G. eapply gets_bind; [exact G | apply gets_ret].
Qed.
Lemma gets_f4 w l : pattern w -> gets f4 (be 4 w ++ l) w l.
Proof.
  intros H. unfold f4. 
  pose proof (gets_f4s 1 [w] l eq_refl ltac:(auto)) as G. cbn [flat_map] in G. rewrite app_nil_r in G. eapply gets_bind; [exact G | apply gets_ret].
Qed.
Lemma gets_i4x3 a b c l : int32 a -> int32 b -> int32 c -> gets i4x3 (be 4 a ++ be 4 b ++ be 4 c ++ l) (a, b, c) l.
Proof.
  intros. unfold i4x3. 
  pose proof (gets_i4s 3 [a; b; c] l eq_refl ltac:(auto)) as G. cbn [flat_map] in G. rewrite app_nil_r, <- !app_assoc in G. eapply gets_bind; [exact G | apply gets_ret].
Qed.
Lemma gets_f4s2 a b l : pattern a -> pattern b -> gets (f4s 2) (be 4 a ++ be 4 b ++ l) [a; b] l.
Proof.
  intros. pose proof (gets_f4s 2 [a; b] l eq_refl ltac:(auto)) as G. cbn [flat_map] in G. rewrite app_nil_r, <- !app_assoc in G. exact G.
Qed.
Lemma gets_run {A} (m : reader A) f a l : gets m f a l -> run m f = Ok a.
Proof. intros H. unfold run. destruct (H f 0) as (q & -> & _); auto. split; [lia | reflexivity]. Qed.
Lemma fails_run {A} (m : reader A) f e : fails m f e -> run m f = Err e.
Proof. intros H. unfold run. rewrite (H f 0); auto. split; [lia | reflexivity]. Qed.
Lemma gets_rloop {A} (m : reader A) (enc : A -> bytes) (xs : list A) l : (forall x l, In x xs -> gets m (enc x ++ l) x l) ->
  gets (rloop (length xs) m) (flat_map enc xs ++ l) xs l.
Proof.
  induction xs as [|x xs IH]; intros H; cbn [length rloop flat_map]; [apply gets_ret|].
  rewrite <- app_assoc. eapply gets_bind; [apply H; now left|]. eapply gets_bind; [apply IH; intros; apply H; now right | apply gets_ret].
Qed.

(** ** Strides and rows *)
Lemma every2 l : every 2 0 (interleave2 l) = map fst l /\ every 2 1 (interleave2 l) = map snd l.
Proof. induction l as [|[a b] l [I1 I2]]; cbn; auto. unfold interleave2 in *. now rewrite I1, I2. Qed.
Definition quad (p : (Z * Z) * (Z * Z)) : list Z := [fst (fst p); snd (fst p); fst (snd p); snd (snd p)].
Lemma every4 l : every 4 0 (flat_map quad l) = map (fun p => fst (fst p)) l /\ every 4 1 (flat_map quad l) = map (fun p => snd (fst p)) l
  /\ every 4 2 (flat_map quad l) = map (fun p => fst (snd p)) l /\ every 4 3 (flat_map quad l) = map (fun p => snd (snd p)) l.
Proof. induction l as [|[[a b] [c d]] l (I1 & I2 & I3 & I4)]; cbn; auto. rewrite I1, I2, I3, I4. auto. Qed.
Lemma combine_fst_snd {A B} (l : list (A * B)) : combine (map fst l) (map snd l) = l.
Proof. induction l as [|[a b] l IH]; cbn; congruence. Qed.
Lemma combine_map2 {A B C} (f : A -> B) (g : A -> C) l : combine (map f l) (map g l) = map (fun x => (f x, g x)) l.
Proof. induction l; cbn; congruence. Qed.
Lemma assign_ok n l : Z.of_nat (length l) = n -> assign n l = Ok l.
Proof. intros E. unfold assign. now rewrite E, Z.eqb_refl. Qed.
Definition pat2 (p : Z * Z) : Prop := pattern (fst p) /\ pattern (snd p).
Lemma gets_row2 nx (row : list (Z * Z)) l : Z.of_nat (length row) = nx -> Forall pat2 row ->
  gets (read_row2 nx) (flat_map (be 4) (interleave2 row) ++ l) row l.
Proof.
  intros E F. unfold read_row2. eapply gets_bind.
  - apply gets_f4s.
    + rewrite <- E. unfold interleave2. clear. induction row as [|p row IH]; cbn [flat_map app length]; [reflexivity|]. lia.
    + clear E. unfold interleave2. induction F as [|p row [P1 P2] _ IH]; cbn [flat_map app]; auto.
  - destruct (every2 row) as [-> ->]. eapply gets_bind; [apply gets_lift, assign_ok; now rewrite map_length|].
    eapply gets_bind; [apply gets_lift, assign_ok; now rewrite map_length|]. rewrite combine_fst_snd. apply gets_ret.
Qed.
Lemma gets_row4 nx (row : list ((Z * Z) * (Z * Z))) l : Z.of_nat (length row) = nx -> Forall (fun p => pat2 (fst p) /\ pat2 (snd p)) row ->
  gets (read_row4 nx) (flat_map (be 4) (flat_map quad row) ++ l) row l.
Proof.
  intros E F. unfold read_row4. eapply gets_bind.
  - apply gets_f4s.
    + rewrite <- E. clear. induction row as [|p row IH]; cbn [flat_map app length quad]; [reflexivity|]. lia.
    + clear E. induction F as [|p row [[P1 P2] [P3 P4]] _ IH]; cbn [flat_map app quad]; auto.
  - destruct (every4 row) as (-> & -> & -> & ->).
    do 4 (eapply gets_bind; [apply gets_lift, assign_ok; now rewrite map_length|]).
    rewrite !combine_map2. rewrite (map_ext (fun x : Z * Z * (Z * Z) => (fst (fst x), snd (fst x), (fst (snd x), snd (snd x)))) id) by (now intros [[] []]). rewrite map_id. apply gets_ret.
Qed.

(** ** Planes *)
Lemma chunks_concat n : forall rows, (forall r, In r rows -> length r = n) -> chunks n (length rows) (concat rows) = rows.
Proof.
  induction rows as [|r rows IH]; intros H; cbn [length chunks concat]; auto.
  assert (L : length r = n) by (apply H; now left).
  rewrite firstn_app, skipn_app, L, Nat.sub_diag, firstn_O, app_nil_r. cbn [skipn]. rewrite <- L at 1. rewrite firstn_all.
  rewrite <- L at 2. rewrite skipn_all. cbn [app]. now rewrite IH by (intros; apply H; now right).
Qed.
Lemma concat_length_const n (rows : list (list Z)) : (forall r, In r rows -> length r = n) -> length (concat rows) = (length rows * n)%nat.
Proof. induction rows as [|r rows IH]; intros H; cbn; auto. rewrite app_length, IH, (H r); auto; [now left | intros; apply H; now right]. Qed.
Lemma reshape_ok ny nx rows : Z.of_nat (length rows) = ny -> 0 <= nx -> (forall r, In r rows -> Z.of_nat (length r) = nx) -> reshape ny nx (concat rows) = Ok rows.
Proof.
  intros E Hx H. unfold reshape.
  assert (H' : forall r, In r rows -> length r = Z.to_nat nx) by (intros r Hr; specialize (H r Hr); lia).
  rewrite (concat_length_const (Z.to_nat nx) rows H'). rewrite Nat2Z.inj_mul, Z2Nat.id, E, Z.eqb_refl by lia.
  replace (0 <=? ny) with true by (symmetry; apply Z.leb_le; lia). replace (0 <=? nx) with true by (symmetry; apply Z.leb_le; lia). cbn [andb].
  f_equal. rewrite <- E, Nat2Z.id. now apply chunks_concat.
Qed.
Lemma shape_nat ny nx : shape_ok (Z.of_nat ny) (Z.of_nat nx) = Ok tt.
Proof. unfold shape_ok. replace (0 <=? Z.of_nat ny) with true by (symmetry; apply Z.leb_le; lia). replace (0 <=? Z.of_nat nx) with true by (symmetry; apply Z.leb_le; lia). reflexivity. Qed.
