(** C35, C36, C37: OTIS binary files read back. *)
From Coq Require Import ZArith List Bool Lia.
From Verif Require Import PyBase OtisModel OtisProofs.
Import ListNotations.
Open Scope Z_scope.

(** ** C35 *)
(** the rows of an array as lists *)
Definition rows_of (a : arr2) : list (list Z) := map (fun m => map (fun i => at2 a m i) (seq 0 (nx2 a))) (seq 0 (ny2 a)).
Definition patterns (a : arr2) : Prop := forall m i, pattern (at2 a m i).
Definition ints (a : arr2) : Prop := forall m i, int32 (at2 a m i).
(** sizes that fit in the 32-bit record lengths (the writer raises otherwise) *)
Definition fits (nx ny nob : nat) : Prop := int32 (Z.of_nat nx) /\ int32 (Z.of_nat ny) /\ int32 (4 * Z.of_nat nx * Z.of_nat ny) /\ int32 (8 * Z.of_nat nob).

Lemma flat_map_map {A B C} (f : B -> list C) (g : A -> B) l : flat_map f (map g l) = flat_map (fun x => f (g x)) l.
Proof. induction l; cbn; congruence. Qed.
Lemma flat_map_flat_map {A B C} (f : B -> list C) (g : A -> list B) l : flat_map f (flat_map g l) = flat_map (fun x => flat_map f (g x)) l.
Proof. induction l as [|a l IH]; cbn; auto. now rewrite flat_map_app, IH. Qed.
Lemma all2_concat a : all2 a = concat (rows_of a).
Proof. unfold all2, rows_of. rewrite flat_map_concat_map. reflexivity. Qed.
Lemma all2_length a : length (all2 a) = (ny2 a * nx2 a)%nat.
Proof.
  rewrite all2_concat, (concat_length_const (nx2 a)); [unfold rows_of; now rewrite map_length, seq_length|].
  intros r H. unfold rows_of in H. apply in_map_iff in H as (m & <- & _). now rewrite map_length, seq_length.
Qed.
Lemma all2_in a (P : Z -> Prop) : (forall m i, P (at2 a m i)) -> Forall P (all2 a).
Proof.
  intros H. apply Forall_forall. intros x Hx. unfold all2 in Hx. apply in_flat_map in Hx as (m & _ & Hx). unfold row2 in Hx. apply in_map_iff in Hx as (i & <- & _). auto.
Qed.
Lemma gets_plane_f a l : wide (dt2 a) = 4%nat -> patterns a ->
  gets (read_plane (Z.of_nat (ny2 a)) (Z.of_nat (nx2 a)) false) (tofile (dt2 a) (all2 a) ++ l) (map (map (as_read (dt2 a))) (rows_of a)) l.
Proof.
  intros W P. unfold read_plane. rewrite tofile4 by auto. eapply gets_bind.
  - apply gets_f4s; [rewrite map_length, all2_length; lia|].
    apply Forall_map. apply all2_in. intros. apply as_read_pattern, P.
  - apply gets_lift. rewrite all2_concat, concat_map. apply reshape_ok; [unfold rows_of; now rewrite !map_length, seq_length | lia |].
    intros r H. unfold rows_of in H. rewrite map_map in H. apply in_map_iff in H as (m & <- & _). now rewrite !map_length, seq_length.
Qed.
Lemma gets_plane_i ny nx ws l : length ws = (ny * nx)%nat ->
  gets (read_plane (Z.of_nat ny) (Z.of_nat nx) true) (flat_map (be 4) ws ++ l)
    (chunks nx ny (map (fun w => signed32 (un_be (be 4 w))) ws)) l.
Proof.
  intros L. unfold read_plane. eapply gets_bind; [apply gets_i4s_gen; lia|]. apply gets_lift. unfold reshape.
  rewrite map_length, L, Nat2Z.inj_mul, Z.eqb_refl, !Nat2Z.id.
  replace (0 <=? Z.of_nat ny) with true by (symmetry; apply Z.leb_le; lia). replace (0 <=? Z.of_nat nx) with true by (symmetry; apply Z.leb_le; lia). reflexivity.
Qed.

Definition int_read (d : dtype) (x : Z) : Z := signed32 (un_be (be 4 (as_read d x))).
Lemma int_read_big d x : big d = true -> int32 x -> int_read d x = x.
Proof. intros B H. unfold int_read, as_read. rewrite B. now apply signed_be4. Qed.

(** what the mask plane of the reader covers: the words from the third of the second
    copy of the bathymetry *)
Definition mask_words (hz mz : arr2) : list Z :=
  let n := (ny2 hz * nx2 hz)%nat in let r := 4 * Z.of_nat (nx2 hz) * Z.of_nat (ny2 hz) in
  firstn n (skipn 2 (map (as_read (dt2 hz)) (all2 hz) ++ [r; r] ++ map (as_read (dt2 mz)) (all2 mz) ++ [r])).

Lemma iob_rows d iob : wide d = 4%nat ->
  Forall (fun p : Z * Z => True) iob ->
  reshape (Z.of_nat (length iob)) 2 (map (fun w => signed32 (un_be (be 4 w))) (map (as_read d) (flat_map (fun p => [fst p; snd p]) iob)))
  = Ok (map (fun p => [int_read d (fst p); int_read d (snd p)]) iob).
Proof.
  intros _ _. rewrite map_map. replace (map (fun x => signed32 (un_be (be 4 (as_read d x)))) (flat_map (fun p : Z * Z => [fst p; snd p]) iob))
    with (concat (map (fun p => [int_read d (fst p); int_read d (snd p)]) iob)).
  - apply reshape_ok; [now rewrite map_length | lia|]. intros r H. apply in_map_iff in H as (p & <- & _). reflexivity.
  - induction iob as [|p iob IH]; cbn [map concat flat_map app]; auto. rewrite IH. reflexivity.
Qed.

Lemma grid_read lims xlim ylim hz mz iobt iob dt :
  wide lims = 4%nat -> wide (dt2 hz) = 4%nat -> wide (dt2 mz) = 4%nat -> wide iobt = 4%nat ->
  ny2 mz = ny2 hz -> nx2 mz = nx2 hz -> fits (nx2 hz) (ny2 hz) (length iob) ->
  pat2 xlim -> pat2 ylim -> pattern dt -> patterns hz ->
  exists file, output_otis_grid lims xlim ylim hz mz iobt iob dt = Ok file
  /\ run read_otis_grid file = Ok (OtisGrid (Z.of_nat (nx2 hz)) (Z.of_nat (ny2 hz))
       [as_read lims (fst ylim); as_read lims (snd ylim)] [as_read lims (fst xlim); as_read lims (snd xlim)] dt
       (map (fun p => [int_read iobt (fst p); int_read iobt (snd p)]) iob)
       (map (map (as_read (dt2 hz))) (rows_of hz))
       (chunks (nx2 hz) (ny2 hz) (map (fun w => signed32 (un_be (be 4 w))) (mask_words hz mz)))).
Proof.
  intros W1 W2 W3 W4 E1 E2 (F1 & F2 & F3 & F4) [X1 X2] [Y1 Y2] D P.
  unfold output_otis_grid. rewrite (pack_ok 32) by (unfold int32; lia). rewrite (pack_ok (Z.of_nat (nx2 hz))), (pack_ok (Z.of_nat (ny2 hz))) by auto.
  rewrite (pack_ok (Z.of_nat (length iob))) by (unfold int32 in *; lia). rewrite (pack_ok (4 * _ * _)) by auto. cbn [bind].
  set (open := if Z.of_nat (length iob) =? 0 then be 4 4 ++ be 4 0 ++ be 4 4 else be 4 (8 * Z.of_nat (length iob)) ++ tofile iobt (flat_map (fun p => [fst p; snd p]) iob) ++ be 4 (8 * Z.of_nat (length iob))).
  assert (Eo : (if Z.of_nat (length iob) =? 0
     then do b4 <- pack_i 4 ;; do b0 <- pack_i 0 ;; Ok (b4 ++ b0 ++ b4)
     else do b <- pack_i (8 * Z.of_nat (length iob)) ;; Ok (b ++ tofile iobt (flat_map (fun p => [fst p; snd p]) iob) ++ b)) = Ok open).
  { unfold open. destruct (_ =? 0); [reflexivity|]. rewrite pack_ok by auto. reflexivity. }
  rewrite Eo. cbn [bind]. clear Eo. eexists. split; [reflexivity|].
  set (r := 4 * Z.of_nat (nx2 hz) * Z.of_nat (ny2 hz)) in *.
  assert (Tail : flat_map (fun m => tofile (dt2 hz) (row2 hz m)) (seq 0 (ny2 hz)) ++ be 4 r ++ be 4 r ++ flat_map (fun m => tofile (dt2 mz) (row2 mz m)) (seq 0 (ny2 hz)) ++ be 4 r
    = flat_map (be 4) (map (as_read (dt2 hz)) (all2 hz) ++ [r; r] ++ map (as_read (dt2 mz)) (all2 mz) ++ [r])).
  { rewrite !flat_map_app. cbn [flat_map]. rewrite !app_nil_r, <- !app_assoc. rewrite <- !tofile4 by auto. unfold all2, tofile. rewrite !flat_map_flat_map, E1. reflexivity. }
  set (ws := map (as_read (dt2 hz)) (all2 hz) ++ [r; r] ++ map (as_read (dt2 mz)) (all2 mz) ++ [r]) in *.
  assert (Lw : length ws = (2 * (ny2 hz * nx2 hz) + 3)%nat).
  { unfold ws. rewrite !app_length, !map_length, !all2_length, E1, E2. cbn [length]. lia. }
  rewrite Tail. clear Tail.
  eapply gets_run. unfold read_otis_grid.
  eapply gets_bind; [apply gets_seek; reflexivity|].
  eapply gets_bind; [apply gets_i4; auto|]. eapply gets_bind; [apply gets_i4; auto|].
  rewrite !tofile4 with (d := lims) by auto. cbn [map flat_map]. rewrite !app_nil_r, <- !app_assoc.
  eapply gets_bind; [apply gets_f4s2; apply as_read_pattern; auto|].
  eapply gets_bind; [apply gets_f4s2; apply as_read_pattern; auto|].
  unfold pack_f. eapply gets_bind; [apply gets_f4; auto|].
  eapply gets_bind with (a := map (fun p => [int_read iobt (fst p); int_read iobt (snd p)]) iob)
     (l' := tofile (dt2 hz) (all2 hz) ++ flat_map (be 4) ws).
  { unfold read_iob. eapply gets_bind; [apply gets_i4; unfold int32 in *; lia|]. unfold open.
    destruct (Z.of_nat (length iob) =? 0) eqn:Z0.
    - apply Z.eqb_eq in Z0. destruct iob; [|cbn in Z0; lia]. rewrite <- !app_assoc. eapply gets_bind; [|apply gets_ret].
      rewrite !app_assoc. rewrite <- !(app_assoc _ (tofile _ _)). apply gets_seek. now rewrite !app_length, !be_length.
    - rewrite <- !app_assoc. eapply gets_bind; [rewrite app_assoc; apply gets_seek; now rewrite app_length, !be_length|].
      rewrite tofile4 by auto. eapply gets_bind; [apply gets_i4s_gen|].
      + rewrite map_length. clear. induction iob as [|p iob IH]; cbn [flat_map app length]; lia.
      + eapply gets_bind; [apply gets_lift, iob_rows; auto; apply Forall_forall; auto|].
        eapply gets_bind; [rewrite app_assoc; apply gets_seek; now rewrite app_length, !be_length | apply gets_ret]. }
  eapply gets_bind; [apply gets_plane_f; auto|].
  assert (Sp : ws = firstn 2 ws ++ mask_words hz mz ++ skipn (ny2 hz * nx2 hz) (skipn 2 ws)).
  { unfold mask_words. cbv zeta. fold r. fold ws. now rewrite (firstn_skipn (ny2 hz * nx2 hz) (skipn 2 ws)), firstn_skipn. }
  rewrite Sp, !flat_map_app.
  eapply gets_bind; [apply gets_seek; rewrite flat_be_length, firstn_length, Lw; lia|].
  eapply gets_bind; [apply gets_plane_i|apply gets_ret].
  unfold mask_words. cbv zeta. fold r. fold ws. rewrite firstn_length, skipn_length, Lw. lia.
Qed.

(** For arrays already big-endian everything but the mask is read back. *)
Theorem C35_grid_partial lims xlim ylim hz mz iobt iob dt :
  lims = DT 4 true -> dt2 hz = DT 4 true -> dt2 mz = DT 4 true -> iobt = DT 4 true ->
  ny2 mz = ny2 hz -> nx2 mz = nx2 hz -> fits (nx2 hz) (ny2 hz) (length iob) ->
  pat2 xlim -> pat2 ylim -> pattern dt -> patterns hz -> Forall (fun p => int32 (fst p) /\ int32 (snd p)) iob ->
  exists file g, output_otis_grid lims xlim ylim hz mz iobt iob dt = Ok file /\ run read_otis_grid file = Ok g
    /\ g_nx g = Z.of_nat (nx2 hz) /\ g_ny g = Z.of_nat (ny2 hz) /\ g_xlim g = [fst xlim; snd xlim] /\ g_ylim g = [fst ylim; snd ylim]
    /\ g_dt g = dt /\ g_iob g = map (fun p => [fst p; snd p]) iob /\ g_hz g = rows_of hz.
Proof.
  intros -> W2 W3 -> E1 E2 F X Y D P I.
  destruct (grid_read (DT 4 true) xlim ylim hz mz (DT 4 true) iob dt) as (file & Ef & Er); auto; try (now rewrite ?W2, ?W3).
  exists file. eexists. split; [exact Ef|]. split; [exact Er|]. cbn [g_nx g_ny g_xlim g_ylim g_dt g_iob g_hz as_read big].
  repeat split; auto.
  - apply map_ext_in. intros p Hp. rewrite Forall_forall in I. destruct (I p Hp). now rewrite !int_read_big.
  - rewrite W2. cbn [as_read big]. rewrite <- (map_id (rows_of hz)) at 2. apply map_ext. intros r. apply map_id.
Qed.
Print Assumptions C35_grid_partial.

(** The mask is not: the bathymetry is written twice (OTIS.py:1802-1804), so the
    reader finds its second copy where the mask should be.  The mask that is read
    does not depend on the mask that was written. *)
Theorem C35_mask_refuted lims xlim ylim hz mz mz' iobt iob dt :
  lims = DT 4 true -> dt2 hz = DT 4 true -> dt2 mz = DT 4 true -> dt2 mz' = DT 4 true -> iobt = DT 4 true ->
  ny2 mz = ny2 hz -> nx2 mz = nx2 hz -> ny2 mz' = ny2 hz -> nx2 mz' = nx2 hz -> fits (nx2 hz) (ny2 hz) (length iob) ->
  pat2 xlim -> pat2 ylim -> pattern dt -> patterns hz -> (2 <= ny2 hz * nx2 hz)%nat ->
  exists file file' g, output_otis_grid lims xlim ylim hz mz iobt iob dt = Ok file /\ output_otis_grid lims xlim ylim hz mz' iobt iob dt = Ok file'
    /\ run read_otis_grid file = Ok g /\ run read_otis_grid file' = Ok g
    /\ exists n : Z, concat (g_mz g) = map signed32 (skipn 2 (concat (rows_of hz)) ++ [n; n]).
Proof.
  intros -> W2 W3 W3' -> E1 E2 E1' E2' F X Y D P N.
  destruct (grid_read (DT 4 true) xlim ylim hz mz (DT 4 true) iob dt) as (file & Ef & Er); auto; try (now rewrite ?W2, ?W3).
  destruct (grid_read (DT 4 true) xlim ylim hz mz' (DT 4 true) iob dt) as (file' & Ef' & Er'); auto; try (now rewrite ?W2, ?W3').
  assert (M : forall m, ny2 m = ny2 hz -> nx2 m = nx2 hz -> mask_words hz m = skipn 2 (all2 hz) ++ [4 * Z.of_nat (nx2 hz) * Z.of_nat (ny2 hz); 4 * Z.of_nat (nx2 hz) * Z.of_nat (ny2 hz)]).
  { intros m _ _. unfold mask_words. cbv zeta. set (r := 4 * _ * _). rewrite W2. cbn [as_read big].
    replace (map (as_read (DT 4 true)) (all2 hz)) with (all2 hz) by (cbn [as_read big]; symmetry; apply map_id).
    pose proof (all2_length hz) as L. destruct (all2 hz) as [|a [|b t]] eqn:Ea; cbn [length] in L; [lia|lia|].
    change (skipn 2 ((a :: b :: t) ++ ?q)) with (t ++ q). change (skipn 2 (a :: b :: t)) with t.
    rewrite (app_assoc t [r; r]). rewrite <- L.
    rewrite firstn_app. rewrite (firstn_all2 (t ++ [r; r])) by (rewrite app_length; cbn [length]; lia).
    rewrite app_length. replace (S (S (length t)) - (length t + length [r; r]))%nat with 0%nat by (cbn [length]; lia). now rewrite firstn_O, app_nil_r. }
  rewrite (M mz E1 E2) in Er. rewrite (M mz' E1' E2') in Er'.
  exists file, file'. eexists. repeat (split; [eassumption|]). cbn [g_mz]. eexists.
  rewrite <- all2_concat. set (w := skipn 2 (all2 hz) ++ [_; _]).
  assert (Lw : length w = (ny2 hz * nx2 hz)%nat).
  { unfold w. rewrite app_length, skipn_length, all2_length. cbn [length]. lia. }
  assert (C : forall n m (l : list Z), length l = (m * n)%nat -> concat (chunks n m l) = l).
  { clear. intros n. induction m as [|m IH]; intros l L; cbn [chunks concat]; [now destruct l|]. rewrite IH; [apply firstn_skipn|]. rewrite skipn_length. lia. }
  rewrite C by (now rewrite map_length). unfold w. apply map_ext_in. intros x Hx. f_equal. apply un_be4.
  apply in_app_or in Hx as [Hx|Hx].
  - pose proof (all2_in hz pattern P) as A. rewrite Forall_forall in A. apply A. rewrite <- (firstn_skipn 2 (all2 hz)). apply in_or_app. now right.
  - destruct F as (_ & _ & F3 & _). unfold int32 in F3. unfold pattern. cbn [In] in Hx. lia.
Qed.
Print Assumptions C35_mask_refuted.

(** tofile ignores its format argument: arrays in native (little-endian) order are
    read back with their bytes reversed. *)
Theorem C35_native_refuted xlim ylim hz mz dt :
  dt2 hz = DT 4 false -> dt2 mz = DT 4 false -> ny2 mz = ny2 hz -> nx2 mz = nx2 hz -> fits (nx2 hz) (ny2 hz) 0 ->
  pat2 xlim -> pat2 ylim -> pattern dt -> patterns hz ->
  exists file g, output_otis_grid (DT 4 false) xlim ylim hz mz (DT 4 false) [] dt = Ok file /\ run read_otis_grid file = Ok g
    /\ g_xlim g = [un_be (rev (be 4 (fst xlim))); un_be (rev (be 4 (snd xlim)))]
    /\ g_hz g = map (map (fun x => un_be (rev (be 4 x)))) (rows_of hz).
Proof.
  intros W2 W3 E1 E2 F X Y D P.
  destruct (grid_read (DT 4 false) xlim ylim hz mz (DT 4 false) [] dt) as (file & Ef & Er); auto; try (now rewrite ?W2, ?W3).
  exists file. eexists. split; [exact Ef|]. split; [exact Er|]. cbn [g_xlim g_hz]. rewrite W2. split; reflexivity.
Qed.
Print Assumptions C35_native_refuted.
(** the pattern of 1.0 is not its own reversal *)
Example C35_native_case : pattern 1065353216 /\ un_be (rev (be 4 1065353216)) = 32831.
Proof. split; [unfold pattern; lia | reflexivity]. Qed.
(** a 2 by 2 grid meets the hypotheses *)
Definition hz22 : arr2 := Arr2 2 2 (DT 4 true) (fun m i => 1065353216 + Z.of_nat (2 * m + i)).
Definition mz22 (k : Z) : arr2 := Arr2 2 2 (DT 4 true) (fun m i => k).
Example C35_case : match output_otis_grid (DT 4 true) (0, 1135869952) (0, 1127481344) hz22 (mz22 1) (DT 4 true) [(1, 2)] 0 with
  Ok f => match run read_otis_grid f with Ok g => (g_hz g, g_mz g, g_iob g) | _ => ([], [], []) end | _ => ([], [], []) end
  = ([[1065353216; 1065353217]; [1065353218; 1065353219]], [[1065353218; 1065353219]; [16; 16]], [[1; 2]]).
Proof. reflexivity. Qed.

(** ** C36 *)
Definition field_patterns (h : arr3) : Prop := forall m i ic, pat2 (at3 h m i ic).
Definition fits3 (h : arr3) (bytes_per_node : Z) : Prop :=
  int32 (Z.of_nat (nx3 h)) /\ int32 (Z.of_nat (ny3 h)) /\ int32 (4 * (7 + Z.of_nat (nc3 h))) /\ int32 (bytes_per_node * Z.of_nat (nx3 h) * Z.of_nat (ny3 h)).
Definition short_names (h : arr3) (names : list bytes) : Prop := length names = nc3 h /\ forall c, In c names -> (length c <= 4)%nat.

Lemma ljust4_length c : (length c <= 4)%nat -> length (ljust4 c) = 4%nat.
Proof. intros H. unfold ljust4. rewrite app_length, repeat_length. lia. Qed.
Lemma names_length names : (forall c, In c names -> (length c <= 4)%nat) -> length (flat_map ljust4 names) = (4 * length names)%nat.
Proof.
  induction names as [|c names IH]; intros H; cbn [flat_map length]; auto. rewrite app_length, IH by (intros; apply H; now right).
  rewrite ljust4_length by (apply H; now left). lia.
Qed.
Lemma skip_records {A} (enc : A -> bytes) n k : forall (l : list A) l', (forall x, In x l -> length (enc x) = n) -> (k <= length l)%nat ->
  skipn (k * n) (flat_map enc l ++ l') = flat_map enc (skipn k l) ++ l'.
Proof.
  induction k as [|k IH]; intros l l' H Hk; [reflexivity|]. destruct l as [|x l]; [cbn in Hk; lia|]. cbn [flat_map skipn Nat.mul].
  rewrite <- app_assoc, skipn_app. rewrite (H x) by (now left). rewrite (skipn_all2 (enc x)) by (rewrite (H x) by (now left); lia).
  replace (n + k * n - n)%nat with (k * n)%nat by lia. cbn [app]. apply IH; [intros; apply H; now right | cbn in Hk; lia].
Qed.
Lemma seq_skip n k s : (k <= n)%nat -> skipn k (seq s n) = seq (s + k) (n - k).
Proof.
  revert n s. induction k as [|k IH]; intros n s H; [now rewrite Nat.add_0_r, Nat.sub_0_r|].
  destruct n as [|n]; [lia|]. cbn [seq skipn]. rewrite IH by lia. f_equal; lia.
Qed.
Lemma flat_const_length {A} (enc : A -> bytes) n l : (forall x, In x l -> length (enc x) = n) -> length (flat_map enc l) = (length l * n)%nat.
Proof. induction l as [|x l IH]; intros H; cbn; auto. rewrite app_length, IH, H; auto; [now left | intros; apply H; now right]. Qed.

(** one record of the file: marker, rows, marker *)
Lemma header_read lims xlim ylim names nx ny nc : wide lims = 4%nat -> int32 (Z.of_nat nx) -> int32 (Z.of_nat ny) -> int32 (4 * (7 + Z.of_nat nc)) ->
  exists hd, header nx ny nc lims xlim ylim names = Ok hd
  /\ hd = be 4 (4 * (7 + Z.of_nat nc)) ++ be 4 (Z.of_nat nx) ++ be 4 (Z.of_nat ny) ++ be 4 (Z.of_nat nc)
        ++ flat_map (be 4) [as_read lims (fst ylim); as_read lims (snd ylim)] ++ flat_map (be 4) [as_read lims (fst xlim); as_read lims (snd xlim)]
        ++ flat_map ljust4 names ++ be 4 (4 * (7 + Z.of_nat nc)).
Proof.
  intros W H1 H2 H3. unfold header. rewrite !pack_ok by (auto; unfold int32 in *; lia). cbn [bind]. eexists. split; [reflexivity|].
  now rewrite !tofile4 by auto.
Qed.

(** reading up to the first record's marker of constituent ic, and skipping it *)
Lemma prefix_read {A} lims xlim ylim names nx ny nc (k : Z -> Z -> reader A) body l' a hd bytes_per_node ic :
  wide lims = 4%nat -> pat2 xlim -> pat2 ylim -> int32 (Z.of_nat nx) -> int32 (Z.of_nat ny) -> int32 (4 * (7 + Z.of_nat nc)) ->
  length names = nc -> (forall c, In c names -> (length c <= 4)%nat) ->
  header nx ny nc lims xlim ylim names = Ok hd -> 0 <= bytes_per_node ->
  gets (k (Z.of_nat nx) (Z.of_nat ny)) (skipn (Z.to_nat (Z.of_nat ic * (Z.of_nat nx * Z.of_nat ny * bytes_per_node + 8)) + 4) body) a l' ->
  gets (rd ll <- i4 ;; rd s <- i4x3 ;; f4s 2 ;;; f4s 2 ;;;
        seek (Z.of_nat ic * (fst (fst s) * snd (fst s) * bytes_per_node + 8) + 8 + ll - 28) ;;; k (fst (fst s)) (snd (fst s))) (hd ++ body) a l'.
Proof.
  intros W X Y H1 H2 H3 L N Eh Hb Hk.
  destruct (header_read lims xlim ylim names nx ny nc W H1 H2 H3) as (hd' & Eh' & ->). rewrite Eh in Eh'. apply Ok_inj in Eh' as ->.
  rewrite <- !app_assoc. cbn [flat_map]. rewrite !app_nil_r, <- !app_assoc.
  eapply gets_bind; [apply gets_i4; auto|].
  eapply gets_bind; [apply gets_i4x3; auto; unfold int32 in *; lia|]. cbn [fst snd].
  destruct X as [X1 X2], Y as [Y1 Y2].
  eapply gets_bind; [apply gets_f4s2; apply as_read_pattern; auto|]. eapply gets_bind; [apply gets_f4s2; apply as_read_pattern; auto|].
  eapply gets_bind; [apply gets_seek_skip; lia|].
  match goal with |- gets _ (skipn ?n ?x) _ _ => replace (skipn n x) with (skipn (Z.to_nat (Z.of_nat ic * (Z.of_nat nx * Z.of_nat ny * bytes_per_node + 8)) + 4) body) end; [exact Hk|].
  rewrite (app_assoc (flat_map ljust4 names)). rewrite skipn_app.
  assert (La : length (flat_map ljust4 names ++ be 4 (4 * (7 + Z.of_nat nc))) = (4 * nc + 4)%nat).
  { rewrite app_length, be_length, names_length by auto. lia. }
  rewrite (skipn_all2 (flat_map ljust4 names ++ be 4 (4 * (7 + Z.of_nat nc)))) by (rewrite La; nia). rewrite La. cbn [app]. f_equal. nia.
Qed.

Lemma skip_to_record (enc : nat -> bytes) n k c r l : (forall x, length (enc x) = n) -> (k < c)%nat -> length r = 4%nat ->
  enc k = r ++ l -> skipn (k * n + 4) (flat_map enc (seq 0 c)) = l ++ flat_map enc (seq (S k) (c - S k)).
Proof.
  intros Le Hk Lr E. rewrite Nat.add_comm. rewrite <- (app_nil_r (flat_map _ (seq 0 c))).
  assert (SS : forall a b (l : bytes), skipn (a + b) l = skipn a (skipn b l)).
  { clear. intros a b. induction b as [|b IH]; intros l; [now rewrite Nat.add_0_r|]. rewrite Nat.add_succ_r. destruct l; cbn; [now rewrite skipn_nil | apply IH]. }
  rewrite SS, (skip_records enc n) by (auto; rewrite seq_length; lia).
  rewrite seq_skip by lia. cbn [Nat.add]. replace (c - k)%nat with (S (c - S k)) by lia. cbn [seq flat_map]. rewrite E.
  rewrite app_nil_r, <- !app_assoc. rewrite skipn_app, Lr, (skipn_all2 r) by lia. reflexivity.
Qed.

(** Elevations: constituent ic comes back, nan entries masked. *)
Theorem C36_elevation h lims xlim ylim names ic :
  wide lims = 4%nat -> pat2 xlim -> pat2 ylim -> fits3 h 8 -> field_patterns h -> short_names h names -> (ic < nc3 h)%nat ->
  exists file, output_otis_elevation h lims xlim ylim names = Ok file
  /\ run (read_otis_elevation ic) file = Ok (map (fun m => map (fun i => clean (at3 h m i ic)) (seq 0 (nx3 h))) (seq 0 (ny3 h))).
Proof.
  intros W X Y (F1 & F2 & F3 & F4) P [N1 N2] Hic. unfold output_otis_elevation.
  destruct (header_read lims xlim ylim names (nx3 h) (ny3 h) (nc3 h) W F1 F2 F3) as (hd & Eh & _). rewrite Eh. cbn [bind].
  destruct (nc3 h =? 0)%nat eqn:E0; [apply Nat.eqb_eq in E0; lia|]. rewrite pack_ok by auto. cbn [bind].
  eexists. split; [reflexivity|].
  set (rl := be 4 (8 * Z.of_nat (nx3 h) * Z.of_nat (ny3 h))).
  set (row := fun c m => map (fun i => at3 h m i c) (seq 0 (nx3 h))).
  set (enc := fun c => rl ++ flat_map (fun m => tofile f4be (interleave2 (row c m))) (seq 0 (ny3 h)) ++ rl).
  change (flat_map _ (seq 0 (nc3 h))) with (flat_map enc (seq 0 (nc3 h))).
  assert (Lr : forall c m, length (tofile f4be (interleave2 (row c m))) = (8 * nx3 h)%nat).
  { intros c m. rewrite tofile4 by reflexivity. rewrite flat_be_length, map_length. unfold interleave2. rewrite (flat_const_length _ 2) by reflexivity.
    unfold row. rewrite map_length, seq_length. lia. }
  assert (Le : forall c, length (enc c) = (8 * nx3 h * ny3 h + 8)%nat).
  { intros c. unfold enc, rl. rewrite !app_length, be_length, (flat_const_length _ (8 * nx3 h)) by (intros; apply Lr). rewrite seq_length. nia. }
  eapply gets_run.
  replace (map (fun m => map (fun i => clean (at3 h m i ic)) (seq 0 (nx3 h))) (seq 0 (ny3 h))) with (map (map clean) (map (row ic) (seq 0 (ny3 h))))
    by (rewrite map_map; apply map_ext; intros m; unfold row; now rewrite map_map).
  unfold read_otis_elevation.
  apply (prefix_read lims xlim ylim names (nx3 h) (ny3 h) (nc3 h)
    (fun nx ny => rlift (shape_ok ny nx) ;;; rd rows <- rloop (Z.to_nat ny) (read_row2 nx) ;; rret (map (map clean) rows))
    (flat_map enc (seq 0 (nc3 h))) (rl ++ flat_map enc (seq (S ic) (nc3 h - S ic))) _ hd 8 ic); auto; [lia|].
  replace (Z.to_nat (Z.of_nat ic * (Z.of_nat (nx3 h) * Z.of_nat (ny3 h) * 8 + 8)) + 4)%nat with (ic * (8 * nx3 h * ny3 h + 8) + 4)%nat by nia.
  assert (Sk : skipn (ic * (8 * nx3 h * ny3 h + 8) + 4) (flat_map enc (seq 0 (nc3 h))) =
    flat_map (fun m => flat_map (be 4) (interleave2 (row ic m))) (seq 0 (ny3 h)) ++ rl ++ flat_map enc (seq (S ic) (nc3 h - S ic))).
  { rewrite (skip_to_record enc (8 * nx3 h * ny3 h + 8) ic (nc3 h) rl (flat_map (fun m => flat_map (be 4) (interleave2 (row ic m))) (seq 0 (ny3 h)) ++ rl)); auto.
    now rewrite <- app_assoc. }
  rewrite Sk. eapply gets_bind; [apply gets_lift, shape_nat|]. rewrite Nat2Z.id.
  eapply gets_bind; [|apply gets_ret].
  pose proof (gets_rloop (read_row2 (Z.of_nat (nx3 h))) (fun r => flat_map (be 4) (interleave2 r)) (map (row ic) (seq 0 (ny3 h))) (rl ++ flat_map enc (seq (S ic) (nc3 h - S ic)))) as G.
  rewrite map_length, seq_length, flat_map_map in G. apply G.
  intros r l Hr. apply in_map_iff in Hr as (m & <- & _). apply gets_row2.
  - unfold row. now rewrite map_length, seq_length.
  - unfold row. apply Forall_map. apply Forall_forall. intros i _. apply P.
Qed.
Print Assumptions C36_elevation.

(** Transports: both components of constituent ic come back. *)
Theorem C36_transport u v lims xlim ylim names ic :
  wide lims = 4%nat -> pat2 xlim -> pat2 ylim -> nx3 v = nx3 u -> ny3 v = ny3 u -> nc3 v = nc3 u -> fits3 u 16 -> field_patterns u -> field_patterns v -> short_names u names -> (ic < nc3 u)%nat ->
  exists file, output_otis_transport u v lims xlim ylim names = Ok file
  /\ run (read_otis_transport ic) file = Ok (map (fun m => map (fun i => clean (at3 u m i ic)) (seq 0 (nx3 u))) (seq 0 (ny3 u)), map (fun m => map (fun i => clean (at3 v m i ic)) (seq 0 (nx3 u))) (seq 0 (ny3 u))).
Proof.
  intros W X Y _ _ _ (F1 & F2 & F3 & F4) P Q [N1 N2] Hic. unfold output_otis_transport.
  destruct (header_read lims xlim ylim names (nx3 u) (ny3 u) (nc3 u) W F1 F2 F3) as (hd & Eh & _). rewrite Eh. cbn [bind].
  destruct (nc3 u =? 0)%nat eqn:E0; [apply Nat.eqb_eq in E0; lia|]. rewrite pack_ok by auto. cbn [bind].
  eexists. split; [reflexivity|].
  set (rl := be 4 (2 * 8 * Z.of_nat (nx3 u) * Z.of_nat (ny3 u))).
  set (row := fun c m => map (fun i => (at3 u m i c, at3 v m i c)) (seq 0 (nx3 u))).
  set (enc := fun c => rl ++ flat_map (fun m => tofile f4be (flat_map quad (row c m))) (seq 0 (ny3 u)) ++ rl).
  replace (flat_map _ (seq 0 (nc3 u))) with (flat_map enc (seq 0 (nc3 u))).
  2: { apply flat_map_ext. intros c. unfold enc. do 2 f_equal. apply flat_map_ext. intros m. f_equal. unfold row. now rewrite flat_map_map. }
  assert (Lr : forall c m, length (tofile f4be (flat_map quad (row c m))) = (16 * nx3 u)%nat).
  { intros c m. rewrite tofile4 by reflexivity. rewrite flat_be_length, map_length. rewrite (flat_const_length _ 4) by reflexivity.
    unfold row. rewrite map_length, seq_length. lia. }
  assert (Le : forall c, length (enc c) = (16 * nx3 u * ny3 u + 8)%nat).
  { intros c. unfold enc, rl. rewrite !app_length, be_length, (flat_const_length _ (16 * nx3 u)) by (intros; apply Lr). rewrite seq_length. nia. }
  eapply gets_run.
  replace (map (fun m => map (fun i => clean (at3 u m i ic)) (seq 0 (nx3 u))) (seq 0 (ny3 u))) with (map (map (fun p => clean (fst p))) (map (row ic) (seq 0 (ny3 u))))
    by (rewrite map_map; apply map_ext; intros m; unfold row; now rewrite map_map).
  replace (map (fun m => map (fun i => clean (at3 v m i ic)) (seq 0 (nx3 u))) (seq 0 (ny3 u))) with (map (map (fun p => clean (snd p))) (map (row ic) (seq 0 (ny3 u))))
    by (rewrite map_map; apply map_ext; intros m; unfold row; now rewrite map_map).
  unfold read_otis_transport.
  apply (prefix_read lims xlim ylim names (nx3 u) (ny3 u) (nc3 u)
    (fun nx ny => rlift (shape_ok ny nx) ;;; rd rows <- rloop (Z.to_nat ny) (read_row4 nx) ;; rret (map (map (fun p => clean (fst p))) rows, map (map (fun p => clean (snd p))) rows))
    (flat_map enc (seq 0 (nc3 u))) (rl ++ flat_map enc (seq (S ic) (nc3 u - S ic))) _ hd 16 ic); auto; [lia|].
  replace (Z.to_nat (Z.of_nat ic * (Z.of_nat (nx3 u) * Z.of_nat (ny3 u) * 16 + 8)) + 4)%nat with (ic * (16 * nx3 u * ny3 u + 8) + 4)%nat by nia.
  assert (Sk : skipn (ic * (16 * nx3 u * ny3 u + 8) + 4) (flat_map enc (seq 0 (nc3 u))) =
    flat_map (fun m => flat_map (be 4) (flat_map quad (row ic m))) (seq 0 (ny3 u)) ++ rl ++ flat_map enc (seq (S ic) (nc3 u - S ic))).
  { rewrite (skip_to_record enc (16 * nx3 u * ny3 u + 8) ic (nc3 u) rl (flat_map (fun m => flat_map (be 4) (flat_map quad (row ic m))) (seq 0 (ny3 u)) ++ rl)); auto.
    now rewrite <- app_assoc. }
  rewrite Sk. eapply gets_bind; [apply gets_lift, shape_nat|]. rewrite Nat2Z.id.
  eapply gets_bind; [|apply gets_ret].
  pose proof (gets_rloop (read_row4 (Z.of_nat (nx3 u))) (fun r => flat_map (be 4) (flat_map quad r)) (map (row ic) (seq 0 (ny3 u))) (rl ++ flat_map enc (seq (S ic) (nc3 u - S ic)))) as G.
  rewrite map_length, seq_length, flat_map_map in G. apply G.
  intros r l Hr. apply in_map_iff in Hr as (m & <- & _). apply gets_row4.
  - unfold row. now rewrite map_length, seq_length.
  - unfold row. apply Forall_map. apply Forall_forall. intros i _. split; [apply P | apply Q].
Qed.
Print Assumptions C36_transport.

(** A constituent index beyond the last raises. *)
Theorem C36_index h lims xlim ylim names ic :
  wide lims = 4%nat -> pat2 xlim -> pat2 ylim -> fits3 h 8 -> short_names h names -> (0 < nx3 h)%nat -> (0 < ny3 h)%nat -> (nc3 h <= ic)%nat ->
  exists file, output_otis_elevation h lims xlim ylim names = Ok file /\ run (read_otis_elevation ic) file = Err ValueError.
Proof.
  intros W X Y (F1 & F2 & F3 & F4) [N1 N2] Hx Hy Hic. unfold output_otis_elevation.
  destruct (header_read lims xlim ylim names (nx3 h) (ny3 h) (nc3 h) W F1 F2 F3) as (hd & Eh & Ehd). rewrite Eh. cbn [bind].
  set (rl := be 4 (8 * Z.of_nat (nx3 h) * Z.of_nat (ny3 h))).
  set (row := fun c m => map (fun i => at3 h m i c) (seq 0 (nx3 h))).
  set (enc := fun c => rl ++ flat_map (fun m => tofile f4be (interleave2 (row c m))) (seq 0 (ny3 h)) ++ rl).
  assert (Le : forall c, length (enc c) = (8 * nx3 h * ny3 h + 8)%nat).
  { intros c. unfold enc, rl. rewrite !app_length, be_length, (flat_const_length _ (8 * nx3 h)).
    - rewrite seq_length. nia.
    - intros m _. rewrite tofile4 by reflexivity. rewrite flat_be_length, map_length. unfold interleave2. rewrite (flat_const_length _ 2) by reflexivity.
      unfold row. rewrite map_length, seq_length. lia. }
  assert (B : exists file, (do rl <- (if (nc3 h =? 0)%nat then Ok [] else pack_i (8 * Z.of_nat (nx3 h) * Z.of_nat (ny3 h))) ;;
     Ok (hd ++ flat_map (fun ic => rl ++ flat_map (fun m => tofile f4be (interleave2 (map (fun i => at3 h m i ic) (seq 0 (nx3 h))))) (seq 0 (ny3 h)) ++ rl) (seq 0 (nc3 h)))) = Ok file
     /\ file = hd ++ flat_map enc (seq 0 (nc3 h))).
  { destruct (nc3 h =? 0)%nat eqn:E0; cbn [bind].
    - apply Nat.eqb_eq in E0. rewrite E0. cbn [seq flat_map]. eexists. split; reflexivity.
    - rewrite pack_ok by auto. cbn [bind]. eexists. split; reflexivity. }
  destruct B as (file & Ef & ->). eexists. split; [exact Ef|]. clear Ef.
  apply fails_run. unfold read_otis_elevation. rewrite Ehd. rewrite <- !app_assoc. cbn [flat_map]. rewrite !app_nil_r, <- !app_assoc.
  destruct X as [X1 X2], Y as [Y1 Y2].
  eapply gets_fails; [apply gets_i4; auto|]. eapply gets_fails; [apply gets_i4x3; auto; unfold int32 in *; lia|]. cbn [fst snd].
  eapply gets_fails; [apply gets_f4s2; apply as_read_pattern; auto|]. eapply gets_fails; [apply gets_f4s2; apply as_read_pattern; auto|].
  eapply gets_fails; [apply gets_seek_skip; lia|].
  eapply gets_fails; [apply gets_lift, shape_nat|].
  rewrite skipn_all2.
  2: { rewrite !app_length, be_length, names_length, (flat_const_length enc (8 * nx3 h * ny3 h + 8)), seq_length by auto.
       pose proof (Nat.mul_le_mono_r _ _ (8 * nx3 h * ny3 h + 8) Hic). lia. }
  apply fails_bind. rewrite Nat2Z.id. destruct (ny3 h) as [|k]; [lia|]. cbn [rloop]. apply fails_bind.
  unfold read_row2. eapply gets_fails with (a := []) (l' := []).
  - intros f p Hs. unfold f4s, fromfile. pose proof Hs as [_ Er]. rewrite Er. exists (p + 0).
    destruct (Z.to_nat (2 * Z.of_nat (nx3 h))) eqn:En; [lia|]. cbn [words length map]. split; [f_equal; f_equal; lia | now rewrite Z.add_0_r].
  - apply fails_bind, fails_lift. cbn [every]. unfold assign. cbn [length]. destruct (Z.of_nat 0 =? _) eqn:E; [apply Z.eqb_eq in E; lia | reflexivity].
Qed.
Print Assumptions C36_index.

(** Names longer than four characters shift the records: the file written with one
    such name is not read back. *)
Definition h11 : arr3 := Arr3 1 1 1 (fun _ _ _ => (1065353216, 1073741824)).
Definition lambda2 : bytes := [108; 97; 109; 98; 100; 97; 50].
Theorem C36_long_name_refuted : exists file, output_otis_elevation h11 (DT 4 true) (0, 0) (0, 0) [lambda2] = Ok file
  /\ run (read_otis_elevation 0) file <> Ok [[clean (1065353216, 1073741824)]].
Proof. eexists. split; [reflexivity|]. vm_compute. discriminate. Qed.
Print Assumptions C36_long_name_refuted.
Example C36_case : match output_otis_elevation h11 (DT 4 true) (0, 0) (0, 0) [[109; 50]] with Ok f => run (read_otis_elevation 0) f | Err e => Err e end
  = Ok [[Entry 1065353216 1073741824 false]].
Proof. reflexivity. Qed.
(** nan entries are masked and replaced *)
Example C36_nan : clean (2143289344, 0) = Entry fill_re 0 true.
Proof. reflexivity. Qed.

(** ** C37 *)
Definition word (c : bytes) : Prop := c <> [] /\ forall x, In x c -> blank x = false.
Lemma split_go_word c : forall cur t, (forall x, In x c -> blank x = false) -> split_go cur (c ++ t) = split_go (rev c ++ cur) t.
Proof.
  induction c as [|x c IH]; intros cur t H; cbn [app split_go rev]; auto.
  rewrite (H x) by (now left). rewrite IH by (intros; apply H; now right). now rewrite <- app_assoc.
Qed.
Lemma split_blanks n t : split_go [] (repeat 32 n ++ t) = split_go [] t.
Proof. induction n; cbn [repeat app split_go blank]; auto. Qed.
Lemma split_padded c n t : word c -> (0 < n)%nat -> split_go [] (c ++ repeat 32 n ++ t) = c :: split_go [] t.
Proof.
  intros [N B] Hn. rewrite split_go_word, app_nil_r by auto. destruct n as [|n]; [lia|]. cbn [repeat app split_go].
  change (blank 32) with true. cbn match. destruct (rev c) eqn:E; [apply (f_equal (@rev Z)) in E; rewrite rev_involutive in E; now destruct N|].
  rewrite <- E, rev_involutive. f_equal. apply split_blanks.
Qed.
Lemma split_last c n : word c -> split_go [] (c ++ repeat 32 n) = [c].
Proof.
  intros [N B]. destruct n as [|n].
  - cbn [repeat]. rewrite split_go_word, app_nil_r by auto. cbn [split_go].
    destruct (rev c) eqn:E; [apply (f_equal (@rev Z)) in E; rewrite rev_involutive in E; now destruct N|]. now rewrite <- E, rev_involutive.
  - rewrite <- (app_nil_r (repeat 32 (S n))). rewrite split_padded by (auto; lia || (split; auto)). reflexivity.
Qed.
(** all names but the last shorter than four characters *)
Definition separable (names : list bytes) : Prop :=
  (forall c, In c names -> word c /\ (length c <= 4)%nat) /\ forall c, In c (removelast names) -> (length c <= 3)%nat.
Lemma split_names names : separable names -> split (flat_map ljust4 names) = names.
Proof.
  unfold split. intros [H1 H2]. induction names as [|c names IH]; auto. destruct (H1 c (or_introl eq_refl)) as [Wc Lc].
  cbn [flat_map]. unfold ljust4 at 1. destruct names as [|c' names].
  - cbn [flat_map]. rewrite app_nil_r. now apply split_last.
  - rewrite <- app_assoc. assert (length c <= 3)%nat by (apply H2; now left).
    rewrite split_padded by (auto; lia). f_equal. apply IH; [intros; apply H1; now right|]. intros d Hd. apply H2. now right.
Qed.
Lemma header_names lims xlim ylim nx ny nc names body hd : wide lims = 4%nat -> int32 (Z.of_nat nx) -> int32 (Z.of_nat ny) -> int32 (4 * (7 + Z.of_nat nc)) ->
  length names = nc -> (forall c, In c names -> (length c <= 4)%nat) -> header nx ny nc lims xlim ylim names = Ok hd ->
  run read_constituents (hd ++ body) = Ok (split (flat_map ljust4 names), Z.of_nat nc).
Proof.
  intros W H1 H2 H3 L N Eh. destruct (header_read lims xlim ylim names nx ny nc W H1 H2 H3) as (hd' & Eh' & ->). rewrite Eh in Eh'. apply Ok_inj in Eh' as ->.
  rewrite <- !app_assoc. eapply gets_run. unfold read_constituents.
  eapply gets_bind; [apply gets_i4; auto|]. eapply gets_bind; [apply gets_i4x3; auto; unfold int32 in *; lia|]. cbn [snd].
  eapply gets_bind; [rewrite app_assoc; apply gets_seek; now rewrite app_length, !flat_be_length|].
  eapply gets_bind; [apply gets_read; rewrite names_length by auto; lia | apply gets_ret].
Qed.
Lemma written_header h lims xlim ylim names : wide lims = 4%nat -> fits3 h 8 ->
  exists hd body, header (nx3 h) (ny3 h) (nc3 h) lims xlim ylim names = Ok hd /\ output_otis_elevation h lims xlim ylim names = Ok (hd ++ body).
Proof.
  intros W (F1 & F2 & F3 & F4). destruct (header_read lims xlim ylim names (nx3 h) (ny3 h) (nc3 h) W F1 F2 F3) as (hd & Eh & _).
  exists hd. unfold output_otis_elevation. rewrite Eh. cbn [bind]. destruct (nc3 h =? 0)%nat; [|rewrite pack_ok by auto]; cbn [bind]; eexists; split; reflexivity.
Qed.

Theorem C37_names_partial h lims xlim ylim names : wide lims = 4%nat -> fits3 h 8 -> length names = nc3 h -> separable names ->
  exists file, output_otis_elevation h lims xlim ylim names = Ok file /\ run read_constituents file = Ok (names, Z.of_nat (nc3 h)).
Proof.
  intros W F L Sp. destruct (written_header h lims xlim ylim names W F) as (hd & body & Eh & Ef). exists (hd ++ body). split; auto.
  destruct F as (F1 & F2 & F3 & F4). rewrite (header_names lims xlim ylim (nx3 h) (ny3 h) (nc3 h) names body hd); auto.
  - now rewrite split_names.
  - intros c Hc. now apply Sp.
Qed.
Print Assumptions C37_names_partial.

(** Two adjacent names, the first of four characters, are read as one name. *)
Theorem C37_fused_refuted h lims xlim ylim a b : wide lims = 4%nat -> fits3 h 8 -> nc3 h = 2%nat -> word a -> word b -> length a = 4%nat -> (length b <= 4)%nat ->
  exists file, output_otis_elevation h lims xlim ylim [a; b] = Ok file /\ run read_constituents file = Ok ([a ++ b], 2).
Proof.
  intros W F N [Na Ba] [Nb Bb] La Lb. destruct (written_header h lims xlim ylim [a; b] W F) as (hd & body & Eh & Ef). exists (hd ++ body). split; auto.
  destruct F as (F1 & F2 & F3 & F4). rewrite (header_names lims xlim ylim (nx3 h) (ny3 h) (nc3 h) [a; b] body hd); auto.
  - rewrite N. repeat f_equal. cbn [flat_map]. unfold ljust4 at 1. rewrite La. cbn [Nat.sub repeat]. rewrite !app_nil_r.
    unfold ljust4, split. rewrite app_assoc. apply split_last. split; [now destruct a|]. intros x Hx. apply in_app_or in Hx as [Hx|Hx]; auto.
  - intros c [<-|[<-|[]]]; lia.
Qed.
Print Assumptions C37_fused_refuted.
(** m2, s2, msqm round trip; eps2, lam2 do not *)
Example C37_case : separable [[109; 50]; [115; 50]; [109; 115; 113; 109]].
Proof.
  split.
  - intros c H. cbn in H. repeat destruct H as [<-|H]; try contradiction; (split; [|cbn; lia]); (split; [discriminate|]);
      intros x Hx; cbn in Hx; repeat destruct Hx as [<-|Hx]; try contradiction; reflexivity.
  - intros c H. cbn in H. repeat destruct H as [<-|H]; try contradiction; cbn; lia.
Qed.
