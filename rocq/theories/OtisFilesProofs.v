(** Reading files with the layout of OtisFilesSpec (for C81). *)
From Coq Require Import String Ascii Reals ZArith List Bool Lia Lra.
From Verif Require Import PyBase RBase GeoModel OtisModel OtisProofs OtisProps InterpModel PredictModel ComputeModel ExtractModel ExtractSpec ExtractProofs ExtractProps ElevationModel OtisFilesSpec OtisFilesModel.
Import ListNotations.
Open Scope Z_scope.
Open Scope list_scope.

Lemma octets_be w : octets w = be 4 w.
Proof. unfold octets. cbn [be]. unfold byte_of. change (Z.of_nat 3) with 3. change (Z.of_nat 2) with 2. change (Z.of_nat 1) with 1. change (Z.of_nat 0) with 0.
  change (256 ^ 3) with (2 ^ 24). change (256 ^ 2) with (2 ^ 16). change (256 ^ 1) with (2 ^ 8). change (256 ^ 0) with 1. now rewrite Z.div_1_r. Qed.
Lemma octets_of_be ws : octets_of ws = flat_map (be 4) ws.
Proof. unfold octets_of. apply flat_map_ext. exact octets_be. Qed.
Lemma octets_of_length ws : List.length (octets_of ws) = (4 * List.length ws)%nat.
Proof. rewrite octets_of_be. apply flat_be_length. Qed.
Lemma fortran_be b : fortran b = be 4 (Z.of_nat (List.length b)) ++ b ++ be 4 (Z.of_nat (List.length b)).
Proof. unfold fortran. now rewrite octets_be. Qed.

Definition table {A} (ny nx : nat) (f : nat -> nat -> A) : list (list A) := map (fun j => map (f j) (seq 0 nx)) (seq 0 ny).
Lemma by_rows_one ny nx f : by_rows ny nx (fun j i => [f j i]) = concat (table ny nx f).
Proof.
  unfold by_rows, table. rewrite flat_map_concat_map. reflexivity.
Qed.
Lemma by_rows_length ny nx f k : (forall j i, List.length (f j i) = k) -> List.length (by_rows ny nx f) = (ny * (nx * k))%nat.
Proof.
  intros H. unfold by_rows. rewrite <- (seq_length ny 0) at 2. induction (seq 0 ny) as [|j l IH]; [reflexivity|].
  cbn [flat_map List.length Nat.mul]. rewrite app_length, IH. f_equal. rewrite <- (seq_length nx 0) at 2. clear IH. induction (seq 0 nx) as [|i l' IH']; [reflexivity|].
  cbn [flat_map List.length Nat.mul]. rewrite app_length, IH', H. lia.
Qed.
Lemma table_rows {A} ny nx (f : nat -> nat -> A) r : In r (table ny nx f) -> List.length r = nx.
Proof. unfold table. intros H. apply in_map_iff in H as (j & <- & _). now rewrite map_length, seq_length. Qed.
Lemma table_length {A} ny nx (f : nat -> nat -> A) : List.length (table ny nx f) = ny.
Proof. unfold table. now rewrite map_length, seq_length. Qed.
Lemma table_rect {A} ny nx (f : nat -> nat -> A) : rect ny nx (table ny nx f).
Proof. split; [apply table_length|apply table_rows]. Qed.
Lemma table_entry {A} (d : A) ny nx f j i : (j < ny)%nat -> (i < nx)%nat -> ExtractSpec.entry d (table ny nx f) j i = f j i.
Proof.
  intros Hj Hi. unfold ExtractSpec.entry, table. rewrite (nth_indep _ [] (map (f 0%nat) (seq 0 nx))) by now rewrite map_length, seq_length.
  rewrite (map_nth (fun j => map (f j) (seq 0 nx)) (seq 0 ny) 0%nat j), seq_nth by assumption.
  rewrite (nth_indep _ d (f (0 + j)%nat 0%nat)) by now rewrite map_length, seq_length.
  rewrite (map_nth (f (0 + j)%nat) (seq 0 nx) 0%nat i), seq_nth by assumption. reflexivity.
Qed.
Lemma table_in {A} (P : A -> Prop) ny nx f : (forall j i, P (f j i)) -> Forall P (concat (table ny nx f)).
Proof.
  intros H. apply Forall_forall. intros x Hx. apply in_concat in Hx as (r & Hr & Hx). unfold table in Hr. apply in_map_iff in Hr as (j & <- & _).
  apply in_map_iff in Hx as (i & <- & _). apply H.
Qed.
Lemma table_concat_length {A} ny nx (f : nat -> nat -> A) : List.length (concat (table ny nx f)) = (ny * nx)%nat.
Proof.
  pose proof (table_length ny nx f) as L. pose proof (table_rows ny nx f) as Rw. revert L Rw. generalize (table ny nx f). intros l.
  revert ny. induction l as [|r l IH]; intros ny L Rw; cbn in L; subst ny; [reflexivity|]. cbn [concat]. rewrite app_length, (IH _ eq_refl), (Rw r); [lia|now left|].
  intros; apply Rw; now right.
Qed.
Lemma table_map {A B} (g : A -> B) ny nx f : map (map g) (table ny nx f) = table ny nx (fun j i => g (f j i)).
Proof. unfold table. rewrite map_map. apply map_ext. intros j. now rewrite map_map. Qed.

(** ** The grid file *)
Lemma gets_plane ny nx (f : nat -> nat -> Z) l : (forall j i, pattern (f j i)) ->
  gets (read_plane (Z.of_nat ny) (Z.of_nat nx) false) (flat_map (be 4) (concat (table ny nx f)) ++ l) (table ny nx f) l.
Proof.
  intros P. unfold read_plane. eapply gets_bind; [apply gets_f4s; [rewrite table_concat_length; lia|now apply table_in]|].
  apply gets_lift, reshape_ok; [now rewrite table_length|lia|]. intros r H. now rewrite (table_rows _ _ _ _ H).
Qed.
Lemma gets_plane_int ny nx (f : nat -> nat -> Z) l : (forall j i, int32 (f j i)) ->
  gets (read_plane (Z.of_nat ny) (Z.of_nat nx) true) (flat_map (be 4) (concat (table ny nx f)) ++ l) (table ny nx f) l.
Proof.
  intros P. unfold read_plane. eapply gets_bind; [apply gets_i4s; [rewrite table_concat_length; lia|now apply table_in]|].
  apply gets_lift, reshape_ok; [now rewrite table_length|lia|]. intros r H. now rewrite (table_rows _ _ _ _ H).
Qed.

Lemma sizes s nc : storable s nc -> int32 (Z.of_nat (s_nx s)) /\ int32 (Z.of_nat (s_ny s)) /\ int32 (4 * (7 + Z.of_nat nc)) /\
  int32 (8 * Z.of_nat (s_nx s) * Z.of_nat (s_ny s)) /\ int32 (16 * Z.of_nat (s_nx s) * Z.of_nat (s_ny s)).
Proof.
  intros (X1 & X2 & Y1 & Y2 & D & Hd & Hm & Ho & Lo & Lx & Lc & Nx & Ny). unfold int32. change (2 ^ 31) with 2147483648 in *.
  assert (0 < Z.of_nat (s_nx s)) by lia. assert (0 < Z.of_nat (s_ny s)) by lia. repeat split; nia.
Qed.
Lemma pairs_length (l : list (Z * Z)) : List.length (flat_map (fun p => [fst p; snd p]) l) = (2 * List.length l)%nat.
Proof. induction l as [|p l IH]; [reflexivity|]. cbn [flat_map app List.length]. lia. Qed.
Lemma pairs_ints (l : list (Z * Z)) : Forall (fun p => integer32 (fst p) /\ integer32 (snd p)) l -> Forall int32 (flat_map (fun p => [fst p; snd p]) l).
Proof. induction 1 as [|p l [H1 H2] _ IH]; [constructor|]. cbn [flat_map app]. constructor; [exact H1|]. now constructor. Qed.
Lemma gets_iob (ob : list (Z * Z)) ws m1 m2 m3 m4 l : Forall (fun p => integer32 (fst p) /\ integer32 (snd p)) ob -> 8 * Z.of_nat (List.length ob) < 2 ^ 31 ->
  ws = match ob with [] => [0] | _ => flat_map (fun p => [fst p; snd p]) ob end ->
  List.length m1 = 4%nat -> List.length m2 = 4%nat -> List.length m3 = 4%nat -> List.length m4 = 4%nat ->
  gets read_iob (be 4 (Z.of_nat (List.length ob)) ++ m1 ++ m2 ++ flat_map (be 4) ws ++ m3 ++ m4 ++ l)
    (map (fun p => [fst p; snd p]) ob) l.
Proof.
  intros Ho Lo -> L1 L2 L3 L4. unfold read_iob. eapply gets_bind; [apply gets_i4; unfold int32; change (2 ^ 31) with 2147483648 in *; lia|].
  destruct ob as [|p0 l0].
  - change (Z.of_nat (List.length []) =? 0) with true. cbv iota. eapply gets_bind; [|apply gets_ret].
    replace (m1 ++ m2 ++ flat_map (be 4) [0] ++ m3 ++ m4 ++ l) with ((m1 ++ m2 ++ flat_map (be 4) [0] ++ m3 ++ m4) ++ l) by now rewrite <- !app_assoc.
    apply gets_seek. rewrite !app_length, L1, L2, L3, L4. reflexivity.
  - assert (Nz : Z.of_nat (List.length (p0 :: l0)) =? 0 = false) by (apply Z.eqb_neq; cbn [List.length]; lia). rewrite Nz.
    set (ob := p0 :: l0) in *. clearbody ob. clear Nz p0 l0.
    eapply gets_bind; [rewrite app_assoc; apply gets_seek; rewrite app_length, L1, L2; reflexivity|].
    eapply gets_bind; [apply gets_i4s; [rewrite pairs_length; lia|now apply pairs_ints]|].
    eapply gets_bind; [apply gets_lift|].
    + replace (flat_map (fun p => [fst p; snd p]) ob) with (concat (map (fun p => [fst p; snd p]) ob)) by (symmetry; apply flat_map_concat_map).
      apply reshape_ok; [now rewrite map_length|lia|]. intros r H. apply in_map_iff in H as (p & <- & _). reflexivity.
    + eapply gets_bind; [rewrite app_assoc; apply gets_seek; rewrite app_length, L3, L4; reflexivity|apply gets_ret].
Qed.
Lemma grid_bytes_read s nc : storable s nc ->
  run read_otis_grid (grid_bytes s) = Ok (OtisGrid (Z.of_nat (s_nx s)) (Z.of_nat (s_ny s)) [fst (s_ylim s); snd (s_ylim s)] [fst (s_xlim s); snd (s_xlim s)] (s_dt s)
    (map (fun p => [fst p; snd p]) (s_open s)) (table (s_ny s) (s_nx s) (s_depth s)) (table (s_ny s) (s_nx s) (s_mask s))).
Proof.
  intros St. destruct (sizes s nc St) as (Ix & Iy & _ & _ & _). destruct St as (X1 & X2 & Y1 & Y2 & D & Hd & Hm & Ho & Lo & Lx & Lc & Nx & Ny).
  unfold grid_bytes. rewrite !octets_of_be, !by_rows_one, !fortran_be.
  set (nx := s_nx s) in *. set (ny := s_ny s) in *. set (nob := Z.of_nat (List.length (s_open s))) in *.
  set (ws := match s_open s with [] => [0] | l => flat_map (fun p => [fst p; snd p]) l end).
  eapply gets_run. unfold read_otis_grid. cbn [flat_map]. rewrite <- !app_assoc. cbn [app].
  eapply gets_bind; [apply gets_seek; now rewrite be_length|].
  eapply gets_bind; [apply gets_i4; assumption|]. eapply gets_bind; [apply gets_i4; assumption|].
  eapply gets_bind; [apply gets_f4s2; assumption|]. eapply gets_bind; [apply gets_f4s2; assumption|]. eapply gets_bind; [apply gets_f4; assumption|].
  eapply gets_bind; [apply gets_iob; [assumption|exact Lo|unfold ws; now destruct (s_open s)|apply be_length|apply be_length|apply be_length|apply be_length]|].
  eapply gets_bind; [now apply gets_plane|].
  eapply gets_bind; [rewrite app_assoc; apply gets_seek; now rewrite app_length, !be_length|].
  eapply gets_bind; [now apply gets_plane_int|apply gets_ret].
Qed.

(** ** Names *)
Lemma characters_length c : List.length (characters c) = String.length c.
Proof. unfold characters. rewrite map_length. induction c; cbn; congruence. Qed.
Lemma decode_characters c : decode (characters c) = c.
Proof.
  unfold decode, characters. rewrite map_map. rewrite (map_ext _ (fun a => a)), map_id, string_of_list_ascii_of_string; [reflexivity|].
  intros a. rewrite N2Z.id. apply ascii_N_embedding.
Qed.
Lemma four_ljust c : (String.length c <= 4)%nat -> four c = ljust4 (characters c).
Proof.
  intros L. unfold four, ljust4. rewrite <- characters_length in L. revert L. generalize (characters c). intros l L.
  do 5 (destruct l as [|? l]; [reflexivity|]). cbn in L. lia.
Qed.
Lemma plain_word c : plain c -> word (characters c).
Proof.
  intros [N P]. split.
  - destruct c; [congruence|]. discriminate.
  - intros x Hx. unfold characters in Hx. apply in_map_iff in Hx as (a & <- & Ha). rewrite Forall_forall in P. specialize (P a Ha). unfold printable in P.
    unfold blank. destruct (Z.of_N (N_of_ascii a) =? 32) eqn:E1; [apply Z.eqb_eq in E1; lia|]. destruct (9 <=? Z.of_N (N_of_ascii a)) eqn:E2; [|reflexivity].
    destruct (Z.of_N (N_of_ascii a) <=? 13) eqn:E3; [apply Z.leb_le in E3; lia|reflexivity].
Qed.
Lemma legible_separable names : legible names -> separable (map characters names).
Proof.
  intros [H1 H2]. split.
  - intros c Hc. apply in_map_iff in Hc as (d & <- & Hd). destruct (H1 d Hd). split; [now apply plain_word|now rewrite characters_length].
  - intros c Hc. assert (Hd : exists d, c = characters d /\ In d (removelast names)).
    { clear H1 H2. induction names as [|d [|e names] IH]; [contradiction|contradiction|]. destruct Hc as [<-|Hc]; [exists d; split; auto; now left|].
      destruct (IH Hc) as (x & -> & Hx). exists x. split; auto. now right. }
    destruct Hd as (d & -> & Hd). rewrite characters_length. auto.
Qed.

(** ** The files of constituents *)
Lemma flat_ext_in {A B} (f g : A -> list B) l : (forall x, In x l -> f x = g x) -> flat_map f l = flat_map g l.
Proof. intros H. rewrite !flat_map_concat_map. f_equal. now apply map_ext_in. Qed.
Lemma four_names names : (forall c, In c names -> (String.length c <= 4)%nat) -> flat_map four names = flat_map ljust4 (map characters names).
Proof. intros H. rewrite flat_map_map. apply flat_ext_in. intros c Hc. now apply four_ljust, H. Qed.
Lemma heading_header s names : storable s (List.length names) -> legible names ->
  header (s_nx s) (s_ny s) (List.length names) f4be (s_xlim s) (s_ylim s) (map characters names) = Ok (heading s names).
Proof.
  intros St Hn. destruct (sizes _ _ St) as (Ix & Iy & Ic & _ & _).
  destruct (header_read f4be (s_xlim s) (s_ylim s) (map characters names) (s_nx s) (s_ny s) (List.length names) eq_refl Ix Iy Ic) as (hd & -> & ->).
  f_equal. unfold heading. rewrite fortran_be, octets_of_be, app_length, flat_be_length, four_names by (intros; now apply Hn).
  rewrite names_length, map_length by (intros c Hc; apply in_map_iff in Hc as (d & <- & Hd); rewrite characters_length; now apply Hn).
  match goal with |- context [be 4 (Z.of_nat (4 * ?a + ?b))] => replace (Z.of_nat (4 * a + b)) with (4 * (7 + Z.of_nat (List.length names))) by (cbn [List.length]; lia) end.
  cbn [flat_map as_read big f4be]. rewrite <- !app_assoc. reflexivity.
Qed.
Lemma height_bytes_written s names h : storable s (List.length names) -> legible names -> names <> [] ->
  output_otis_elevation (Arr3 (s_ny s) (s_nx s) (List.length names) (fun m i c => h c m i)) f4be (s_xlim s) (s_ylim s) (map characters names) = Ok (height_bytes s names h).
Proof.
  intros St Hn Nn. destruct (sizes _ _ St) as (Ix & Iy & Ic & I8 & _). unfold output_otis_elevation. cbn [nx3 ny3 nc3 at3].
  rewrite heading_header by assumption. cbn [bind]. destruct (List.length names =? 0)%nat eqn:E; [apply Nat.eqb_eq in E; destruct names; [congruence|discriminate]|].
  rewrite pack_ok by assumption. cbn [bind]. f_equal. unfold height_bytes. f_equal. apply flat_map_ext. intros c.
  rewrite fortran_be, octets_of_length, (by_rows_length _ _ _ 2) by reflexivity. replace (Z.of_nat (4 * (s_ny s * (s_nx s * 2)))) with (8 * Z.of_nat (s_nx s) * Z.of_nat (s_ny s)) by lia.
  f_equal. f_equal. rewrite octets_of_be. unfold by_rows. rewrite flat_map_flat_map. apply flat_map_ext. intros m.
  rewrite tofile4 by reflexivity. unfold interleave2. rewrite (map_ext (as_read f4be) (fun x => x)) by reflexivity. now rewrite map_id, flat_map_map.
Qed.
Lemma transport_bytes_written s names u v : storable s (List.length names) -> legible names -> names <> [] ->
  output_otis_transport (Arr3 (s_ny s) (s_nx s) (List.length names) (fun m i c => u c m i)) (Arr3 (s_ny s) (s_nx s) (List.length names) (fun m i c => v c m i))
    f4be (s_xlim s) (s_ylim s) (map characters names) = Ok (transport_bytes s names u v).
Proof.
  intros St Hn Nn. destruct (sizes _ _ St) as (Ix & Iy & Ic & _ & I16). unfold output_otis_transport. cbn [nx3 ny3 nc3 at3].
  rewrite heading_header by assumption. cbn [bind]. destruct (List.length names =? 0)%nat eqn:E; [apply Nat.eqb_eq in E; destruct names; [congruence|discriminate]|].
  change (2 * 8) with 16. rewrite pack_ok by assumption. cbn [bind]. f_equal. unfold transport_bytes. f_equal. apply flat_map_ext. intros c.
  rewrite fortran_be, octets_of_length, (by_rows_length _ _ _ 4) by reflexivity. replace (Z.of_nat (4 * (s_ny s * (s_nx s * 4)))) with (16 * Z.of_nat (s_nx s) * Z.of_nat (s_ny s)) by lia.
  f_equal. f_equal. rewrite octets_of_be. unfold by_rows. rewrite flat_map_flat_map. apply flat_map_ext. intros m.
  rewrite tofile4 by reflexivity. rewrite (map_ext (as_read f4be) (fun x => x)) by reflexivity. now rewrite map_id.
Qed.
Lemma short s names (at_ : nat -> nat -> nat -> Z * Z) : legible names -> short_names (Arr3 (s_ny s) (s_nx s) (List.length names) at_) (map characters names).
Proof. intros [H _]. split; [apply map_length|]. intros c Hc. apply in_map_iff in Hc as (d & <- & Hd). rewrite characters_length. now apply H. Qed.
Lemma height_bytes_read s names h c : storable s (List.length names) -> legible names -> patterns3 h -> (c < List.length names)%nat ->
  run (read_otis_elevation c) (height_bytes s names h) = Ok (table (s_ny s) (s_nx s) (fun j i => clean (h c j i))).
Proof.
  intros St Hn Hh Hc. assert (Nn : names <> []) by (intros ->; cbn in Hc; lia). pose proof St as St'. destruct St' as (X1 & X2 & Y1 & Y2 & _).
  destruct (sizes _ _ St) as (Ix & Iy & Ic & I8 & _).
  destruct (C36_elevation (Arr3 (s_ny s) (s_nx s) (List.length names) (fun m i c => h c m i)) f4be (s_xlim s) (s_ylim s) (map characters names) c) as (file & E1 & E2).
  - reflexivity. - now split. - now split. - repeat split; apply Ix || apply Iy || apply Ic || apply I8.
  - intros m i ic. apply Hh. - now apply short. - exact Hc.
  - rewrite height_bytes_written in E1 by assumption. apply Ok_inj in E1 as <-. exact E2.
Qed.
Lemma transport_bytes_read s names u v c : storable s (List.length names) -> legible names -> patterns3 u -> patterns3 v -> (c < List.length names)%nat ->
  run (read_otis_transport c) (transport_bytes s names u v) = Ok (table (s_ny s) (s_nx s) (fun j i => clean (u c j i)), table (s_ny s) (s_nx s) (fun j i => clean (v c j i))).
Proof.
  intros St Hn Hu Hv Hc. assert (Nn : names <> []) by (intros ->; cbn in Hc; lia). pose proof St as St'. destruct St' as (X1 & X2 & Y1 & Y2 & _).
  destruct (sizes _ _ St) as (Ix & Iy & Ic & _ & I16).
  destruct (C36_transport (Arr3 (s_ny s) (s_nx s) (List.length names) (fun m i c => u c m i)) (Arr3 (s_ny s) (s_nx s) (List.length names) (fun m i c => v c m i))
    f4be (s_xlim s) (s_ylim s) (map characters names) c) as (file & E1 & E2); try reflexivity.
  - now split. - now split. - repeat split; apply Ix || apply Iy || apply Ic || apply I16.
  - intros m i ic. apply Hu. - intros m i ic. apply Hv. - now apply short. - exact Hc.
  - rewrite transport_bytes_written in E1 by assumption. apply Ok_inj in E1 as <-. exact E2.
Qed.
Lemma heading_names s names body : storable s (List.length names) -> legible names ->
  run read_constituents (heading s names ++ body) = Ok (map characters names, Z.of_nat (List.length names)).
Proof.
  intros St Hn. destruct (sizes _ _ St) as (Ix & Iy & Ic & _ & _).
  rewrite (header_names f4be (s_xlim s) (s_ylim s) (s_nx s) (s_ny s) (List.length names) (map characters names) body (heading s names)); auto.
  - now rewrite split_names by now apply legible_separable.
  - apply map_length.
  - intros c Hc. apply in_map_iff in Hc as (d & <- & Hd). rewrite characters_length. now apply Hn.
  - now apply heading_header.
Qed.

(** ** Values *)
Lemma float32_single x : bits32 x -> float32 x = single x.
Proof.
  intros [H0 H1]. unfold float32, single. change (2 ^ 8) with 256. assert (He : 0 <= x / 2 ^ 23 mod 256 < 256) by (apply Z.mod_pos_bound; lia).
  assert (Hs : (x / 2 ^ 31 =? 0) = negb (2 ^ 31 <=? x)).
  { destruct (2 ^ 31 <=? x) eqn:E; cbn [negb].
    - apply Z.leb_le in E. apply Z.eqb_neq. assert (1 <= x / 2 ^ 31) by (apply Z.div_le_lower_bound; lia). lia.
    - apply Z.leb_gt in E. apply Z.eqb_eq. apply Z.div_small. lia. }
  rewrite Hs. destruct (x / 2 ^ 23 mod 256 =? 255); [reflexivity|]. set (m := x mod 2 ^ 23). set (e := x / 2 ^ 23 mod 256) in *.
  destruct (e =? 0).
  - f_equal. assert (Ep : (powerRZ 2 (-149) = / 2 ^ 23 * powerRZ 2 (-126))%R).
    { replace (-149) with (-23 + -126) by lia. rewrite powerRZ_add by lra. f_equal. }
    rewrite Ep. destruct (2 ^ 31 <=? x); cbn [negb]; rewrite ?opp_IZR; lra.
  - f_equal. assert (Ep : (powerRZ 2 (e - 150) = / 2 ^ 23 * powerRZ 2 (e - 127))%R).
    { replace (e - 150) with (-23 + (e - 127)) by lia. rewrite powerRZ_add by lra. f_equal. }
    rewrite Ep. assert (E2 : IZR (2 ^ 23) = (2 ^ 23)%R) by (change (2 ^ 23) with 8388608; lra).
    destruct (2 ^ 31 <=? x); cbn [negb]; rewrite ?opp_IZR, plus_IZR, E2; field.
Qed.
Lemma isnan_single x : isnan32 x = true -> single x = None.
Proof. unfold isnan32, single. change (2 ^ 8) with 256. intros H. apply andb_true_iff in H as [-> _]. reflexivity. Qed.
Lemma tide_clean w p : bits32 (fst p) -> bits32 (snd p) -> tide w (value (clean p)) = tide w (pair_of p, false).
Proof.
  intros H1 H2. unfold clean, pair_of. destruct (isnan32 (fst p) || isnan32 (snd p)) eqn:E.
  - assert (N : match single (fst p), single (snd p) with Some a, Some b => Some (a, b) | _, _ => None end = None).
    { apply orb_true_iff in E as [E|E]; rewrite (isnan_single _ E); [reflexivity|]. now destruct (single (fst p)). }
    rewrite N. unfold value. cbn [OtisModel.masked]. unfold tide. destruct w; [|reflexivity].
    now destruct (match _ with Some _ => _ | None => None end) as [[a b]|].
  - unfold value. cbn [OtisModel.re OtisModel.im OtisModel.masked]. now rewrite !float32_single.
Qed.

(** ** Axes *)
Lemma centres_evenly a b n : (2 <= n)%nat -> (a < b)%R -> evenly (a + (b - a) / INR n / 2) ((b - a) / INR n) n (centres (a, b) n).
Proof.
  intros Hn Hab. assert (Pn : (0 < INR n)%R) by (apply lt_0_INR; lia). unfold centres. cbn [fst snd].
  set (d := ((b - a) / INR n)%R). assert (Hd : (b = a + INR n * d)%R) by (unfold d; field; lra).
  destruct n as [|[|m]]; [lia|lia|]. unfold linspace. split; [unfold d; apply Rdiv_lt_0_compat; lra|]. split; [now rewrite map_length, seq_length|].
  intros i Hi. set (f := fun i0 => _). rewrite (nth_indep _ 0%R (f 0%nat)) by now rewrite map_length, seq_length.
  rewrite (map_nth f), seq_nth by assumption. unfold f. cbn [Nat.add]. f_equal. f_equal.
  assert (Pm : (0 < INR (S m))%R) by (apply lt_0_INR; lia). rewrite Hd. rewrite (S_INR (S m)). field. lra.
Qed.
