(** C75: a TMD3 file which meets the hypotheses of the theorems. *)
From Coq Require Import String Ascii Reals List Bool Arith ZArith Lia Lra.
From Verif Require Import PyBase RBase MathModel GeoModel GridModel InterpModel ConvertProps ExtractModel ExtractSpec ExtractProofs NodeProps ExtractProps ReturnProps Tmd3Model Tmd3Spec Tmd3Props Tmd3Props2.
Import ListNotations.
Open Scope R_scope.

Definition sheet (a b c d e f : R) : list (list (R * bool)) := [[(a, false); (b, false)]; [(c, false); (d, false)]; [(e, false); (f, true)]].
Definition small : tmd3 := Tmd3 [0; 1] [2; 1; 0] (sheet 100 50 80 0 10 20) [[1; 1]; [1; 1]; [1; 0]]%Z (map (map (fun c => (fst c, false))) (sheet 100 100 50 0 100 100))
  (list_ascii_of_string "m2  s2") [sheet 1 2 3 4 5 6; sheet 0 1 0 1 0 1] [sheet 7 8 4 9 1 2; sheet 1 0 1 0 1 0] [] [] [] [].
Lemma sheet_rect a b c d e f : rect 3 2 (sheet a b c d e f).
Proof. split; [reflexivity|]. intros r [<-|[<-|[<-|[]]]]; reflexivity. Qed.
Example small_file : tmd3_file false false 0 1 2 0 1 3 [list_ascii_of_string "m2"; list_ascii_of_string "s2"] Vz small.
Proof.
  assert (Wd : forall a b, word [a; b] <-> ~ white a /\ ~ white b).
  { intros a b. split; [intros [_ H]; inversion H as [|? ? H1 H2]; inversion H2; now split|intros [H1 H2]; split; [discriminate|repeat constructor; assumption]]. }
  assert (Nw : forall a, (blank a = false) -> ~ white a) by (intros a E W; apply blank_spec in W; congruence).
  unfold tmd3_file, small. cbn [t_x t_y t_wct t_mask t_flexure t_order real_part imaginary_part t_hre t_him]. split; [|split; [|split; [lia|split; [lia|split; [apply sheet_rect|split; [|split; [apply map_rect, sheet_rect|split; [|split; [|split; [|right; split; [reflexivity|now left]]]]]]]]]]].
  - split; [lra|]. split; [reflexivity|]. intros [|[|i]] Hi; cbn; try lia; lra.
  - split; [lra|]. split; [reflexivity|]. intros [|[|[|j]]] Hj; cbn; try lia; lra.
  - split; [reflexivity|]. intros r [<-|[<-|[<-|[]]]]; reflexivity.
  - apply (Next_word [] (list_ascii_of_string "m2") " "%char (list_ascii_of_string " s2") [list_ascii_of_string "s2"]); [constructor|apply Wd; split; apply Nw; reflexivity|now left|].
    apply (Last_word (list_ascii_of_string " ") (list_ascii_of_string "s2")); [repeat constructor|apply Wd; split; apply Nw; reflexivity].
  - split; [cbn; lia|]. intros m [<-|[<-|[]]]; apply sheet_rect.
  - split; [cbn; lia|]. intros m [<-|[<-|[]]]; apply sheet_rect.
Qed.
Lemma small_flexure j i : (j < 3)%nat -> (i < 2)%nat -> snd (from_south (0, false) 3 (t_flexure small) j i) = false.
Proof. intros Hj Hi. destruct j as [|[|[|j]]]; try lia; destruct i as [|[|i]]; try lia; reflexivity. Qed.
(** a point at the node of the first column and the second row: its amplitude of 5 is
    halved by flexure *)
Example small_node : exists out d cs r, extract_tmd3 (fun p => p) false Bilinear Vz true small [(0, 1)] = Ok ([list_ascii_of_string "m2"; list_ascii_of_string "s2"], out) /\
  nth_error out 0 = Some (d, cs) /\ fst d = Some 80 /\ nth_error cs 0 = Some r /\ exists p, r = Some (5 / 2, p) /\ cos (p * PI / 180) = 3 / 5 /\ sin (p * PI / 180) = 4 / 5.
Proof.
  pose proof small_file as F.
  destruct (C75_returns (fun p => p) false false Bilinear Vz Heights 0 1 2 0 1 3 _ true small [(0, 1)] F eq_refl ltac:(discriminate) small_flexure) as (out & Eo & Lo).
  { intros _ p x [<-|[]] Hc. cbn [node_x last_column]. inversion Hc as [|? K| ? K| ? K | ? K]; try discriminate. subst. cbn. lra. }
  destruct (C75_extract (fun p => p) false false Vz Heights 0 1 2 0 1 3 _ true small [(0, 1)] _ out 0%nat (0, 1) 0 1 0%Z 1%nat F eq_refl small_flexure Eo eq_refl) as (_ & d & cs & E1 & E2 & E3 & E4 & V).
  - now constructor.
  - reflexivity.
  - cbn. lra.
  - unfold in_rows. cbn. lra.
  - cbn. lia.
  - cbn. lia.
  - lia.
  - unfold between_nodes, node_x, node_y. cbn. lra.
  - unfold node_x. cbn. lra.
  - unfold node_y. cbn. lra.
  - discriminate.
  - destruct (V 0%nat ltac:(cbn; lia)) as (re & im & r & V1 & V2 & V3 & V4). cbn [nth_error real_part imaginary_part small t_hre t_him] in V1, V2. injection V1 as <-. injection V2 as <-.
    assert (Ew : water (fun j i => fst (from_south (0, false) 3 (t_wct small) j i)) (from_south 0%Z 3 (t_mask small)) false 2 Heights 1 (column 2 0) = Some 80).
    { unfold water. change (column 2 0) with 0%nat. change (fst (from_south (0, false) 3 (t_wct small) 1 0)) with 80. change (from_south 0%Z 3 (t_mask small) 1 0)%nat with 1%Z. destruct (Req_EM_T 80 0) as [K|K]; [lra|]. reflexivity. }
    rewrite Ew in E2, V4. exists out, d, cs, r. split; [exact Eo|]. split; [exact E1|]. split; [exact E2|]. split; [exact V3|].
    change (column 2 0) with 0%nat in V4. cbv zeta in V4. unfold factor in V4. change (fst (from_south (0, false) 3 (t_flexure small) 1 0)) with 50 in V4.
    change (fst (from_south (0, false) 3 (sheet 1 2 3 4 5 6) 1 0)) with 3 in V4. change (fst (from_south (0, false) 3 (sheet 7 8 4 9 1 2) 1 0)) with 4 in V4.
    unfold lag in V4. destruct V4 as [(K & _)|(_ & a & p & A1 & A2 & A3 & A4 & A5)]; [lra|]. cbn [velocity] in A5. exists p.
    set (c := cos (p * PI / 180)) in *. set (s := sin (p * PI / 180)) in *.
    assert (P : s * s + c * c = 1) by (pose proof (sin2_cos2 (p * PI / 180)) as Q; unfold Rsqr in Q; exact Q).
    assert (Ha : a * a = 25 / 4). { transitivity ((a * c) * (a * c) + (a * s) * (a * s)); [transitivity (a * a * (s * s + c * c)); [rewrite P; ring|ring]|]. rewrite <- A3, <- A4. lra. }
    assert (a = 5 / 2). { assert ((a - 5 / 2) * (a + 5 / 2) = 0) by lra. apply Rmult_integral in H as [H|H]; lra. }
    subst a. split; [exact A5|]. split; lra.
Qed.
(** the last cell of the file is missing in its depths: it is read as water of 20 m *)
Example small_missing : entry (0, false) (snd (fst (read_grid small))) 0 1 = (20, false) /\ snd (from_south (0, false) 3 (t_wct small) 0 1) = true.
Proof.
  split; [|reflexivity]. pose proof small_file as (_ & Ey & _ & _ & Rw & Rm & Rf & _). pose proof (C75_grid small 3 2 0 1 Rw Rm Rf (proj1 (proj2 Ey)) ltac:(lia) ltac:(lia)) as G. destruct (read_grid small) as [[g hz] sf]. destruct G as (_ & _ & _ & _ & [_ G] & _). apply G. change (fst (from_south (0, false) 3 (t_wct small) 0 1)) with 20. lra.
Qed.
