(** C81: a case: files of a few bytes, and the height at a node. *)
From Coq Require Import String Ascii Reals ZArith List Bool Lia Lra.
From Verif Require Import PyBase RBase StrBase OtisModel InterpModel PredictModel PredictProps InferModel ComputeModel ComputeSpec
  ExtractModel ExtractSpec ExtractProofs ExtractProps CaseProps ElevationModel ElevationSpec ElevationProps ElevationProps2 ElevationCases OtisFilesSpec OtisFilesModel OtisFilesProofs OtisFilesProps.
Import ListNotations.
Open Scope list_scope.

(** two columns from 10 to 14 and three rows from 50 to 56; depth 100, the north-eastern
    cell masked; no open boundary *)
Definition strait : survey :=
  Survey 2 3 (1092616192, 1096810496)%Z (1112014848, 1113587712)%Z 1094713344%Z (fun _ _ => 1120403456%Z) (fun j i => if (j + i =? 3)%nat then 0%Z else 1%Z) [].
(** one constituent, 1.5 - 2 i everywhere *)
Definition current : tides := Elevations (fun _ _ _ => (1069547520, 3221225472)%Z).
Example C81_grid_case : grid_bytes strait =
  [0; 0; 0; 32; 0; 0; 0; 2; 0; 0; 0; 3; 66; 72; 0; 0; 66; 96; 0; 0; 65; 32; 0; 0; 65; 96; 0; 0; 65; 64; 0; 0; 0; 0; 0; 0; 0; 0; 0; 32;
   0; 0; 0; 4; 0; 0; 0; 0; 0; 0; 0; 4;
   0; 0; 0; 24; 66; 200; 0; 0; 66; 200; 0; 0; 66; 200; 0; 0; 66; 200; 0; 0; 66; 200; 0; 0; 66; 200; 0; 0; 0; 0; 0; 24;
   0; 0; 0; 24; 0; 0; 0; 1; 0; 0; 0; 1; 0; 0; 0; 1; 0; 0; 0; 1; 0; 0; 0; 1; 0; 0; 0; 0; 0; 0; 0; 24]%Z.
Proof. reflexivity. Qed.
Example C81_heights_bytes_case : firstn 52 (bytes_of strait ["m2"%string] current) =
  [0; 0; 0; 32; 0; 0; 0; 2; 0; 0; 0; 3; 0; 0; 0; 1; 66; 72; 0; 0; 66; 96; 0; 0; 65; 32; 0; 0; 65; 96; 0; 0; 109; 50; 32; 32; 0; 0; 0; 32;
   0; 0; 0; 48; 63; 192; 0; 0; 192; 0; 0; 0]%Z.
Proof. reflexivity. Qed.

Open Scope R_scope.
Ltac value_of := unfold single;
  repeat match goal with |- context [Z.div ?a ?b] => let v := eval vm_compute in (Z.div a b) in change (Z.div a b) with v end;
  repeat match goal with |- context [Z.modulo ?a ?b] => let v := eval vm_compute in (Z.modulo a b) in change (Z.modulo a b) with v end;
  repeat match goal with |- context [Z.eqb ?a ?b] => let v := eval vm_compute in (Z.eqb a b) in change (Z.eqb a b) with v end; cbv iota;
  repeat match goal with |- context [Z.sub ?a ?b] => let v := eval vm_compute in (Z.sub a b) in change (Z.sub a b) with v end;
  f_equal; unfold powerRZ; simpl; field.
Lemma v10 : single 1092616192 = Some 10. Proof. value_of. Qed.
Lemma v14 : single 1096810496 = Some 14. Proof. value_of. Qed.
Lemma v50 : single 1112014848 = Some 50. Proof. value_of. Qed.
Lemma v56 : single 1113587712 = Some 56. Proof. value_of. Qed.
Lemma v12 : single 1094713344 = Some 12. Proof. value_of. Qed.
Lemma v100 : single 1120403456 = Some 100. Proof. value_of. Qed.
Lemma v1_5 : single 1069547520 = Some (3 / 2). Proof. value_of. Qed.
Lemma v_2 : single 3221225472 = Some (-2). Proof. value_of. Qed.
(** nan, infinity, zero and the smallest number *)
Example C81_single_case : single 2143289344 = None /\ single 2139095040 = None /\ single 0 = Some 0 /\ single 1 = Some (powerRZ 2 (-149)).
Proof.
  split; [reflexivity|]. split; [reflexivity|]. split.
  - unfold single. change (0 / 2 ^ 31 =? 0)%Z with true. change (0 / 2 ^ 23 mod 2 ^ 8 =? 255)%Z with false. change (0 / 2 ^ 23 mod 2 ^ 8 =? 0)%Z with true. cbv iota zeta.
    change (0 mod 2 ^ 23)%Z with 0%Z. f_equal. unfold Rdiv. ring.
  - unfold single. change (1 / 2 ^ 31 =? 0)%Z with true. change (1 / 2 ^ 23 mod 2 ^ 8 =? 255)%Z with false. change (1 / 2 ^ 23 mod 2 ^ 8 =? 0)%Z with true. cbv iota zeta.
    change (1 mod 2 ^ 23)%Z with 1%Z. f_equal. replace (-149)%Z with (-23 + -126)%Z by lia. rewrite powerRZ_add by lra. change (powerRZ 2 (-23)) with (/ 2 ^ 23). field.
Qed.

Lemma m2_legible : legible ["m2"%string].
Proof. split; [|intros c []]. intros c [<-|[]]. split; [|cbn; lia]. split; [discriminate|]. repeat constructor; cbn; discriminate. Qed.
Lemma strait_files src : holds strait ["m2"%string] current src -> tide_files false false Heights strait ["m2"%string] current src (fun _ _ => 100) (fun _ _ _ => (1069547520, 3221225472)%Z) 10 14 50 56 12.
Proof.
  intros H. assert (Pw : (2 ^ 31 = 2147483648)%Z) by reflexivity. assert (Pw2 : (2 ^ 32 = 4294967296)%Z) by reflexivity. unfold tide_files. split; [|split; [discriminate|split; [exact H|]]].
  - unfold storable, bits32, integer32, strait. cbn [s_nx s_ny s_xlim s_ylim s_dt s_depth s_mask s_open fst snd List.length]. rewrite Pw, Pw2.
    repeat match goal with |- _ /\ _ => split end; try lia; [intros j i; destruct (j + i =? 3)%nat; lia|constructor].
  - split; [intros c j i; cbn; unfold bits32; rewrite Pw2; lia|]. split; [reflexivity|].
    split; [unfold bounded, strait; cbn [s_xlim s_ylim s_dt fst snd]; rewrite v10, v14, v50, v56, v12; repeat split; lra|].
    split; [intros; apply v100|]. split; [cbn; lia|]. split; [cbn; lia|]. right. split; [reflexivity|]. now left.
Qed.
(** the same in one file and in a file for the constituent *)
Lemma strait_case src : holds strait ["m2"%string] current src ->
  exists m v, otis_files here false Vz (grid_bytes strait) src rest "OTIS" None = Ok m /\
  elevations here time0 toy minors (fun _ => 0) (fun _ => 1) m true "bilinear" "UTC" None false None (Some "time series"%string) (C1 [11]) (C1 [53]) [0] = Ok v /\
  shows "time series" (C1 [11]) (C1 [53]) [0] v [(11, 53)] 0 0 (Some 3, false).
Proof.
  intros H. pose proof (strait_files src H) as Tf.
  destruct (C81_read here false false Vz Heights strait _ _ _ _ _ _ _ _ _ _ rest "OTIS" None Tf eq_refl) as (m & Em & E1 & E2 & E3). exists m.
  set (pts := [(11, 53)]).
  destruct (C81_returns here time0 toy minors (fun _ => 0) (fun _ => 1) here false false Vz Heights strait _ _ _ _ _ _ _ _ _ _ rest "OTIS" None m
    "UTC" None None "time series" (C1 [11]) (C1 [53]) [0] pts Tf eq_refl Em utc m2_known) as (v & Ev & _ & Hv).
  { now apply asks_series. } { discriminate. } { discriminate. }
  { intros q X [<-|[]] C. inversion C as [D|D|D|D|D]; try discriminate D. unfold node_x, last_column, here, first_centre. cbn.
    destruct (Rlt_dec 10 0); lra. }
  destruct (Hv 0%nat 0) as (w & Sh); [cbn; lia|change (In 0 [0]); now left|]. exists v. split; [exact Em|]. split; [exact Ev|].
  assert (Ew : w = (Some 3, false)); [|rewrite <- Ew; exact Sh].
  pose proof (C81_node here time0 toy minors (fun _ => 0) (fun _ => 1) here false false Vz Heights strait _ _ _ _ _ _ _ _ _ _ rest "OTIS" None m
    "UTC" None None "time series" (C1 [11]) (C1 [53]) [0] v pts 0%nat (11, 53) 0 w 11 53 0%Z 1%nat Tf eq_refl Em utc m2_known Ev Sh eq_refl) as Hn.
  cbv zeta in Hn. rewrite Hn; clear Hn.
  - change (s_nx strait) with 2%nat. change (column 2 0) with 0%nat. cbn [List.length seq map]. unfold pair_of. cbn [fst snd]. rewrite v1_5, v_2.
    cbn [water s_mask strait Nat.add Nat.eqb]. destruct (Req_EM_T 100 0); [lra|]. cbn [Z.eqb tide]. destruct (Req_EM_T (3 / 2) 0); [lra|].
    cbn [ExtractProps.velocity per_depth time0 st_tide st_tt_ut1]. rewrite height_0. cbn [fst]. replace (2 * (3 / 2)) with 3 by lra. reflexivity.
  - now apply projected.
  - reflexivity.
  - unfold reach, first_centre. cbn. destruct (Rlt_dec 10 0); lra.
  - unfold in_rows. cbn. lra.
  - cbn. lia.
  - cbn. lia.
  - cbn. lia.
  - unfold between_nodes, node_x, node_y, first_centre. cbn. destruct (Rlt_dec 10 0); lra.
  - unfold node_x, first_centre. cbn. destruct (Rlt_dec 10 0); lra.
  - unfold node_y. cbn. lra.
  - discriminate.
Qed.
Example C81_one_case : exists m v, otis_files here false Vz (grid_bytes strait) (OneFile (bytes_of strait ["m2"%string] current)) rest "OTIS" None = Ok m /\
  elevations here time0 toy minors (fun _ => 0) (fun _ => 1) m true "bilinear" "UTC" None false None (Some "time series"%string) (C1 [11]) (C1 [53]) [0] = Ok v /\
  shows "time series" (C1 [11]) (C1 [53]) [0] v [(11, 53)] 0 0 (Some 3, false).
Proof. apply strait_case. apply holds_one. apply m2_legible. Qed.
Example C81_each_case : exists m v, otis_files here false Vz (grid_bytes strait) (FilePerConstituent [bytes_of strait ["m2"%string] current]) rest "OTIS" None = Ok m /\
  elevations here time0 toy minors (fun _ => 0) (fun _ => 1) m true "bilinear" "UTC" None false None (Some "time series"%string) (C1 [11]) (C1 [53]) [0] = Ok v /\
  shows "time series" (C1 [11]) (C1 [53]) [0] v [(11, 53)] 0 0 (Some 3, false).
Proof.
  apply strait_case. apply holds_each; [apply m2_legible|reflexivity|]. intros [|c] name E; [|now destruct c]. cbn in E. injection E as <-. reflexivity.
Qed.
