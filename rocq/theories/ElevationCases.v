(** C78: cases meeting the hypotheses of the theorems. *)
From Coq Require Import String Reals List Bool Arith ZArith Lra Lia.
From Verif Require Import PyBase RBase StrBase MathModel GeoModel ConvertProps GridModel InterpModel InterpProps ExtractModel ExtractSpec NodeProps ExtractProofs ExtractProps ReturnProps CaseProps
  SeriesModel SeriesSpec SeriesProofs SeriesProps SeriesProps2 SeriesProps3 SeriesCases AtlasNcModel AtlasNcSpec AtlasNcProps AtlasNcProps2 AtlasNcProps3 AtlasNcCases
  PredictModel PredictSpec PredictProps InferModel ComputeModel ComputeSpec ElevationModel ElevationSpec ElevationProofs2 ElevationProps ElevationProps2 ElevationProps3.
Import ListNotations.
Open Scope R_scope.
Open Scope list_scope.

Definition minors : minor_args := Build_minor_args (fun _ _ => 0) (fun _ _ => 1) (fun _ _ => 0).
Definition time0 (_ : string) (t : R) : stamp := Stamp t 0 t.
Definition rest : string -> list (R * R) -> res (list (list (option (R * R)))) := fun _ _ => Err OtherError.
Lemma utc : In (lower "UTC") time_names.
Proof. cbn. tauto. Qed.
Lemma m2_known : forall c, In c ["m2"]%string -> a_known toy c = true.
Proof. intros c [<-|[]]. reflexivity. Qed.
Lemma argument_0 corr d c : argument toy corr 0 d c = 0.
Proof. unfold argument. cbn [toy a_G a_u a_omega a_phase fst]. destruct (in_dec _ _ _); field. Qed.
Lemma height_0 corr d z : height (a_f toy (0, d)) (argument toy corr 0 d) ["m2"]%string [Some z] = Some (2 * fst z).
Proof. cbn [height]. rewrite argument_0. unfold rise. cbn [toy a_f option_map]. rewrite cos_0, sin_0. f_equal. ring. Qed.
Lemma drift_two {X} T x y p q ts v (a b : X) : lower T = "drift"%string -> arranged T x y ts [p; q] v ->
  (exists t w, shows T x y ts v [p; q] 0 t w /\ w = a) -> (exists t w, shows T x y ts v [p; q] 1 t w /\ w = b) -> v = A1 [a; b].
Proof.
  intros E Ar (t & w & S0 & ->) (t' & w' & S1 & ->).
  destruct Ar as [vs _ -> L|rows E0|P rows E0]; [|rewrite E in E0; discriminate|rewrite E in E0; discriminate].
  inversion S0 as [vs0 _ _ _ _ Ev _ N|? ? ? E0|? ? ? ? E0]; [|rewrite E in E0; discriminate|rewrite E in E0; discriminate]. injection Ev as <-.
  inversion S1 as [vs1 _ _ _ _ Ev _ N'|? ? ? E0|? ? ? ? E0]; [|rewrite E in E0; discriminate|rewrite E in E0; discriminate]. injection Ev as <-.
  destruct vs as [|x0 [|x1 [|]]]; try discriminate. cbn in N, N'. now injection N as ->; injection N' as ->.
Qed.

(** OTIS: in the middle of the first cell of [bay], one of whose nodes is land *)
Example C78_heights_case : exists v, elevations here time0 toy minors (fun _ => 0) (fun _ => 1)
    (otis_model here false Vz bay [bay_tide] rest ["m2"]%string "OTIS" None) true "bilinear" "UTC" None false None (Some "time series"%string) (C1 [1/2]) (C1 [1/2]) [0] = Ok v /\
  shows "time series" (C1 [1/2]) (C1 [1/2]) [0] v [(1/2, 1/2)] 0 0 (Some 6, false).
Proof.
  set (pts := [(1/2, 1/2)]).
  destruct (C78_returns here time0 toy minors (fun _ => 0) (fun _ => 1) here false false Vz Heights 0 1 3 0 1 3 bay [bay_tide] rest ["m2"]%string "OTIS" None
    "UTC" None None "time series" (C1 [1/2]) (C1 [1/2]) [0] pts bay_model eq_refl utc m2_known eq_refl) as (v & Ev & _ & Hv).
  { now apply asks_series. } { discriminate. } { discriminate. }
  { intros q X [<-|[]] C. inversion C as [D|D|D|D|D]; try discriminate D. unfold node_x, last_column, here. cbn. lra. }
  destruct (Hv 0%nat 0) as (w & Sh); [cbn; lia|change (In 0 [0]); now left|]. exists v. split; [exact Ev|].
  assert (Ew : w = (Some 6, false)); [|rewrite <- Ew; exact Sh].
  pose proof (C78_heights here time0 toy minors (fun _ => 0) (fun _ => 1) here false false Vz Heights 0 1 3 0 1 3 bay [bay_tide] rest ["m2"]%string "OTIS" None
    "UTC" None None "time series" (C1 [1/2]) (C1 [1/2]) [0] v pts 0%nat (1/2, 1/2) 0 w (1/2) (1/2) 0%Z 0%nat bay_model eq_refl utc m2_known eq_refl ltac:(discriminate) Ev Sh eq_refl) as H.
  cbv zeta in H.
  assert (Wet : forall j i, (j < 2)%nat -> (i < 2)%nat -> water (entry 0 (ghz bay)) (entry 0%Z (gmz bay)) false 3 Heights j i = (if (i + j =? 0)%nat then None else Some (entry 0 (ghz bay) j i))).
  { intros j i Hj Hi. unfold water. cbn [ghz gmz bay]. rewrite flat_entry by lia.
    do 2 (destruct j as [|j]; [do 2 (destruct i as [|i]; [cbn [entry nth Nat.add Nat.eqb]; destruct (Req_EM_T _ 0); [try reflexivity; lra|]; try reflexivity; lra|]); lia|]); lia. }
  rewrite H.
  - clear H. unfold corners. change (column 3 0) with 0%nat. change (column 3 (0 + 1)) with 1%nat. cbn [map].
    rewrite !Wet by lia. cbn [Nat.add Nat.eqb tide velocity per_depth ExtractProps.velocity time0 st_tide st_tt_ut1 delta]. unfold bay_tide. rewrite !flat_entry by lia. cbn [tide].
    destruct (Req_EM_T 3 0); [lra|]. rewrite !height_0. cbn [fst height]. unfold mean, weight, total, node_x, node_y. cbn [map fst snd fold_right Z.add INR].
    destruct (Req_EM_T _ 0) as [E|_]; [lra|]. cbn [ExtractProps.velocity]. match goal with |- flagged (Some ?a) = _ => replace a with 6 by field end. reflexivity.
  - now apply projected.
  - reflexivity.
  - unfold reach. cbn. lra.
  - unfold in_rows. cbn. lra.
  - cbn. lia.
  - cbn. lia.
  - lia.
  - unfold between_nodes, node_x, node_y. cbn [Z.add INR]. lra.
  - unfold at_node, ExtractSpec.close, node_x, node_y. cbn [Z.add INR]. intros [[K|K] _]; revert K; [rewrite (Rabs_pos_eq (0 + 0 * 1)) by lra; rewrite Rabs_pos_eq by lra; lra|].
    rewrite (Rabs_pos_eq (0 + 1 * 1)) by lra. rewrite Rabs_left by lra. lra.
  - discriminate.
  - intros j' i' _ _. cbn [map]. match goal with |- all_or_none [?z] => destruct z; [left|right] end; intros z [<-|[]]; congruence.
Qed.

(** GOT: at two nodes, one of which is masked *)
Example C78_series_case : elevations here time0 toy minors (fun _ => 0) (fun _ => 1)
    (series_model GOT (1/2) [quarter] rest ["m2"]%string "GOT" None) true "bilinear" "UTC" None false None (Some "Drift"%string) (C1 [270; 180]) (C1 [10; 10]) [0; 0]
  = Ok (A1 [(Some 5, false); (None, true)]).
Proof.
  set (pts := [(270, 10); (180, 10)]). set (m := series_model GOT (1/2) [quarter] rest ["m2"]%string "GOT" None).
  assert (P : forall x, 0 <= x -> placed Eastern x = x) by (intros; cbn; unfold eastward; destruct (Rlt_dec x 0); lra).
  destruct (C69_returns GOT Bilinear (1/2) Eastern [quarter] pts) as (out & Ho & Lo).
  { discriminate. } { intros q [<-|[<-|[]]]; cbn; lra. }
  { intros s [<-|[]]. split; [apply quarter_frame|]. exists true, 0, 90, 4%nat, 0, 10, 3%nat. split; [apply quarter_grid|]. intros _ p [<-|[<-|[]]]; cbn [fst]; rewrite P by lra; cbn; lra. }
  destruct (C78_request here time0 toy minors (fun _ => 0) (fun _ => 1) m "bilinear" "UTC" None None "Drift" (C1 [270; 180]) (C1 [10; 10]) [0; 0] pts (by_point 2 out) utc) as (v & Ev & Ha & Hv & _).
  { cbn. tauto. } { apply m2_known. } { now apply asks_drift. } { discriminate. } { discriminate. }
  { unfold m, series_model, by_method. cbn [bm_extract]. change (method_of "bilinear") with (Some Bilinear). cbv beta iota. change (map here pts) with pts. rewrite Ho. reflexivity. }
  { apply by_point_shape. } { intros row I. rewrite (proj2 (by_point_shape 2 out) row I). exact (series_len _ _ _ _ _ _ Ho). }
  assert (Go : forall n x i, (n < 2)%nat -> nth_error pts n = Some (x, 10) -> 0 <= x < 300 -> node_x Heights 0 90 i = x -> (0 <= i <= 3)%Z ->
     exists t w, shows "Drift" (C1 [270; 180]) (C1 [10; 10]) [0; 0] v pts n t w /\
     w = flagged (option_map (Rmult (1/2)) (height (a_f toy (0, 0)) (argument toy "GOT" 0 0) ["m2"]%string [valid (entry (None, true) (shc quarter) 1 (column 4 i))]))).
  { intros n x i Hn Hp Hx Ei Hi. destruct (Hv n 0) as (w & Sh); [exact Hn|destruct n as [|[|n]]; [reflexivity|reflexivity|lia]|].
    assert (Ei1 : node_x Heights 0 90 (i + 1) = x + 90) by (unfold node_x in *; rewrite plus_IZR; lra).
    exists 0, w. split; [exact Sh|].
    pose proof (C78_series_node here time0 toy minors (fun _ => 0) (fun _ => 1) GOT (1/2) Eastern [quarter] rest ["m2"]%string "GOT" None "UTC" None None "Drift"
      (C1 [270; 180]) (C1 [10; 10]) [0; 0] v pts n (x, 10) 0 w true 0 90 4%nat 0 10 3%nat x 10 i 1%nat) as H. cbv zeta in H. rewrite H; auto.
    - intros s [<-|[]]. split; [apply quarter_frame|apply quarter_grid].
    - apply utc.
    - apply m2_known.
    - intros q [<-|[<-|[]]]; cbn; lra.
    - apply P. cbn. lra.
    - cbn. lia.
    - cbn. lia.
    - unfold between_nodes. rewrite Ei, Ei1. unfold node_y. cbn [INR]. repeat split; lra.
    - unfold node_y. cbn [INR]. lra. }
  rewrite Ev. f_equal. apply (drift_two "Drift" _ _ _ _ _ _ _ _ eq_refl Ha).
  - destruct (Go 0%nat 270 3%Z) as (t & w & Sh & ->); auto; try lra; try lia; [unfold node_x; lra|]. eexists _, _. split; [exact Sh|].
    change (valid (entry (None, true) (shc quarter) 1 (column 4 3))) with (Some (5, 0)). rewrite height_0. unfold flagged. cbn [option_map fst]. f_equal. f_equal. lra.
  - destruct (Go 1%nat 180 2%Z) as (t & w & Sh & ->); auto; try lra; try lia; [unfold node_x; lra|]. eexists _, _. split; [exact Sh|].
    reflexivity.
Qed.

(** ATLAS transports: at a node 100 deep and on land *)
Example C78_atlas_case : elevations here time0 toy minors (fun _ => 0) (fun _ => 1)
    (atlas_model Vu 1 ocean [flows] rest ["m2"]%string "OTIS" None) true "bilinear" "UTC" None false None (Some "drift"%string) (C1 [180; 270]) (C1 [10; 10]) [0; 0]
  = Ok (A1 [(Some (8 / 3), false); (None, true)]).
Proof.
  set (pts := [(180, 10); (270, 10)]). set (m := atlas_model Vu 1 ocean [flows] rest ["m2"]%string "OTIS" None).
  destruct (flow_result Bilinear Vu basin 90 pts) as (out & Ho & Lo & Ln); auto; [discriminate|intros q [<-|[<-|[]]]; cbn; lra|].
  destruct (C78_request here time0 toy minors (fun _ => 0) (fun _ => 1) m "bilinear" "UTC" None None "drift" (C1 [180; 270]) (C1 [10; 10]) [0; 0] pts (by_point 2 (aconst out)) utc) as (v & Ev & Ha & Hv & _).
  { cbn. tauto. } { apply m2_known. } { now apply asks_drift. } { discriminate. } { discriminate. }
  { unfold m, atlas_model, by_method. cbn [bm_extract]. change (method_of "bilinear") with (Some Bilinear). cbv beta iota. change (map here pts) with pts. rewrite Ho. reflexivity. }
  { apply by_point_shape. } { intros row I. rewrite (proj2 (by_point_shape 2 (aconst out)) row I). exact Lo. }
  assert (Go : forall n x i, (n < 2)%nat -> nth_error pts n = Some (x, 10) -> 0 <= x < 300 -> node_x Heights 90 90 i = x -> (0 <= i <= 2)%Z ->
     exists t w, shows "drift" (C1 [180; 270]) (C1 [10; 10]) [0; 0] v pts n t w /\
     w = flagged (option_map (Rmult 1) (per_depth true (depth_of basin 1 (column 4 i)) (height (a_f toy (0, 0)) (argument toy "OTIS" 0 0) ["m2"]%string [constant_of basin flow 1 (column 4 i)])))).
  { intros n x i Hn Hp Hx Ei Hi. destruct (Hv n 0) as (w & Sh); [exact Hn|destruct n as [|[|n]]; [reflexivity|reflexivity|lia]|].
    assert (Ei1 : node_x Heights 90 90 (i + 1) = x + 90) by (unfold node_x in *; rewrite plus_IZR; lra).
    exists 0, w. split; [exact Sh|].
    pose proof (C78_atlas_node here time0 toy minors (fun _ => 0) (fun _ => 1) Vu 1 Eastern ocean basin [flows] [flow] rest ["m2"]%string "OTIS" None "UTC" None None "drift"
      (C1 [180; 270]) (C1 [10; 10]) [0; 0] v pts n (x, 10) 0 w true 90 90 4%nat 0 10 3%nat x 10 i 1%nat) as H. cbv zeta in H. rewrite H; auto.
    - constructor.
    - apply basin_grid.
    - apply basin_frame.
    - constructor; [|constructor]. split; [constructor|apply flow_grid].
    - apply utc.
    - apply m2_known.
    - discriminate.
    - apply east. cbn. lra.
    - cbn. lia.
    - cbn. lia.
    - unfold between_nodes. rewrite Ei, Ei1. unfold node_y. cbn [INR]. repeat split; lra.
    - unfold node_y. cbn [INR]. lra. }
  rewrite Ev. f_equal. apply (drift_two "drift" _ _ _ _ _ _ _ _ eq_refl Ha).
  - destruct (Go 0%nat 180 1%Z) as (t & w & Sh & ->); auto; try lra; try lia; [unfold node_x; lra|]. eexists _, _. split; [exact Sh|].
    rewrite (depth_v basin 1 (column 4 1) 300), (constant_v basin flow 1 (column 4 1) 300 (4, 4)) by (try reflexivity; lra). rewrite height_0. unfold flagged, per_depth. cbn [option_map fst]. f_equal. f_equal. field.
  - destruct (Go 1%nat 270 2%Z) as (t & w & Sh & ->); auto; try lra; try lia; [unfold node_x; lra|]. eexists _, _. split; [exact Sh|].
    rewrite (depth_n basin 1 (column 4 2)) by reflexivity. unfold constant_of. rewrite (depth_n basin 1 (column 4 2)) by reflexivity. reflexivity.
Qed.

(** one point east of a regional model masks the other; alone it is not masked *)
Definition eastern : grid := Grid (steps 200 1 3) (steps 0 1 3) (flat 3 3 10) (flat 3 3 1%Z).
Lemma eastern_model : model_grid true false 200 1 3 0 1 3 eastern [bay_tide].
Proof.
  unfold model_grid. cbn [gx gy ghz gmz eastern].
  split; [apply steps_evenly; lra|]. split; [apply steps_evenly; lra|]. split; [lia|]. split; [lia|]. split; [apply flat_rect|]. split; [apply flat_rect|].
  split; [intros hc [<-|[]]; apply flat_rect|]. right. split; [reflexivity|]. right. cbn [Nat.sub INR]. apply not_close; [apply abs_ge; lra|apply abs_le; lra].
Qed.
Example C78_points_case : exists v, elevations here time0 toy minors (fun _ => 0) (fun _ => 1)
    (otis_model here true Vz eastern [bay_tide] rest ["m2"]%string "OTIS" None) true "bilinear" "UTC" None false None (Some "drift"%string) (C1 [401/2; 210]) (C1 [1/2; 1/2]) [0; 0] = Ok v /\
  v = A1 [(None, true); (None, true)].
Proof.
  set (pts := [(401/2, 1/2); (210, 1/2)]).
  destruct (C78_returns here time0 toy minors (fun _ => 0) (fun _ => 1) here true false Vz Heights 200 1 3 0 1 3 eastern [bay_tide] rest ["m2"]%string "OTIS" None
    "UTC" None None "drift" (C1 [401/2; 210]) (C1 [1/2; 1/2]) [0; 0] pts eastern_model eq_refl utc m2_known eq_refl) as (v & Ev & Ha & Hv).
  { now apply asks_drift. } { discriminate. } { discriminate. }
  { intros q X I C. assert (Q : 400 <= 2 * fst (here q)) by (destruct I as [<-|[<-|[]]]; cbn; lra). 
    unfold node_x, last_column. cbn [Nat.sub Z.of_nat]. revert C. generalize (map (fun p => fst (here p)) pts). intros l C.
    destruct I as [<-|[<-|[]]]; cbn [here fst] in *; inversion C; subst; unfold eastward, westward in *; repeat destruct (Rlt_dec _ _); cbn; lra. }
  exists v. split; [exact Ev|]. apply (drift_two "drift" _ _ _ _ _ _ _ _ eq_refl Ha).
  all: match goal with |- exists t w, shows _ _ _ _ _ _ ?n _ _ /\ _ => destruct (Hv n 0) as (w & Sh); [cbn; lia|reflexivity|]; exists 0, w; split; [exact Sh|];
    apply (C78_points_refuted here time0 toy minors (fun _ => 0) (fun _ => 1) here Vz Heights 200 1 3%nat 0 1 3%nat eastern [bay_tide] rest ["m2"]%string "OTIS" None
      "UTC" None None "drift" (C1 [401/2; 210]) (C1 [1/2; 1/2]) [0; 0] v pts n 0 w (210, 1/2) eastern_model eq_refl); auto end.
  all: try lra; try apply utc; try apply m2_known; try discriminate; try (cbn; lra); try (cbn; tauto); try (cbn; lia).
  all: intros p [<-|[<-|[]]]; cbn; lra.
Qed.
