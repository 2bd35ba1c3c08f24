(** C93: boxes without nodes, the name of the new file, what is written, and a case. *)
From Coq Require Import String Ascii Reals ZArith List Bool Lra Lia Sorted DecimalString DecimalNat.
From Verif Require Import PyBase RBase GeoModel OtisModel OtisProofs OtisProps ExtractModel NodeProps OtisFilesModel ReduceModel ReduceSpec ReduceProofs ReduceProofs2 ReduceProps.
Import ListNotations.
Open Scope list_scope.

(** a box without nodes, or a grid with less than two nodes along an axis, is an IndexError *)
Theorem C93_empty : forall (corner : R * R -> R * R) (single : R -> Z) a b c d file g lx hx ly hy,
  grid_of_file file = Ok g ->
  bounds_of (map fst (map corner [(a, c); (b, c); (b, d); (a, d)])) lx hx ->
  bounds_of (map snd (map corner [(a, c); (b, c); (b, d); (a, d)])) ly hy ->
  (List.length (gx g) < 2)%nat \/ (List.length (gy g) < 2)%nat
  \/ filter (in_box lx hx) (gx g) = [] \/ filter (in_box ly hy) (gy g) = [] ->
  reduced_grid corner single a b c d file = Err IndexError.
Proof.
  intros corner single a b c d file g lx hx ly hy Eg Bx By H.
  assert (Er : exists raw, run read_otis_grid file = Ok raw) by (unfold grid_of_file in Eg; destruct (run read_otis_grid file) as [raw|]; [eauto|discriminate Eg]).
  destruct Er as (raw & Er). destruct (grid_parts file raw g Er Eg) as (xlim & ylim & dt & Exl & Eyl & Edt & _ & _ & Egx & Egy).
  unfold reduced_grid. rewrite Er. cbn [bind]. rewrite Exl, Eyl, Edt. cbn [bind]. cbv zeta. unfold otis_axes. cbn [fst snd]. rewrite <- Egx, <- Egy.
  rewrite (five_bounds corner a b c d fst lx hx Bx), (five_bounds corner a b c d snd ly hy By). rewrite nodes_prod. cbn [fst snd].
  assert (Sh : forall l, (List.length l < 2)%nat -> spacing l = Err IndexError) by (intros [|u [|v l]]; cbn; try reflexivity; lia).
  assert (Sb : forall l, spacing l = Err IndexError \/ exists v, spacing l = Ok v) by (intros [|u [|v l]]; cbn; eauto).
  destruct H as [H|H]; [now rewrite (Sh _ H)|]. destruct (Sb (gx g)) as [->|(dx & ->)]; [reflexivity|]. cbn [bind].
  destruct H as [H|H]; [now rewrite (Sh _ H)|]. destruct (Sb (gy g)) as [->|(dy & ->)]; [reflexivity|]. cbn [bind].
  assert (N : forall lo hi ax, filter (in_box lo hi) ax = [] -> places lo hi ax = []).
  { intros lo hi ax E. rewrite <- kept_places in E. now apply map_eq_nil in E. }
  assert (L0 : forall l : list nat, list_prod l ([] : list nat) = []) by (induction l; auto).
  destruct H as [H|H]; apply N in H; rewrite H; [now rewrite L0|reflexivity].
Qed.
Print Assumptions C93_empty.

Open Scope string_scope.
(** ** The name *)
(** the names that are tried *)
Definition candidate (base : string) (k : nat) : string :=
  match k with O => base | S _ => base ++ "_" ++ NilEmpty.string_of_uint (Nat.to_uint k) end.
Lemma search_found opens base : forall fuel k r,
  search fuel opens base (candidate base k) (S k) = Some r <->
  exists i, (k <= i < k + fuel)%nat /\ r = candidate base i /\ opens r = true /\ forall j, (k <= j < i)%nat -> opens (candidate base j) = false.
Proof.
  induction fuel as [|fuel IH]; intros k r; cbn [search].
  - split; [discriminate|]. intros (i & H & _). lia.
  - destruct (opens (candidate base k)) eqn:E.
    + split.
      * intros H. injection H as <-. exists k. split; [lia|]. split; [reflexivity|]. split; [exact E|]. intros j H. lia.
      * intros (i & H & -> & O & F). destruct (Nat.eq_dec i k) as [->|N]; [reflexivity|]. rewrite (F k) in E by lia. discriminate E.
    + change (numbered base (S k)) with (candidate base (S k)). rewrite IH. split.
      * intros (i & H & -> & O & F). exists i. split; [lia|]. split; [reflexivity|]. split; [exact O|]. intros j Hj. destruct (Nat.eq_dec j k) as [->|N]; [exact E|]. apply F. lia.
      * intros (i & H & -> & O & F). destruct (Nat.eq_dec i k) as [->|N]; [congruence|]. exists i. split; [lia|]. split; [reflexivity|]. split; [exact O|]. intros j Hj. apply F. lia.
Qed.
(** the search gives the first name that can be created; it ends only if there is one, so that
    it runs forever in a directory where no file can be created *)
Theorem C93_name : forall opens file,
  (forall r, (exists fuel, unique_name fuel opens file = Some r) <->
     exists k, r = candidate (base_name file) k /\ opens r = true /\ forall j, (j < k)%nat -> opens (candidate (base_name file) j) = false)
  /\ ((forall k, opens (candidate (base_name file) k) = false) -> forall fuel, unique_name fuel opens file = None).
Proof.
  intros opens file. set (base := base_name file).
  assert (G : forall fuel r, unique_name fuel opens file = Some r <-> exists i, (0 <= i < 0 + fuel)%nat /\ r = candidate base i /\ opens r = true
    /\ forall j, (0 <= j < i)%nat -> opens (candidate base j) = false) by (intros; apply (search_found opens base fuel 0 r)). split.
  - intros r. split.
    + intros (fuel & H). apply G in H as (i & _ & E & O & F). exists i. split; [exact E|]. split; [exact O|]. intros j Hj. apply F. lia.
    + intros (k & E & O & F). exists (S k). apply G. exists k. split; [lia|]. split; [exact E|]. split; [exact O|]. intros j Hj. apply F. lia.
  - intros N fuel. destruct (unique_name fuel opens file) as [r|] eqn:E; [|reflexivity]. apply G in E as (i & _ & -> & O & _). rewrite N in O. discriminate O.
Qed.
Print Assumptions C93_name.
(** names are never tried twice *)
Lemma append_inj_l a : forall b c, a ++ b = a ++ c -> b = c.
Proof. induction a as [|x a IH]; cbn; intros b c H; [exact H|]. injection H as H. now apply IH. Qed.
Lemma append_nil a b : a ++ b = a -> b = "".
Proof. intros H. apply (append_inj_l a). rewrite H. clear. induction a as [|x a IH]; cbn; congruence. Qed.
Theorem C93_distinct : forall base j k, candidate base j = candidate base k -> j = k.
Proof.
  intros base j k H. destruct j as [|j], k as [|k]; cbn [candidate] in H; auto.
  - symmetry in H. apply append_nil in H. discriminate H.
  - apply append_nil in H. discriminate H.
  - apply append_inj_l in H. apply (append_inj_l "_") in H.
    apply (f_equal (NilEmpty.uint_of_string)) in H. rewrite !NilEmpty.usu in H.
    assert (G : Nat.to_uint (S j) = Nat.to_uint (S k)) by congruence. now apply DecimalNat.Unsigned.to_uint_inj in G.
Qed.
Print Assumptions C93_distinct.
(** the first name: the name itself with .reduced, without an ending .out or .oce *)
Fixpoint dotless (s : string) : Prop := match s with EmptyString => True | String c t => c <> "."%char /\ dotless t end.
Lemma last_dot_none s : dotless s -> last_dot s = None.
Proof.
  induction s as [|c t IH]; intros H; [reflexivity|]. destruct H as [N D]. cbn [last_dot]. rewrite (IH D).
  destruct (Ascii.eqb c ".") eqn:E; [apply Ascii.eqb_eq in E; contradiction|reflexivity].
Qed.
Lemma last_dot_some stem ext : dotless ext -> last_dot (stem ++ String "." ext) = Some (stem, String "." ext).
Proof.
  intros D. induction stem as [|c t IH]; cbn [append last_dot].
  - now rewrite (last_dot_none ext D).
  - now rewrite IH.
Qed.
Theorem C93_base :
  (forall s, dotless s -> base_name s = s ++ ".reduced")
  /\ (forall stem ext, stem <> "" -> ext <> "" -> dotless ext ->
      base_name (stem ++ "." ++ ext) = stem ++ (if (String.eqb ext "out" || String.eqb ext "oce")%bool then "" else "." ++ ext) ++ ".reduced").
Proof.
  split.
  - intros s D. unfold base_name, stem_suffix. rewrite (last_dot_none s D). cbn. reflexivity.
  - intros stem ext Ns Ne D. unfold base_name, stem_suffix. change ("." ++ ext) with (String "." ext). rewrite (last_dot_some stem ext D).
    destruct stem as [|c t]; [now elim Ns|]. destruct ext as [|e u]; [now elim Ne|].
    change (String.eqb (String "." (String e u)) ".out") with (String.eqb (String e u) "out").
    change (String.eqb (String "." (String e u)) ".oce") with (String.eqb (String e u) "oce"). reflexivity.
Qed.
Print Assumptions C93_base.

(** ** What is written *)
(** the grid and nothing else, whatever the constituents are: the names of their files are
    looked up in a dictionary that stays empty, so that the program ends with a KeyError
    wherever the model has heights or currents *)
Theorem C93_constituents_refuted : forall fuel opens e c e' c' grid_file reduced constituents files x,
  make_regional fuel opens e c e' c' grid_file reduced constituents = Done files x ->
  (files = [] /\ x <> None)
  \/ (exists name bytes, files = [(name, bytes)] /\ reduced = Ok bytes /\ opens name = true
      /\ x = if (e' || c')%bool then Some KeyError else None).
Proof.
  intros fuel opens e c e' c' gf reduced co files x H. unfold make_regional in H. destruct (e || c)%bool; [|injection H as <- <-; left; split; [reflexivity|discriminate]].
  destruct reduced as [bytes|y]; [|injection H as <- <-; left; split; [reflexivity|discriminate]].
  destruct (unique_name fuel opens gf) as [name|] eqn:U; [|discriminate H]. right. exists name, bytes.
  assert (O : opens name = true).
  { destruct (C93_name opens gf) as [K _]. destruct (proj1 (K name)) as (k & _ & O & _); [now exists fuel|exact O]. }
  destruct e', c'; cbn in H; injection H as <- <-; repeat split; auto.
Qed.
Print Assumptions C93_constituents_refuted.

(** the name of an existing file is never taken, and where nothing can be created the program
    does not end *)
Theorem C93_forever : forall opens e c e' c' grid_file bytes constituents fuel,
  (e || c)%bool = true -> (forall name, opens name = false) ->
  make_regional fuel opens e c e' c' grid_file (Ok bytes) constituents = Searching.
Proof.
  intros opens e c e' c' gf bytes co fuel E N. unfold make_regional. rewrite E. destruct (C93_name opens gf) as [_ K]. now rewrite (K (fun k => N _)).
Qed.
Print Assumptions C93_forever.

Example C93_names_case : base_name "gridES2008.out" = "gridES2008.reduced" /\ base_name "grid_Gr1km-v2" = "grid_Gr1km-v2.reduced"
  /\ base_name "grid.v1.nc" = "grid.v1.nc.reduced"
  /\ unique_name 20 (fun s => negb (String.eqb s "g.reduced" || String.eqb s "g.reduced_1")%bool) "g.out" = Some "g.reduced_2".
Proof. repeat split; reflexivity. Qed.

(** ** A case: four columns from 0 to 4 and two rows from 0 to 2, reduced to the columns in
    the middle *)
Definition one : Z := 1065353216. Definition two : Z := 1073741824. Definition three : Z := 1077936128. Definition four : Z := 1082130432.
Definition sample : list Z := flat_map (be 4)
  [32; 4; 2; 0; two; 0; four; 0; 0; 32; 4; 0; 4; 32; one; two; three; four; four; three; two; one; 32; 32; 1; 1; 0; 1; 1; 1; 0; 1; 32]%Z.
Definition sample_raw : otis_grid :=
  OtisGrid 4 2 [0; two]%Z [0; four]%Z 0 [] [[one; two; three; four]; [four; three; two; one]] [[1; 1; 0; 1]; [1; 1; 0; 1]]%Z.
Lemma sample_read : run read_otis_grid sample = Ok sample_raw. Proof. reflexivity. Qed.
Open Scope R_scope.
Ltac value32 := unfold float32, one, two, three, four;
  repeat match goal with |- context [Z.div ?a ?b] => let v := eval vm_compute in (Z.div a b) in change (Z.div a b) with v end;
  repeat match goal with |- context [Z.modulo ?a ?b] => let v := eval vm_compute in (Z.modulo a b) in change (Z.modulo a b) with v end; cbv zeta;
  repeat match goal with |- context [Z.eqb ?a ?b] => let v := eval vm_compute in (Z.eqb a b) in change (Z.eqb a b) with v end; cbv iota;
  repeat match goal with |- context [Z.leb ?a ?b] => let v := eval vm_compute in (Z.leb a b) in change (Z.leb a b) with v end; cbv iota;
  repeat match goal with |- context [Z.sub ?a ?b] => let v := eval vm_compute in (Z.sub a b) in change (Z.sub a b) with v end;
  repeat match goal with |- context [Z.add ?a ?b] => let v := eval vm_compute in (Z.add a b) in change (Z.add a b) with v end;
  f_equal; unfold powerRZ; simpl; field.
Lemma f0 : float32 0 = Some 0. Proof. value32. Qed.
Lemma f1 : float32 one = Some 1. Proof. value32. Qed.
Lemma f2 : float32 two = Some 2. Proof. value32. Qed.
Lemma f3 : float32 three = Some 3. Proof. value32. Qed.
Lemma f4' : float32 four = Some 4. Proof. value32. Qed.
Definition sample_grid : grid := Grid [1/2; 3/2; 5/2; 7/2] [1/2; 3/2] [[1; 2; 3; 4]; [4; 3; 2; 1]] [[1; 1; 0; 1]; [1; 1; 0; 1]]%Z.
Lemma fin x r : float32 x = Some r -> finite x = Ok r. Proof. unfold finite. now intros ->. Qed.
Lemma sample_grid_of : grid_of_file sample = Ok sample_grid.
Proof.
  unfold grid_of_file. rewrite sample_read. cbn [bind sample_raw g_xlim g_ylim g_dt g_hz g_mz g_nx g_ny limits mapM].
  rewrite !(fin _ _ f0), !(fin _ _ f1), !(fin _ _ f2), !(fin _ _ f3), !(fin _ _ f4'). cbn [bind]. unfold otis_axes, grid_limits. cbn [fst snd].
  unfold rlt. destruct (Rlt_dec 0 0); [lra|]. cbn [andb]. rewrite !centres_affine by (cbn; lia).
  change (Z.to_nat 4) with 4%nat. change (Z.to_nat 2) with 2%nat. cbn [seq map fst snd]. unfold affine. cbn [INR].
  unfold sample_grid. f_equal. f_equal; repeat (f_equal; try lra).
Qed.
Definition to_single (x : R) : Z := if Req_EM_T x 1 then one else if Req_EM_T x 3 then three else if Req_EM_T x 2 then two else 0%Z.
Lemma box_kept lo hi x l : filter (in_box lo hi) (x :: l) = if in_box lo hi x then x :: filter (in_box lo hi) l else filter (in_box lo hi) l.
Proof. reflexivity. Qed.
Lemma box_t lo hi x : lo <= x <= hi -> in_box lo hi x = true. Proof. apply in_box_true. Qed.
Lemma box_f lo hi x : ~ lo <= x <= hi -> in_box lo hi x = false.
Proof. intros H. destruct (in_box lo hi x) eqn:E; [apply in_box_true in E; contradiction|reflexivity]. Qed.

Example C93_case :
  Forall (fun x => 0 <= x < 256)%Z sample /\ StronglySorted Rlt (gx sample_grid) /\ StronglySorted Rlt (gy sample_grid)
  /\ bounds_of (map fst (map (fun p : R * R => p) [(1, 0); (3, 0); (3, 2); (1, 2)])) 1 3
  /\ bounds_of (map snd (map (fun p : R * R => p) [(1, 0); (3, 0); (3, 2); (1, 2)])) 0 2
  /\ exists file' raw' g', reduced_grid (fun p => p) to_single 1 3 0 2 sample = Ok file' /\ run read_otis_grid file' = Ok raw' /\ grid_of_file file' = Ok g'
     /\ gx g' = [3/2; 5/2] /\ gy g' = [1/2; 3/2] /\ g_hz raw' = [[two; three]; [three; two]]
     /\ exists n, concat (gmz g') = map signed32 (skipn 2 (concat (g_hz raw')) ++ [n; n]).
Proof.
  assert (Fb : Forall (fun x => 0 <= x < 256)%Z sample).
  { apply Forall_forall. assert (G : forallb (fun x => (0 <=? x) && (x <? 256))%Z sample = true) by reflexivity. rewrite forallb_forall in G.
    intros x Hx. specialize (G x Hx). apply andb_true_iff in G as [G1 G2]. apply Z.leb_le in G1. apply Z.ltb_lt in G2. lia. }
  assert (S4 : StronglySorted Rlt (gx sample_grid)) by (cbn [sample_grid gx]; repeat constructor; lra).
  assert (S2 : StronglySorted Rlt (gy sample_grid)) by (cbn [sample_grid gy]; repeat constructor; lra).
  assert (Bx : bounds_of (map fst (map (fun p : R * R => p) [(1, 0); (3, 0); (3, 2); (1, 2)])) 1 3)
    by (cbn [map fst]; repeat split; [now left|right; now left|repeat constructor; lra]).
  assert (By : bounds_of (map snd (map (fun p : R * R => p) [(1, 0); (3, 0); (3, 2); (1, 2)])) 0 2)
    by (cbn [map snd]; repeat split; [now left|right; right; now left|repeat constructor; lra]).
  assert (EX : filter (in_box 1 3) (gx sample_grid) = [3/2; 5/2])
    by (cbn [sample_grid gx]; rewrite !box_kept, (box_f 1 3 (1/2)), (box_t 1 3 (3/2)), (box_t 1 3 (5/2)), (box_f 1 3 (7/2)) by lra; reflexivity).
  assert (EY : filter (in_box 0 2) (gy sample_grid) = [1/2; 3/2])
    by (cbn [sample_grid gy]; rewrite !box_kept, (box_t 0 2 (1/2)), (box_t 0 2 (3/2)) by lra; reflexivity).
  split; [exact Fb|]. split; [exact S4|]. split; [exact S2|]. split; [exact Bx|]. split; [exact By|].
  pose proof (C93_grid (fun p => p) to_single 1 3 0 2 sample sample_raw sample_grid 1 3 0 2 Fb sample_read sample_grid_of
    ltac:(cbn; lia) ltac:(cbn; lia) S4 S2 Bx By) as K. cbv zeta in K. rewrite EX, EY in K.
  destruct K as (file' & raw' & g' & E1 & E2 & E3 & E4 & _ & E6 & _ & E8 & _ & _ & E11); try discriminate.
  - cbn [hd last]. unfold pitch. cbn [sample_grid gx gy nth].
    replace (3 / 2 - (3 / 2 - 1 / 2) / 2) with 1 by field. replace (5 / 2 + (3 / 2 - 1 / 2) / 2) with 3 by field.
    replace (1 / 2 - (3 / 2 - 1 / 2) / 2) with 0 by field. replace (3 / 2 + (3 / 2 - 1 / 2) / 2) with 2 by field.
    intros v Hv. cbn [In] in Hv. unfold to_single. destruct Hv as [<-|[<-|[<-|[<-|[]]]]].
    + destruct (Req_EM_T 1 1); [|lra]. split; [unfold pattern, one; lia|exact f1].
    + destruct (Req_EM_T 3 1); [lra|]. destruct (Req_EM_T 3 3); [|lra]. split; [unfold pattern, three; lia|exact f3].
    + destruct (Req_EM_T 0 1); [lra|]. destruct (Req_EM_T 0 3); [lra|]. destruct (Req_EM_T 0 2); [lra|]. split; [unfold pattern; lia|exact f0].
    + destruct (Req_EM_T 2 1); [lra|]. destruct (Req_EM_T 2 3); [lra|]. destruct (Req_EM_T 2 2); [|lra]. split; [unfold pattern, two; lia|exact f2].
  - unfold fits, int32. cbn [List.length sample_raw g_iob]. lia.
  - exists file', raw', g'. split; [exact E1|]. split; [exact E2|]. split; [exact E3|].
    split; [apply (E6 0); [exact f0|lra]|]. split; [exact E4|]. split; [|apply E11; cbn; lia].
    assert (RM : forall m : list (list Z), restricted 1 3 0 2 (gx sample_grid) (gy sample_grid) m = map (kept 1 3 (gx sample_grid)) (kept 0 2 (gy sample_grid) m)) by reflexivity.
    assert (KX : forall u v w z : Z, kept 1 3 (gx sample_grid) [u; v; w; z] = [v; w]).
    { intros. unfold kept. cbn [sample_grid gx combine filter fst]. rewrite (box_f 1 3 (1/2)), (box_t 1 3 (3/2)), (box_t 1 3 (5/2)), (box_f 1 3 (7/2)) by lra. reflexivity. }
    assert (KY : forall u v : list Z, kept 0 2 (gy sample_grid) [u; v] = [u; v]).
    { intros. unfold kept. cbn [sample_grid gy combine filter fst]. rewrite (box_t 0 2 (1/2)), (box_t 0 2 (3/2)) by lra. reflexivity. }
    rewrite E8, RM. change (g_hz sample_raw) with [[one; two; three; four]; [four; three; two; one]]. rewrite KY. cbn [map]. now rewrite !KX.
Qed.
(** the mask of the reduced grid that is read back is made of depths: the claim that the
    reduction keeps the land mask is false *)
Theorem C93_mask_refuted :
  ~ (forall (corner : R * R -> R * R) single a b c d file raw g lx hx ly hy file' g',
     Forall (fun x => 0 <= x < 256)%Z file -> run read_otis_grid file = Ok raw -> grid_of_file file = Ok g ->
     (2 <= List.length (gx g))%nat -> (2 <= List.length (gy g))%nat -> StronglySorted Rlt (gx g) -> StronglySorted Rlt (gy g) ->
     bounds_of (map fst (map corner [(a, c); (b, c); (b, d); (a, d)])) lx hx ->
     bounds_of (map snd (map corner [(a, c); (b, c); (b, d); (a, d)])) ly hy ->
     reduced_grid corner single a b c d file = Ok file' -> grid_of_file file' = Ok g' ->
     gmz g' = restricted lx hx ly hy (gx g) (gy g) (gmz g)).
Proof.
  intros H. destruct C93_case as (Fb & S4 & S2 & Bx & By & file' & raw' & g' & E1 & E2 & E3 & _ & _ & E8 & n & M).
  pose proof (H (fun p => p) to_single 1 3 0 2 sample sample_raw sample_grid 1 3 0 2 file' g' Fb sample_read sample_grid_of
    ltac:(cbn; lia) ltac:(cbn; lia) S4 S2 Bx By E1 E3) as Q.
    assert (RM : forall m : list (list Z), restricted 1 3 0 2 (gx sample_grid) (gy sample_grid) m = map (kept 1 3 (gx sample_grid)) (kept 0 2 (gy sample_grid) m)) by reflexivity.
    assert (KX : forall u v w z : Z, kept 1 3 (gx sample_grid) [u; v; w; z] = [v; w]).
    { intros. unfold kept. cbn [sample_grid gx combine filter fst]. rewrite (box_f 1 3 (1/2)), (box_t 1 3 (3/2)), (box_t 1 3 (5/2)), (box_f 1 3 (7/2)) by lra. reflexivity. }
    assert (KY : forall u v : list Z, kept 0 2 (gy sample_grid) [u; v] = [u; v]).
    { intros. unfold kept. cbn [sample_grid gy combine filter fst]. rewrite (box_t 0 2 (1/2)), (box_t 0 2 (3/2)) by lra. reflexivity. }
    rewrite RM in Q. change (gmz sample_grid) with [[1; 1; 0; 1]; [1; 1; 0; 1]]%Z in Q.
    rewrite KY in Q. cbn [map] in Q. rewrite !KX in Q. rewrite Q, E8 in M. cbn [concat app skipn map] in M.
    injection M as M _. discriminate M.
Qed.
Print Assumptions C93_mask_refuted.
