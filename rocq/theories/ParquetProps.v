(** C79: data written to parquet files can be read again. *)
From Coq Require Import String Reals Lra List Bool ZArith Arith Lia.
From Verif Require Import PyBase ParquetModel.
Import ListNotations.
Open Scope string_scope.
Open Scope list_scope.

Lemma dget_none {V} (d : list (string * V)) k : dget d k = None <-> ~ In k (map fst d).
Proof.
  induction d as [|[a v] d IH]; cbn; [tauto|]. destruct (String.eqb_spec a k) as [->|N]; [split; [discriminate|tauto]|]. rewrite IH. tauto.
Qed.
Lemma dget_in {V} (d : list (string * V)) k v : NoDup (map fst d) -> In (k, v) d -> dget d k = Some v.
Proof.
  induction d as [|[a w] d IH]; cbn; [tauto|]. intros N [E|I].
  - injection E as -> ->. now rewrite String.eqb_refl.
  - inversion N as [|? ? N1 N2]; subst. destruct (String.eqb_spec a k) as [->|_]; [|auto]. exfalso. apply N1. apply (in_map fst) in I. exact I.
Qed.
Lemma dget_some {V} (d : list (string * V)) k v : dget d k = Some v -> In (k, v) d.
Proof. induction d as [|[a w] d IH]; cbn; [discriminate|]. destruct (String.eqb_spec a k) as [->|_]; [intros [= ->]; auto|auto]. Qed.
Lemma dset_new {V} (d : list (string * V)) k v : ~ In k (map fst d) -> dset d k v = d ++ [(k, v)].
Proof. induction d as [|[a w] d IH]; cbn; [reflexivity|]. intros N. destruct (String.eqb_spec a k) as [->|_]; [tauto|]. now rewrite IH by tauto. Qed.
Lemma dset_get {V} (d : list (string * V)) k v : dget (dset d k v) k = Some v.
Proof.
  induction d as [|[a w] d IH]; cbn; [now rewrite String.eqb_refl|]. destruct (String.eqb_spec a k) as [->|N]; cbn; [now rewrite String.eqb_refl|].
  destruct (String.eqb_spec a k); [contradiction|exact IH].
Qed.
Lemma dset_other {V} (d : list (string * V)) k v k' : k' <> k -> dget (dset d k v) k' = dget d k'.
Proof.
  intros N. induction d as [|[a w] d IH]; cbn.
  - destruct (String.eqb_spec k k'); [congruence|reflexivity].
  - destruct (String.eqb_spec a k) as [->|N']; cbn; [destruct (String.eqb_spec k k'); [congruence|reflexivity]|]. destruct (String.eqb a k'); [reflexivity|exact IH].
Qed.
Lemma dpop_get {V} (d : list (string * V)) k k' : k' <> k -> dget (dpop d k) k' = dget d k'.
Proof.
  intros N. induction d as [|[a w] d IH]; cbn; [reflexivity|]. destruct (String.eqb_spec a k) as [->|N']; cbn; [destruct (String.eqb_spec k k'); [congruence|exact IH]|].
  destruct (String.eqb a k'); [reflexivity|exact IH].
Qed.
Lemma dpops_get {V} l (d : list (string * V)) k : ~ In k l -> dget (fold_left dpop l d) k = dget d k.
Proof. revert d. induction l as [|a l IH]; intros d N; cbn; [reflexivity|]. cbn in N. rewrite IH by tauto. apply dpop_get. intros ->. tauto. Qed.
Lemma dpops_filter {V} l (d : list (string * V)) : fold_left dpop l d = filter (fun e => negb (existsb (String.eqb (fst e)) l)) d.
Proof.
  revert d. induction l as [|a l IH]; intros d; cbn; [induction d; cbn; congruence|]. rewrite IH. unfold dpop.
  induction d as [|e d Id]; cbn; [reflexivity|]. destruct (String.eqb (fst e) a); cbn; [exact Id|]. destruct (existsb _ l); cbn; congruence.
Qed.
Lemma mapM_points l : mapM (fun a => match a with Point x y => Ok (x, y) | Num _ => Err TypeError end) (map (fun q : option R * option R => Point (fst q) (snd q)) l) = Ok l.
Proof. induction l as [|[a b] l IH]; cbn; [reflexivity|]. now rewrite IH. Qed.
Lemma numbers_nums l : numbers_of (map Num l) = Ok l.
Proof. unfold numbers_of. induction l as [|a l IH]; cbn; [reflexivity|]. now rewrite IH. Qed.

Section Rows.
  Variable of_epsg : Z -> string.
  Variable of_json : string -> string.
  Variable proj4 : string -> string.
  Variables now project version : string.
  Notation write := (to_parquet of_epsg of_json now project version).
  Notation read := (from_parquet of_json proj4).

  (** the columns have one length *)
  Definition even_columns (output : list (string * list pcell)) : Prop := forall a b, In a output -> In b output -> List.length (snd a) = List.length (snd b).
  Lemma even_ok output : even_columns output -> dataframe output = Ok output.
  Proof.
    intros E. destruct output as [|[k c] rest]; [reflexivity|]. cbn. replace (forallb _ rest) with true; [reflexivity|].
    symmetry. apply forallb_forall. intros e I. apply Nat.eqb_eq. apply (E e (k, c)); cbn; auto.
  Qed.
End Rows.

(** the text of a reference that is given *)
Definition given (of_epsg : Z -> string) (c : crs_arg) (t : string) : Prop :=
  match c with NoCrs => False | Epsg z => z <> 0%Z /\ t = of_epsg z | ProjJson s => t = s end.
Lemma given_reference of_epsg of_json c t : given of_epsg c t -> exists s, reference of_epsg of_json c = Some (s, t) /\ s = match c with ProjJson j => of_json j | _ => t end.
Proof.
  destruct c as [|z|j]; cbn; [tauto| |].
  - intros [N ->]. destruct (Z.eqb_spec z 0); [contradiction|]. eauto.
  - intros ->. eauto.
Qed.

(** Written with a reference system and without the index, a table is read as it was:
    names, order and values of the columns, the attributes and the projection *)
Theorem C79_round_trip : forall of_epsg of_json proj4 now project version output attributes c t index encoding primary index' primary' encoding',
  even_columns output -> NoDup (map fst output) -> given of_epsg c t -> index <> Some true -> ~ In primary' (map fst output) ->
  exists f a, to_parquet of_epsg of_json now project version output attributes c index false encoding primary = Ok (f, a) /\
    from_parquet of_json proj4 f index' None primary' encoding' = Ok (Frame output a false (proj4 (of_json t))) /\
    dget a "crs" = Some t /\ dget a "date_created" = Some now /\ dget a "software_reference" = Some project /\ dget a "software_version" = Some version /\
    forall k, ~ In k ["crs"; "date_created"; "software_reference"; "software_version"] -> dget a k = dget attributes k.
Proof.
  intros of_epsg of_json proj4 now project version output attributes c t index encoding primary index' primary' encoding' He Hn Hg Hi Hp.
  destruct (given_reference of_epsg of_json c t Hg) as (s & Es & _).
  unfold to_parquet. rewrite even_ok by exact He. cbn [bind]. rewrite Es. cbn [andb bind].
  eexists _, _. split; [reflexivity|]. unfold from_parquet. cbn [p_index p_geo p_columns p_attributes].
  replace (match index with Some true => true | _ => false end) with false by (destruct index as [[|]|]; congruence). cbn [bind].
  assert (Ec : dget (dset (dset (dset (dset attributes "crs" t) "date_created" now) "software_reference" project) "software_version" version) "crs" = Some t).
  { rewrite !dset_other by discriminate. apply dset_get. }
  rewrite Ec. cbn [bind]. rewrite (proj2 (dget_none output primary') Hp). cbn [bind]. split; [reflexivity|]. split; [reflexivity|].
  split; [rewrite !dset_other by discriminate; apply dset_get|]. split; [rewrite !dset_other by discriminate; apply dset_get|]. split; [apply dset_get|].
  intros k Hk. cbn in Hk. rewrite !dset_other by (intros ->; tauto). reflexivity.
Qed.
Print Assumptions C79_round_trip.

(** Geoparquet: with one column of longitudes and one of latitudes, the others are read as
    they were, followed by the geometry, and the coordinates as x and y *)
Theorem C79_geometry : forall of_epsg of_json proj4 now project version output attributes c t index primary index' primary' encoding' kx ky xs ys,
  even_columns output -> NoDup (map fst output) -> given of_epsg c t -> index <> Some true ->
  In kx ["lon"; "longitude"; "x"] -> In ky ["lat"; "latitude"; "y"] -> In (kx, map Num xs) output -> In (ky, map Num ys) output ->
  (forall k, In k (map fst output) -> In k ["lon"; "longitude"; "x"; "lat"; "latitude"; "y"] -> k = kx \/ k = ky) ->
  ~ In primary (map fst output) -> primary <> "x" -> primary <> "y" ->
  exists f a r, to_parquet of_epsg of_json now project version output attributes c index true "WKB" primary = Ok (f, a) /\
    from_parquet of_json proj4 f index' None primary' encoding' = Ok r /\
    f_columns r = filter (fun e => negb (String.eqb (fst e) kx || String.eqb (fst e) ky)) output
      ++ [(primary, map (fun q => Point (fst q) (snd q)) (combine xs ys)); ("x", map Num xs); ("y", map Num ys)] /\
    f_geoparquet r = true /\ f_attributes r = a /\ f_projection r = proj4 (of_json (match c with ProjJson j => of_json j | _ => t end)) /\
    forall k, ~ In k ["crs"; "date_created"; "software_reference"; "software_version"; kx; ky] -> dget a k = dget attributes k.
Proof.
  intros of_epsg of_json proj4 now project version output attributes c t index primary index' primary' encoding' kx ky xs ys
    He Hn Hg Hi Hx Hy Ix Iy Ho Hp Px Py.
  destruct (given_reference of_epsg of_json c t Hg) as (s & Es & Hs).
  assert (Nxy : kx <> ky).
  { intros ->. cbn in Hx, Hy. intuition congruence. }
  assert (Dx : dget output kx = Some (map Num xs)) by now apply dget_in.
  assert (Dy : dget output ky = Some (map Num ys)) by now apply dget_in.
  assert (Lxy : List.length xs = List.length ys). { pose proof (He _ _ Ix Iy) as E. cbn in E. now rewrite !map_length in E. }
  assert (Hh : forall k, In k ["lon"; "longitude"; "x"; "lat"; "latitude"; "y"] -> dhas output k = (String.eqb k kx || String.eqb k ky)%bool).
  { intros k Ik. unfold dhas. destruct (String.eqb_spec k kx) as [->|N1]; [now rewrite Dx|]. destruct (String.eqb_spec k ky) as [->|N2]; [now rewrite Dy|].
    destruct (dget output k) as [v|] eqn:D; [|reflexivity]. exfalso. apply dget_some in D. apply (in_map fst) in D. destruct (Ho k D Ik); contradiction. }
  assert (Gv : filter (dhas output) coordinates = [kx; ky]).
  { unfold coordinates. cbn [filter]. rewrite !Hh by (cbn; tauto).
    cbn in Hx, Hy. destruct Hx as [<-|[<-|[<-|[]]]]; destruct Hy as [<-|[<-|[<-|[]]]]; reflexivity. }
  unfold to_parquet. rewrite even_ok by exact He. cbn [bind]. rewrite Es. cbn [andb String.eqb Ascii.eqb Bool.eqb]. unfold geometry. rewrite Gv. unfold column_of. rewrite Dx, Dy. cbn [bind].
  rewrite !numbers_nums. cbn [bind fold_left].
  eexists _, _, _. split; [reflexivity|]. unfold from_parquet. cbn [p_index p_geo p_columns p_attributes geo_primary geo_encoding geo_crs].
  replace (match index with Some true => true | _ => false end) with false by (destruct index as [[|]|]; congruence). cbn [bind].
  change (dpop (dpop output kx) ky) with (fold_left dpop [kx; ky] output). rewrite dpops_filter.
  set (rest := filter _ output).
  assert (Er : rest = filter (fun e => negb (String.eqb (fst e) kx || String.eqb (fst e) ky)) output).
  { unfold rest. apply filter_ext. intros e. cbn [existsb]. now rewrite orb_false_r. }
  assert (Ni : forall k, ~ In k (map fst output) -> ~ In k (map fst rest)).
  { intros k N I. apply N. apply in_map_iff in I as (e & <- & I). apply filter_In in I as [I _]. now apply in_map. }
  assert (Nc : forall k, In k ["lon"; "longitude"; "x"; "lat"; "latitude"; "y"] -> ~ In k (map fst rest)).
  { intros k Ik I. apply in_map_iff in I as (e & <- & I). apply filter_In in I as [I B].
    destruct (Ho (fst e)) as [E|E]; [now apply in_map|exact Ik| |]; rewrite E in B; cbn [existsb] in B; rewrite String.eqb_refl in B; cbn in B; [discriminate|rewrite orb_true_r in B; discriminate]. }
  rewrite dset_new by (apply Ni; exact Hp).
  assert (Dp : dget (rest ++ [(primary, map (fun q => Point (fst q) (snd q)) (combine xs ys))]) primary = Some (map (fun q => Point (fst q) (snd q)) (combine xs ys))).
  { rewrite <- dset_new by (apply Ni; exact Hp). apply dset_get. }
  rewrite Dp. cbn [bind String.eqb Ascii.eqb Bool.eqb]. rewrite mapM_points. cbn [bind].
  assert (Fx : map (fun q : option R * option R => Num (fst q)) (combine xs ys) = map Num xs).
  { clear - Lxy. revert ys Lxy. induction xs as [|x xs IH]; intros [|y ys] L; try discriminate; cbn; [reflexivity|]. f_equal. apply IH. now injection L. }
  assert (Fy : map (fun q : option R * option R => Num (snd q)) (combine xs ys) = map Num ys).
  { clear - Lxy. revert ys Lxy. induction xs as [|x xs IH]; intros [|y ys] L; try discriminate; cbn; [reflexivity|]. f_equal. apply IH. now injection L. }
  rewrite Fx, Fy.
  split; [reflexivity|]. cbn [f_columns f_geoparquet f_attributes f_projection]. split; [|split; [reflexivity|split; [reflexivity|split; [now rewrite Hs|]]]].
  - rewrite (dset_new (rest ++ _) "x").
    2:{ rewrite map_app, in_app_iff. cbn. intros [I|[E|[]]]; [|congruence]. revert I. apply Nc. cbn. tauto. }
    rewrite dset_new.
    2:{ rewrite !map_app, !in_app_iff. cbn. intros [[I|[E|[]]]|[E|[]]]; [|congruence|discriminate]. revert I. apply Nc. cbn. tauto. }
    rewrite <- !app_assoc, Er. reflexivity.
  - intros k Hk. cbn in Hk. rewrite !dset_other by (intros ->; tauto). rewrite !dpop_get by (intros ->; tauto). apply dset_other. intros ->; tauto.
Qed.
Print Assumptions C79_geometry.

(** The names asked for are given to the columns: with time, y, x and data distinct *)
Theorem C79_columns : forall of_json proj4 f index primary encoding r t y x d,
  NoDup [t; y; x; d] -> from_parquet of_json proj4 f index None primary encoding = Ok r ->
  from_parquet of_json proj4 f index (Some [t; y; x; d]) primary encoding
  = Ok (Frame (map (fun e => (if string_dec (fst e) t then "time" else if string_dec (fst e) y then "y" else if string_dec (fst e) x then "x" else if string_dec (fst e) d then "data" else fst e, snd e)) (f_columns r))
        (f_attributes r) (f_geoparquet r) (f_projection r)).
Proof.
  intros of_json proj4 f index primary encoding r t y x d N H. unfold from_parquet in *.
  destruct (if p_index f then _ else _) as [cols|]; [|discriminate]. cbn [bind] in *.
  destruct (match p_geo f with Some _ => _ | None => _ end) as [[[pr en] pj]|]; [|discriminate]. cbn [bind] in *.
  destruct (match dget cols pr with Some _ => _ | None => _ end) as [[cs g]|]; [|discriminate]. cbn [bind] in *. apply Ok_inj in H as <-.
  cbn [f_columns f_attributes f_geoparquet f_projection]. do 2 f_equal. unfold rename. apply map_ext. intros [k v]. cbn [fst snd]. f_equal.
  inversion N as [|? ? N1 N']; subst. inversion N' as [|? ? N2 N'']; subst. inversion N'' as [|? ? N3 _]; subst. cbn in N1, N2, N3.
  cbn [default_field_mapping combine inverse_mapping fold_left dset fst snd].
  destruct (String.eqb_spec t y); [subst; tauto|]. cbn [dset fst snd]. destruct (String.eqb_spec t x); [subst; tauto|]. cbn [dset fst snd].
  destruct (String.eqb_spec y x); [subst; tauto|]. cbn [dset fst snd]. destruct (String.eqb_spec t d); [subst; tauto|]. cbn [dset fst snd].
  destruct (String.eqb_spec y d); [subst; tauto|]. cbn [dset fst snd]. destruct (String.eqb_spec x d); [subst; tauto|]. cbn [dget dset fst snd].
  destruct (String.eqb_spec t k) as [->|]; [destruct (string_dec k k); [reflexivity|congruence]|]. destruct (string_dec k t); [congruence|].
  destruct (String.eqb_spec y k) as [->|]; [destruct (string_dec k k); [reflexivity|congruence]|]. destruct (string_dec k y); [congruence|].
  destruct (String.eqb_spec x k) as [->|]; [destruct (string_dec k k); [reflexivity|congruence]|]. destruct (string_dec k x); [congruence|].
  destruct (String.eqb_spec d k) as [->|]; [destruct (string_dec k k); [reflexivity|congruence]|]. destruct (string_dec k d); [congruence|]. reflexivity.
Qed.
Print Assumptions C79_columns.

(** Without a reference system (the default) no file that was written can be read *)
Theorem C79_no_reference_refuted : forall of_epsg of_json proj4 now project version output attributes c index encoding primary f a index' columns primary' encoding',
  (c = NoCrs \/ c = Epsg 0) -> dget attributes "crs" = None ->
  to_parquet of_epsg of_json now project version output attributes c index false encoding primary = Ok (f, a) ->
  exists e, from_parquet of_json proj4 f index' columns primary' encoding' = Err e /\ (index <> Some true -> e = KeyError).
Proof.
  intros of_epsg of_json proj4 now project version output attributes c index encoding primary f a index' columns primary' encoding' Hc Ha H.
  unfold to_parquet in H. destruct (dataframe output); [|discriminate]. cbn [bind andb] in H.
  assert (Er : reference of_epsg of_json c = None) by (destruct Hc as [-> | ->]; reflexivity). rewrite Er in H. apply Ok_inj in H. injection H as <- <-.
  unfold from_parquet. cbn [p_index p_geo p_columns p_attributes]. destruct index as [[|]|]; cbn [bind].
  2,3: rewrite !dset_other by discriminate; rewrite Ha; exists KeyError; split; auto.
  destruct (dhas _ index'); cbn [bind]; [exists ValueError; split; [reflexivity|congruence]|].
  rewrite !dset_other by discriminate; rewrite Ha. exists KeyError. split; [reflexivity|congruence].
Qed.
Print Assumptions C79_no_reference_refuted.
(** and a geoparquet file cannot be written *)
Theorem C79_no_geometry_refuted : forall of_epsg of_json now project version output attributes c index primary,
  (c = NoCrs \/ c = Epsg 0) -> forall fa, to_parquet of_epsg of_json now project version output attributes c index true "WKB" primary <> Ok fa.
Proof.
  intros of_epsg of_json now project version output attributes c index primary Hc fa H.
  unfold to_parquet in H. destruct (dataframe output) as [df|]; [|discriminate]. cbn [bind] in H.
  assert (Er : reference of_epsg of_json c = None) by (destruct Hc as [-> | ->]; reflexivity). rewrite Er in H. cbn [andb String.eqb Ascii.eqb Bool.eqb] in H.
  unfold geometry in H. destruct (filter _ coordinates) as [|v0 [|v1 vs]]; try discriminate.
  destruct (column_of df v0); [|discriminate]. cbn [bind] in H. destruct (column_of df v1); [|discriminate]. cbn [bind] in H.
  destruct (numbers_of _); [|discriminate]. cbn [bind] in H. destruct (numbers_of _); discriminate.
Qed.
Print Assumptions C79_no_geometry_refuted.

(** With geographic and projected coordinates together the x read is the longitude and
    the y read is the x written; the latitudes and the y written are lost *)
Theorem C79_coordinates_refuted : forall of_epsg of_json proj4 now project version attributes c t index primary index' primary' encoding' lon lat x y,
  List.length lat = List.length lon -> List.length x = List.length lon -> List.length y = List.length lon ->
  given of_epsg c t -> index <> Some true -> ~ In primary ["lon"; "lat"; "x"; "y"] ->
  exists f a r, to_parquet of_epsg of_json now project version [("x", map Num x); ("y", map Num y); ("lon", map Num lon); ("lat", map Num lat)] attributes c index true "WKB" primary = Ok (f, a) /\
    from_parquet of_json proj4 f index' None primary' encoding' = Ok r /\
    f_columns r = [(primary, map (fun q => Point (fst q) (snd q)) (combine lon x)); ("x", map Num lon); ("y", map Num x)].
Proof.
  intros of_epsg of_json proj4 now project version attributes c t index primary index' primary' encoding' lon lat x y L1 L2 L3 Hg Hi Hp.
  destruct (given_reference of_epsg of_json c t Hg) as (s & Es & _).
  unfold to_parquet. rewrite even_ok.
  2:{ intros a b Ia Ib. cbn in Ia, Ib. destruct Ia as [<-|[<-|[<-|[<-|[]]]]]; destruct Ib as [<-|[<-|[<-|[<-|[]]]]]; cbn [snd]; rewrite !map_length; congruence. }
  cbn [bind]. rewrite Es. cbn [andb String.eqb Ascii.eqb Bool.eqb]. unfold geometry.
  change (filter (dhas [("x", map Num x); ("y", map Num y); ("lon", map Num lon); ("lat", map Num lat)]) coordinates) with ["lon"; "x"; "lat"; "y"].
  cbv iota beta. change (column_of [("x", map Num x); ("y", map Num y); ("lon", map Num lon); ("lat", map Num lat)] "lon") with (Ok (map Num lon)).
  change (column_of [("x", map Num x); ("y", map Num y); ("lon", map Num lon); ("lat", map Num lat)] "x") with (Ok (map Num x)). cbn [bind]. rewrite !numbers_nums. cbn [bind].
  change (fold_left dpop ["lon"; "x"; "lat"; "y"] [("x", map Num x); ("y", map Num y); ("lon", map Num lon); ("lat", map Num lat)]) with (@nil (string * list pcell)). cbn [dset].
  eexists _, _, _. split; [reflexivity|]. unfold from_parquet. cbn [p_index p_geo p_columns p_attributes geo_primary geo_encoding geo_crs].
  replace (match index with Some true => true | _ => false end) with false by (destruct index as [[|]|]; congruence). cbn [bind dget]. rewrite String.eqb_refl.
  cbn [String.eqb Ascii.eqb Bool.eqb]. rewrite mapM_points. cbn [bind]. split; [reflexivity|]. cbn [f_columns].
  assert (Fx : forall xs ys : list (option R), List.length xs = List.length ys -> map (fun q : option R * option R => Num (fst q)) (combine xs ys) = map Num xs /\ map (fun q : option R * option R => Num (snd q)) (combine xs ys) = map Num ys).
  { induction xs as [|u xs IH]; intros [|v ys] L; try discriminate; cbn; [auto|]. destruct (IH ys) as [-> ->]; [now injection L|auto]. }
  destruct (Fx lon x) as [-> ->]; [now symmetry|]. cbn in Hp. cbn [dset].
  destruct (String.eqb_spec primary "x"); [subst; tauto|]. cbn [dset]. destruct (String.eqb_spec primary "y"); [subst; tauto|]. reflexivity.
Qed.
Print Assumptions C79_coordinates_refuted.

(** With the index a table that has a column of its name (time) cannot be read *)
Theorem C79_index_refuted : forall of_epsg of_json proj4 now project version output attributes c encoding primary f a index' columns primary' encoding',
  to_parquet of_epsg of_json now project version output attributes c (Some true) false encoding primary = Ok (f, a) -> In index' (map fst output) ->
  from_parquet of_json proj4 f index' columns primary' encoding' = Err ValueError.
Proof.
  intros of_epsg of_json proj4 now project version output attributes c encoding primary f a index' columns primary' encoding' H I.
  unfold to_parquet in H. assert (E : dataframe output = Ok output \/ dataframe output = Err ValueError).
  { destruct output as [|[k l] rest]; cbn; [auto|]. destruct (forallb _ rest); auto. }
  destruct E as [E|E]; rewrite E in H; [|discriminate]. cbn [bind andb] in H. apply Ok_inj in H. injection H as <- _.
  unfold from_parquet. cbn [p_index p_columns]. replace (dhas output index') with true; [reflexivity|].
  unfold dhas. destruct (dget output index') eqn:D; [reflexivity|]. apply dget_none in D. contradiction.
Qed.
Print Assumptions C79_index_refuted.

(** Refused: columns of different lengths, geometries without two coordinates, the
    encoding of points *)
Theorem C79_refused : forall of_epsg of_json now project version output attributes c index geoparquet encoding primary,
  ((exists a b, In a output /\ In b output /\ List.length (snd a) <> List.length (snd b)) ->
     to_parquet of_epsg of_json now project version output attributes c index geoparquet encoding primary = Err ValueError) /\
  (even_columns output -> to_parquet of_epsg of_json now project version output attributes c index true "point" primary = Err ValueError) /\
  (even_columns output -> (forall k, In k (map fst output) -> ~ In k ["lon"; "longitude"; "x"; "lat"; "latitude"; "y"]) ->
     to_parquet of_epsg of_json now project version output attributes c index true "WKB" primary = Err IndexError).
Proof.
  intros of_epsg of_json now project version output attributes c index geoparquet encoding primary. split; [|split].
  - intros (a & b & Ia & Ib & N). unfold to_parquet. destruct output as [|[k l] rest]; [destruct Ia|]. cbn [dataframe].
    destruct (forallb _ rest) eqn:F; [|reflexivity]. exfalso. rewrite forallb_forall in F.
    assert (K : forall e, In e ((k, l) :: rest) -> List.length (snd e) = List.length l). { intros e [<-|I]; [reflexivity|]. apply Nat.eqb_eq. auto. }
    apply N. rewrite (K a Ia), (K b Ib). reflexivity.
  - intros E. unfold to_parquet. rewrite even_ok by exact E. reflexivity.
  - intros E H. unfold to_parquet. rewrite even_ok by exact E. cbn [bind andb String.eqb Ascii.eqb Bool.eqb]. unfold geometry.
    replace (filter (dhas output) coordinates) with (@nil string); [reflexivity|].
    assert (Z : forall k, In k coordinates -> dhas output k = false).
    { intros k I. unfold dhas. destruct (dget output k) eqn:D; [|reflexivity]. exfalso. apply dget_some, (in_map fst) in D. exact (H k D I). }
    unfold coordinates in *. cbn [filter]. rewrite !Z by (cbn; tauto). reflexivity.
Qed.
Print Assumptions C79_refused.

(** Cases *)
Definition sample : list (string * list pcell) := [("time", [Num (Some 0%R); Num (Some 1%R)]); ("lon", [Num (Some 10%R); Num (Some 20%R)]); ("lat", [Num (Some 5%R); Num None]); ("tide", [Num (Some 2%R); Num None])].
Example C79_case :
  (exists f a, to_parquet (fun _ => "epsg") (fun s => s) "now" "pyTMD" "2" sample [("title", "tides")] (Epsg 4326) None false "WKB" "geometry" = Ok (f, a) /\
    from_parquet (fun s => s) (fun s => s) f "time" None "geometry" "WKB" = Ok (Frame sample a false "epsg")) /\
  (exists f a r, to_parquet (fun _ => "epsg") (fun s => s) "now" "pyTMD" "2" sample [("lon", "longitude")] (ProjJson "json") None true "WKB" "geometry" = Ok (f, a) /\
    from_parquet (fun s => s) (fun s => s) f "time" (Some ["time"; "y"; "x"; "tide"]) "geometry" "WKB" = Ok r /\
    map fst (f_columns r) = ["time"; "data"; "geometry"; "x"; "y"] /\ dget a "lon" = None) /\
  (exists f a, to_parquet (fun _ => "epsg") (fun s => s) "now" "pyTMD" "2" sample [] NoCrs None false "WKB" "geometry" = Ok (f, a) /\
    from_parquet (fun s => s) (fun s => s) f "time" None "geometry" "WKB" = Err KeyError) /\
  (exists f a, to_parquet (fun _ => "epsg") (fun s => s) "now" "pyTMD" "2" sample [] (Epsg 4326) (Some true) false "WKB" "geometry" = Ok (f, a) /\
    from_parquet (fun s => s) (fun s => s) f "time" None "geometry" "WKB" = Err ValueError).
Proof.
  repeat split; repeat eexists.
Qed.
