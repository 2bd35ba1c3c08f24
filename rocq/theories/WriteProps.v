(** C47: writing does not change the caller's data and loses nothing. *)
From Coq Require Import String List ZArith Bool Lia.
From Verif Require Import PyBase StrBase WriteModel WriteSpec WriteProofs.
Import ListNotations.
Open Scope nat_scope.
Open Scope string_scope.

(** ** What can happen to the caller's dictionaries *)
(** Full statement: no dictionary changes.  False as soon as one holds a fill value
    (below); what holds for every call, successful or not, is that a dictionary can
    lose its fill value and nothing else. *)
Theorem C47_only_fill_partial : forall stamp data_type opened attributes (h : heap) output,
  (forall d, In d h -> NoDup (map fst d)) ->
  let h' := fst (to_netcdf stamp data_type opened attributes h output) in
  List.length h' = List.length h /\
  forall j, nth j h' [] = nth j h [] \/ nth j h' [] = without "_FillValue" (nth j h []).
Proof.
  intros stamp data_type opened attributes h output P h'.
  assert (P' : Forall (@proper aval) h) by (apply Forall_forall; exact P).
  assert (L : lost_only h h'); [|exact L].
  unfold h', to_netcdf.
  destruct (String.eqb data_type "drift").
  { unfold write_drift. destruct (get "time" output); [|apply lost_refl]. destruct (create_dim _ _ _); [|apply lost_refl].
    pose proof (write_vars_lost ["time"] drift_dims attributes output h a0 P') as L. now destruct (write_vars _ _ _ h a0 output). }
  destruct (String.eqb data_type "grid").
  { unfold write_grid. destruct (reference 3 output) as [sh|]; [|apply lost_refl].
    destruct sh as [|ny [|nx [|nt [|]]]]; try apply lost_refl. destruct (bind _ _) as [f3|]; [|apply lost_refl].
    pose proof (write_vars_lost ["y"; "x"; "time"] (grid_dims ny nx nt) attributes output h f3 P') as L. now destruct (write_vars _ _ _ h f3 output). }
  destruct (String.eqb data_type "time series"); [|apply lost_refl].
  unfold write_series. destruct (reference 2 output) as [sh|]; [|apply lost_refl].
  destruct sh as [|ns [|nt [|]]]; try apply lost_refl. destruct (bind _ _) as [f2|]; [|apply lost_refl].
  pose proof (write_vars_lost ["station"; "time"] (series_dims ns nt) attributes output h f2 P') as L. now destruct (write_vars _ _ _ h f2 output).
Qed.
Print Assumptions C47_only_fill_partial.

Theorem C47_only_fill_hdf5_partial : forall stamp opened attributes (h : heap) output,
  (forall d, In d h -> NoDup (map fst d)) ->
  let h' := fst (to_hdf5 stamp opened attributes h output) in
  List.length h' = List.length h /\
  forall j, nth j h' [] = nth j h [] \/ nth j h' [] = without "_FillValue" (nth j h []).
Proof.
  intros stamp opened attributes h output P h'.
  assert (P' : Forall (@proper aval) h) by (apply Forall_forall; exact P).
  assert (L : lost_only h h'); [|exact L].
  unfold h', to_hdf5. pose proof (write_h5s_lost attributes output h [] opened P') as L. now destruct (write_h5s _ h [] opened output).
Qed.
Print Assumptions C47_only_fill_hdf5_partial.

(** ** What is written *)
Lemma root_over attributes h stamp f : NoDup (map fst stamp) -> (forall d, In d h -> NoDup (map fst d)) ->
  over (root_of attributes h) stamp (update (update (nc_attrs empty_nc) stamp) (match get "ROOT" attributes with Some q => at_ref h q | None => [] end)) /\
  f = f :> nat.
Proof.
  intros Ns P. split; auto. cbn [nc_attrs empty_nc]. rewrite update_nil by exact Ns. unfold root_of. destruct (get "ROOT" attributes) as [q|]; [|apply update_nil_over].
  apply update_over. apply nth_proper. apply Forall_forall. exact P.
Qed.
Lemma stripped_proper refs h : (forall d, In d h -> NoDup (map fst d)) -> forall d, In d (stripped refs h) -> NoDup (map fst d).
Proof.
  intros P d I. apply (In_nth _ _ []) in I as (j & Hj & <-). rewrite stripped_length in Hj. rewrite nth_stripped by auto.
  assert (proper (nth j h [])) by (apply nth_proper; apply Forall_forall; exact P). destruct (existsb _ _); [now apply proper_without|auto].
Qed.

(** The dictionaries afterwards: all of the variables written have lost their fill
    values.  The file: the variables in order, each with its data (masked cells as the
    fill value), its fill value and the rest of its attributes. *)
Theorem C47_drift stamp attributes h output ref t n :
  NoDup (map fst stamp) -> (forall d, In d h -> NoDup (map fst d)) -> NoDup (map fst output) -> separate attributes h output ref ->
  get "time" output = Some t -> shape t = [n] ->
  (forall k a, In (k, a) output -> shape a = [n] \/ (shape a = [] /\ get "_FillValue" (nth (ref k) h []) = None)) ->
  let h' := stripped (map ref (map fst output)) h in
  exists g, over (root_of attributes h') stamp g /\
  to_netcdf stamp "drift" empty_nc attributes h output =
  (h', Ok (NcFile [("time", n)] (map (fun q => (fst q, variable (match shape (snd q) with [] => [] | _ => ["time"] end) (snd q) (nth (ref (fst q)) h []))) output) g)).
Proof.
  intros Ns P N Sep Gt Sh C h'. eexists. split; [exact (proj1 (root_over attributes h' stamp 0 Ns (stripped_proper _ _ P)))|].
  unfold to_netcdf, write_drift. cbn [String.eqb Ascii.eqb Bool.eqb]. rewrite Gt, Sh. cbn [create_dim has get nc_dims empty_nc app nc_vars nc_attrs].
  rewrite (write_vars_ok _ _ _ ref); auto.
  - cbn [bind nc_dims nc_vars nc_attrs app]. f_equal. f_equal. f_equal. apply map_ext_in. intros [k a] I. cbn [fst snd]. f_equal. f_equal.
    destruct (C k a I) as [E|[E G]]; unfold drift_dims; rewrite E; [now destruct (get "_FillValue" _)|]. now rewrite G.
  - intros k a I. destruct (C k a I) as [E|[E G]]; unfold drift_dims; rewrite E.
    + destruct (get "_FillValue" _); reflexivity.
    + now rewrite G.
Qed.
Print Assumptions C47_drift.

(** Grids: three dimensional data over y, x and time; anything one dimensional is
    placed on y if it is as long as y, otherwise on x or time. *)
Theorem C47_grid stamp attributes h output ref ny nx nt :
  NoDup (map fst stamp) -> (forall d, In d h -> NoDup (map fst d)) -> NoDup (map fst output) -> separate attributes h output ref ->
  (exists k a, In (k, a) output /\ ~ coordinate k /\ shape a = [ny; nx; nt]) ->
  (forall k a, In (k, a) output -> shape a = [ny; nx; nt] \/
     (In (shape a) [[ny; nx]; [ny]; [nx]; [nt]; []] /\ get "_FillValue" (nth (ref k) h []) = None)) ->
  let h' := stripped (map ref (map fst output)) h in
  exists g, over (root_of attributes h') stamp g /\
  to_netcdf stamp "grid" empty_nc attributes h output =
  (h', Ok (NcFile [("y", ny); ("x", nx); ("time", nt)]
         (map (fun q => (fst q, variable (match shape (snd q) with
                                          | [] => []
                                          | [m] => if Nat.eqb m ny then ["y"] else if Nat.eqb m nx then ["x"] else ["time"]
                                          | [_; _] => ["y"; "x"]
                                          | _ => ["y"; "x"; "time"]
                                          end) (snd q) (nth (ref (fst q)) h []))) output) g)).
Proof.
  intros Ns P N Sep (k0 & a0 & I0 & Nc0 & Sh0) C h'. eexists. split; [exact (proj1 (root_over attributes h' stamp 0 Ns (stripped_proper _ _ P)))|].
  unfold to_netcdf, write_grid. cbn [String.eqb Ascii.eqb Bool.eqb].
  rewrite (reference_ok 3 output [ny; nx; nt]); auto.
  2: { exists k0, a0. rewrite Sh0. auto. }
  2: { intros k a I _ L. destruct (C k a I) as [E|[E _]]; auto. exfalso. cbn in E. destruct E as [E|[E|[E|[E|[E|[]]]]]]; rewrite <- E in L; discriminate. }
  cbn [create_dim has get nc_dims empty_nc app nc_vars nc_attrs bind String.eqb Ascii.eqb Bool.eqb].
  assert (C1 : forall k a, In (k, a) output ->
     (if get "_FillValue" (nth (ref k) h []) then ["y"; "x"; "time"] else grid_dims ny nx nt a) =
     match shape a with
     | [] => []
     | [m] => if Nat.eqb m ny then ["y"] else if Nat.eqb m nx then ["x"] else ["time"]
     | [_; _] => ["y"; "x"]
     | _ => ["y"; "x"; "time"]
     end).
  { intros k a I. unfold grid_dims. destruct (C k a I) as [E|[E G]].
    - rewrite E. now destruct (get "_FillValue" _).
    - rewrite G. cbn in E. destruct E as [E|[E|[E|[E|[E|[]]]]]]; rewrite <- E; rewrite ?Nat.eqb_refl; auto;
        repeat match goal with |- context [Nat.eqb ?u ?v] => destruct (Nat.eqb u v) end; auto. }
  rewrite (write_vars_ok _ _ _ ref); auto.
  - cbn [bind nc_dims nc_vars nc_attrs app]. f_equal. f_equal. f_equal. apply map_ext_in. intros [k a] I. cbn [fst snd]. f_equal. now rewrite (C1 k a I).
  - intros k a I. rewrite (C1 k a I). destruct (C k a I) as [E|[E G]].
    + rewrite E. reflexivity.
    + cbn in E. destruct E as [E|[E|[E|[E|[E|[]]]]]]; rewrite <- E.
      * reflexivity.
      * now rewrite Nat.eqb_refl.
      * rewrite Nat.eqb_refl. destruct (Nat.eqb nx ny) eqn:Q; cbn; auto. now apply Nat.eqb_eq in Q as ->.
      * destruct (Nat.eqb nt ny) eqn:Q; cbn; [now apply Nat.eqb_eq in Q as ->|].
        destruct (Nat.eqb nt nx) eqn:Q2; cbn; auto. now apply Nat.eqb_eq in Q2 as ->.
      * reflexivity.
Qed.
Print Assumptions C47_grid.

(** Time series: a row for each station.  Anything one dimensional is placed on time
    if it is as long as time. *)
Theorem C47_series stamp attributes h output ref ns nt :
  NoDup (map fst stamp) -> (forall d, In d h -> NoDup (map fst d)) -> NoDup (map fst output) -> separate attributes h output ref ->
  (exists k a, In (k, a) output /\ ~ coordinate k /\ shape a = [ns; nt]) ->
  (forall k a, In (k, a) output -> shape a = [ns; nt] \/
     (In (shape a) [[ns]; [nt]; []] /\ get "_FillValue" (nth (ref k) h []) = None)) ->
  let h' := stripped (map ref (map fst output)) h in
  exists g, over (root_of attributes h') stamp g /\
  to_netcdf stamp "time series" empty_nc attributes h output =
  (h', Ok (NcFile [("station", ns); ("time", nt)]
         (map (fun q => (fst q, variable (match shape (snd q) with
                                          | [] => []
                                          | [m] => if Nat.eqb m nt then ["time"] else ["station"]
                                          | _ => ["station"; "time"]
                                          end) (snd q) (nth (ref (fst q)) h []))) output) g)).
Proof.
  intros Ns P N Sep (k0 & a0 & I0 & Nc0 & Sh0) C h'. eexists. split; [exact (proj1 (root_over attributes h' stamp 0 Ns (stripped_proper _ _ P)))|].
  unfold to_netcdf, write_series. cbn [String.eqb Ascii.eqb Bool.eqb].
  rewrite (reference_ok 2 output [ns; nt]); auto.
  2: { exists k0, a0. rewrite Sh0. auto. }
  2: { intros k a I _ L. destruct (C k a I) as [E|[E _]]; auto. exfalso. cbn in E. destruct E as [E|[E|[E|[]]]]; rewrite <- E in L; discriminate. }
  cbn [create_dim has get nc_dims empty_nc app nc_vars nc_attrs bind String.eqb Ascii.eqb Bool.eqb].
  assert (C1 : forall k a, In (k, a) output ->
     (if get "_FillValue" (nth (ref k) h []) then ["station"; "time"] else series_dims ns nt a) =
     match shape a with
     | [] => []
     | [m] => if Nat.eqb m nt then ["time"] else ["station"]
     | _ => ["station"; "time"]
     end).
  { intros k a I. unfold series_dims. destruct (C k a I) as [E|[E G]].
    - rewrite E. now destruct (get "_FillValue" _).
    - rewrite G. cbn in E. destruct E as [E|[E|[E|[]]]]; rewrite <- E; rewrite ?Nat.eqb_refl; auto. }
  rewrite (write_vars_ok _ _ _ ref); auto.
  - cbn [bind nc_dims nc_vars nc_attrs app]. f_equal. f_equal. f_equal. apply map_ext_in. intros [k a] I. cbn [fst snd]. f_equal. now rewrite (C1 k a I).
  - intros k a I. rewrite (C1 k a I). destruct (C k a I) as [E|[E G]].
    + rewrite E. reflexivity.
    + cbn in E. destruct E as [E|[E|[E|[]]]]; rewrite <- E.
      * destruct (Nat.eqb ns nt) eqn:Q; cbn; auto. now apply Nat.eqb_eq in Q as ->.
      * now rewrite Nat.eqb_refl.
      * reflexivity.
Qed.
Print Assumptions C47_series.

(** HDF5 files hold the values under the mask; scalars are left at zero. *)
Theorem C47_hdf5 stamp attributes h output ref :
  NoDup (map fst stamp) -> (forall d, In d h -> NoDup (map fst d)) -> NoDup (map fst output) -> separate attributes h output ref ->
  (forall k a, In (k, a) output -> shape a = [] -> get "_FillValue" (nth (ref k) h []) = None) ->
  let h' := stripped (map ref (map fst output)) h in
  exists g, over (root_of attributes h') stamp g /\
  to_hdf5 stamp empty_h5 attributes h output =
  (h', Ok (H5File (map (fun q => (fst q, h5_variable (snd q) (nth (ref (fst q)) h []))) output) g)).
Proof.
  intros Ns P N Sep C h'. eexists. split; [exact (proj1 (root_over attributes h' stamp 0 Ns (stripped_proper _ _ P)))|].
  unfold to_hdf5. rewrite (write_h5s_ok _ ref); auto.
Qed.
Print Assumptions C47_hdf5.

(** ** Reading back *)
Lemma dataset_written kind stamp attributes h output ref :
  NoDup (map fst stamp) -> (forall d, In d h -> NoDup (map fst d)) -> NoDup (map fst output) -> separate attributes h output ref ->
  dataset kind (fun k => get "_FillValue" (nth (ref k) h []) = None) output ->
  exists D f, to_netcdf stamp kind empty_nc attributes h output = (stripped (map ref (map fst output)) h, Ok f) /\
  nc_vars f = map (fun q => (fst q, variable (D (snd q)) (snd q) (nth (ref (fst q)) h []))) output /\
  over (root_of attributes (stripped (map ref (map fst output)) h)) stamp (nc_attrs f) /\
  (forall k a, In (k, a) output -> map (dim_size f) (D a) = shape a).
Proof.
  intros Ns P N Sep [(-> & n & (t & It & Sh) & C)|[(-> & ny & nx & nt & E & C)|(-> & ns & nt & E & C)]].
  - pose proof (C47_drift stamp attributes h output ref t n Ns P N Sep (get_nodup _ _ _ N It) Sh C) as (g & O & W). cbv zeta in W.
    exists (fun a => match shape a with [] => [] | _ => ["time"] end). eexists. split; [exact W|]. split; [reflexivity|]. split; [exact O|].
    intros k a I. destruct (C k a I) as [X|[X _]]; rewrite X; reflexivity.
  - pose proof (C47_grid stamp attributes h output ref ny nx nt Ns P N Sep E C) as (g & O & W). cbv zeta in W.
    eexists (fun a => match shape a with
                      | [] => []
                      | [m] => if Nat.eqb m ny then ["y"] else if Nat.eqb m nx then ["x"] else ["time"]
                      | [_; _] => ["y"; "x"]
                      | _ => ["y"; "x"; "time"]
                      end). eexists. split; [exact W|]. split; [reflexivity|]. split; [exact O|].
    intros k a I. destruct (C k a I) as [X|[X _]]; [rewrite X; reflexivity|].
    cbn in X. destruct X as [X|[X|[X|[X|[X|[]]]]]]; rewrite <- X; auto.
    + now rewrite Nat.eqb_refl.
    + rewrite Nat.eqb_refl. destruct (Nat.eqb nx ny) eqn:Q; cbn; auto. now apply Nat.eqb_eq in Q as ->.
    + destruct (Nat.eqb nt ny) eqn:Q; cbn; [now apply Nat.eqb_eq in Q as ->|].
      destruct (Nat.eqb nt nx) eqn:Q2; cbn; auto. now apply Nat.eqb_eq in Q2 as ->.
  - pose proof (C47_series stamp attributes h output ref ns nt Ns P N Sep E C) as (g & O & W). cbv zeta in W.
    eexists (fun a => match shape a with
                      | [] => []
                      | [m] => if Nat.eqb m nt then ["time"] else ["station"]
                      | _ => ["station"; "time"]
                      end). eexists. split; [exact W|]. split; [reflexivity|]. split; [exact O|].
    intros k a I. destruct (C k a I) as [X|[X _]]; [rewrite X; reflexivity|].
    cbn in X. destruct X as [X|[X|[X|[]]]]; rewrite <- X; auto.
    + destruct (Nat.eqb ns nt) eqn:Q; cbn; auto. now apply Nat.eqb_eq in Q as ->.
    + now rewrite Nat.eqb_refl.
Qed.

Lemma stored_read f dims a d : map (dim_size f) dims = shape a -> fillable a d -> same_array a (nc_read f (variable dims a d)).
Proof.
  intros E [F _]. split; [exact E|]. cbn [cells nc_read nv_data nv_fill variable].
  assert (X : fill_of (get "_FillValue" d) = fill_value d) by reflexivity. rewrite X. clear X.
  induction (cells a) as [|[x m] l IH]; constructor.
  - cbn [fst snd]. unfold stored. cbn [fst snd]. destruct m; [rewrite Z.eqb_refl; split; auto; discriminate|].
    split; auto. apply Z.eqb_neq. apply F. now left.
  - apply IH. intros y I. apply F. now right.
Qed.
Lemma remask a b f d : same_array a b -> fillable a d -> get "_FillValue" d = Some f ->
  (forall x, In x (cells b) -> snd x = true -> fst x = fill_value d) -> same_array a (mask_fill f b).
Proof.
  intros [E S] [F1 F2] G Hm. destruct (F2 _ G) as [v ->]. split; [exact E|]. cbn [mask_fill cells].
  assert (V : fill_value d = v) by (unfold fill_value; now rewrite G). rewrite V in *.
  induction S as [|[x m] [y m'] l l' [S1 S2] S IH]; constructor.
  - cbn [fst snd] in *. subst m'. destruct m.
    + pose proof (Hm (y, true) (or_introl eq_refl) eq_refl) as Y. cbn [fst] in Y. rewrite Y. split; [apply Z.eqb_refl|discriminate].
    + split; auto. rewrite (S2 eq_refl). apply Z.eqb_neq. apply F1. now left.
  - apply IH; [intros z I; apply F1; now right|]. intros z I. apply Hm. now right.
Qed.
Lemma get_map {A B} (g : A -> B) k d : get k (map (fun q : string * A => (fst q, g (snd q))) d) = option_map g (get k d).
Proof. induction d as [|[k' a] d IH]; cbn; auto. destruct (String.eqb k k'); auto. Qed.
Lemma app_empty (s : string) : (s ++ "")%string = s.
Proof. induction s as [|c s IH]; cbn; [auto|now rewrite IH]. Qed.
Lemma key_get {A} k (d : list (string * A)) : get k d <> None <-> In k (map fst d).
Proof.
  split; [|intros I E; now apply get_None in E]. intros E. destruct (get k d) eqn:G; [now apply get_key in G|congruence].
Qed.
Lemma get_pick one n names d : NoDup names -> In n names -> get n (pick_attrs one names d) = one n d.
Proof.
  induction names as [|m names IH]; intros N I; [destruct I|]. inversion N; subst. unfold pick_attrs. cbn [flat_map]. fold (pick_attrs one names d).
  assert (A : forall n, ~ In n names -> get n (pick_attrs one names d) = None).
  { clear. intros n H. apply get_None. intros K. apply H. unfold pick_attrs in K. rewrite in_map_iff in K. destruct K as ([k v] & <- & K).
    apply in_flat_map in K as (m & Hm & K). destruct (one m d); [|destruct K]. destruct K as [E|[]]. injection E as <- <-. exact Hm. }
  destruct I as [->|I].
  - destruct (one n d) as [v|]; cbn [app get]; [now rewrite String.eqb_refl|now apply A].
  - destruct (one m d) as [v|]; cbn [app get]; [|now apply IH]. destruct (String.eqb n m) eqn:E; [|now apply IH].
    apply String.eqb_eq in E. subst. contradiction.
Qed.

(** A dataset written to netCDF and read under any names gives the same arrays: the
    same shapes, the same masks and the same values where they are valid.  Attributes
    come back when no other attribute of the variable begins with their name. *)
Theorem C47_netcdf_read proj4 kind stamp attributes h output ref given xname yname varname timename :
  NoDup (map fst stamp) -> (forall d, In d h -> NoDup (map fst d)) -> NoDup (map fst output) -> separate attributes h output ref ->
  dataset kind (fun k => get "_FillValue" (nth (ref k) h []) = None) output ->
  let names := match given with
               | [] => ([("x", xname); ("y", yname)] ++ match varname with Some v => [("data", v)] | None => [] end
                         ++ match timename with Some t => [("time", t)] | None => [] end)%list
               | _ => given
               end in
  NoDup (map fst names) -> (forall o k, In (o, k) names -> In k (map fst output)) ->
  (forall k a, In (k, a) output -> fillable a (nth (ref k) h [])) ->
  (forall k, In ("data", k) names -> forall n v, In (n, v) (nth (ref k) h []) ->
     ~ starts "grid_mapping" n /\ (starts "_FillValue" n -> n = "_FillValue")) ->
  exists f r, to_netcdf stamp kind empty_nc attributes h output = (stripped (map ref (map fst output)) h, Ok f) /\
    from_netcdf proj4 f given xname yname varname timename = Ok r /\
    (forall o, In o (map fst (in_vars r)) <-> In o (map fst names)) /\
    forall o k a, In (o, k) names -> In (k, a) output ->
      (exists b, get o (in_vars r) = Some b /\ same_array a b) /\
      (exists d, get o (in_attrs r) = Some d /\
         forall n v, In n ["description"; "units"; "long_name"; "calendar"; "standard_name"; "grid_mapping"; "_FillValue"] ->
           In (n, v) (nth (ref k) h []) -> (forall n' v', In (n', v') (nth (ref k) h []) -> starts n n' -> n' = n) ->
           get n d = Some v).
Proof.
  intros Ns P N Sep Ds names Nn Sub Fb Gm.
  destruct (dataset_written kind stamp attributes h output ref Ns P N Sep Ds) as (D & f & W & Vs & O & Sh).
  exists f.
  assert (arr_of : forall k, In k (map fst output) -> exists a, In (k, a) output) by (intros k I; now apply in_keys).
  set (V := fun k => match get k output with Some a => variable (D a) a (nth (ref k) h []) | None => NcVar [] None [] [] end).
  assert (Vk : forall k a, In (k, a) output -> V k = variable (D a) a (nth (ref k) h [])) by (intros k a I; unfold V; now rewrite (get_nodup k a)).
  assert (Sv : forall k, In k (map fst output) -> get k (nc_vars f) = Some (V k)).
  { intros k I. destruct (arr_of k I) as [a Ia]. rewrite Vs, (Vk k a Ia). apply get_nodup.
    - rewrite map_map. cbn. exact N.
    - apply in_map_iff. exists (k, a). auto. }
  set (vs := map (fun q => (fst q, V (snd q))) names).
  assert (Mm : mapM (fun q => do v <- sub (snd q) (nc_vars f) ;; Ok (fst q, v)) (mapping given xname yname varname timename) = Ok vs).
  { change (mapping given xname yname varname timename) with names. unfold vs. clear Nn Gm. clearbody names.
    induction names as [|[o k] l IH]; auto. cbn [mapM map fst snd]. unfold sub at 1. rewrite (Sv k) by (apply (Sub o); now left). cbn [bind].
    rewrite IH; auto. intros o' k' I. apply (Sub o'). now right. }
  assert (Nv : NoDup (map fst vs)) by (unfold vs; rewrite map_map; exact Nn).
  set (r0 := Input (map (fun q => (fst q, nc_read f (snd q))) vs) (pick_attrs get_one file_names (nc_attrs f))
                        (map (fun q => (fst q, pick_attrs get_one attr_names (listed (snd q)))) vs)).
  assert (Gv : forall o k, In (o, k) names -> get o vs = Some (V k)).
  { intros o k I. unfold vs. rewrite get_map. now rewrite (get_nodup o k names Nn I). }
  assert (Ga : forall o k, In (o, k) names -> get o (in_attrs r0) = Some (pick_attrs get_one attr_names (listed (V k)))).
  { intros o k I. refine (eq_trans (get_map (fun v => pick_attrs get_one attr_names (listed v)) o vs) _). now rewrite (Gv o k I). }
  assert (Gd : forall o k, In (o, k) names -> get o (in_vars r0) = Some (nc_read f (V k))).
  { intros o k I. refine (eq_trans (get_map (nc_read f) o vs) _). now rewrite (Gv o k I). }
  assert (Na : NoDup attr_names) by (unfold attr_names; repeat constructor; cbn; intuition discriminate).
  assert (Hl : forall k a n v, In (k, a) output -> In (n, v) (listed (V k)) <-> In (n, v) (nth (ref k) h [])).
  { intros k a n v I. rewrite (Vk k a I). unfold listed. cbn [nv_fill nv_attrs variable]. set (d := nth (ref k) h []).
    assert (Pd : proper d) by (apply nth_proper; apply Forall_forall; exact P).
    rewrite in_app_iff. unfold without. rewrite filter_In. cbn [fst].
    destruct (String.eqb n "_FillValue") eqn:E; cbn [negb].
    - apply String.eqb_eq in E as ->. split; [intros [X|[_ X]]; [|discriminate]|intros X; left].
      + destruct (get "_FillValue" d) as [w|] eqn:G; [|destruct X]. destruct X as [X|[]]. injection X as <-. now apply get_In.
      + rewrite (get_nodup _ v d Pd X). now left.
    - split; [intros [X|[X _]]; auto|intros X; now right]. destruct (get "_FillValue" d); [|destruct X]. destruct X as [X|[]].
      injection X as <- <-. discriminate. }
  assert (Nl : forall k a, In (k, a) output -> NoDup (map fst (listed (V k)))).
  { intros k a I. rewrite (Vk k a I). unfold listed. cbn [nv_fill nv_attrs variable].
    assert (Pd : proper (nth (ref k) h [])) by (apply nth_proper; apply Forall_forall; exact P).
    pose proof (proper_without "_FillValue" _ Pd) as X. destruct (get "_FillValue" _); auto. cbn [app map fst]. constructor; auto.
    rewrite without_keys. tauto. }
  assert (Cr : with_crs proj4 r0 (fun g => do v <- sub g (nc_vars f) ;; Ok (listed v)) = Ok r0).
  { unfold with_crs. destruct (get "data" (in_vars r0)) as [a0|] eqn:E0; auto. destruct (get "data" (in_attrs r0)) as [d0|] eqn:E1; auto.
    assert (exists k, In ("data", k) names) as [k Ik].
    { apply get_key in E0. cbn [in_vars r0] in E0. rewrite map_map in E0. unfold vs in E0. rewrite map_map in E0. cbn [fst] in E0.
      apply in_map_iff in E0 as ([o k] & <- & I). exists k. exact I. }
    rewrite (Ga "data" k Ik) in E1. assert (E3 : d0 = pick_attrs get_one attr_names (listed (V k))) by congruence; clear E1; subst d0. rewrite get_pick by (auto; unfold attr_names; cbn; tauto).
    destruct (arr_of k (Sub _ _ Ik)) as [a Ia].
    assert (X : filter (fun q => matches "grid_mapping" (fst q)) (listed (V k)) = []).
    { destruct (filter _ _) as [|[n v] l] eqn:F; auto. exfalso. assert (I : In (n, v) (filter (fun q => matches "grid_mapping" (fst q)) (listed (V k)))) by (rewrite F; now left).
      apply filter_In in I as [I M']. apply (Hl k a n v Ia) in I. apply (proj1 (Gm k Ik n v I)). now apply matches_starts. }
    unfold get_one. now rewrite X. }
  exists (with_mask r0). split; [exact W|]. split.
  { unfold from_netcdf. rewrite Mm. cbn [bind]. fold r0. rewrite Cr. reflexivity. }
  assert (Iv : in_attrs (with_mask r0) = in_attrs r0).
  { unfold with_mask. destruct (get "data" (in_vars r0)); auto. destruct (get "data" (in_attrs r0)); auto. now destruct (get "_FillValue" _). }
  assert (K0 : map fst (in_vars r0) = map fst names).
  { cbn [in_vars r0]. unfold vs. rewrite !map_map. reflexivity. }
  split.
  { intros o. rewrite <- K0. unfold with_mask. destruct (get "data" (in_vars r0)) as [a0|] eqn:E0; [|tauto]. destruct (get "data" (in_attrs r0)) as [d0|]; [|tauto].
    destruct (get "_FillValue" d0); [|tauto]. cbn [in_vars].
    assert (Q : forall x : arr, In o (map fst (put "data" x (in_vars r0))) <-> In o (map fst (in_vars r0))).
    { intros x. rewrite <- !key_get, get_put. destruct (String.eqb o "data") eqn:E; [|tauto]. apply String.eqb_eq in E as ->. rewrite E0. split; discriminate. }
    apply Q. }
  intros o k a Io Ik. rewrite Iv, (Ga o k Io). split.
  - assert (B : same_array a (nc_read f (V k))) by (rewrite (Vk k a Ik); apply stored_read; eauto).
    unfold with_mask. destruct (get "data" (in_vars r0)) as [a0|] eqn:E0; [|rewrite (Gd o k Io); eauto].
    destruct (get "data" (in_attrs r0)) as [d0|] eqn:E1; [|rewrite (Gd o k Io); eauto].
    destruct (get "_FillValue" d0) as [fv|] eqn:E2; [|rewrite (Gd o k Io); eauto].
    cbn [in_vars]. rewrite get_put. destruct (String.eqb o "data") eqn:E; [|rewrite (Gd o k Io); eauto].
    apply String.eqb_eq in E as ->. rewrite (Gd _ k Io) in E0. assert (E3' : a0 = nc_read f (V k)) by congruence; clear E0; subst a0. rewrite (Ga _ k Io) in E1. assert (E3 : d0 = pick_attrs get_one attr_names (listed (V k))) by congruence; clear E1; subst d0.
    rewrite get_pick in E2 by (auto; unfold attr_names; cbn; tauto). unfold get_one in E2.
    exists (mask_fill fv (nc_read f (V k))). split; auto.
    destruct (filter _ (listed (V k))) as [|[n1 v1] [|]] eqn:F; try discriminate. injection E2 as ->.
    assert (I : In (n1, fv) (filter (fun q => matches "_FillValue" (fst q)) (listed (V k)))) by (rewrite F; now left).
    apply filter_In in I as [I M1]. apply (Hl k a) in I; auto. cbn [fst] in M1. apply matches_starts in M1.
    destruct (Gm k Io n1 fv I) as [_ G2]. rewrite (G2 M1) in I.
    apply remask with (d := nth (ref k) h []); auto.
    + apply get_nodup; auto. apply nth_proper. now apply Forall_forall.
    + intros [x m] Ix E. cbn [fst snd] in *. subst m. rewrite (Vk k a Ik) in Ix. cbn [nc_read cells nv_data nv_fill variable] in Ix.
      apply in_map_iff in Ix as (y & E & _). injection E as -> E. now apply Z.eqb_eq in E.
  - eexists. split; [reflexivity|]. intros n v In7 Inv Uq. rewrite get_pick by auto. unfold get_one.
    assert (X : filter (fun q => matches n (fst q)) (listed (V k)) = [(n, v)]).
    { assert (I : In (n, v) (listed (V k))) by (apply (Hl k a); auto).
      assert (U : forall n' v', In (n', v') (listed (V k)) -> matches n n' = true -> n' = n).
      { intros n' v' I' M'. apply (Uq n' v'); [now apply (Hl k a)|now apply matches_starts]. }
      pose proof (Nl k a Ik) as NN. revert I U NN. generalize (listed (V k)). clear.
      induction l as [|[n1 v1] l IH]; [contradiction|]. intros I U NN. cbn [filter fst]. inversion NN; subst.
      assert (Mn : matches n n = true) by (apply matches_starts; exists ""; now rewrite app_empty).
      destruct I as [E|I].
      - injection E as -> ->. rewrite Mn. f_equal. destruct (filter _ l) as [|[n2 v2] l2] eqn:F; auto. exfalso.
        assert (J : In (n2, v2) (filter (fun q => matches n (fst q)) l)) by (rewrite F; now left). apply filter_In in J as [J M2].
        assert (n2 = n) by (apply (U n2 v2); [now right|exact M2]). subst. apply H1. apply in_keys. eauto.
      - destruct (matches n n1) eqn:M1; [|apply IH; auto; intros n' v' I'; apply (U n' v'); now right].
        exfalso. assert (n1 = n) by (apply (U n1 v1); [now left|exact M1]). subst. apply H1. apply in_keys. eauto. }
    now rewrite X.
Qed.
Print Assumptions C47_netcdf_read.

(** HDF5: the arrays come back with the values under the mask and no mask at all; the
    fill value is not among the attributes.  Full statement: the mask comes back too. *)
Theorem C47_hdf5_read_partial proj4 stamp attributes h output ref given xname yname varname timename :
  NoDup (map fst stamp) -> (forall d, In d h -> NoDup (map fst d)) -> NoDup (map fst output) -> separate attributes h output ref ->
  (forall k a, In (k, a) output -> shape a = [] -> get "_FillValue" (nth (ref k) h []) = None) ->
  let names := match given with
               | [] => ([("x", xname); ("y", yname)] ++ match varname with Some v => [("data", v)] | None => [] end
                         ++ match timename with Some t => [("time", t)] | None => [] end)%list
               | _ => given
               end in
  NoDup (map fst names) -> (forall o k, In (o, k) names -> exists a, In (k, a) output /\ shape a <> []) ->
  (forall k, In ("data", k) names -> get "grid_mapping" (nth (ref k) h []) = None) ->
  exists f r, to_hdf5 stamp empty_h5 attributes h output = (stripped (map ref (map fst output)) h, Ok f) /\
    from_hdf5 proj4 f given xname yname varname timename = Ok r /\ map fst (in_vars r) = map fst names /\
    forall o k a, In (o, k) names -> In (k, a) output ->
      get o (in_vars r) = Some (Arr (shape a) (map (fun c => (fst c, false)) (cells a))) /\
      exists d, get o (in_attrs r) = Some d /\
        forall n, In n ["description"; "units"; "long_name"; "calendar"; "standard_name"; "grid_mapping"; "_FillValue"] ->
          get n d = if String.eqb n "_FillValue" then None else get n (nth (ref k) h []).
Proof.
  intros Ns P N Sep Sc names Nn Sub Gm.
  destruct (C47_hdf5 stamp attributes h output ref Ns P N Sep Sc) as (g & O & W). cbv zeta in W.
  set (f := H5File (map (fun q => (fst q, h5_variable (snd q) (nth (ref (fst q)) h []))) output) g) in *. exists f.
  set (V := fun k => match get k output with Some a => h5_variable a (nth (ref k) h []) | None => H5Var [] [] [] end).
  assert (Vk : forall k a, In (k, a) output -> V k = h5_variable a (nth (ref k) h [])) by (intros k a I; unfold V; now rewrite (get_nodup k a)).
  assert (Sv : forall k a, In (k, a) output -> get k (h5_vars f) = Some (V k)).
  { intros k a I. rewrite (Vk k a I). apply get_nodup.
    - unfold f. cbn [h5_vars]. rewrite map_map. cbn. exact N.
    - apply in_map_iff. exists (k, a). auto. }
  set (vs := map (fun q => (fst q, V (snd q))) names).
  assert (Mm : mapM (fun q => do v <- sub (snd q) (h5_vars f) ;;
                            match hv_shape v with [] => Err ValueError | _ => Ok (fst q, v) end)
               (mapping given xname yname varname timename) = Ok vs).
  { change (mapping given xname yname varname timename) with names. unfold vs. clear Nn Gm. clearbody names.
    induction names as [|[o k] l IH]; auto. cbn [mapM map fst snd]. unfold sub at 1. destruct (Sub o k) as (a & Ia & Sh); [now left|].
    rewrite (Sv k a Ia). cbn [bind]. rewrite IH; auto; [|intros o' k' I; apply (Sub o'); now right].
    rewrite (Vk k a Ia). cbn [hv_shape h5_variable]. destruct (shape a); [contradiction|reflexivity]. }
  assert (Gv : forall o k, In (o, k) names -> get o vs = Some (V k)).
  { intros o k I. unfold vs. rewrite get_map. now rewrite (get_nodup o k names Nn I). }
  set (r0 := Input (map (fun q => (fst q, Arr (hv_shape (snd q)) (map (fun x => (x, false)) (hv_data (snd q))))) vs)
                        (pick_attrs get file_names (h5_attrs f))
                        (map (fun q => (fst q, pick_attrs get attr_names (hv_attrs (snd q)))) vs)).
  assert (Ga : forall o k, In (o, k) names -> get o (in_attrs r0) = Some (pick_attrs get attr_names (hv_attrs (V k)))).
  { intros o k I. refine (eq_trans (get_map (fun v => pick_attrs get attr_names (hv_attrs v)) o vs) _). now rewrite (Gv o k I). }
  assert (Gd : forall o k, In (o, k) names -> get o (in_vars r0) = Some (Arr (hv_shape (V k)) (map (fun x => (x, false)) (hv_data (V k))))).
  { intros o k I. refine (eq_trans (get_map (fun v => Arr (hv_shape v) (map (fun x => (x, false)) (hv_data v))) o vs) _). now rewrite (Gv o k I). }
  assert (Na : NoDup attr_names) by (unfold attr_names; repeat constructor; cbn; intuition discriminate).
  assert (K0 : map fst (in_vars r0) = map fst names).
  { cbn [in_vars r0]. unfold vs. rewrite !map_map. reflexivity. }
  assert (At : forall k a n, In (k, a) output -> In n attr_names ->
     get n (pick_attrs get attr_names (hv_attrs (V k))) = if String.eqb n "_FillValue" then None else get n (nth (ref k) h [])).
  { intros k a n I In7. rewrite get_pick by auto. rewrite (Vk k a I). cbn [hv_attrs h5_variable]. apply get_without. }
  assert (Dk : forall d0, get "data" (in_attrs r0) = Some d0 -> exists k a, In ("data", k) names /\ In (k, a) output /\ d0 = pick_attrs get attr_names (hv_attrs (V k))).
  { intros d0 E. assert (I : In "data" (map fst names)).
    { apply get_key in E. cbn [in_attrs r0] in E. unfold vs in E. rewrite !map_map in E. exact E. }
    apply in_map_iff in I as ([o k] & Eo & I). cbn in Eo. subst o. destruct (Sub _ _ I) as (a & Ia & _). exists k, a. rewrite (Ga _ k I) in E. split; auto. split; auto. congruence. }
  exists r0. split; [exact W|]. split; [|split; [exact K0|]].
  - unfold from_hdf5. rewrite Mm. cbn [bind]. fold r0.
    assert (C : with_crs proj4 r0 (fun g0 => do v <- sub g0 (h5_vars f) ;; Ok (hv_attrs v)) = Ok r0).
    { unfold with_crs. destruct (get "data" (in_vars r0)) as [a0|]; auto. destruct (get "data" (in_attrs r0)) as [d0|] eqn:E; auto.
      destruct (Dk d0 eq_refl) as (k & a & Ik & Ia & ->). rewrite (At k a) by (auto; unfold attr_names; cbn; tauto). cbn [String.eqb Ascii.eqb Bool.eqb].
      now rewrite (Gm k Ik). }
    rewrite C. cbn [bind]. f_equal. unfold with_mask. destruct (get "data" (in_vars r0)) as [a0|]; auto. destruct (get "data" (in_attrs r0)) as [d0|] eqn:E; auto.
    destruct (Dk d0 eq_refl) as (k & a & Ik & Ia & ->). rewrite (At k a) by (auto; unfold attr_names; cbn; tauto). reflexivity.
  - intros o k a Io Ik. split.
    + rewrite (Gd o k Io), (Vk k a Ik). cbn [hv_shape hv_data h5_variable]. destruct (Sub o k Io) as (a' & Ia' & Sh).
      assert (a' = a) by (apply (get_nodup k a' output N) in Ia'; apply (get_nodup k a output N) in Ik; congruence). subst a'.
      destruct (shape a); [contradiction|]. now rewrite map_map.
    + rewrite (Ga o k Io). eexists. split; [reflexivity|]. intros n I. now apply (At k a).
Qed.
Print Assumptions C47_hdf5_read_partial.

(** ** What goes wrong *)
(** The writers change the caller's attributes, for every dataset that has a fill value. *)
Theorem C47_caller_changed_refuted stamp attributes h output ref t n k :
  NoDup (map fst stamp) -> (forall d, In d h -> NoDup (map fst d)) -> NoDup (map fst output) -> separate attributes h output ref ->
  get "time" output = Some t -> shape t = [n] -> (forall k a, In (k, a) output -> shape a = [n]) ->
  In k (map fst output) -> get "_FillValue" (nth (ref k) h []) <> None ->
  fst (to_netcdf stamp "drift" empty_nc attributes h output) <> h /\ fst (to_hdf5 stamp empty_h5 attributes h output) <> h.
Proof.
  intros Ns P N Sep Gt Sh C Ik F.
  destruct (C47_drift stamp attributes h output ref t n Ns P N Sep Gt Sh) as (g & _ & W); [intros k' a' I; left; eauto|].
  destruct (C47_hdf5 stamp attributes h output ref Ns P N Sep) as (g' & _ & W'); [intros k' a' I E; rewrite (C k' a' I) in E; discriminate|].
  cbv zeta in W, W'. rewrite W, W'. cbn [fst].
  assert (X : stripped (map ref (map fst output)) h <> h); [|auto].
  intros E. apply F. destruct Sep as [S1 _]. destruct (S1 k Ik) as (_ & Hr & _). rewrite <- E. rewrite nth_stripped by auto.
  assert (B : existsb (Nat.eqb (ref k)) (map ref (map fst output)) = true).
  { apply existsb_exists. exists (ref k). split; [now apply in_map|apply Nat.eqb_refl]. }
  rewrite B. now rewrite get_without.
Qed.
Print Assumptions C47_caller_changed_refuted.

(** Hence writing the same data a second time gives a file without its fill values. *)
Theorem C47_twice_refuted stamp attributes h output ref t n :
  NoDup (map fst stamp) -> (forall d, In d h -> NoDup (map fst d)) -> NoDup (map fst output) -> separate attributes h output ref ->
  get "time" output = Some t -> shape t = [n] -> (forall k a, In (k, a) output -> shape a = [n]) ->
  let h1 := fst (to_netcdf stamp "drift" empty_nc attributes h output) in
  exists f, to_netcdf stamp "drift" empty_nc attributes h1 output = (h1, Ok f) /\
    forall k v, In (k, v) (nc_vars f) -> nv_fill v = None.
Proof.
  intros Ns P N Sep Gt Sh C h1.
  destruct (C47_drift stamp attributes h output ref t n Ns P N Sep Gt Sh) as (g & _ & W); [intros k' a' I; left; eauto|]. cbv zeta in W.
  assert (E1 : h1 = stripped (map ref (map fst output)) h) by (unfold h1; now rewrite W).
  assert (P1 : forall d, In d h1 -> NoDup (map fst d)) by (rewrite E1; now apply stripped_proper).
  assert (Sep1 : separate attributes h1 output ref).
  { destruct Sep as [S1 S2]. split; auto. intros k Ik. destruct (S1 k Ik) as (G & Hr & _). split; auto. split; [rewrite E1, stripped_length; auto|].
    apply nth_proper. now apply Forall_forall. }
  destruct (C47_drift stamp attributes h1 output ref t n Ns P1 N Sep1 Gt Sh) as (g1 & _ & W1); [intros k' a' I; left; eauto|]. cbv zeta in W1.
  assert (F0 : forall k, In k (map fst output) -> get "_FillValue" (nth (ref k) h1 []) = None).
  { intros k Ik. destruct Sep as [S1 _]. destruct (S1 k Ik) as (_ & Hr & _). rewrite E1, nth_stripped by auto.
    assert (B : existsb (Nat.eqb (ref k)) (map ref (map fst output)) = true).
    { apply existsb_exists. exists (ref k). split; [now apply in_map|apply Nat.eqb_refl]. }
    rewrite B. now rewrite get_without. }
  eexists. split.
  - rewrite W1. f_equal. rewrite E1, strip_app. apply heap_ext; [now rewrite !stripped_length|]. intros j Hj. rewrite stripped_length in Hj.
    rewrite !nth_stripped, existsb_app by auto. now destruct (existsb _ _).
  - cbn [nc_vars]. intros k v I. apply in_map_iff in I as ([k' a'] & E & I). injection E as <- <-. cbn [nv_fill variable fst].
    apply F0. apply in_keys. eauto.
Qed.
Print Assumptions C47_twice_refuted.

(** Appending to a netCDF file this writer made never works. *)
Lemma write_vars_dims fdims choose attributes output : forall h f h' f', write_vars fdims choose attributes h f output = (h', Ok f') -> nc_dims f' = nc_dims f.
Proof.
  induction output as [|[k a] output IH]; intros h f h' f' E; cbn [write_vars] in E.
  - now injection E as <- <-.
  - destruct (write_var fdims choose attributes h f k a) as [h1 [f1|e]] eqn:W; [|discriminate]. rewrite (IH _ _ _ _ E).
    revert W. unfold write_var. destruct (get k (nc_vars f)) as [v|].
    + destruct (get k attributes); [|destruct (assign f v a); discriminate]. intros W. injection W as <- W.
      destruct (assign f v a); [|discriminate]. cbn [bind] in W. destruct (set_attrs _ _); [|discriminate]. now injection W as <-.
    + destruct (get k attributes); [|discriminate]. destruct (get "_FillValue" _); intros W; injection W as _ W;
        (destruct (assign f _ a); [|discriminate]; cbn [bind] in W; destruct (set_attrs _ _); [|discriminate]; now injection W as <-).
Qed.
Lemma create_has name n f f' : create_dim name n f = Ok f' -> has name (nc_dims f') = true.
Proof.
  unfold create_dim. destruct (has name (nc_dims f)); [discriminate|]. intros E. injection E as <-. cbn [nc_dims].
  unfold has. induction (nc_dims f) as [|[k m] d IH]; cbn [app get]; [now rewrite String.eqb_refl|]. now destruct (String.eqb name k).
Qed.
Lemma create_keeps name n f f' m : create_dim name n f = Ok f' -> has m (nc_dims f) = true -> has m (nc_dims f') = true.
Proof.
  unfold create_dim. destruct (has name (nc_dims f)); [discriminate|]. intros E. injection E as <-. cbn [nc_dims].
  unfold has. induction (nc_dims f) as [|[k m'] d IH]; cbn [app get]; [discriminate|]. now destruct (String.eqb m k).
Qed.
Lemma create_dup name n f : has name (nc_dims f) = true -> create_dim name n f = Err OtherError.
Proof. unfold create_dim. now intros ->. Qed.

Theorem C47_append_refuted kind stamp attributes h opened output h1 f stamp' attributes' h2 output' :
  In kind ["drift"; "grid"; "time series"] ->
  to_netcdf stamp kind opened attributes h output = (h1, Ok f) ->
  exists e, to_netcdf stamp' kind f attributes' h2 output' = (h2, Err e).
Proof.
  intros K W.
  assert (T : has (if String.eqb kind "drift" then "time" else if String.eqb kind "grid" then "y" else "station") (nc_dims f) = true).
  { destruct K as [<-|[<-|[<-|[]]]]; cbn [String.eqb Ascii.eqb Bool.eqb]; unfold to_netcdf in W; cbn [String.eqb Ascii.eqb Bool.eqb] in W.
    - unfold write_drift in W. destruct (get "time" output); [|discriminate]. destruct (create_dim _ _ _) as [f1|] eqn:E1; [|discriminate].
      destruct (write_vars _ _ _ h f1 output) as [h3 [f2|]] eqn:E2; [|discriminate]. injection W as <- <-. cbn [nc_dims].
      rewrite (write_vars_dims _ _ _ _ _ _ _ _ E2). eapply create_has; eauto.
    - unfold write_grid in W. destruct (reference 3 output) as [[|ny [|nx [|nt [|]]]]|]; try discriminate.
      destruct (create_dim "y" ny opened) as [f1|] eqn:E1; [|discriminate]. cbn [bind] in W.
      destruct (create_dim "x" nx f1) as [f2|] eqn:E2; [|discriminate]. cbn [bind] in W.
      destruct (create_dim "time" nt f2) as [f3|] eqn:E3; [|discriminate].
      destruct (write_vars _ _ _ h f3 output) as [h3 [f4|]] eqn:E4; [|discriminate]. injection W as <- <-. cbn [nc_dims].
      rewrite (write_vars_dims _ _ _ _ _ _ _ _ E4). eapply create_keeps; eauto. eapply create_keeps; eauto. eapply create_has; eauto.
    - unfold write_series in W. destruct (reference 2 output) as [[|ns [|nt [|]]]|]; try discriminate.
      destruct (create_dim "station" ns opened) as [f1|] eqn:E1; [|discriminate]. cbn [bind] in W.
      destruct (create_dim "time" nt f1) as [f2|] eqn:E2; [|discriminate].
      destruct (write_vars _ _ _ h f2 output) as [h3 [f4|]] eqn:E4; [|discriminate]. injection W as <- <-. cbn [nc_dims].
      rewrite (write_vars_dims _ _ _ _ _ _ _ _ E4). eapply create_keeps; eauto. eapply create_has; eauto. }
  destruct K as [<-|[<-|[<-|[]]]]; cbn [String.eqb Ascii.eqb Bool.eqb] in T; unfold to_netcdf; cbn [String.eqb Ascii.eqb Bool.eqb].
  - unfold write_drift. destruct (get "time" output'); [|eexists; reflexivity]. rewrite create_dup by auto. eexists; reflexivity.
  - unfold write_grid. destruct (reference 3 output') as [[|ny [|nx [|nt [|]]]]|]; try (eexists; reflexivity). rewrite create_dup by auto. eexists; reflexivity.
  - unfold write_series. destruct (reference 2 output') as [[|ns [|nt [|]]]|]; try (eexists; reflexivity). rewrite create_dup by auto. eexists; reflexivity.
Qed.
Print Assumptions C47_append_refuted.

(** Nor to an HDF5 file whose first variable has attributes. *)
Theorem C47_append_hdf5_refuted stamp attributes h f key val rest v r :
  get key (h5_vars f) = Some v -> hv_shape v = shape val -> get key attributes = Some r -> nth r h [] <> [] ->
  exists e, to_hdf5 stamp f attributes h ((key, val) :: rest) = (h, Err e).
Proof.
  intros G Sh Ga Ne. unfold to_hdf5. cbn [write_h5s]. unfold write_h5. rewrite G, Ga. destruct (shape val) as [|n s] eqn:E; [eexists; reflexivity|].
  destruct (list_eq_dec _ _ _) as [_|X]; [|congruence]. unfold at_ref. destruct (nth r h []); [congruence|]. eexists; reflexivity.
Qed.
Print Assumptions C47_append_hdf5_refuted.

(** An unknown kind of data gives a file without variables and no complaint. *)
Theorem C47_unknown_kind kind stamp attributes h output :
  ~ In kind ["drift"; "grid"; "time series"] ->
  exists g, to_netcdf stamp kind empty_nc attributes h output = (h, Ok (NcFile [] [] g)).
Proof.
  intros K. unfold to_netcdf.
  destruct (String.eqb kind "drift") eqn:E1; [apply String.eqb_eq in E1 as ->; exfalso; apply K; cbn; tauto|].
  destruct (String.eqb kind "grid") eqn:E2; [apply String.eqb_eq in E2 as ->; exfalso; apply K; cbn; tauto|].
  destruct (String.eqb kind "time series") eqn:E3; [apply String.eqb_eq in E3 as ->; exfalso; apply K; cbn; tauto|].
  eexists. reflexivity.
Qed.
Print Assumptions C47_unknown_kind.

(** ** Cases *)
Definition ex_heap : heap :=
  [[("units", AText "days since 1992-01-01T00:00:00")];
   [("_FillValue", ANum (-9999)); ("units", AText "meters"); ("long_name", AText "tide")];
   [("title", AText "tides")]].
Definition ex_attrs : list (string * nat) := [("time", 0); ("tide", 1); ("ROOT", 2)].
Definition ex_output : list (string * arr) :=
  [("time", Arr [3] [(10, false); (11, false); (12, false)]%Z); ("tide", Arr [3] [(5, false); (7, true); (6, false)]%Z)].
Definition ex_ref (k : string) : nat := if String.eqb k "time" then 0 else 1.
Definition ex_stamp : dict := [("date_created", AText "now")].
Example C47_case :
  to_netcdf ex_stamp "drift" empty_nc ex_attrs ex_heap ex_output =
  ([[("units", AText "days since 1992-01-01T00:00:00")];
    [("units", AText "meters"); ("long_name", AText "tide")];
    [("title", AText "tides")]],
   Ok (NcFile [("time", 3)]
         [("time", NcVar ["time"] None [10; 11; 12]%Z [("units", AText "days since 1992-01-01T00:00:00")]);
          ("tide", NcVar ["time"] (Some (ANum (-9999))) [5; -9999; 6]%Z [("units", AText "meters"); ("long_name", AText "tide")])]
         [("date_created", AText "now"); ("title", AText "tides")])).
Proof. reflexivity. Qed.
Example C47_case_hypotheses :
  NoDup (map fst ex_stamp) /\ (forall d, In d ex_heap -> NoDup (map fst d)) /\ NoDup (map fst ex_output) /\ separate ex_attrs ex_heap ex_output ex_ref /\
  dataset "drift" (fun k => get "_FillValue" (nth (ex_ref k) ex_heap []) = None) ex_output /\
  (forall k a, In (k, a) ex_output -> fillable a (nth (ex_ref k) ex_heap [])).
Proof.
  split; [repeat constructor; cbn; tauto|]. split.
  { intros d [<-|[<-|[<-|[]]]]; repeat constructor; cbn; intuition discriminate. }
  split; [repeat constructor; cbn; intuition discriminate|]. split.
  { split.
    - intros k [<-|[<-|[]]]; cbn; repeat split; auto; try lia; repeat constructor; cbn; intuition discriminate.
    - intros j k [<-|[<-|[]]] [<-|[<-|[]]]; cbn; auto; discriminate. }
  split.
  { left. split; auto. exists 3. split.
    - eexists. split; [left; reflexivity|reflexivity].
    - intros k a [E|[E|[]]]; injection E as <- <-; left; reflexivity. }
  intros k a [E|[E|[]]]; injection E as <- <-; split.
  - intros x H. cbn in H. decompose [or] H; try contradiction; match goal with X : (_, _) = (x, false) |- _ => injection X as <- || discriminate X end; vm_compute; discriminate.
  - cbn. discriminate.
  - intros x H. cbn in H. decompose [or] H; try contradiction; match goal with X : (_, _) = (x, false) |- _ => injection X as <- || discriminate X end; vm_compute; discriminate.
  - cbn. intros v E. injection E as <-. eauto.
Qed.
(** Under HDF5 the mask of the second value is lost. *)
Theorem C47_hdf5_mask_lost_refuted :
  exists f r, snd (to_hdf5 ex_stamp empty_h5 ex_attrs ex_heap ex_output) = Ok f /\
    from_hdf5 (fun s => s) f [("time", "time"); ("data", "tide")] "" "" None None = Ok r /\
    get "data" (in_vars r) = Some (Arr [3] [(5, false); (7, false); (6, false)]%Z).
Proof. do 2 eexists. repeat split. Qed.
(** Scalars are written as zero and cannot be read. *)
Theorem C47_hdf5_scalar_refuted :
  exists f, snd (to_hdf5 ex_stamp empty_h5 ex_attrs ex_heap [("time", Arr [] [(10, false)]%Z)]) = Ok f /\
    h5_vars f = [("time", H5Var [] [0%Z] [("units", AText "days since 1992-01-01T00:00:00")])] /\
    from_hdf5 (fun s => s) f [("time", "time")] "" "" None None = Err ValueError.
Proof. eexists. repeat split. Qed.
(** Attributes are looked up by the start of their names, so a second one with the
    same start hides the first. *)
Theorem C47_attribute_lost_refuted :
  exists f r, snd (to_netcdf ex_stamp "drift" empty_nc [("time", 0)] [[("units", AText "days"); ("units_note", AText "utc")]]
                     [("time", Arr [1] [(10, false)]%Z)]) = Ok f /\
    from_netcdf (fun s => s) f [("time", "time")] "" "" None None = Ok r /\
    in_attrs r = [("time", [])].
Proof. do 2 eexists. repeat split. Qed.
(** A square grid has its x coordinates on the y dimension. *)
Theorem C47_square_grid_refuted :
  exists f v, snd (to_netcdf [] "grid" empty_nc [("x", 0); ("y", 0); ("z", 0)] [[]]
                     [("x", Arr [2] [(1, false); (2, false)]%Z); ("y", Arr [2] [(3, false); (4, false)]%Z);
                      ("z", Arr [2; 2; 1] [(1, false); (2, false); (3, false); (4, false)]%Z)]) = Ok f /\
    get "x" (nc_vars f) = Some v /\ nv_dims v = ["y"].
Proof. do 2 eexists. repeat split. Qed.
