(** Lemmas about the programs computing corrections for a file. *)
From Coq Require Import Reals String List Bool ZArith Arith Lia.
From Verif Require Import PyBase RBase StrBase MathModel AstroModel GeoModel DatumModel EarthModel
  PredictModel InferModel UtilModel ComputeModel ComputeProofs ScriptModel ScriptSpec.
From Verif Require CrsModel CrsSpec CrsProofs.
Import ListNotations.
Open Scope R_scope.

Lemma format_named n f : In (n, f) formats -> format_of n = Ok f.
Proof. intros H. cbn in H. repeat destruct H as [H|H]; try (injection H as <- <-; reflexivity). contradiction. Qed.
Lemma format_unknown n : ~ In n (map fst formats) -> format_of n = Err NameError.
Proof.
  intros H. unfold format_of. cbn in H.
  destruct (String.eqb_spec n "csv") as [E|_]; [exfalso; apply H; auto|].
  destruct (String.eqb_spec n "netCDF4") as [E|_]; [exfalso; apply H; auto|].
  destruct (String.eqb_spec n "HDF5") as [E|_]; [exfalso; apply H; auto|].
  destruct (mem_str n ["GTiff"; "cog"]%string) eqn:E.
  { apply mem_str_In in E. cbn in E. exfalso. apply H. intuition auto. }
  destruct (String.eqb_spec n "parquet") as [E'|_]; [exfalso; apply H; intuition auto|reflexivity].
Qed.

Lemma lookup_entry k l v : entry k l v -> lookup k l = Ok v.
Proof.
  intros (b & r & -> & N). induction b as [|[k' w] b IH]; cbn.
  - rewrite String.eqb_refl. reflexivity.
  - destruct (String.eqb_spec k k') as [E|_]; [exfalso; apply N; left; cbn; congruence|].
    apply IH. intros I. apply N. right. exact I.
Qed.
Lemma lookup_skip k k' v l : k <> k' -> lookup k ((k', v) :: l) = lookup k l.
Proof. intros N. cbn. destruct (String.eqb_spec k k'); [contradiction|reflexivity]. Qed.
Lemma lookup_missing k l : ~ In k (map fst l) -> lookup k l = Err KeyError.
Proof.
  induction l as [|[k' v] l IH]; intros H; [reflexivity|]. cbn in *.
  destruct (String.eqb_spec k k') as [E|_]; [exfalso; apply H; left; congruence|]. apply IH. intros I. apply H. right. exact I.
Qed.

Lemma shape_grid (xs ys : list R) : ys <> [] -> shape2 (C2 (map (fun _ => xs) ys)) = Ok (List.length ys, List.length xs).
Proof. intros N. unfold shape2. rewrite map_length. destruct ys; [contradiction|reflexivity]. Qed.

Section Start.
  Context {D C P E : Type} (lib : CrsModel.pyproj D C P).
  Variable place : C -> R * R -> R * R.
  Variable parse_units : string -> res (E * R).
  Variable clock : E -> string -> R -> stamp.
  Variable dates : R -> stamp.
  Variable reader : format -> list string -> res (input (D := D)).

  Lemma unreadable_refuses g : unreadable lib g -> CrsModel.from_input lib g = CrsModel.Bad CrsModel.CrsFault.
  Proof. intros H. apply CrsProofs.from_input_iff. right. split; [exact H|reflexivity]. Qed.
  Lemma system_get a p c : system lib a p c -> get_projection lib a p = CrsModel.Good c.
  Proof.
    unfold get_projection. intros [(g & -> & H)|[H K]].
    - apply CrsProofs.resolves_iff in H. rewrite H. reflexivity.
    - apply CrsProofs.resolves_iff in K. destruct a as [g|].
      + rewrite (unreadable_refuses g (H g eq_refl)). cbn. rewrite K. reflexivity.
      + rewrite K. reflexivity.
  Qed.
  Lemma unit_chosen a u e s : unit_of_time parse_units a u e s -> unit_of parse_units a u = Ok (e, s).
  Proof.
    unfold unit_of. intros [(g & -> & H)|[H K]].
    - rewrite H. reflexivity.
    - destruct a as [g|]; [|exact K]. destruct (H g eq_refl) as (x & -> & I).
      cbn in I. destruct I as [<-|[<-|[<-|[]]]]; exact K.
  Qed.
  Lemma stamps_library e s STANDARD ts : stamps clock dates (e, s) STANDARD ts
    = map (library_clock clock dates e STANDARD) (library_times s STANDARD ts).
  Proof.
    unfold stamps, library_clock, library_times. destruct (String.eqb (lower STANDARD) "datetime"); [reflexivity|].
    rewrite map_map. reflexivity.
  Qed.

  Variables (asserted : bool) (q : arguments (D := D)) (c : C) (e : E) (s : R) (xs ys ts : list R).
  Hypothesis W : work lib parse_units reader q c e s xs ys ts.
  Let go := start lib place parse_units clock dates reader asserted q.
  Let sts := map (library_clock clock dates e (TIME_STANDARD q)) (library_times s (TIME_STANDARD q) ts).

  Lemma start_spread : go = (do _ <- (if asserted then check (mem_str (lower (TYPE q)) type_names) else Ok tt) ;;
    do l <- (if String.eqb (TYPE q) "grid" then
               Ok (Grid (List.length ys) (List.length xs) (map (fun v => map (fun u => place c (u, v)) xs) ys))
             else if String.eqb (TYPE q) "drift" then do l <- transform place c xs ys ;; Ok (Track l)
             else if String.eqb (TYPE q) "time series" then do l <- transform place c xs ys ;; Ok (Stations (List.length ys) l)
             else Ok Unbound) ;;
    Ok (l, sts)).
  Proof.
    subst go sts. destruct W as (f & i & F & I & G & U & X & Y & T). unfold start.
    rewrite (format_named _ _ F). cbn [bind]. rewrite I. cbn [bind]. cbv zeta.
    rewrite (system_get _ _ _ G).
    set (vars := match TIME q with None => i_vars i | Some t => ("time"%string, t) :: i_vars i end).
    assert (VX : lookup "x" vars = Ok xs).
    { unfold vars. destruct (TIME q); [rewrite lookup_skip by discriminate|]; apply lookup_entry; exact X. }
    assert (VY : lookup "y" vars = Ok ys).
    { unfold vars. destruct (TIME q); [rewrite lookup_skip by discriminate|]; apply lookup_entry; exact Y. }
    assert (VT : lookup "time" vars = Ok ts).
    { unfold vars. destruct (TIME q); [subst ts; reflexivity|]. apply lookup_entry. exact T. }
    unfold spread. rewrite VX, VY, VT. cbn [bind]. rewrite (unit_chosen _ _ _ _ U). cbn [bind].
    rewrite stamps_library.
    destruct (if asserted then check (mem_str (lower (TYPE q)) type_names) else Ok tt); [|reflexivity]. cbn [bind].
    destruct (String.eqb (TYPE q) "grid"); [reflexivity|].
    destruct (String.eqb (TYPE q) "drift"); [destruct (transform place c xs ys); reflexivity|].
    destruct (String.eqb (TYPE q) "time series"); [destruct (transform place c xs ys); reflexivity|reflexivity].
  Qed.

  Lemma start_grid : TYPE q = "grid"%string ->
    go = Ok (Grid (List.length ys) (List.length xs) (map (fun v => map (fun u => place c (u, v)) xs) ys), sts).
  Proof. intros E1. rewrite start_spread, E1. destruct asserted; reflexivity. Qed.
  Lemma start_track : TYPE q = "drift"%string -> List.length xs = List.length ys ->
    go = Ok (Track (map (place c) (combine xs ys)), sts).
  Proof.
    intros E1 L. rewrite start_spread, E1. unfold transform. rewrite L, Nat.eqb_refl. destruct asserted; reflexivity.
  Qed.
  Lemma start_stations : TYPE q = "time series"%string -> List.length xs = List.length ys ->
    go = Ok (Stations (List.length ys) (map (place c) (combine xs ys)), sts).
  Proof.
    intros E1 L. rewrite start_spread, E1. unfold transform. rewrite L, Nat.eqb_refl. destruct asserted; reflexivity.
  Qed.
  Lemma start_unbound : ~ In (TYPE q) ["grid"; "drift"; "time series"]%string ->
    (asserted = true -> In (lower (TYPE q)) ["grid"; "drift"; "time series"]%string) -> go = Ok (Unbound, sts).
  Proof.
    intros N L. rewrite start_spread.
    assert (K : (if asserted then check (mem_str (lower (TYPE q)) type_names) else Ok tt) = Ok tt).
    { destruct asserted; [|reflexivity]. apply mem_str_In in L; [|reflexivity]. unfold type_names. rewrite L. reflexivity. }
    rewrite K. cbn [bind]. cbn in N.
    destruct (String.eqb_spec (TYPE q) "grid") as [E1|_]; [exfalso; apply N; auto|].
    destruct (String.eqb_spec (TYPE q) "drift") as [E1|_]; [exfalso; apply N; auto|].
    destruct (String.eqb_spec (TYPE q) "time series") as [E1|_]; [exfalso; apply N; auto|]. reflexivity.
  Qed.

  (** what the library makes of the same arrays *)
  Let proj := place c.
  Let lclock := library_clock clock dates e.
  Let t := library_times s (TIME_STANDARD q) ts.
  Lemma prepare_one T : T = "drift"%string \/ T = "time series"%string -> List.length xs = List.length ys ->
    prepare proj lclock (Some T) (TIME_STANDARD q) (C1 xs) (C1 ys) t = Ok (T, C1 xs, map proj (combine xs ys), sts).
  Proof.
    intros H L.
    assert (Z : locations proj (C1 xs) (C1 ys) = Ok (map proj (combine xs ys))).
    { unfold locations, size. cbn [flatten]. rewrite L, Nat.eqb_refl. reflexivity. }
    unfold prepare.
    destruct H as [->| ->]; cbn [data_kind bind];
      [change (mem_str (lower "drift") type_names) with true|change (mem_str (lower "time series") type_names) with true];
      cbn [check bind];
      [change (reform "drift" (C1 xs) (C1 ys)) with (C1 xs, C1 ys)|change (reform "time series" (C1 xs) (C1 ys)) with (C1 xs, C1 ys)];
      cbv zeta; cbn [fst snd]; rewrite Z; reflexivity.
  Qed.
  Lemma prepare_grid : ys <> [] ->
    prepare proj lclock (Some "grid"%string) (TIME_STANDARD q) (C2 (map (fun _ => xs) ys)) (C2 (map (fun y => map (fun _ => y) xs) ys)) t
    = Ok ("grid"%string, C2 (map (fun _ => xs) ys), concat (map (fun v => map (fun u => proj (u, v)) xs) ys), sts).
  Proof.
    intros N. unfold prepare. cbn [data_kind bind].
    change (mem_str (lower "grid") type_names) with true. cbn [check bind].
    assert (L1 : Forall (fun r => List.length r = List.length xs) (map (fun _ : R => xs) ys)).
    { apply Forall_forall. intros r I. apply in_map_iff in I as (y & <- & _). reflexivity. }
    assert (L2 : Forall (fun r => List.length r = List.length xs) (map (fun y : R => map (fun _ : R => y) xs) ys)).
    { apply Forall_forall. intros r I. apply in_map_iff in I as (y & <- & _). apply map_length. }
    assert (SZ : size (C2 (map (fun _ => xs) ys)) = size (C2 (map (fun y => map (fun _ => y) xs) ys))).
    { unfold size. cbn [flatten]. rewrite (concat_length _ _ L1), (concat_length _ _ L2), !map_length. reflexivity. }
    unfold reform. change (String.eqb (lower "grid") "grid") with true. rewrite SZ, Nat.eqb_refl. cbn [andb negb atleast_2d fst snd].
    unfold locations. rewrite SZ, Nat.eqb_refl. cbn [bind flatten].
    rewrite (concat_combine (List.length xs) _ _ L1 L2) by (rewrite !map_length; reflexivity).
    enough (Q : map proj (concat (map (fun q0 : list R * list R => combine (fst q0) (snd q0))
      (combine (map (fun _ : R => xs) ys) (map (fun y : R => map (fun _ : R => y) xs) ys))))
      = concat (map (fun v => map (fun u => proj (u, v)) xs) ys)) by (rewrite Q; reflexivity).
    rewrite List.concat_map. f_equal. rewrite map_map.
    clear. induction ys as [|y l IH]; [reflexivity|]. cbn [map combine]. rewrite IH. f_equal. cbn [fst snd].
    clear. induction xs as [|x l IH]; [reflexivity|]. cbn. rewrite IH. reflexivity.
  Qed.
End Start.
