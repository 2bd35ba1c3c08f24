(** C97, concluded: interrupted copies, cases meeting the hypotheses, and the
    assumptions. *)
From Coq Require Import String Ascii Reals List ZArith Bool Lia Lra.
From Verif Require Import PyBase RBase StrBase UtilModel DownModel DownSpec DownLemmas DownRun
  DownProps DownProps2 DownProps3.
Import ListNotations.
Open Scope string_scope.

(** an interrupted copy from the host should be repeated: it is not *)
Theorem C97_fes_interrupted_refuted (D : Type) (gz : D -> D)
  (untar : string -> D -> option (list (member D))) (unlzma : D -> stream D)
  (host host' : list string -> option (stream D * R)) (now now' t : R) (remote : list string)
  (dir : path) (FLATTEN : option bool) (GZIP : bool) (d : D) (c : stream D) (out : text) (s : state D) :
  ~ In "/"%char (chars (last remote "")) ->
  stored_as [chars ".asc"; chars ".nc"] GZIP (chars (last remote "")) (chars (last remote "")) out ->
  host remote = Some (Cut d, t) -> host' remote = Some (c, t) ->
  fs s (place dir out) = None -> (t <= now)%R ->
  exists s', ftp_download D gz untar unlzma host now remote dir false None FLATTEN GZIP s
               = (s', Some OtherError) /\
    fs s' (place dir out) = Some (if GZIP then gz d else d, now) /\
    ftp_download D gz untar unlzma host' now' remote dir false None FLATTEN GZIP s' = (s', None).
Proof.
  intros Hn So Eh Eh' Hs Ht. apply gz_name_iff in So. change (chars (last remote "")) with (T (last remote "")) in *.
  assert (B : basename (T (last remote "")) = T (last remote "")).
  { unfold basename. rewrite pieces_plain by exact Hn. reflexivity. }
  unfold ftp_download. rewrite Eh, Eh', B. cbv zeta. rewrite <- So.
  unfold fetch at 1. rewrite Hs. eexists. split; [reflexivity|]. split; [apply store_same|].
  unfold fetch. rewrite store_same.
  assert (N : newer t now = true).
  { apply newer_true. intros (n & H1 & H2). lra. }
  now rewrite N.
Qed.

(** * concrete cases *)
Definition demo_gz (d : string) : string := "gz:" ++ d.
Definition demo (name : string) (t : R) (d : string) : member string :=
  {| m_name := T name; m_file := true; m_mtime := t; m_data := Whole d |}.
Definition nowhere : state string := {| fs := fun _ => None; wrote := [] |}.
Definition home : path := [T "home"; T "tides"].
Definition demo_members : list (member string) :=
  [demo "GOT4.8/m2.nc" 10 "M2"; demo "GOT4.8/m2.d" 11 "M2 text"; demo "GOT4.8/.DS_Store" 12 "x";
   demo "GOT4.8/k_1.nc" 13 "K1"; demo "GOT4.8/readme.txt" 14 "notes"].

Example demo_names :
  (suffix (T "GOT4.8/m2.nc"), suffix (T "a.b/.DS_Store"), suffix (T "a/..nc"), basename (T "a/b/c"))
  = (T ".nc", [], [], T "c").
Proof. reflexivity. Qed.

Example demo_extension : extension (chars "GOT4.8/m2.nc") (chars ".nc").
Proof. apply suffix_iff; [discriminate|reflexivity]. Qed.

Example demo_place :
  place home (T "GOT4.8/m2.nc") = [T "home"; T "tides"; T "GOT4.8"; T "m2.nc"] /\
  place home (T "/etc/passwd") = [T "etc"; T "passwd"] /\
  place home (T "../x") = [T "home"; T "x"].
Proof. repeat split. Qed.

Definition after := fst (got_members string demo_gz 20 "netcdf" true home demo_members nowhere).
Example demo_run :
  snd (got_members string demo_gz 20 "netcdf" true home demo_members nowhere) = None /\
  fs after [T "home"; T "tides"; T "GOT4.8"; T "m2.nc.gz"] = Some ("gz:M2", 10%R) /\
  fs after [T "home"; T "tides"; T "GOT4.8"; T "m2.d.gz"] = None /\
  fs after [T "home"; T "tides"; T "GOT4.8"; T ".DS_Store"] = None /\
  fs after [T "home"; T "tides"; T "GOT4.8"; T "k_1.nc.gz"] = None /\
  fs after [T "home"; T "tides"; T "GOT4.8"; T "readme.txt"] = Some ("gz:notes", 14%R) /\
  length (wrote after) = 2%nat.
Proof. repeat split. Qed.

Example demo_again :
  got_members string demo_gz 30 "netcdf" true home demo_members after = (after, None).
Proof.
  assert (E : got_members string demo_gz 20 "netcdf" true home demo_members nowhere = (after, None)).
  { unfold after. pose proof (proj1 demo_run) as H.
    destruct (got_members string demo_gz 20 "netcdf" true home demo_members nowhere) as [a o].
    cbn in H. now subst. }
  destruct (C97_got string demo_gz 20 30 "netcdf" true home demo_members nowhere after E) as (_ & _ & H).
  exact H.
Qed.

Example demo_stale : stale 1 2 /\ ~ stale 2 (3 + 1 / 2) /\ stale (3 + 1 / 2) 4.
Proof.
  split; [exists 1%Z; cbn [Z.mul Pos.mul]; lra|]. split; [|exists 2%Z; cbn [Z.mul Pos.mul]; lra].
  intros (n & H1 & H2). assert (1 < n)%Z by (apply lt_IZR; rewrite mult_IZR in H1; lra).
  assert (IZR 2 <= IZR n)%R by (apply IZR_le; lia). rewrite mult_IZR in H2. lra.
Qed.

Example demo_passed : passed_over "netcdf" (chars "GOT4.8/k_1.nc") /\
  ~ passed_over "netcdf" (chars "GOT4.8/m2.nc").
Proof.
  split.
  - right; right. exists "k"%char, (chars "1.nc"). split; [discriminate|]. right.
    apply last_component_iff. reflexivity.
  - intros [(_ & H)|[(H & _)|(c & r & _ & [H|H])]].
    + discriminate.
    + apply suffix_iff in H; [|discriminate]. discriminate.
    + apply last_component_iff in H. discriminate.
    + apply last_component_iff in H. discriminate.
Qed.

(** a host with FES2004 *)
Definition demo_host (r : list string) : option (stream string * R) :=
  if last r "" =? "readme_fes2004.html" then Some (Whole "<html>", 5%R)
  else if last r "" =? "fes2004.tar.gz" then Some (Whole "TAR", 6%R)
  else if last r "" =? "m2_fes2022.nc.xz" then Some (Whole "XZ", 7%R)
  else None.
Definition demo_untar (mode d : string) : option (list (member string)) :=
  if (mode =? "r:gz") && (d =? "TAR") then Some [demo "fes2004/M2.nc" 4 "M2"] else None.
Definition demo_listing (r : list string) : list string := ["m2_fes2022.nc.xz"].
Definition demo_unlzma (d : string) : stream string := Whole ("plain:" ++ d).
Definition demo_fes (MODEL : string) :=
  aviso_fes_tides string demo_gz demo_untar demo_unlzma demo_host demo_listing 20 MODEL home
    false false false false nowhere.
Example demo_fes2004 :
  snd (demo_fes "FES2004") = None /\
  fs (fst (demo_fes "FES2004")) (home ++ [T "fes2004"; T "M2.nc"])%list = Some ("M2", 4%R) /\
  fs (fst (demo_fes "FES2004")) (home ++ [T "fes2004"; T "readme_fes2004.html"])%list = Some ("<html>", 5%R).
Proof. repeat split. Qed.
Example demo_fes2022 :
  snd (demo_fes "FES2022") = None /\
  fs (fst (demo_fes "FES2022"))
     (home ++ [T "fes2022b"; T "ocean_tide_20241025"; T "m2_fes2022.nc"])%list = Some ("plain:XZ", 7%R).
Proof. repeat split. Qed.
Example demo_fes_file : fes_file "FES2014" true false
  ["fes2014_elevations_and_load"; "fes2014a_loadtide"; "load_tide.tar.xz"] /\
  suits (Some "r") "load_tide.tar.xz".
Proof.
  split.
  - exists OfLoad. split; [unfold catalogue; repeat (first [left; reflexivity | right])|reflexivity].
  - right; right. split; [now exists "load_tide"|reflexivity].
Qed.
Example demo_interrupted :
  let m := {| m_name := T "GOT4.8/m2.nc"; m_file := true; m_mtime := 10; m_data := Cut "M" |} in
  let s' := fst (got_members string demo_gz 20 "netcdf" false home [m] nowhere) in
  fs s' (home ++ [T "GOT4.8"; T "m2.nc"])%list = Some ("M", 20%R) /\
  got_members string demo_gz 30 "netcdf" false home [demo "GOT4.8/m2.nc" 10 "M2"] s' = (s', None).
Proof.
  intros m s'. split; [reflexivity|].
  destruct (C97_interrupted_refuted string demo_gz 20 30 "netcdf" false home m
    (demo "GOT4.8/m2.nc" 10 "M2") "M" (T "GOT4.8/m2.nc") nowhere) as (s1 & E & _ & H);
    try reflexivity.
  - apply demo_passed.
  - right. split; [now left|reflexivity].
  - cbn. lra.
  - unfold s'. rewrite E. exact H.
Qed.

Print Assumptions C97_names.
Print Assumptions C97_inside.
Print Assumptions C97_inside_refuted.
Print Assumptions C97_got.
Print Assumptions C97_got_ends.
Print Assumptions C97_got_table.
Print Assumptions C97_hidden_refuted.
Print Assumptions C97_gzip_refuted.
Print Assumptions C97_interrupted_refuted.
Print Assumptions C97_fes_interrupted_refuted.
Print Assumptions C97_plan.
Print Assumptions C97_fes.
Print Assumptions C97_fes_only.
Print Assumptions C97_fes_again.
Print Assumptions C97_fes2022.
Print Assumptions C97_currents_refuted.
Print Assumptions C97_currents2022_refuted.
