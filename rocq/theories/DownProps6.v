(** C97: where the database looks for FES2014. *)
From Coq Require Import String Ascii List Bool Reals Lia.
From Verif Require Import PyBase StrBase ValueBase DatabaseData DownModel DownSpec DownLemmas DownProps DownProps3 DownProps5.
Import ListNotations.
Open Scope string_scope.

Definition fes2014_dirs : list (string * string) := [("FES2014", "ocean_tide"); ("FES2014_load", "load_tide")].
Lemma fes2014_proper : forallb (fun ms => forallb (fun f => proper (chars ("fes2014/" ++ snd ms ++ "/")) (chars f))
  (fes_files (fst ms))) fes2014_dirs = true.
Proof. vm_compute. reflexivity. Qed.

(** the files that the database names for FES2014 are where a run leaves those of
    the tar files with the directory and the name of the file *)
Theorem C97_fes2014_database (D : Type) (gz : D -> D) (untar : string -> D -> option (list (member D)))
  (unlzma : D -> stream D) (host : list string -> option (stream D * R))
  (listing : list string -> list string) (now : R) (DIRECTORY : path)
  (LOAD EXTRAPOLATED : bool) (s s' : state D)
  (MODEL sub : string) (remote : list string) (row : list (string * val)) (files : list val) (file : string) :
  MODEL = "FES2014" /\ sub = "ocean_tide" /\
    remote = ["fes2014_elevations_and_load"; "fes2014b_elevations"; "ocean_tide.tar.xz"] \/
  LOAD = true /\ MODEL = "FES2014_load" /\ sub = "load_tide" /\
    remote = ["fes2014_elevations_and_load"; "fes2014a_loadtide"; "load_tide.tar.xz"] ->
  In (MODEL, row) builtin_elevation -> In ("model_file", VList files) row -> In (VStr file) files ->
  aviso_fes_tides D gz untar unlzma host listing now "FES2014" DIRECTORY LOAD false
    EXTRAPOLATED false s = (s', None) ->
  exists name, file = "fes2014/" ++ sub ++ "/" ++ name /\
  forall z t ms m, host remote = Some (Whole z, t) -> untar "r" z = Some ms -> In m ms ->
    m_file m = true -> m_name m = chars (sub ++ "/" ++ name) ->
    exists d t', fs s' (DIRECTORY ++ [chars "fes2014"; chars sub; chars name])%list = Some (d, t') /\
      ~ stale t' (m_mtime m).
Proof.
  intros Hsub Hrow Hfiles Hfile E.
  assert (I : In file (fes_files MODEL)).
  { unfold fes_files. apply in_flat_map. eexists. split; [exact Hrow|]. cbn [fst snd].
    rewrite String.eqb_refl. apply in_flat_map. eexists. split; [exact Hfiles|]. cbn [fst snd].
    rewrite String.eqb_refl. apply in_flat_map. eexists. split; [exact Hfile|]. now left. }
  assert (Hd : In (MODEL, sub) fes2014_dirs).
  { destruct Hsub as [(-> & -> & _)|(_ & -> & -> & _)]; cbn; tauto. }
  pose proof fes2014_proper as U. rewrite forallb_forall in U. specialize (U _ Hd).
  cbn [fst snd] in U. rewrite forallb_forall in U. specialize (U _ I).
  unfold proper, under in U. apply andb_true_iff in U as (U & W). apply andb_true_iff in U as (U & V).
  set (pre := "fes2014/" ++ sub ++ "/") in *.
  destruct (list_eq_dec ascii_dec (firstn (List.length (chars pre)) (chars file)) (chars pre)) as [Ef|]; [|discriminate].
  set (nm := skipn (List.length (chars pre)) (chars file)) in *.
  assert (C : chars (string_of_list_ascii nm) = nm) by apply list_ascii_of_string_of_list_ascii.
  exists (string_of_list_ascii nm). split.
  { assert (X : chars file = chars (pre ++ string_of_list_ascii nm)).
    { rewrite chars_app, C. rewrite <- Ef at 1. unfold nm. now rewrite firstn_skipn. }
    apply (f_equal string_of_list_ascii) in X. unfold chars in X.
    rewrite !string_of_list_ascii_of_string in X. rewrite X. unfold pre. now rewrite !str_assoc. }
  assert (Ns : ~ In "/"%char nm).
  { intros H. rewrite forallb_forall in V. specialize (V _ H). discriminate. }
  assert (Pn : plain nm).
  { destruct nm as [|c0 nm'] eqn:En; [discriminate|].
    assert (C0 : c0 <> "."%char) by (intros ->; discriminate).
    split; [discriminate|]. split; [intros Q; injection Q as Q _; contradiction|].
    split; [intros Q; injection Q as Q _; contradiction|exact Ns]. }
  assert (Ps : plain (chars sub)).
  { destruct Hsub as [(_ & -> & _)|(_ & _ & -> & _)]; (split; [discriminate|]);
      (split; [discriminate|]); (split; [discriminate|]); intros Q; cbn in Q;
      repeat (destruct Q as [Q|Q]; [discriminate|]); destruct Q. }
  intros z t ms m Hh Hu Hm Hf Hn. rewrite !chars_app, C in Hn.
  destruct (C97_fes D gz untar unlzma host listing now "FES2014" DIRECTORY LOAD false EXTRAPOLATED false s s')
    with (remote := remote) as (_ & X).
  - do 3 right. now left.
  - intros (_ & Q). discriminate.
  - exact E.
  - destruct Hsub as [(_ & _ & ->)|(-> & _ & _ & ->)].
    + exists Always. split; [|exact Logic.I]. unfold catalogue. repeat (first [left; reflexivity | right]).
    + exists OfLoad. split; [|reflexivity]. unfold catalogue. repeat (first [left; reflexivity | right]).
  - destruct (X "r") as (z' & t1 & ms' & Hh' & Hu' & Y).
    { right; right. split; [|reflexivity].
      destruct Hsub as [(_ & _ & ->)|(_ & _ & _ & ->)]; [now exists "ocean_tide"|now exists "load_tide"]. }
    rewrite Hh in Hh'. injection Hh' as <- <-. rewrite Hu in Hu'. injection Hu' as <-.
    assert (O : ~ one_directory remote).
    { destruct Hsub as [(_ & _ & ->)|(_ & _ & _ & ->)]; cbn; intros [Q|[Q|[Q|[]]]]; discriminate. }
    destruct (Y m (m_name m) (m_name m) Hm Hf) as (d & t' & F & N).
    { intros Q. contradiction. }
    { reflexivity. }
    { right. auto. }
    exists d, t'. split; [|exact N]. rewrite C, <- F. f_equal. rewrite Hn.
    change (chars (lower "FES2014")) with (chars "fes2014").
    change (chars sub ++ chars "/" ++ nm)%list with (joined [chars sub; nm]).
    rewrite C97_inside; [now rewrite <- app_assoc|discriminate|].
    constructor; [exact Ps|]. constructor; [exact Pn|constructor].
Qed.

Definition row_2014 := Eval vm_compute in row_of "FES2014".
Example ex_fes2014_database : exists files, In ("FES2014", row_2014) builtin_elevation /\
  In ("model_file", VList files) row_2014 /\ In (VStr "fes2014/ocean_tide/m2.nc") files.
Proof.
  eexists. split; [apply (find_some (fun r => fst r =? "FES2014")); vm_compute; reflexivity|].
  split; [right; left; reflexivity|]. repeat (first [left; reflexivity | right]).
Qed.
Example ex_fes2014_run :
  let untar := fun (mode d : string) => Some [DownProps4.demo "ocean_tide/m2.nc" 4 "M2"] in
  let host := fun r : list string => Some (Whole "x", 5%R) in
  let run := aviso_fes_tides string DownProps4.demo_gz untar DownProps4.demo_unlzma host
    DownProps4.demo_listing 20 "FES2014" [T "tides"] false false false false DownProps4.nowhere in
  snd run = None /\ fs (fst run) [T "tides"; T "fes2014"; T "ocean_tide"; T "m2.nc"] = Some ("M2", 4%R).
Proof. repeat split. Qed.

Print Assumptions C97_fes2014_database.
