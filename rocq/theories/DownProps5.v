(** C97: where the database looks for FES2012 and FES2022. *)
From Coq Require Import String Ascii List Bool Reals Lia.
From Verif Require Import PyBase StrBase ValueBase DatabaseData DownModel DownSpec DownLemmas DownRun DownProps3 DownProps4.
Import ListNotations.
Open Scope string_scope.

Definition under (dir : list ascii) (file : list ascii) : bool :=
  (if list_eq_dec ascii_dec (firstn (List.length dir) file) dir then true else false) &&
  forallb (fun c => negb (Ascii.eqb c "/")) (skipn (List.length dir) file).
Definition fes2012_files : list string :=
  flat_map (fun row => if fst row =? "FES2012" then
    flat_map (fun kv => if fst kv =? "model_file" then
      match snd kv with VList l => flat_map (fun v => match v with VStr s => [s] | _ => [] end) l | _ => [] end
      else []) (snd row) else []) builtin_elevation.
Lemma fes2012_under : forallb (fun f => under (chars "fes2012/data/") (chars f)) fes2012_files = true.
Proof. vm_compute. reflexivity. Qed.

Lemma chars_app a b : chars (a ++ b) = (chars a ++ chars b)%list.
Proof. unfold chars. induction a as [|c a IH]; [reflexivity|]. cbn. now rewrite IH. Qed.

Lemma str_assoc (a b c : string) : (a ++ b) ++ c = a ++ (b ++ c).
Proof. induction a as [|x a IH]; [reflexivity|]. cbn. now rewrite IH. Qed.

Lemma flat_place dir out : ~ In "/"%char out ->
  place dir out = dir \/ place dir out = removelast dir \/ place dir out = (dir ++ [out])%list.
Proof.
  intros H. assert (P : place dir out = fold_left descend (pieces out) dir).
  { unfold place. destruct out as [|c out]; [reflexivity|].
    destruct (slash c) eqn:E; [|reflexivity]. apply slash_true in E. subst. cbn in H. tauto. }
  rewrite P, (pieces_plain _ H). cbn [fold_left]. unfold descend.
  destruct (teqb out []); [now left|]. destruct (teqb out (T ".")); [now left|].
  destruct (teqb out (T "..")); [right; now left|right; now right].
Qed.

(** a model that is downloaded should be where the database looks for it: for
    FES2012 it looks in fes2012/data, and a run without currents leaves nothing
    there that was not there before *)
Theorem C97_fes2012_refuted (D : Type) (gz : D -> D) (untar : string -> D -> option (list (member D)))
  (unlzma : D -> stream D) (host : list string -> option (stream D * R))
  (listing : list string -> list string) (now : R) (DIRECTORY : path)
  (LOAD EXTRAPOLATED GZIP : bool) (s s' : state D) (row : list (string * val)) (files : list val) (file : string) :
  In ("FES2012", row) builtin_elevation -> In ("model_file", VList files) row -> In (VStr file) files ->
  aviso_fes_tides D gz untar unlzma host listing now "FES2012" DIRECTORY LOAD false
    EXTRAPOLATED GZIP s = (s', None) ->
  exists name, chars file = (chars "fes2012/data/" ++ name)%list /\ ~ In "/"%char name /\
  forall x, fs s' (DIRECTORY ++ [chars "fes2012"; chars "data"; x])%list =
            fs s (DIRECTORY ++ [chars "fes2012"; chars "data"; x])%list.
Proof.
  intros Hrow Hfiles Hfile E.
  assert (I : In file fes2012_files).
  { unfold fes2012_files. apply in_flat_map. eexists. split; [exact Hrow|]. cbn [fst snd].
    rewrite String.eqb_refl. apply in_flat_map. eexists. split; [exact Hfiles|]. cbn [fst snd].
    rewrite String.eqb_refl. apply in_flat_map. eexists. split; [exact Hfile|]. now left. }
  pose proof fes2012_under as U. rewrite forallb_forall in U. specialize (U _ I). unfold under in U.
  apply andb_true_iff in U as (U & V).
  destruct (list_eq_dec ascii_dec (firstn (List.length (chars "fes2012/data/")) (chars file))
    (chars "fes2012/data/")) as [Ef|]; [|discriminate].
  exists (skipn (List.length (chars "fes2012/data/")) (chars file)). split; [|split].
  - rewrite <- Ef at 1. now rewrite firstn_skipn.
  - intros H. rewrite forallb_forall in V. specialize (V _ H). discriminate.
  - intros x.
    destruct (C97_fes_only D gz untar unlzma host listing now "FES2012" DIRECTORY LOAD false EXTRAPOLATED
      GZIP s s' (DIRECTORY ++ [chars "fes2012"; chars "data"; x])%list) as [K|(remote & d & t & Hr & _ & _ & H)].
    { right; right; now left. }
    { intros (X & _). discriminate. }
    { exact E. }
    { exact K. }
    exfalso.
    assert (L : forall out, ~ In "/"%char out ->
      (DIRECTORY ++ [chars "fes2012"; chars "data"; x])%list <> place (DIRECTORY ++ [chars (lower "FES2012")])%list out).
    { intros out Ho Eq. apply (f_equal (@List.length _)) in Eq. rewrite app_length in Eq. cbn [List.length] in Eq.
      destruct (flat_place (DIRECTORY ++ [chars (lower "FES2012")])%list out Ho) as [Q|[Q|Q]]; rewrite Q in Eq.
      - rewrite app_length in Eq. cbn [List.length] in Eq. lia.
      - rewrite removelast_last in Eq. lia.
      - rewrite !app_length in Eq. cbn [List.length] in Eq. lia. }
    assert (So : forall a b out, stored_as [chars ".asc"; chars ".nc"] GZIP a b out ->
      ~ In "/"%char b -> ~ In "/"%char out).
    { intros a b out [(_ & _ & ->)|(_ & ->)] Hb; [|exact Hb]. intros X. apply in_app_or in X as [X|X]; [auto|].
      cbn in X. repeat (destruct X as [X|X]; [discriminate|]). destruct X. }
    assert (Hr' : In remote [["fes2012_heights"; "readme_fes2012_heights_v1.1"];
                             ["fes2012_heights"; "fes2012_heights_v1.1.tar.lzma"]]).
    { destruct Hr as (o & Hr & A). cbn in Hr.
      repeat (destruct Hr as [Hr|Hr]; [injection Hr; intros; subst; try discriminate;
        first [now left | right; now left | discriminate A]|]). destruct Hr. }
    destruct H as [(out & Su & _ & St & Ep)|(mode & z & t1 & ms & m & nm & out & Su & _ & _ & _ & _ & _ & _ & Hn & _ & St & Ep)].
    + apply (L out); [|exact Ep]. apply (So _ _ _ St).
      destruct Hr' as [<-|[<-|[]]]; cbn; intros X; repeat (destruct X as [X|X]; [discriminate|]); destruct X.
    + apply (L out); [|exact Ep]. apply (So _ _ _ St).
      destruct Hr' as [<-|[<-|[]]].
      * exfalso. destruct Su as [((u & X) & _)|[((u & X) & _)|((u & X) & _)]]; cbn [last] in X;
          apply (f_equal (fun w => hd_error (rev (chars w)))) in X; rewrite chars_app, rev_app_distr in X;
          vm_compute in X; discriminate.
      * destruct Hn as (pre & _ & _ & Hn); [right; right; now left|]. exact Hn.
Qed.

Definition row_of (m : string) : list (string * val) :=
  match find (fun r => fst r =? m) builtin_elevation with Some r => snd r | None => [] end.
Definition row_2012 := Eval vm_compute in row_of "FES2012".
Definition row_2022 := Eval vm_compute in row_of "FES2022".
Example ex_fes2012 : exists row files, In ("FES2012", row) builtin_elevation /\
  In ("model_file", VList files) row /\ In (VStr "fes2012/data/T2_FES2012_SLEV.nc") files.
Proof.
  exists row_2012. eexists. split; [apply (find_some (fun r => fst r =? "FES2012")); vm_compute; reflexivity|].
  split; [right; left; reflexivity|]. left. reflexivity.
Qed.

(** the files are there all the same: directly in fes2012 *)
Example ex_fes2012_run :
  let untar := fun (mode d : string) => Some [demo "data/T2_FES2012_SLEV.nc" 4 "T2"] in
  let host := fun r : list string => Some (Whole "x", 5%R) in
  let run := aviso_fes_tides string demo_gz untar demo_unlzma host demo_listing 20 "FES2012" home
    false false false false nowhere in
  snd run = None /\ fs (fst run) (home ++ [T "fes2012"; T "T2_FES2012_SLEV.nc"])%list = Some ("T2", 4%R) /\
  fs (fst run) (home ++ [T "fes2012"; T "data"; T "T2_FES2012_SLEV.nc"])%list = None.
Proof. repeat split. Qed.

(** * FES2022 *)
Definition fes_files (m : string) : list string :=
  flat_map (fun row => if fst row =? m then
    flat_map (fun kv => if fst kv =? "model_file" then
      match snd kv with VList l => flat_map (fun v => match v with VStr s => [s] | _ => [] end) l | _ => [] end
      else []) (snd row) else []) builtin_elevation.
Definition proper (dir : list ascii) (file : list ascii) : bool :=
  under dir file &&
  match skipn (List.length dir) file with c :: _ => negb (Ascii.eqb c ".") | [] => false end.
Definition fes2022_dirs : list (string * string) :=
  [("FES2022", "ocean_tide_20241025"); ("FES2022_load", "load_tide");
   ("FES2022_extrapolated", "ocean_tide_extrapolated")].
Lemma fes2022_proper : forallb (fun ms => forallb (fun f => proper (chars ("fes2022b/" ++ snd ms ++ "/")) (chars f))
  (fes_files (fst ms))) fes2022_dirs = true.
Proof. vm_compute. reflexivity. Qed.

(** the files that the database names for FES2022 are where a run leaves those of
    the host, each under its name without the last extension *)
Theorem C97_fes2022_database (D : Type) (gz : D -> D) (untar : string -> D -> option (list (member D)))
  (unlzma : D -> stream D) (host : list string -> option (stream D * R))
  (listing : list string -> list string) (now : R) (DIRECTORY : path)
  (LOAD CURRENTS EXTRAPOLATED : bool) (s s' : state D)
  (MODEL sub : string) (row : list (string * val)) (files : list val) (file : string) :
  MODEL = "FES2022" /\ sub = "ocean_tide_20241025" \/
  LOAD = true /\ MODEL = "FES2022_load" /\ sub = "load_tide" \/
  EXTRAPOLATED = true /\ MODEL = "FES2022_extrapolated" /\ sub = "ocean_tide_extrapolated" ->
  In (MODEL, row) builtin_elevation -> In ("model_file", VList files) row -> In (VStr file) files ->
  aviso_fes_tides D gz untar unlzma host listing now "FES2022" DIRECTORY LOAD CURRENTS
    EXTRAPOLATED false s = (s', None) ->
  exists name, file = "fes2022b/" ++ sub ++ "/" ++ name /\
  (In (name ++ ".xz") (listing ["fes2022b"; sub]) ->
   exists d t, fs s' (DIRECTORY ++ [chars "fes2022b"; chars sub; chars name])%list = Some (d, t)).
Proof.
  intros Hsub Hrow Hfiles Hfile E.
  assert (I : In file (fes_files MODEL)).
  { unfold fes_files. apply in_flat_map. eexists. split; [exact Hrow|]. cbn [fst snd].
    rewrite String.eqb_refl. apply in_flat_map. eexists. split; [exact Hfiles|]. cbn [fst snd].
    rewrite String.eqb_refl. apply in_flat_map. eexists. split; [exact Hfile|]. now left. }
  assert (Hd : In (MODEL, sub) fes2022_dirs).
  { destruct Hsub as [(-> & ->)|[(_ & -> & ->)|(_ & -> & ->)]]; cbn; tauto. }
  pose proof fes2022_proper as U. rewrite forallb_forall in U. specialize (U _ Hd).
  cbn [fst snd] in U. rewrite forallb_forall in U. specialize (U _ I).
  unfold proper, under in U. apply andb_true_iff in U as (U & W). apply andb_true_iff in U as (U & V).
  set (pre := "fes2022b/" ++ sub ++ "/") in *.
  destruct (list_eq_dec ascii_dec (firstn (List.length (chars pre)) (chars file)) (chars pre)) as [Ef|]; [|discriminate].
  set (nm := skipn (List.length (chars pre)) (chars file)) in *.
  assert (C : chars (string_of_list_ascii nm) = nm) by apply list_ascii_of_string_of_list_ascii.
  exists (string_of_list_ascii nm). split.
  { assert (X : chars file = chars (pre ++ string_of_list_ascii nm)).
    { rewrite chars_app, C. rewrite <- Ef at 1. unfold nm. now rewrite firstn_skipn. }
    apply (f_equal string_of_list_ascii) in X. unfold chars in X.
    rewrite !string_of_list_ascii_of_string in X. rewrite X. unfold pre.
    now rewrite !str_assoc. }
  intros Hl.
  assert (Ns : ~ In "/"%char nm).
  { intros H. rewrite forallb_forall in V. specialize (V _ H). discriminate. }
  destruct nm as [|c0 nm'] eqn:En; [discriminate|]. rewrite <- En in *.
  assert (C0 : c0 <> "."%char).
  { intros ->. discriminate. }
  destruct (C97_fes2022 D gz untar unlzma host listing now DIRECTORY LOAD CURRENTS EXTRAPOLATED false s s' E
    ["fes2022b"; sub] (string_of_list_ascii nm ++ ".xz")) with (stem := nm)
    as (c & t & out & d & t' & _ & So & F & _).
  - destruct Hsub as [(_ & ->)|[(-> & _ & ->)|(-> & _ & ->)]]; tauto.
  - exact Hl.
  - rewrite chars_app, C. intros H. apply in_app_or in H as [H|H]; [auto|].
    cbn in H. repeat (destruct H as [H|H]; [discriminate|]). destruct H.
  - left. rewrite chars_app, C. split; [reflexivity|]. exists c0. split; [rewrite En; now left|exact C0].
  - destruct So as [(X & _)|(_ & ->)]; [discriminate|]. exists d, t'. rewrite C. rewrite <- F.
    f_equal. cbn [map].
    assert (P : place (DIRECTORY ++ [chars "fes2022b"; chars sub])%list nm =
                ((DIRECTORY ++ [chars "fes2022b"; chars sub]) ++ [nm])%list).
    { unfold place. rewrite (pieces_plain _ Ns). rewrite En. cbn [fold_left]. unfold descend.
      assert (S0 : slash c0 = false).
      { destruct (slash c0) eqn:S0; [|reflexivity]. apply slash_true in S0. subst c0.
        exfalso. apply Ns. rewrite En. now left. }
      assert (T1 : forall w, teqb (c0 :: nm') ("."%char :: w) = false).
      { intros w. destruct (teqb (c0 :: nm') ("."%char :: w)) eqn:Q; [|reflexivity].
        apply teqb_true in Q. injection Q as Q _. contradiction. }
      assert (T0 : teqb (c0 :: nm') [] = false).
      { destruct (teqb (c0 :: nm') []) eqn:Q; [|reflexivity]. apply teqb_true in Q. discriminate. }
      rewrite S0, T0. change (T ".") with ["."%char]. change (T "..") with ["."%char; "."%char].
      now rewrite !T1. }
    rewrite P. now rewrite <- app_assoc.
Qed.

Example ex_fes2022_database : exists row files, In ("FES2022", row) builtin_elevation /\
  In ("model_file", VList files) row /\ In (VStr "fes2022b/ocean_tide_20241025/m2_fes2022.nc") files /\
  snd (demo_fes "FES2022") = None /\ In ("m2_fes2022.nc" ++ ".xz") (demo_listing ["fes2022b"; "ocean_tide_20241025"]).
Proof.
  exists row_2022. eexists. split; [apply (find_some (fun r => fst r =? "FES2022")); vm_compute; reflexivity|].
  split; [right; left; reflexivity|]. split; [repeat (first [left; reflexivity | right])|].
  split; [reflexivity|now left].
Qed.

Print Assumptions C97_fes2022_database.
Print Assumptions C97_fes2012_refuted.
