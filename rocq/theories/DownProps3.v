(** C97, continued: the whole of aviso_fes_tides. *)
From Coq Require Import String Ascii Reals List ZArith Bool Lia Lra.
From Verif Require Import PyBase RBase StrBase UtilModel DownModel DownSpec DownLemmas DownRun DownProps DownProps2.
Import ListNotations.
Open Scope string_scope.

(** * ends of names *)
Definition tail2 (s : string) : text := firstn 2 (rev (T s)).
Lemma T_app u w : T (u ++ w) = (T u ++ T w)%list.
Proof. unfold T. induction u as [|c u IH]; cbn in *; [reflexivity|now rewrite IH]. Qed.
Lemma ends_tail2 w s : ends w s -> (2 <= length (T w))%nat -> tail2 s = tail2 w.
Proof.
  intros (u & ->) L. unfold tail2. rewrite T_app, rev_app_distr, firstn_app.
  replace (2 - length (rev (T w)))%nat with 0%nat by (rewrite rev_length; lia).
  cbn [firstn]. now rewrite app_nil_r.
Qed.
Lemma ends_trans a b s : ends (a ++ b) s -> ends b s.
Proof.
  intros (u & ->). exists (u ++ a). clear. induction u as [|c u IH]; cbn; [reflexivity|now rewrite IH].
Qed.
Lemma suits_unique a b n : suits a n -> suits b n -> a = b.
Proof.
  assert (N : forall m, suits None n -> suits (Some m) n -> False).
  { intros m (A & B & C) [(H & _)|[(H & _)|(H & _)]].
    - apply A. apply (ends_trans ".tar" ".gz"), H.
    - apply B. apply (ends_trans ".tar" ".lzma"), H.
    - apply C. apply (ends_trans ".tar" ".xz"), H. }
  destruct a as [m|], b as [m'|]; intros Ha Hb; try reflexivity; try (exfalso; eauto; fail).
  f_equal. cbn [suits] in Ha, Hb.
  destruct Ha as [(A & ->)|[(A & ->)|(A & ->)]]; destruct Hb as [(B & ->)|[(B & ->)|(B & ->)]];
    try reflexivity; exfalso;
    (apply ends_tail2 in A; [|cbn; lia]); (apply ends_tail2 in B; [|cbn; lia]);
    rewrite A in B; vm_compute in B; discriminate.
Qed.

Ltac no_end := intros X; apply ends_tail2 in X; [|cbn; lia]; vm_compute in X; discriminate.
Ltac suits_none := cbn [suits last]; split; [no_end|split; no_end].
Ltac suits_gz p := left; split; [exists p; reflexivity|reflexivity].
Ltac suits_lzma p := right; left; split; [exists p; reflexivity|reflexivity].
Ltac suits_xz p := right; right; split; [exists p; reflexivity|reflexivity].
Ltac suits_any :=
  cbn [last]; first
  [ suits_none
  | suits_gz "fes1999" | suits_gz "fes2004"
  | suits_lzma "fes2012_heights_v1.1"
  | suits_lzma "fes2012_currents_v1.1_block1" | suits_lzma "fes2012_currents_v1.1_block2"
  | suits_lzma "fes2012_currents_v1.1_block3" | suits_lzma "fes2012_currents_v1.1_block4"
  | suits_xz "ocean_tide" | suits_xz "load_tide" ].

Definition plan_row (M : string) (L C : bool) (remote : list string) (mode : option string)
  (flat : option bool) : Prop :=
  fes_file M L C remote /\ suits mode (last remote "") /\
  basename (T (last remote "")) = T (last remote "") /\
  (mode = None \/ (one_directory remote /\ flat = Some true) \/
   (~ one_directory remote /\ flat = Some false)).

Ltac in_list := unfold catalogue; repeat (first [left; reflexivity | right]).
Ltac row o :=
  split; [exists o; split; [solve [in_list]|cbn [asked]; first [exact I | reflexivity]]|];
  split; [suits_any|]; split; [vm_compute; reflexivity|];
  first [ left; reflexivity
        | right; left; split; [solve [in_list]|reflexivity]
        | right; right; split;
          [intros X; vm_compute in X; destruct X as [X|[X|[X|[]]]]; discriminate X|reflexivity] ].

Lemma plan_rows M L C remote mode flat :
  In M ["FES1999"; "FES2004"; "FES2012"; "FES2014"] -> ~ (M = "FES2014" /\ C = true) ->
  In (remote, mode, flat) (fes_plan M L C) -> plan_row M L C remote mode flat.
Proof.
  intros HM HB H.
  destruct HM as [<-|[<-|[<-|[<-|[]]]]]; destruct L, C; try (exfalso; apply HB; auto; fail);
    vm_compute in H;
    repeat match type of H with
    | _ \/ _ => destruct H as [H|H]
    | False => destruct H
    end; injection H as <- <- <-;
    first [row Always | row OfLoad | row OfCurrents].
Qed.

Lemma plan_paths M L C :
  In M ["FES1999"; "FES2004"; "FES2012"; "FES2014"] -> ~ (M = "FES2014" /\ C = true) ->
  forall remote, fes_file M L C remote ->
  exists mode flat, In (remote, mode, flat) (fes_plan M L C).
Proof.
  intros HM HB remote (o & H & A).
  unfold catalogue in H.
  repeat match type of H with
  | In _ _ => destruct H as [H|H]
  end; try contradiction;
  injection H as E1 <- <-; subst M;
  destruct L, C; try discriminate A; try (exfalso; apply HB; auto; fail);
  vm_compute; eexists _, _;
  repeat (first [left; reflexivity | right]).
Qed.

(** every file asked for is downloaded in the way its name calls for *)
Theorem C97_plan (MODEL : string) (LOAD CURRENTS : bool) :
  In MODEL ["FES1999"; "FES2004"; "FES2012"; "FES2014"] ->
  ~ (MODEL = "FES2014" /\ CURRENTS = true) ->
  (forall remote mode flat, In (remote, mode, flat) (fes_plan MODEL LOAD CURRENTS) ->
     fes_file MODEL LOAD CURRENTS remote /\ suits mode (last remote "")) /\
  (forall remote, fes_file MODEL LOAD CURRENTS remote ->
     exists mode flat, In (remote, mode, flat) (fes_plan MODEL LOAD CURRENTS) /\
       (mode <> None -> (flat = Some true <-> one_directory remote))) /\
  NoDup (map (fun e => fst (fst e)) (fes_plan MODEL LOAD CURRENTS)).
Proof.
  intros HM HB. split; [|split].
  - intros remote mode flat H. destruct (plan_rows _ _ _ _ _ _ HM HB H) as (A & B & _). auto.
  - intros remote H. destruct (plan_paths _ _ _ HM HB _ H) as (mode & flat & Hin).
    exists mode, flat. split; [exact Hin|]. intros Hm.
    destruct (plan_rows _ _ _ _ _ _ HM HB Hin) as (_ & _ & _ & [E|[(P & ->)|(P & ->)]]);
      [contradiction|tauto|]. split; [discriminate|tauto].
  - destruct HM as [<-|[<-|[<-|[<-|[]]]]]; destruct LOAD, CURRENTS; vm_compute;
      repeat constructor; cbn; intuition discriminate.
Qed.

Section FES.
Variable D : Type.
Variable gz : D -> D.
Variable untar : string -> D -> option (list (member D)).
Variable unlzma : D -> stream D.
Variable host : list string -> option (stream D * R).
Variable listing : list string -> list string.

Lemma each_success {A} (f : A -> state D -> state D * option exn) l s s' :
  each D f l s = (s', None) -> forall a, In a l -> exists s1 s2, f a s1 = (s2, None).
Proof.
  revert s. induction l as [|x l IH]; intros s E a; [intros []|].
  cbn [each] in E. destruct (f x s) as [s1 [e|]] eqn:Ex; [discriminate|].
  intros [<-|H]; [eauto|eapply IH; eauto].
Qed.

Definition entry_I (dir : path) (GZIP : bool) (e : list string * option string * option bool)
  (p : path) (d : D) (t : R) : Prop :=
  let '(remote, mode, flat) := e in
  match mode with
  | Some md => exists m, unpacked D untar host remote md m /\ fes_goes D dir flat GZIP m p /\
       t = m_mtime m /\ exists d0, m_data m = Whole d0 /\ d = if GZIP then gz d0 else d0
  | None => copied D host remote dir GZIP false p t /\
       exists d0, data_of D unlzma host remote false d0 /\ d = if GZIP then gz d0 else d0
  end.
Definition entry_J (dir : path) (GZIP : bool) (e : list string * option string * option bool)
  (p : path) (t : R) : Prop :=
  let '(remote, mode, flat) := e in
  match mode with
  | Some md => exists m, unpacked D untar host remote md m /\ fes_goes D dir flat GZIP m p /\
       t = m_mtime m
  | None => copied D host remote dir GZIP false p t
  end.

Lemma fes_tar_acts now now' MODEL DIRECTORY LOAD CURRENTS GZIP :
  acts D (aviso_fes_tar D gz untar unlzma host now MODEL DIRECTORY LOAD CURRENTS GZIP)
         (aviso_fes_tar D gz untar unlzma host now' MODEL DIRECTORY LOAD CURRENTS GZIP)
    (fun p d t => exists e, In e (fes_plan MODEL LOAD CURRENTS) /\
       entry_I (DIRECTORY ++ [T (lower MODEL)])%list GZIP e p d t)
    (fun p t => exists e, In e (fes_plan MODEL LOAD CURRENTS) /\
       entry_J (DIRECTORY ++ [T (lower MODEL)])%list GZIP e p t).
Proof.
  unfold aviso_fes_tar. cbv zeta. apply acts_each.
  intros ((remote, mode), flat) Hin. destruct mode as [md|].
  - eapply acts_weaken; [| |apply tar_acts].
    + intros p d t H. exists (remote, Some md, flat). auto.
    + auto.
  - eapply acts_weaken; [| |apply copy_acts].
    + intros p d t H. exists (remote, None, flat). auto.
    + auto.
Qed.

Lemma fes_list_acts now now' DIRECTORY LOAD CURRENTS EXTRAPOLATED GZIP :
  acts D (aviso_fes_list D gz untar unlzma host listing now DIRECTORY LOAD CURRENTS EXTRAPOLATED GZIP)
         (aviso_fes_list D gz untar unlzma host listing now' DIRECTORY LOAD CURRENTS EXTRAPOLATED GZIP)
    (fun p d t => exists sub fi, In sub (fes_dirs LOAD EXTRAPOLATED) /\ In fi (listing sub) /\
       copied D host (sub ++ [fi])%list (DIRECTORY ++ map T sub)%list GZIP (ends_xz fi) p t /\
       exists d0, data_of D unlzma host (sub ++ [fi])%list (ends_xz fi) d0 /\
         d = if GZIP then gz d0 else d0)
    (fun p t => exists sub, In sub (fes_dirs LOAD EXTRAPOLATED) /\ exists fi, In fi (listing sub) /\
       copied D host (sub ++ [fi])%list (DIRECTORY ++ map T sub)%list GZIP (ends_xz fi) p t).
Proof.
  unfold aviso_fes_list. apply acts_each. intros sub Hs. cbv zeta.
  apply acts_each with (J := fun fi p t =>
    copied D host (sub ++ [fi])%list (DIRECTORY ++ map T sub)%list GZIP (ends_xz fi) p t).
  intros fi Hf. eapply acts_weaken; [| |apply copy_acts].
  - intros p d t H. exists sub, fi. auto.
  - auto.
Qed.
End FES.

(** a second run changes nothing *)
Theorem C97_fes_again (D : Type) (gz : D -> D) (untar : string -> D -> option (list (member D)))
  (unlzma : D -> stream D) (host : list string -> option (stream D * R))
  (listing : list string -> list string) (now now' : R) (MODEL : string) (DIRECTORY : path)
  (LOAD CURRENTS EXTRAPOLATED GZIP : bool) (s s' : state D) :
  aviso_fes_tides D gz untar unlzma host listing now MODEL DIRECTORY LOAD CURRENTS
    EXTRAPOLATED GZIP s = (s', None) ->
  aviso_fes_tides D gz untar unlzma host listing now' MODEL DIRECTORY LOAD CURRENTS
    EXTRAPOLATED GZIP s' = (s', None).
Proof.
  unfold aviso_fes_tides. destruct (mem_str _ _).
  - intros E. apply (fes_tar_acts D gz untar unlzma host now now') in E as (_ & _ & W).
    apply W, mono_refl.
  - destruct (MODEL =? "FES2022"); [|reflexivity].
    intros E. apply (fes_list_acts D gz untar unlzma host listing now now') in E as (_ & _ & W).
    apply W, mono_refl.
Qed.

(** the models in tar files *)
Theorem C97_fes (D : Type) (gz : D -> D) (untar : string -> D -> option (list (member D)))
  (unlzma : D -> stream D) (host : list string -> option (stream D * R))
  (listing : list string -> list string) (now : R) (MODEL : string) (DIRECTORY : path)
  (LOAD CURRENTS EXTRAPOLATED GZIP : bool) (s s' : state D) :
  In MODEL ["FES1999"; "FES2004"; "FES2012"; "FES2014"] ->
  ~ (MODEL = "FES2014" /\ CURRENTS = true) ->
  aviso_fes_tides D gz untar unlzma host listing now MODEL DIRECTORY LOAD CURRENTS
    EXTRAPOLATED GZIP s = (s', None) ->
  let dir := (DIRECTORY ++ [chars (lower MODEL)])%list in
  let exts := [chars ".asc"; chars ".nc"] in
  forall remote, fes_file MODEL LOAD CURRENTS remote ->
  let name := chars (last remote "") in
  (suits None (last remote "") ->
     exists c t out d t', host remote = Some (c, t) /\ stored_as exts GZIP name name out /\
       fs s' (place dir out) = Some (d, t') /\ ~ stale t' t) /\
  (forall mode, suits (Some mode) (last remote "") ->
     exists z t ms, host remote = Some (Whole z, t) /\ untar mode z = Some ms /\
       forall m nm out, In m ms -> m_file m = true ->
         (one_directory remote -> last_component (m_name m) nm) ->
         (~ one_directory remote -> nm = m_name m) ->
         stored_as exts GZIP (m_name m) nm out ->
         exists d t', fs s' (place dir out) = Some (d, t') /\ ~ stale t' (m_mtime m)).
Proof.
  intros HM HB E dir exts remote Hr name.
  assert (E' : aviso_fes_tar D gz untar unlzma host now MODEL DIRECTORY LOAD CURRENTS GZIP s = (s', None)).
  { unfold aviso_fes_tides in E. rewrite (proj2 (mem_str_In _ _) HM) in E. exact E. }
  destruct (fes_tar_acts D gz untar unlzma host now now MODEL DIRECTORY LOAD CURRENTS GZIP s s' E')
    as (_ & Q & _).
  destruct (plan_paths _ _ _ HM HB _ Hr) as (mode & flat & Hin).
  destruct (plan_rows _ _ _ _ _ _ HM HB Hin) as (_ & Su & Hb & Hfl).
  unfold aviso_fes_tar in E'. cbv zeta in E'.
  destruct (each_success D _ _ _ _ E' _ Hin) as (s1 & s2 & Ed). cbn beta iota in Ed.
  split.
  - intros Sn. assert (mode = None) by (eapply suits_unique; eauto). subst mode.
    unfold ftp_download in Ed. destruct (host remote) as [[c t]|] eqn:Eh; [|discriminate].
    clear Ed. exists c, t.
    assert (C : copied D host remote dir GZIP false (place dir (gz_name GZIP (suffix name) name)) t).
    { exists c, (gz_name GZIP (suffix name) name), name. split; [exact Eh|].
      split; [symmetry; exact Hb|]. split; [apply gz_name_iff; reflexivity|reflexivity]. }
    destruct (Q (place dir (gz_name GZIP (suffix name) name)) t) as (d & t' & F & N).
    { exists (remote, None, flat). split; [exact Hin|exact C]. }
    exists (gz_name GZIP (suffix name) name), d, t'. split; [reflexivity|].
    split; [apply gz_name_iff; reflexivity|]. auto.
  - intros md Sm. assert (mode = Some md) by (eapply suits_unique; eauto). subst mode.
    unfold ftp_download in Ed. destruct (host remote) as [[[z|z] t]|] eqn:Eh; try discriminate.
    destruct (untar md z) as [ms|] eqn:Eu; [|discriminate].
    exists z, t, ms. split; [reflexivity|]. split; [exact Eu|].
    intros m nm out Hm Hf H1 H2 So. apply Q. exists (remote, Some md, flat).
    split; [exact Hin|]. exists m. split; [exists z, t, ms; auto|]. split; [|reflexivity].
    split; [exact Hf|]. exists nm, out. split; [|split; [exact So|reflexivity]].
    destruct Hfl as [X|[(X & ->)|(X & ->)]]; [discriminate|auto|auto].
Qed.

(** nothing else is touched, and what is new is what the host has *)
Theorem C97_fes_only (D : Type) (gz : D -> D) (untar : string -> D -> option (list (member D)))
  (unlzma : D -> stream D) (host : list string -> option (stream D * R))
  (listing : list string -> list string) (now : R) (MODEL : string) (DIRECTORY : path)
  (LOAD CURRENTS EXTRAPOLATED GZIP : bool) (s s' : state D) (p : path) :
  In MODEL ["FES1999"; "FES2004"; "FES2012"; "FES2014"] ->
  ~ (MODEL = "FES2014" /\ CURRENTS = true) ->
  aviso_fes_tides D gz untar unlzma host listing now MODEL DIRECTORY LOAD CURRENTS
    EXTRAPOLATED GZIP s = (s', None) ->
  let dir := (DIRECTORY ++ [chars (lower MODEL)])%list in
  let exts := [chars ".asc"; chars ".nc"] in
  fs s' p = fs s p \/
  exists remote d t, fes_file MODEL LOAD CURRENTS remote /\
    fs s' p = Some (if GZIP then gz d else d, t) /\
    match fs s p with None => True | Some (_, t0) => stale t0 t end /\
    ((exists out, suits None (last remote "") /\ host remote = Some (Whole d, t) /\
        stored_as exts GZIP (chars (last remote "")) (chars (last remote "")) out /\
        p = place dir out) \/
     (exists mode z t1 ms m nm out, suits (Some mode) (last remote "") /\
        host remote = Some (Whole z, t1) /\ untar mode z = Some ms /\ In m ms /\
        m_file m = true /\ m_data m = Whole d /\ m_mtime m = t /\
        (one_directory remote -> last_component (m_name m) nm) /\
        (~ one_directory remote -> nm = m_name m) /\
        stored_as exts GZIP (m_name m) nm out /\ p = place dir out)).
Proof.
  intros HM HB E dir exts.
  assert (E' : aviso_fes_tar D gz untar unlzma host now MODEL DIRECTORY LOAD CURRENTS GZIP s = (s', None)).
  { unfold aviso_fes_tides in E. rewrite (proj2 (mem_str_In _ _) HM) in E. exact E. }
  destruct (fes_tar_acts D gz untar unlzma host now now MODEL DIRECTORY LOAD CURRENTS GZIP s s' E')
    as (P & _ & _).
  destruct (P p) as [K|(d & t & (((remote, mode), flat) & Hin & I) & K & F)]; [now left|right].
  destruct (plan_rows _ _ _ _ _ _ HM HB Hin) as (Hr & Su & Hb & Hfl).
  cbn in I. destruct mode as [md|].
  - destruct I as (m & (z & t1 & ms & Eh & Eu & Hm) & (Hf & nm & out & Hn & So & ->) & -> & d0 & Hd & ->).
    exists remote, d0, (m_mtime m). split; [exact Hr|]. split; [exact K|]. split; [exact F|].
    right. exists md, z, t1, ms, m, nm, out.
    repeat split; auto;
    destruct Hfl as [X|[(X & ->)|(X & ->)]]; try discriminate; intros Y; tauto.
  - destruct I as ((c & out & stem & Eh & -> & So & ->) & d0 & (c' & t' & Eh' & ->) & ->).
    exists remote, d0, t. split; [exact Hr|]. split; [exact K|]. split; [exact F|].
    left. exists out. split; [exact Su|]. rewrite Eh in Eh'. injection Eh' as -> ->.
    split; [exact Eh|]. cbv zeta in So. rewrite Hb in So. split; [exact So|reflexivity].
Qed.

(** the currents of FES2014 should be downloaded: no run downloads them *)
Theorem C97_currents_refuted (D : Type) (gz : D -> D) (untar : string -> D -> option (list (member D)))
  (unlzma : D -> stream D) (host : list string -> option (stream D * R))
  (listing : list string -> list string) (now : R) (DIRECTORY : path)
  (LOAD EXTRAPOLATED GZIP : bool) (s s' : state D) :
  let readme := ["fes2014a_currents"; "readme_fes2014_currents_v1.2.txt"] in
  let velocity := [["fes2014a_currents"; "eastward_velocity.tar.xz"];
                   ["fes2014a_currents"; "northward_velocity.tar.xz"]] in
  (forall remote, In remote (readme :: velocity) -> fes_file "FES2014" LOAD true remote) /\
  (* the archives are not in the plan and the readme file is taken for one *)
  (forall remote mode flat, In remote velocity ->
     ~ In (remote, mode, flat) (fes_plan "FES2014" LOAD true)) /\
  In (readme, Some "r", Some false) (fes_plan "FES2014" LOAD true) /\
  (* which ends the run with an exception *)
  ((forall z t, host readme = Some (Whole z, t) -> untar "r" z = None) ->
   aviso_fes_tides D gz untar unlzma host listing now "FES2014" DIRECTORY LOAD true
     EXTRAPOLATED GZIP s <> (s', None)).
Proof.
  intros readme velocity. split; [|split; [|split]].
  - intros remote H. exists OfCurrents. split; [|reflexivity].
    destruct H as [<-|[<-|[<-|[]]]]; cbn; tauto.
  - intros remote mode flat H. destruct LOAD; vm_compute;
    destruct H as [<-|[<-|[]]]; intuition discriminate.
  - destruct LOAD; vm_compute; tauto.
  - intros Hu E.
    assert (E' : aviso_fes_tar D gz untar unlzma host now "FES2014" DIRECTORY LOAD true GZIP s = (s', None))
      by exact E.
    unfold aviso_fes_tar in E'. cbv zeta in E'.
    assert (Hin : In (readme, Some "r", Some false) (fes_plan "FES2014" LOAD true))
      by (destruct LOAD; vm_compute; tauto).
    destruct (each_success D _ _ _ _ E' _ Hin) as (s1 & s2 & Ed). cbn beta iota in Ed.
    unfold ftp_download in Ed. destruct (host readme) as [[[z|z] t]|] eqn:Eh; try discriminate.
    rewrite (Hu z t eq_refl) in Ed. discriminate.
Qed.

(** the model in single files *)
Lemma ends_xz_iff s : ends_xz s = true <-> exists u, T s = (u ++ chars ".xz")%list.
Proof.
  unfold ends_xz. split.
  - intros H. destruct (rev (T s)) as [|a [|b [|c r]]] eqn:E; try discriminate.
    apply andb_true_iff in H as (H & Hc). apply andb_true_iff in H as (Ha & Hb).
    apply Ascii.eqb_eq in Ha, Hb, Hc. subst. exists (rev r).
    apply (f_equal (@rev ascii)) in E. rewrite rev_involutive in E. rewrite E.
    cbn [rev]. rewrite <- !app_assoc. reflexivity.
  - intros (u & ->). rewrite rev_app_distr. reflexivity.
Qed.

Lemma last_snoc (sub : list string) fi : last (sub ++ [fi])%list "" = fi.
Proof. apply last_last. Qed.

Theorem C97_fes2022 (D : Type) (gz : D -> D) (untar : string -> D -> option (list (member D)))
  (unlzma : D -> stream D) (host : list string -> option (stream D * R))
  (listing : list string -> list string) (now : R) (DIRECTORY : path)
  (LOAD CURRENTS EXTRAPOLATED GZIP : bool) (s s' : state D) :
  aviso_fes_tides D gz untar unlzma host listing now "FES2022" DIRECTORY LOAD CURRENTS
    EXTRAPOLATED GZIP s = (s', None) ->
  forall sub fi,
  (sub = ["fes2022b"; "ocean_tide_20241025"] \/
   LOAD = true /\ sub = ["fes2022b"; "load_tide"] \/
   EXTRAPOLATED = true /\ sub = ["fes2022b"; "ocean_tide_extrapolated"]) ->
  In fi (listing sub) -> ~ In "/"%char (chars fi) ->
  let dir := (DIRECTORY ++ map chars sub)%list in
  forall stem,
  (* compressed files lose the last extension *)
  (chars fi = (stem ++ chars ".xz")%list /\ (exists c, In c stem /\ c <> "."%char) \/
   chars fi = stem /\ ~ (exists u, chars fi = (u ++ chars ".xz")%list)) ->
  exists c t out d t', host (sub ++ [fi])%list = Some (c, t) /\
    stored_as [chars ".asc"; chars ".nc"] GZIP stem stem out /\
    fs s' (place dir out) = Some (d, t') /\ ~ stale t' t.
Proof.
  intros E sub fi Hs Hf Hn dir stem Hst.
  assert (E' : aviso_fes_list D gz untar unlzma host listing now DIRECTORY LOAD CURRENTS EXTRAPOLATED GZIP s = (s', None))
    by exact E.
  destruct (fes_list_acts D gz untar unlzma host listing now now DIRECTORY LOAD CURRENTS EXTRAPOLATED GZIP s s' E')
    as (_ & Q & _).
  assert (Hin : In sub (fes_dirs LOAD EXTRAPOLATED)).
  { unfold fes_dirs. destruct Hs as [->|[(-> & ->)|(-> & ->)]].
    - now left.
    - cbn. tauto.
    - destruct LOAD; cbn; tauto. }
  assert (B : basename (T fi) = T fi).
  { unfold basename. rewrite pieces_plain by exact Hn. reflexivity. }
  assert (St : stem = (let b := basename (T fi) in if ends_xz fi then root b else b)).
  { rewrite B. cbv zeta. destruct Hst as [(Ec & c & Hc & Dc)|(Ec & Nx)].
    - rewrite (proj2 (ends_xz_iff fi)) by (exists stem; exact Ec).
      change (chars fi) with (T fi) in Ec.
      assert (X : suffix (T fi) = chars ".xz").
      { apply suffix_iff; [discriminate|]. exists stem, (chars "xz"). split.
        - rewrite <- Ec. apply last_component_iff, B.
        - split; [reflexivity|]. split; [cbn; intuition discriminate|]. eauto. }
      unfold root. rewrite X, Ec, app_length.
      replace (length stem + length (chars ".xz") - length (chars ".xz"))%nat
        with (length stem + 0)%nat by lia.
      rewrite firstn_app_2. cbn [firstn]. now rewrite app_nil_r.
    - destruct (ends_xz fi) eqn:X; [exfalso; apply Nx, ends_xz_iff, X|]. symmetry. exact Ec. }
  unfold aviso_fes_list in E'.
  destruct (each_success D _ _ _ _ E' _ Hin) as (s1 & s2 & E2). cbv zeta in E2.
  destruct (each_success D _ _ _ _ E2 _ Hf) as (s3 & s4 & Ed). cbn beta in Ed.
  unfold ftp_download in Ed. destruct (host (sub ++ [fi])%list) as [[c t]|] eqn:Eh; [|discriminate].
  clear Ed. exists c, t, (gz_name GZIP (suffix stem) stem).
  destruct (Q (place dir (gz_name GZIP (suffix stem) stem)) t) as (d & t' & F & N).
  { exists sub. split; [exact Hin|]. exists fi. split; [exact Hf|].
    exists c, (gz_name GZIP (suffix stem) stem), stem. split; [exact Eh|].
    rewrite last_snoc. split; [exact St|]. split; [apply gz_name_iff; reflexivity|reflexivity]. }
  exists d, t'. split; [reflexivity|]. split; [apply gz_name_iff; reflexivity|]. auto.
Qed.

(** the currents of FES2022 should be downloaded: the option makes no difference *)
Theorem C97_currents2022_refuted (D : Type) (gz : D -> D) (untar : string -> D -> option (list (member D)))
  (unlzma : D -> stream D) (host : list string -> option (stream D * R))
  (listing : list string -> list string) (now : R) (DIRECTORY : path)
  (LOAD EXTRAPOLATED GZIP : bool) (s : state D) :
  aviso_fes_tides D gz untar unlzma host listing now "FES2022" DIRECTORY LOAD true EXTRAPOLATED GZIP s =
  aviso_fes_tides D gz untar unlzma host listing now "FES2022" DIRECTORY LOAD false EXTRAPOLATED GZIP s.
Proof. reflexivity. Qed.
