(** C97, continued: what gsfc_got_tides gets wrong, and one file of
    aviso_fes_tides. *)
From Coq Require Import String Ascii Reals List ZArith Bool Lia Lra.
From Verif Require Import PyBase RBase StrBase UtilModel DownModel DownSpec DownLemmas DownRun DownProps.
Import ListNotations.
Open Scope string_scope.

Lemma got_one (D : Type) (gz : D -> D) now FORMAT GZIP dir (m : member D) s :
  m_file m = true -> ~ passed_over FORMAT (m_name m) ->
  forall out, stored_as [chars ".d"; chars ".nc"] GZIP (m_name m) (m_name m) out ->
  got_members D gz now FORMAT GZIP dir [m] s =
  fetch D gz now GZIP (place dir out) (m_data m) (m_mtime m) s.
Proof.
  intros Hf Hp out So. unfold got_members. cbn [filter]. rewrite Hf. cbn [each].
  unfold got_member. cbv zeta.
  destruct (teqb (suffix (m_name m)) (T ".nc") && (FORMAT =? "ascii")) eqn:B1.
  { exfalso. apply Hp. left. apply andb_true_iff in B1 as (X & Y).
    apply suffix_b in X; [|discriminate]. apply String.eqb_eq in Y. auto. }
  destruct (teqb (suffix (m_name m)) (T ".d") && (FORMAT =? "netcdf")) eqn:B2.
  { exfalso. apply Hp. right; left. apply andb_true_iff in B2 as (X & Y).
    apply suffix_b in X; [|discriminate]. apply String.eqb_eq in Y. auto. }
  destruct (match_DS (basename (m_name m))) eqn:B3.
  { exfalso. apply Hp. right; right. apply match_DS_iff in B3 as (c & r & ? & ?). exists c, r. auto. }
  destruct (match_under (basename (m_name m))) eqn:B4.
  { exfalso. apply Hp. right; right. apply match_under_iff in B4 as (c & r & ? & ?). exists c, r. auto. }
  apply stored_as_two in So; [|discriminate|discriminate]. subst out.
  change (T ".d") with (chars ".d"). change (T ".nc") with (chars ".nc").
  match goal with |- (match ?x with _ => _ end) = ?y => change y with x; destruct x as [s1 [e|]] end;
    reflexivity.
Qed.

(** only hidden files should be passed over: a name with an underscore for its
    second character is too *)
Theorem C97_hidden_refuted (D : Type) (gz : D -> D) (now : R) (FORMAT : string) (GZIP : bool)
  (dir : path) (m : member D) (s : state D) (c : ascii) (rest : text) :
  c <> "010"%char -> ~ In "/"%char (c :: rest) -> m_name m = c :: "_"%char :: rest ->
  got_members D gz now FORMAT GZIP dir [m] s = (s, None).
Proof.
  intros Hc Hs Hn.
  assert (H : match_under (basename (m_name m)) = true).
  { apply match_under_iff. exists c, rest. split; [exact Hc|]. rewrite Hn. exists [].
    repeat split; [now left|]. cbn in *. intros [X|[X|X]]; [tauto|discriminate|tauto]. }
  unfold got_members. cbn [filter]. destruct (m_file m); [|reflexivity]. cbn [each].
  unfold got_member. rewrite H.
  destruct (_ && _); [reflexivity|]. destruct (_ && _); [reflexivity|].
  destruct (match_DS _); reflexivity.
Qed.

(** a file whose name is not changed should be stored as it is: with GZIP it is
    compressed all the same *)
Theorem C97_gzip_refuted (D : Type) (gz : D -> D) (now : R) (FORMAT : string)
  (dir : path) (m : member D) (d : D) (s : state D) :
  m_file m = true -> ~ passed_over FORMAT (m_name m) ->
  ~ extension (m_name m) (chars ".d") -> ~ extension (m_name m) (chars ".nc") ->
  m_data m = Whole d -> fs s (place dir (m_name m)) = None ->
  exists s', got_members D gz now FORMAT true dir [m] s = (s', None) /\
    fs s' (place dir (m_name m)) = Some (gz d, m_mtime m).
Proof.
  intros Hf Hp Hd Hn Hw Hs.
  rewrite (got_one D gz now FORMAT true dir m s Hf Hp (m_name m)).
  - unfold fetch. rewrite Hs, Hw. eexists. split; [reflexivity|]. apply store_same.
  - right. split; [|reflexivity]. right. intros e [<-|[<-|[]]]; assumption.
Qed.

(** an interrupted download should be repeated: what was written of the file
    counts as the file from then on *)
Theorem C97_interrupted_refuted (D : Type) (gz : D -> D) (now now' : R) (FORMAT : string)
  (GZIP : bool) (dir : path) (m m' : member D) (d : D) (out : text) (s : state D) :
  m_file m = true -> ~ passed_over FORMAT (m_name m) ->
  stored_as [chars ".d"; chars ".nc"] GZIP (m_name m) (m_name m) out ->
  m_data m = Cut d -> fs s (place dir out) = None -> (m_mtime m <= now)%R ->
  m_name m' = m_name m -> m_file m' = true -> m_mtime m' = m_mtime m ->
  exists s', got_members D gz now FORMAT GZIP dir [m] s = (s', Some OtherError) /\
    fs s' (place dir out) = Some (if GZIP then gz d else d, now) /\
    got_members D gz now' FORMAT GZIP dir [m'] s' = (s', None).
Proof.
  intros Hf Hp So Hd Hs Ht Hn Hf' Ht'.
  rewrite (got_one D gz now FORMAT GZIP dir m s Hf Hp out So).
  unfold fetch. rewrite Hs, Hd. eexists. split; [reflexivity|]. split; [apply store_same|].
  rewrite (got_one D gz now' FORMAT GZIP dir m' _ Hf') with (out := out);
    [|now rewrite Hn|now rewrite Hn].
  unfold fetch. rewrite store_same.
  assert (N : newer (m_mtime m') now = true).
  { apply newer_true. rewrite Ht'. intros (n & H1 & H2). lra. }
  now rewrite N.
Qed.

(** the table of the models *)
Theorem C97_got_table (MODEL : string) :
  (forall p mode, got_table MODEL = Ok (p, mode) ->
     In MODEL ["GOT4.8"; "GOT4.10"; "GOT5.5"; "GOT5.5D"; "GOT5.6"; "RE14"] /\
     length p = 2%nat /\
     ((ends ".gz" (last p "") /\ mode = "r:gz") \/ (ends ".tar" (last p "") /\ mode = "r"))) /\
  (In MODEL ["GOT4.8"; "GOT4.10"; "GOT5.5"; "GOT5.5D"; "GOT5.6"; "RE14"] ->
     exists p mode, got_table MODEL = Ok (p, mode)) /\
  (~ In MODEL ["GOT4.8"; "GOT4.10"; "GOT5.5"; "GOT5.5D"; "GOT5.6"; "RE14"] ->
     got_table MODEL = Err KeyError).
Proof.
  split; [|split].
  - intros p mode. unfold got_table.
    repeat match goal with
    | |- context [if MODEL =? ?m then _ else _] => destruct (MODEL =? m) eqn:?
    end; intros E; try discriminate; apply Ok_inj in E; injection E as <- <-;
    match goal with H : (MODEL =? ?m) = true |- _ => apply String.eqb_eq in H; subst end;
    (split; [cbn; tauto|]); (split; [reflexivity|]); cbn [last].
    1: left; split; [|reflexivity]; now exists "got4.8.tar".
    1: left; split; [|reflexivity]; now exists "got4.10c.tar".
    1: left; split; [|reflexivity]; now exists "GOT5.5.tar%201".
    1: left; split; [|reflexivity]; now exists "GOT5.5D.tar%201".
    1: left; split; [|reflexivity]; now exists "GOT5.6.tar%201".
    right; split; [|reflexivity]; now exists "re14_longperiodtides_rel".
  - cbn. intros [<-|[<-|[<-|[<-|[<-|[<-|[]]]]]]]; (eexists _, _; reflexivity).
  - intros H. unfold got_table.
    repeat match goal with
    | |- context [if MODEL =? ?m then _ else _] => destruct (MODEL =? m) eqn:?
    end; try reflexivity; exfalso; apply H;
    match goal with H : (MODEL =? ?m) = true |- _ => apply String.eqb_eq in H; subst end; cbn; tauto.
Qed.

(** * one file of the FES models *)
Section FES.
Variable D : Type.
Variable gz : D -> D.
Variable untar : string -> D -> option (list (member D)).
Variable unlzma : D -> stream D.
Variable host : list string -> option (stream D * R).
Notation download := (ftp_download D gz untar unlzma host).

Definition fes_goes (dir : path) (FLATTEN : option bool) (GZIP : bool) (m : member D)
  (p : path) : Prop :=
  m_file m = true /\ exists nm out,
    (if match FLATTEN with Some b => b | None => false end
     then last_component (m_name m) nm else nm = m_name m) /\
    stored_as fes_exts GZIP (m_name m) nm out /\ p = place dir out.

Lemma gz_name_iff GZIP of name out :
  stored_as fes_exts GZIP of name out <-> out = gz_name GZIP (suffix of) name.
Proof. apply stored_as_two; discriminate. Qed.

Lemma fes_member_acts now now' FLATTEN GZIP dir (m : member D) :
  m_file m = true ->
  acts D (fes_member D gz now FLATTEN GZIP dir m) (fes_member D gz now' FLATTEN GZIP dir m)
    (fun p d t => fes_goes dir FLATTEN GZIP m p /\ t = m_mtime m /\
       exists d0, m_data m = Whole d0 /\ d = if GZIP then gz d0 else d0)
    (fun p t => fes_goes dir FLATTEN GZIP m p /\ t = m_mtime m).
Proof.
  intros Hf. unfold fes_member. cbv zeta. eapply acts_weaken; [| |apply acts_fetch].
  - intros p d t (-> & -> & d0 & E & ->). split; [|split; [reflexivity|now exists d0]].
    split; [exact Hf|]. eexists _, _. split; [|split; [apply gz_name_iff; reflexivity|reflexivity]].
    destruct FLATTEN as [[]|]; [now apply last_component_iff|reflexivity|reflexivity].
  - intros p t ((_ & nm & out & Hn & So & ->) & ->). split; [|reflexivity].
    apply gz_name_iff in So. subst out. f_equal. f_equal.
    destruct FLATTEN as [[]|]; [apply last_component_iff in Hn|..]; now subst.
Qed.

(** where the contents of a file of the host may go *)
Definition copied (remote : list string) (dir : path) (GZIP LZMA : bool)
  (p : path) (t : R) : Prop :=
  exists c out stem, host remote = Some (c, t) /\
    stem = (let b := basename (T (last remote "")) in if LZMA then root b else b) /\
    stored_as fes_exts GZIP stem stem out /\ p = place dir out.
Definition data_of (remote : list string) (LZMA : bool) (d : D) : Prop :=
  exists c t, host remote = Some (c, t) /\
    if LZMA then exists z, c = Whole z /\ unlzma z = Whole d else c = Whole d.
Definition unpacked (remote : list string) (mode : string) (m : member D) : Prop :=
  exists d t ms, host remote = Some (Whole d, t) /\ untar mode d = Some ms /\ In m ms.

Lemma tar_acts now now' remote dir LZMA mode FLATTEN GZIP :
  acts D (download now remote dir LZMA (Some mode) FLATTEN GZIP)
         (download now' remote dir LZMA (Some mode) FLATTEN GZIP)
    (fun p d t => exists m, unpacked remote mode m /\ fes_goes dir FLATTEN GZIP m p /\
       t = m_mtime m /\ exists d0, m_data m = Whole d0 /\ d = if GZIP then gz d0 else d0)
    (fun p t => exists m, unpacked remote mode m /\ fes_goes dir FLATTEN GZIP m p /\
       t = m_mtime m).
Proof.
  unfold unpacked.
  destruct (host remote) as [[[z|z] t1]|] eqn:Eh;
    [|apply acts_fail; intros s; unfold ftp_download; rewrite Eh; cbn; eauto
     |apply acts_fail; intros s; unfold ftp_download; rewrite Eh; cbn; eauto].
  destruct (untar mode z) as [ms|] eqn:Eu;
    [|apply acts_fail; intros s; unfold ftp_download; rewrite Eh, Eu; cbn; eauto].
  eapply acts_ext with
    (f := each D (fes_member D gz now FLATTEN GZIP dir) (filter m_file ms))
    (g := each D (fes_member D gz now' FLATTEN GZIP dir) (filter m_file ms));
    [intros s; unfold ftp_download; now rewrite Eh, Eu
    |intros s; unfold ftp_download; now rewrite Eh, Eu|].
  eapply acts_weaken; [intros p d t H; exact H| |apply acts_each with
    (J := fun m p t => fes_goes dir FLATTEN GZIP m p /\ t = m_mtime m)].
  - intros p t (m & (d & t2 & ms' & E1 & E2 & Hm) & G & ->). exists m. split; [|auto].
    apply filter_In. split; [congruence|apply G].
  - intros m Hm. apply filter_In in Hm as (Hm & Hf).
    eapply acts_weaken; [| |apply fes_member_acts, Hf].
    + intros p d t (G & -> & X). exists m. split; [|auto]. exists z, t1, ms. auto.
    + auto.
Qed.

Lemma copy_acts now now' remote dir LZMA FLATTEN GZIP :
  acts D (download now remote dir LZMA None FLATTEN GZIP)
         (download now' remote dir LZMA None FLATTEN GZIP)
    (fun p d t => copied remote dir GZIP LZMA p t /\
       exists d0, data_of remote LZMA d0 /\ d = if GZIP then gz d0 else d0)
    (fun p t => copied remote dir GZIP LZMA p t).
Proof.
  unfold copied, data_of.
  destruct (host remote) as [[c t1]|] eqn:Eh;
    [|apply acts_fail; intros s; unfold ftp_download; rewrite Eh; cbn; eauto].
  destruct LZMA.
  - intros s s' E. unfold ftp_download in E |- *. rewrite Eh in E |- *. cbv zeta in E |- *.
    set (stem := root (basename (T (last remote "")))) in *.
    set (p := place dir (gz_name GZIP (suffix stem) stem)) in *.
    assert (G : forall q t, (exists c0 out stem0, Some (c, t1) = Some (c0, t) /\
        stem0 = stem /\ stored_as fes_exts GZIP stem0 stem0 out /\ q = place dir out) <->
        q = p /\ t = t1).
    { intros q t. split.
      - intros (c0 & out & st & X & -> & So & ->). apply gz_name_iff in So. subst out.
        split; [reflexivity|congruence].
      - intros (-> & ->). eexists c, _, stem. split; [reflexivity|]. split; [reflexivity|].
        split; [apply gz_name_iff; reflexivity|reflexivity]. }
    assert (Q : forall s'', current D s'' p t1 ->
      (if match fs s'' p with Some (_, t0) => newer t1 t0 | None => false end
       then (s'', None)
       else match c with
            | Whole d => fetch D gz now' GZIP p (unlzma d) t1 s''
            | Cut _ => (s'', Some OtherError)
            end) = (s'', None)).
    { intros s'' H. apply fetch_test in H. now rewrite H. }
    destruct (match fs s p with Some (_, t0) => newer t1 t0 | None => false end) eqn:B.
    + injection E as <-. apply fetch_test in B. split; [apply sound_refl|]. split.
      * intros q t H. apply G in H as (-> & ->). exact B.
      * intros s'' M. apply Q, M, B.
    + destruct c as [d|d]; [|discriminate].
      destruct (acts_fetch D gz now now' GZIP p (unlzma d) t1 s s' E) as (P & Qc & _).
      split; [|split].
      * eapply sound_weaken; [|exact P].
        intros q d1 t (-> & -> & d0 & Ed & ->). split; [now apply G|].
        exists d0. split; [|reflexivity]. exists (Whole d), t1. split; [reflexivity|]. eauto.
      * intros q t H. apply G in H. auto.
      * intros s'' M. apply Q, M, Qc. auto.
  - cbv zeta. eapply acts_weaken; [| |eapply acts_ext; [| |apply acts_fetch]].
    3, 4: intros s; unfold ftp_download; rewrite Eh; reflexivity.
    + intros p d t (-> & -> & d0 & E & ->). split.
      * eexists c, _, _. split; [reflexivity|]. split; [reflexivity|].
        split; [apply gz_name_iff; reflexivity|reflexivity].
      * exists d0. split; [|reflexivity]. eauto.
    + intros p t (c0 & out & st & E & -> & So & ->). apply gz_name_iff in So. subst out.
      split; [reflexivity|congruence].
Qed.
End FES.
