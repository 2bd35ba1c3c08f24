(** C99: extracting the Arctic models leaves their files, and nothing else, in
    the directory of the model. *)
From Coq Require Import String Ascii List Bool Lia.
From Verif Require Import PyBase StrBase DownModel DownSpec DownLemmas ZipModel ZipSpec.
Import ListNotations.
Open Scope string_scope.

Lemma begins_iff w t : begins w t = true <-> exists v, t = (w ++ v)%list.
Proof.
  revert t. induction w as [|a w IH]; intros t.
  - split; [intros _; now exists t|reflexivity].
  - destruct t as [|b t]; cbn.
    + split; [discriminate|]. intros (v & E). discriminate.
    + rewrite andb_true_iff, Ascii.eqb_eq, IH. split.
      * intros (-> & v & ->). now exists v.
      * intros (v & E). inversion E; subst. split; [reflexivity|now exists v].
Qed.

Lemma occurs_iff w t : occurs w t = true <-> exists u v, t = (u ++ w ++ v)%list.
Proof.
  induction t as [|c t IH]; cbn [occurs]; rewrite orb_true_iff, begins_iff.
  - split.
    + intros [(v & E)|E]; [now exists [], v|discriminate].
    + intros (u & v & E). destruct u; [left; now exists v|discriminate].
  - rewrite IH. split.
    + intros [(v & E)|(u & v & ->)]; [now exists [], v|now exists (c :: u), v].
    + intros (u & v & E). destruct u as [|d u].
      * left. now exists v.
      * right. inversion E; subst. now exists u, v.
Qed.

Lemma model_file_iff name : model_file name = true <-> tmd_file name.
Proof.
  unfold model_file, tmd_file, has. rewrite existsb_exists. split.
  - intros (w & Hw & H). apply occurs_iff in H.
    destruct Hw as [<-|[<-|[<-|[<-|[<-|[<-|[<-|[]]]]]]]]; tauto.
  - intros H.
    assert (X : exists w, In w ["grid_"; "h_"; "h0_"; "UV_"; "UV0_"; "Model_"; "xy_"] /\
      exists u v, name = (u ++ list_ascii_of_string w ++ v)%list).
    { destruct H as [H|[H|[H|[H|[H|[H|H]]]]]]; (eexists; split; [|exact H]); cbn; tauto. }
    destruct X as (w & Hw & X). exists w. split; [exact Hw|]. now apply occurs_iff.
Qed.

Definition nameable (b : text) : Prop := b <> [] /\ b <> chars "." /\ b <> chars "..".
Lemma nameable_b b :
  teqb b [] || teqb b (T ".") || teqb b (T "..") = false <-> nameable b.
Proof.
  unfold nameable. rewrite !orb_false_iff.
  assert (X : forall c, teqb b c = false <-> b <> c).
  { intros c. rewrite <- teqb_true. destruct (teqb b c); split; congruence. }
  rewrite !X. tauto.
Qed.

Section ZIP.
Variable D : Type.
Lemma last_such_unique (P : text * D -> Prop) l x y :
  last_such P l x -> last_such P l y -> x = y.
Proof.
  revert x y. induction l as [|a l IH]; intros x y (l1 & l2 & E1 & P1 & N1) (l3 & l4 & E2 & P2 & N2).
  - destruct l1; discriminate.
  - destruct l1 as [|a1 l1], l3 as [|a3 l3]; cbn in E1, E2;
      injection E1 as Ea1 El1; injection E2 as Ea2 El2.
    + congruence.
    + exfalso. apply (N1 y); [|exact P2]. rewrite <- El1, El2. apply in_or_app. right. now left.
    + exfalso. apply (N2 x); [|exact P1]. rewrite <- El2, El1. apply in_or_app. right. now left.
    + apply IH; [now exists l1, l2|now exists l3, l4].
Qed.

Lemma extract_ok dir (ms : list (text * D)) f :
  snd (extract D dir ms f) = None <-> Forall (fun m => nameable (basename (fst m))) ms.
Proof.
  revert f. induction ms as [|(name, d) ms IH]; intros f; cbn [extract]; [cbn; split; auto|].
  rewrite Forall_cons_iff. cbn [fst].
  destruct (teqb (basename name) [] || _ || _) eqn:E.
  - cbn. split; [discriminate|]. intros (N & _). apply nameable_b in N. congruence.
  - apply nameable_b in E. rewrite IH. tauto.
Qed.

Lemma extract_at dir (ms : list (text * D)) f q :
  snd (extract D dir ms f) = None ->
  (exists m, last_such (fun m => q = (dir ++ [basename (fst m)])%list) ms m /\
     fst (extract D dir ms f) q = Some (snd m)) \/
  ((forall m, In m ms -> q <> (dir ++ [basename (fst m)])%list) /\
   fst (extract D dir ms f) q = f q).
Proof.
  revert f. induction ms as [|(name, d) ms IH]; intros f S; cbn [extract] in *.
  - right. split; [intros m []|reflexivity].
  - destruct (teqb (basename name) [] || _ || _); [discriminate|].
    destruct (IH _ S) as [(m & (l1 & l2 & E & P & N) & K)|(N & K)].
    + left. exists m. split; [|exact K]. exists ((name, d) :: l1), l2.
      rewrite E. auto.
    + rewrite K. unfold put. destruct (path_dec q (dir ++ [basename name])%list) as [->|H].
      * left. exists (name, d). split; [|reflexivity]. exists [], ms. auto.
      * right. split; [|reflexivity]. intros m [<-|Hm]; [exact H|auto].
Qed.
End ZIP.

Lemma arctic_table_iff MODEL doi local :
  arctic_table MODEL = Ok (doi, local) <-> In (MODEL, doi, local) arctic_models.
Proof.
  split.
  - unfold arctic_table. intros E.
    repeat match type of E with
    | context [if MODEL =? ?m then _ else _] => destruct (MODEL =? m) eqn:?
    end; try discriminate E;
    match goal with H : (MODEL =? ?m) = true |- _ => apply String.eqb_eq in H; subst end;
    apply Ok_inj in E; injection E as <- <-; repeat (first [left; reflexivity | right]).
  - intros H. destruct H as [H|[H|[H|[H|[H|[]]]]]]; injection H as <- <- <-; reflexivity.
Qed.

(** the files of the package are in the directory of the model under their last
    component, of two with one name the last; everything else is as it was *)
Theorem C99_arctic (D : Type) (package : string -> option (list (text * D)))
  (MODEL : string) (DIRECTORY : path) (f f' : path -> option D) :
  arcticdata_tides D package MODEL DIRECTORY f = (f', None) ->
  exists doi local ms, In (MODEL, doi, local) arctic_models /\
    package doi = Some ms /\
    let at_ (q : path) (m : text * D) :=
      tmd_file (fst m) /\ exists b, last_component (fst m) b /\ q = (DIRECTORY ++ [chars local; b])%list in
    (forall q m, last_such (at_ q) ms m -> f' q = Some (snd m)) /\
    (forall q, (forall m, In m ms -> ~ at_ q m) -> f' q = f q).
Proof.
  intros E. unfold arcticdata_tides in E.
  assert (X : exists doi local, arctic_table MODEL = Ok (doi, local)).
  { destruct (arctic_table MODEL) as [[doi local]|e]; [eauto|discriminate]. }
  destruct X as (doi & local & Et). pose proof (proj1 (arctic_table_iff _ _ _) Et) as Hin.
  rewrite Et in E.
  destruct (package doi) as [ms|] eqn:Ep; [|discriminate].
  exists doi, local, ms. split; [exact Hin|]. split; [exact Ep|].
  intros at_.
  set (w := filter (fun m => model_file (fst m)) ms) in *.
  set (dir := (DIRECTORY ++ [T local])%list) in *.
  assert (A : forall q m, at_ q m <-> tmd_file (fst m) /\ q = (dir ++ [basename (fst m)])%list).
  { intros q m. unfold at_, dir. rewrite <- app_assoc. cbn [app]. split.
    - intros (Ht & b & Hb & ->). apply last_component_iff in Hb. subst b. auto.
    - intros (Ht & ->). split; [exact Ht|]. exists (basename (fst m)).
      split; [now apply last_component_iff|reflexivity]. }
  assert (Hw : forall m, In m w <-> In m ms /\ tmd_file (fst m)).
  { intros m. unfold w. rewrite filter_In, model_file_iff. reflexivity. }
  assert (L : forall q m, last_such (at_ q) ms m ->
    last_such (fun m => q = (dir ++ [basename (fst m)])%list) w m).
  { intros q m (l1 & l2 & El & P & N). apply A in P as (Pt & Pq).
    exists (filter (fun m => model_file (fst m)) l1), (filter (fun m => model_file (fst m)) l2).
    split; [|split; [exact Pq|]].
    - unfold w. rewrite El, filter_app. cbn [filter].
      rewrite (proj2 (model_file_iff _) Pt). reflexivity.
    - intros y Hy Hq. apply filter_In in Hy as (Hy & Ht). apply model_file_iff in Ht.
      apply (N y Hy). apply A. auto. }
  pose proof (extract_at D dir w f) as XA. rewrite E in XA. cbn [fst snd] in XA.
  split.
  - intros q m Hm. apply L in Hm. destruct (XA q eq_refl) as [(m' & Hl & K)|(N & _)].
    + rewrite K. f_equal. f_equal. eapply last_such_unique; eauto.
    + exfalso. destruct Hm as (l1 & l2 & El & P & _). apply (N m); [|exact P].
      rewrite El. apply in_or_app. right. now left.
  - intros q Hq. destruct (XA q eq_refl) as [(m' & (l1 & l2 & El & P & _) & _)|(_ & K)]; [|exact K].
    exfalso. assert (Hm : In m' w) by (rewrite El; apply in_or_app; right; now left).
    apply Hw in Hm as (Hm & Ht). apply (Hq m' Hm). apply A. auto.
Qed.

(** a run ends without exception exactly if the model is known, its package is
    there, and the last component of every file name names a file *)
Theorem C99_arctic_ends (D : Type) (package : string -> option (list (text * D)))
  (MODEL : string) (DIRECTORY : path) (f : path -> option D) :
  snd (arcticdata_tides D package MODEL DIRECTORY f) = None <->
  exists doi local ms, In (MODEL, doi, local) arctic_models /\ package doi = Some ms /\
    forall m b, In m ms -> tmd_file (fst m) -> last_component (fst m) b ->
      b <> [] /\ b <> chars "." /\ b <> chars "..".
Proof.
  setoid_rewrite <- arctic_table_iff.
  unfold arcticdata_tides. destruct (arctic_table MODEL) as [[doi local]|e].
  - destruct (package doi) as [ms|] eqn:Ep.
    + rewrite extract_ok, Forall_forall. split.
      * intros H. exists doi, local, ms. repeat split; auto;
        apply last_component_iff in H2; subst b;
        apply (H m); apply filter_In; (split; [assumption|]); now apply model_file_iff.
      * intros (doi' & local' & ms' & E & Ep' & H) m Hm. apply Ok_inj in E. injection E as <- <-.
        rewrite Ep in Ep'. injection Ep' as <-. apply filter_In in Hm as (Hm & Ht).
        apply (H m); [exact Hm|now apply model_file_iff|now apply last_component_iff].
    + cbn. split; [discriminate|]. intros (? & ? & ? & E & Ep' & _). apply Ok_inj in E.
      injection E as <- <-. congruence.
  - cbn. split; [discriminate|]. intros (? & ? & ? & E & _). discriminate.
Qed.

(** a second run leaves what the first left *)
Theorem C99_arctic_again (D : Type) (package : string -> option (list (text * D)))
  (MODEL : string) (DIRECTORY : path) (f f' : path -> option D) :
  arcticdata_tides D package MODEL DIRECTORY f = (f', None) ->
  snd (arcticdata_tides D package MODEL DIRECTORY f') = None /\
  forall q, fst (arcticdata_tides D package MODEL DIRECTORY f') q = f' q.
Proof.
  unfold arcticdata_tides. destruct (arctic_table MODEL) as [[doi local]|e]; [|discriminate].
  destruct (package doi) as [ms|]; [|discriminate].
  generalize (filter (fun m => model_file (fst m)) ms) as w.
  generalize (DIRECTORY ++ [T local])%list as dir. intros dir w E.
  assert (S : snd (extract D dir w f') = None).
  { apply extract_ok. apply (extract_ok D dir w f). now rewrite E. }
  split; [exact S|]. intros q.
  destruct (extract_at D dir w f' q S) as [(m & L & K)|(_ & K)]; [|exact K].
  rewrite K. pose proof (extract_at D dir w f q) as X. rewrite E in X. cbn [fst snd] in X.
  destruct (X eq_refl) as [(m' & L' & K')|(N & _)].
  - rewrite K'. now rewrite (last_such_unique D _ _ _ _ L L').
  - exfalso. destruct L as (l1 & l2 & El & P & _). apply (N m); [|exact P].
    rewrite El. apply in_or_app. right. now left.
Qed.

(** directories of the package should be passed over: one whose name has a word
    of the pattern ends the run, and files after it are not extracted *)
Theorem C99_directory_refuted (D : Type) (package : string -> option (list (text * D)))
  (MODEL doi local : string) (DIRECTORY : path) (f : path -> option D)
  (name : text) (d : D) (rest : list (text * D)) :
  In (MODEL, doi, local) arctic_models -> tmd_file (name ++ ["/"%char])%list ->
  package doi = Some (((name ++ ["/"%char])%list, d) :: rest) ->
  arcticdata_tides D package MODEL DIRECTORY f = (f, Some OtherError).
Proof.
  intros Et Ht Ep. apply arctic_table_iff in Et. unfold arcticdata_tides. rewrite Et, Ep. cbn [filter fst].
  rewrite (proj2 (model_file_iff _) Ht). cbn [extract].
  assert (B : basename (name ++ ["/"%char])%list = []).
  { apply last_component_iff. exists (name ++ ["/"%char])%list. rewrite app_nil_r.
    split; [reflexivity|]. split; [right; now exists name|auto]. }
  rewrite B. reflexivity.
Qed.

(** the program for CATS2008 should download it: it changes no file *)
Theorem C99_usap_refuted (D : Type) (package : string -> option (list (text * D)))
  (MODEL : string) (DIRECTORY : path) (f : path -> option D) :
  fst (usap_cats_tides D package MODEL DIRECTORY f) = f /\
  snd (usap_cats_tides D package "CATS2008" DIRECTORY f) = None.
Proof. unfold usap_cats_tides. split; [destruct (MODEL =? "CATS2008"); reflexivity|reflexivity]. Qed.

(** * concrete cases *)
Definition ex_package (doi : string) : option (list (text * string)) :=
  if doi =? "10.18739/A2B853K18" then
    Some [(T "data/Model_Gr1kmTM", "control"); (T "data/h_Gr1kmTM_v1", "elevations");
          (T "metadata/science.xml", "xml")]
  else None.
Example ex_arctic :
  let '(f', r) := arcticdata_tides string ex_package "Gr1kmTM" [T "tides"] (fun _ => None) in
  r = None /\ f' [T "tides"; T "Gr1kmTM"; T "h_Gr1kmTM_v1"] = Some "elevations" /\
  f' [T "tides"; T "Gr1kmTM"; T "science.xml"] = None.
Proof. repeat split. Qed.
Example ex_directory :
  In ("Gr1kmTM", "10.18739/A2B853K18", "Gr1kmTM") arctic_models /\
  tmd_file (T "data/h_files" ++ ["/"%char])%list.
Proof.
  split; [do 4 right; now left|]. right; left. now exists (T "data/"), (T "files/").
Qed.
Example ex_unknown :
  snd (arcticdata_tides string ex_package "CATS2008" [] (fun _ => None)) = Some KeyError.
Proof. reflexivity. Qed.

Print Assumptions C99_arctic.
Print Assumptions C99_arctic_ends.
Print Assumptions C99_arctic_again.
Print Assumptions C99_directory_refuted.
Print Assumptions C99_usap_refuted.
