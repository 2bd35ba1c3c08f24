(** C99: after a run, the files that the database names for an Arctic model are
    where it names them. *)
From Coq Require Import String Ascii List Bool Lia.
From Verif Require Import PyBase StrBase ValueBase DatabaseData DownModel DownSpec DownLemmas ZipModel ZipSpec ZipProps.
Import ListNotations.
Open Scope string_scope.

(** a row of the database names a file *)
Definition names_file (row : list (string * val)) (file : string) : Prop :=
  In ("grid_file", VStr file) row \/ In ("model_file", VStr file) row \/
  exists k files, In ("model_file", VDict files) row /\ In (k, VStr file) files.

Definition strings (v : val) : list string := match v with VStr s => [s] | _ => [] end.
Definition files_of (row : list (string * val)) : list string :=
  flat_map (fun kv => if (fst kv =? "grid_file") then strings (snd kv)
    else if (fst kv =? "model_file") then strings (snd kv) ++
      match snd kv with VDict d => flat_map (fun x => strings (snd x)) d | _ => [] end
    else [])%list row.
Lemma files_of_in row file : names_file row file -> In file (files_of row).
Proof.
  unfold files_of. intros [H|[H|(k & fs & H & K)]]; apply in_flat_map.
  - eexists. split; [exact H|]. cbn. now left.
  - eexists. split; [exact H|]. cbn. now left.
  - eexists. split; [exact H|]. cbn. apply in_flat_map. exists (k, VStr file). split; [exact K|now left].
Qed.

Definition in_place (local file : string) : bool :=
  begins (T local ++ ["/"%char])%list (T file) &&
  (let b := skipn (S (String.length local)) (T file) in
   model_file b && forallb (fun c => negb (Ascii.eqb c "/")) b).
Definition all_in_place : bool :=
  forallb (fun m => forallb (fun row => negb (fst row =? fst (fst m)) ||
      forallb (in_place (snd m)) (files_of (snd row))) (builtin_current ++ builtin_elevation)%list)
    arctic_models.
Lemma all_in_place_true : all_in_place = true.
Proof. vm_compute. reflexivity. Qed.

Lemma last_such_exists {A} (P : A -> Prop) (dec : forall x, {P x} + {~ P x}) (l : list A) x :
  In x l -> P x -> exists y, last_such P l y.
Proof.
  induction l as [|a l IH]; [intros []|]. intros H Px.
  destruct (existsb (fun y => if dec y then true else false) l) eqn:E.
  - apply existsb_exists in E as (y & Hy & E). destruct (dec y) as [Py|]; [|discriminate].
    assert (X : exists z, last_such P l z).
    { clear -dec Hy Py. revert y Hy Py. induction l as [|b l IH]; intros y Hy Py; [destruct Hy|].
      destruct (existsb (fun y => if dec y then true else false) l) eqn:E.
      - apply existsb_exists in E as (w & Hw & E). destruct (dec w) as [Pw|]; [|discriminate].
        destruct (IH w Hw Pw) as (z & l1 & l2 & -> & Pz & N). exists z, (b :: l1), l2. auto.
      - assert (N : forall w, In w l -> ~ P w).
        { intros w Hw Pw. assert (Q : existsb (fun y => if dec y then true else false) l = true).
          { apply existsb_exists. exists w. split; [exact Hw|]. destruct (dec w); [reflexivity|contradiction]. }
          congruence. }
        destruct Hy as [->|Hy]; [|now destruct (N y Hy)]. exists y, [], l. auto. }
    destruct X as (z & l1 & l2 & -> & Pz & N). exists z, (a :: l1), l2. auto.
  - assert (N : forall w, In w l -> ~ P w).
    { intros w Hw Pw. assert (Q : existsb (fun y => if dec y then true else false) l = true).
      { apply existsb_exists. exists w. split; [exact Hw|]. destruct (dec w); [reflexivity|contradiction]. }
      congruence. }
    destruct H as [->|H]; [|now destruct (N x H)]. exists x, [], l. auto.
Qed.

Lemma tmd_suffix pre b : tmd_file b -> tmd_file (pre ++ b)%list.
Proof.
  unfold tmd_file, has. intros H.
  assert (X : forall w, (exists u v, b = (u ++ w ++ v)%list) -> exists u v, (pre ++ b)%list = (u ++ w ++ v)%list).
  { intros w (u & v & ->). exists (pre ++ u)%list, v. now rewrite app_assoc. }
  destruct H as [H|[H|[H|[H|[H|[H|H]]]]]]; apply X in H; tauto.
Qed.

(** every file that the database names for an Arctic model is in the directory
    the program uses for the model; after a run it has the contents of a file of
    the package that ends in its name, if the package has one *)
Theorem C99_database (D : Type) (package : string -> option (list (text * D)))
  (MODEL doi local : string) (row : list (string * val)) (file : string) :
  In (MODEL, doi, local) arctic_models ->
  In (MODEL, row) builtin_current \/ In (MODEL, row) builtin_elevation -> names_file row file ->
  exists name, chars file = (chars local ++ "/"%char :: name)%list /\ ~ In "/"%char name /\ tmd_file name /\
  forall DIRECTORY f f' ms, arcticdata_tides D package MODEL DIRECTORY f = (f', None) ->
    package doi = Some ms -> (exists m, In m ms /\ last_component (fst m) name) ->
    exists m, In m ms /\ last_component (fst m) name /\
      f' (DIRECTORY ++ [chars local; name])%list = Some (snd m).
Proof.
  intros Hm Hrow Hfile.
  assert (P : in_place local file = true).
  { pose proof all_in_place_true as A. unfold all_in_place in A. rewrite forallb_forall in A.
    specialize (A _ Hm). rewrite forallb_forall in A.
    assert (I : In (MODEL, row) (builtin_current ++ builtin_elevation)%list) by (apply in_or_app; tauto).
    specialize (A _ I). cbn [fst snd] in A. rewrite String.eqb_refl in A. cbn [negb orb] in A.
    rewrite forallb_forall in A. apply A. now apply files_of_in. }
  unfold in_place in P. apply andb_true_iff in P as (Pb & P). apply andb_true_iff in P as (Pm & Ps).
  apply begins_iff in Pb as (name & Pb). rewrite <- app_assoc in Pb. cbn [app] in Pb.
  assert (E : skipn (S (String.length local)) (T file) = name).
  { rewrite Pb. assert (L : List.length (T local) = String.length local).
    { clear. unfold T. induction local as [|c s IH]; [reflexivity|]. cbn in *. now rewrite IH. }
    rewrite <- L. clear. induction (T local) as [|c l IH]; [reflexivity|]. exact IH. }
  rewrite E in Pm, Ps. apply model_file_iff in Pm.
  exists name. split; [exact Pb|]. split; [|split; [exact Pm|]].
  { intros H. rewrite forallb_forall in Ps. specialize (Ps _ H). discriminate. }
  intros DIRECTORY f f' ms Hrun Hp (m0 & Hm0 & Hl0).
  destruct (C99_arctic D package MODEL DIRECTORY f f' Hrun) as (doi' & local' & ms' & Hm' & Hp' & X & _).
  assert (EQ : doi' = doi /\ local' = local).
  { apply arctic_table_iff in Hm, Hm'. rewrite Hm in Hm'. apply Ok_inj in Hm'. injection Hm' as -> ->. auto. }
  destruct EQ as (-> & ->). rewrite Hp in Hp'. injection Hp' as <-.
  set (q := (DIRECTORY ++ [chars local; name])%list) in *.
  set (at_ := fun m : text * D => tmd_file (fst m) /\
     exists b, last_component (fst m) b /\ q = (DIRECTORY ++ [chars local; b])%list) in *.
  assert (A : forall m, at_ m <-> last_component (fst m) name).
  { intros m. unfold at_. split.
    - intros (_ & b & Hb & Hq). unfold q in Hq. apply app_inv_head in Hq. injection Hq as ->. exact Hb.
    - intros H. split; [|now exists name]. destruct H as (pre & -> & _). now apply tmd_suffix. }
  assert (dec : forall m, {at_ m} + {~ at_ m}).
  { intros m. destruct (list_eq_dec ascii_dec (basename (fst m)) name) as [H|H].
    - left. apply A. now apply last_component_iff.
    - right. intros K. apply A in K. apply last_component_iff in K. congruence. }
  destruct (last_such_exists at_ dec ms m0 Hm0) as (m & Hlast); [now apply A|].
  exists m. split; [|split].
  - destruct Hlast as (l1 & l2 & -> & _). apply in_or_app. right. now left.
  - destruct Hlast as (l1 & l2 & _ & H & _). now apply A.
  - exact (X q m Hlast).
Qed.

Definition ex_row : list (string * val) := Eval vm_compute in
  match find (fun r => fst r =? "Gr1kmTM") builtin_elevation with Some r => snd r | None => [] end.
Example ex_database : In ("Gr1kmTM", "10.18739/A2B853K18", "Gr1kmTM") arctic_models /\
  exists row, In ("Gr1kmTM", row) builtin_elevation /\ names_file row "Gr1kmTM/h_Gr1kmTM_v1" /\
  snd (arcticdata_tides string ex_package "Gr1kmTM" [T "tides"] (fun _ => None)) = None /\
  last_component (T "data/h_Gr1kmTM_v1") (T "h_Gr1kmTM_v1").
Proof.
  split; [repeat (first [left; reflexivity | right])|]. exists ex_row. split.
  - apply (find_some (fun r => fst r =? "Gr1kmTM")); vm_compute; reflexivity.
  - split; [|split; [reflexivity|]].
    + right. left. repeat (first [left; reflexivity | right]).
    + now apply last_component_iff.
Qed.

Print Assumptions C99_database.
